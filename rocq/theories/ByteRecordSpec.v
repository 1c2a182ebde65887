(** * Specification vocabulary for byte records and the reader *)

From Coq Require Import String.
From Verif Require Import Bytes RecordModel RecordSpec TagOccModel ByteRecordModel.

(** [Selected P l l']: [l'] consists of exactly the elements of [l] satisfying
    [P], in the same order and with the same multiplicity. *)
Inductive Selected {A} (P : A -> Prop) : list A -> list A -> Prop :=
| sel_nil : Selected P [] []
| sel_keep : forall x l l', P x -> Selected P l l' -> Selected P (x :: l) (x :: l')
| sel_drop : forall x l l', ~ P x -> Selected P l l' -> Selected P (x :: l) l'.

(** a field is matched by one of the predicates *)
Definition field_matched (preds : list (tag_matcher * occ_matcher)) (f : field) : Prop :=
  exists t o, In (t, o) preds /\ tm_is_match t (f_tag f) = true /\ om_is_match o (f_occ f) = true.

(** edit operations on a byte record *)
Inductive edit :=
| ERetain (f : list field -> field -> bool)
| EKeep (preds : list (tag_matcher * occ_matcher))
| EDiscard (preds : list (tag_matcher * occ_matcher)).

(** the operations of the code *)
Definition run_edit (r : byte_record) (e : edit) : byte_record :=
  match e with
  | ERetain f => br_retain f r
  | EKeep p => br_keep p r
  | EDiscard p => br_discard p r
  end.

(** their intended effect on the list of fields, as a relation *)
Inductive edit_effect : edit -> list field -> list field -> Prop :=
| ee_retain : forall f l l',
    (* the answer for the k-th field may depend on the fields before it *)
    (exists keep : list bool, length keep = length l
       /\ (forall k x, nth_error l k = Some x -> nth_error keep k = Some (f (firstn k l) x))
       /\ l' = map snd (filter fst (combine keep l))) ->
    edit_effect (ERetain f) l l'
| ee_keep_nil : forall l, edit_effect (EKeep []) l l
| ee_keep : forall p l l', p <> [] -> Selected (field_matched p) l l' -> edit_effect (EKeep p) l l'
| ee_discard_nil : forall l, edit_effect (EDiscard []) l l
| ee_discard : forall p l l', p <> [] -> Selected (fun f => ~ field_matched p f) l l' ->
    edit_effect (EDiscard p) l l'.

Inductive edits_effect : list edit -> list field -> list field -> Prop :=
| ees_nil : forall l, edits_effect [] l l
| ees_cons : forall e es l l' l'', edit_effect e l l' -> edits_effect es l' l'' ->
    edits_effect (e :: es) l l''.

(** the byte records a program can hold: read, converted from a record with
    valid fields, or edited *)
Inductive reachable : byte_record -> Prop :=
| reach_bytes : forall b r, br_from_bytes b = Some r -> reachable r
| reach_record : forall r, Forall valid_field r -> reachable (br_from_record r)
| reach_edit : forall r e, reachable r -> reachable (run_edit r e).

(** [Split l a b]: every element of [l] went to exactly one of [a] and [b],
    both in the original order. *)
Inductive Split {A} : list A -> list A -> list A -> Prop :=
| split_nil : Split [] [] []
| split_l : forall x l a b, Split l a b -> Split (x :: l) (x :: a) b
| split_r : forall x l a b, Split l a b -> Split (x :: l) a (x :: b).

(** the text of a possibly empty record *)
Definition contents_text (fs : list field) (b : bytes) : Prop :=
  (fs = [] /\ b = []) \/ record_text fs b.

(** Lines: chunks ending with a newline, the last one possibly without. *)
Inductive is_lines : bytes -> list bytes -> Prop :=
| lines_nil : is_lines [] []
| lines_last : forall b, b <> [] -> ~ In 10 b -> is_lines b [b]
| lines_cons : forall a b ls, ~ In 10 a -> is_lines b ls -> is_lines (a ++ 10 :: b) ((a ++ [10]) :: ls).

(** * Specification of the PICA+ record format

    Independent of the parsers and writers of [RecordModel.v]: only the data
    types are shared. *)

From Coq Require Import String.
From Verif Require Import Bytes RecordModel.

Definition digits : bytes := lit "0123456789".
Definition lowers : bytes := lit "abcdefghijklmnopqrstuvwxyz".
Definition uppers : bytes := lit "ABCDEFGHIJKLMNOPQRSTUVWXYZ".

(** A tag: level digit, two digits, an upper case letter or '@'. *)
Definition valid_tag (t : bytes) : Prop :=
  exists a b c d, t = [a; b; c; d]
    /\ In a (lit "012") /\ In b digits /\ In c digits /\ In d (uppers ++ lit "@").

(** An occurrence: two or three digits. *)
Definition valid_occ (o : bytes) : Prop :=
  (length o = 2%nat \/ length o = 3%nat) /\ Forall (fun c => In c digits) o.

Definition valid_code (c : byte) : Prop := In c (digits ++ lowers ++ uppers).

(** A subfield value: anything without the two separators. *)
Definition valid_value (v : bytes) : Prop := ~ In 31 v /\ ~ In 30 v.

Definition valid_subfield (s : subfield) : Prop :=
  valid_code (sf_code s) /\ valid_value (sf_value s).

Definition valid_field (f : field) : Prop :=
  valid_tag (f_tag f)
  /\ (forall o, f_occ f = Some o -> valid_occ o)
  /\ Forall valid_subfield (f_subfields f).

(** The grammar, as a relation between a structure and its text. *)
Inductive subfields_text : list subfield -> bytes -> Prop :=
| sfs_nil : subfields_text [] []
| sfs_cons : forall c v l b,
    valid_code c -> valid_value v -> subfields_text l b ->
    subfields_text (mkSubfield c v :: l) (31 :: c :: v ++ b).

Inductive occ_text : option bytes -> bytes -> Prop :=
| occ_none : occ_text None []
| occ_some : forall o, valid_occ o -> occ_text (Some o) (47 :: o).

Inductive field_text : field -> bytes -> Prop :=
| field_intro : forall t o bo l bl,
    valid_tag t -> occ_text o bo -> subfields_text l bl ->
    field_text (mkField t o l) (t ++ bo ++ 32 :: bl ++ [30]).

Inductive fields_text : list field -> bytes -> Prop :=
| fields_one : forall f b, field_text f b -> fields_text [f] b
| fields_cons : forall f b fs bs,
    field_text f b -> fields_text fs bs -> fields_text (f :: fs) (b ++ bs).

(** One or more fields, one newline, nothing else. *)
Definition record_text (r : record) (b : bytes) : Prop :=
  exists body, fields_text r body /\ b = body ++ [10].

(** no subfield value contains a newline *)
Definition lf_free (r : record) : Prop :=
  forall f s, In f r -> In s (f_subfields f) -> ~ In 10 (sf_value s).

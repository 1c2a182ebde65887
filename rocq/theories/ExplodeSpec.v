(** * Specification of explode *)

From Coq Require Import String.
From Verif Require Import Bytes RecordModel RecordSpec TagOccModel ByteRecordModel ByteRecordSpec MatcherModel
  ReaderModel CliModel CliSpec ExplodeModel.

(** the level is the first digit of the tag *)
Definition at_level (l : level) (f : field) : Prop :=
  exists t, f_tag f = (match l with LMain => 48 | LLocal => 49 | LCopy => 50 end) :: t.

(** ** Records of the usual order

    Main fields, then the libraries; a library is its local fields and its copy
    fields.  Where a library begins can be told from the levels if it has local
    fields and the library before it has copies. *)
Definition libraries (main : list field) (libs : list (list field * list field)) (fields : list field) : Prop :=
  fields = main ++ concat (map (fun l => fst l ++ snd l) libs)
  /\ Forall (at_level LMain) main
  /\ Forall (fun l => Forall (at_level LLocal) (fst l) /\ Forall (at_level LCopy) (snd l) /\ fst l ++ snd l <> []) libs
  /\ (forall pre a b post, libs = pre ++ a :: b :: post -> snd a <> [] /\ fst b <> []).

(** a copy: the maximal runs of copy fields with the same occurrence *)
Definition copies_of (fs : list field) (groups : list (list field)) : Prop :=
  concat groups = fs
  /\ Forall (fun g => exists f g' o, g = f :: g' /\ Forall (fun x => f_occ x = o) g) groups
  /\ (forall pre a b post x y, groups = pre ++ a :: b :: post -> In x a -> In y b -> f_occ x <> f_occ y).

(** the parts of a record of the usual order *)
Definition usual_parts (l : level) (main : list field) (libs : list (list field * list field))
    (parts : list (list field)) : Prop :=
  match l with
  | LMain => parts = [main ++ concat (map (fun l => fst l ++ snd l) libs)]
  | LLocal => parts = map (fun l => main ++ fst l ++ snd l) libs
  | LCopy => exists groups, Forall2 (fun l gs => copies_of (snd l) gs) libs groups
      /\ parts = concat (map (fun lg => map (fun g => main ++ fst (fst lg) ++ g) (snd lg)) (combine libs groups))
  end.

(** ** Records in any order *)

(** Segments end after a copy field followed by a local field. *)
Definition unbroken (s : list field) : Prop :=
  forall a x y b, s = a ++ x :: y :: b -> at_level LCopy x -> ~ at_level LLocal y.
Definition segments (fields : list field) (segs : list (list field)) : Prop :=
  concat segs = fields /\ Forall (fun s => unbroken s) segs
  /\ (forall pre a b post, segs = pre ++ a :: b :: post ->
        (exists a' x, a = a' ++ [x] /\ at_level LCopy x) /\ (exists y b', b = y :: b' /\ at_level LLocal y)).

(** the fields of a level *)
Definition of_level (l : level) (fs out : list field) : Prop := Selected (at_level l) fs out.

(** A part per segment with other than main fields: the main fields so far and
    the other fields of the segment. *)
Inductive local_parts (before : list field) : list (list field) -> list (list field) -> Prop :=
| lp_nil : local_parts before [] []
| lp_part : forall seg segs ms os parts,
    of_level LMain (before ++ seg) ms -> Selected (fun f => ~ at_level LMain f) seg os -> os <> [] ->
    local_parts (before ++ seg) segs parts -> local_parts before (seg :: segs) ((ms ++ os) :: parts)
| lp_skip : forall seg segs parts,
    Forall (at_level LMain) seg ->
    local_parts (before ++ seg) segs parts -> local_parts before (seg :: segs) parts.

(** A segment is cut into pieces where the occurrence of the copy fields
    changes. *)
Definition pieces (seg : list field) (ps : list (list field)) : Prop :=
  concat ps = seg
  /\ (forall p x y, In p ps -> In x p -> In y p -> at_level LCopy x -> at_level LCopy y -> f_occ x = f_occ y)
  /\ (forall pre p q post, ps = pre ++ p :: q :: post ->
        exists x y q', In x p /\ at_level LCopy x /\ q = y :: q' /\ at_level LCopy y /\ f_occ x <> f_occ y).

(** A part per piece with copy fields: the main fields so far, the local fields
    of the segment so far, the copy fields of the piece. *)
Inductive piece_parts (before start : list field) : list (list field) -> list (list field) -> Prop :=
| pp_nil : piece_parts before start [] []
| pp_part : forall p ps ms ls cs parts,
    of_level LMain (before ++ start ++ p) ms -> of_level LLocal (start ++ p) ls -> of_level LCopy p cs -> cs <> [] ->
    piece_parts before (start ++ p) ps parts -> piece_parts before start (p :: ps) ((ms ++ ls ++ cs) :: parts)
| pp_skip : forall p ps parts, of_level LCopy p [] ->
    piece_parts before (start ++ p) ps parts -> piece_parts before start (p :: ps) parts.
Inductive copy_parts (before : list field) : list (list field) -> list (list field) -> Prop :=
| cp_nil : copy_parts before [] []
| cp_seg : forall seg segs ps parts more,
    pieces seg ps -> piece_parts before [] ps parts -> copy_parts (before ++ seg) segs more ->
    copy_parts before (seg :: segs) (parts ++ more).

(** the parts of a record *)
Definition exploded (l : level) (fields : list field) (parts : list (list field)) : Prop :=
  (match l with
   | LMain => parts = [fields]
   | LLocal => exists segs, segments fields segs /\ local_parts [] segs parts
   | LCopy => exists segs, segments fields segs /\ copy_parts [] segs parts
   end)
  /\ (forall main libs, libraries main libs fields -> usual_parts l main libs parts).

(** ** Runs *)

(** the text of a part: keep, then discard *)
Definition part_text (c : explode_cmd) (part : list field) (t : bytes) : Prop :=
  exists fs, edits_effect [EKeep (ex_keep c); EDiscard (ex_discard c)] part fs /\ contents_text fs t.

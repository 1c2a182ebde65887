(** * Specification of the matcher builder *)

From Verif Require Import Bytes RecordModel MatcherModel StateParser MatcherParserModel BuilderModel.

(** the text is accepted, and read as the given matcher (in some state of the
    parser's thread) *)
Definition reads_as (O : oracles) (e : bytes) (m : field_matcher) : Prop :=
  exists s s', field_matcher_new O s e = (Some (Some m), s').

(** the expressions of a chain of calls, in call order *)
Inductive kind := KAnd | KOr | KNot.
Definition call_items (c : builder_call) : list (kind * bytes) :=
  match c with
  | CallAnd l => map (pair KAnd) l
  | CallOr l => map (pair KOr) l
  | CallNot l => map (pair KNot) l
  end.

(** the boolean combination: [x] so far, [y] the next expression *)
Definition combine_bool (x : bool) (ky : kind * bool) : bool :=
  match fst ky with
  | KAnd => x && snd ky
  | KOr => x || snd ky
  | KNot => x && negb (snd ky)
  end.

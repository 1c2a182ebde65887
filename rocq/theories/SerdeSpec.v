(** * Specification of what a serialisation format hands back *)

From Coq Require Import Permutation.
From Verif Require Import Bytes SerdeModel.

Section Handed.
  (** what byte strings and what sequences of numbers come back as *)
  Variable text_as nums_as : bytes -> sdv -> Prop.

  (** [handed v w]: a value serialised as [v] comes back as [w].  A character
      may come back as a string, a present option and a newtype as the value in
      it; a struct as a sequence, or as a map in any order, with further keys,
      and without the keys of absent options. *)
  Inductive handed : sdv -> sdv -> Prop :=
  | h_char : forall c, handed (SdChar c) (SdChar c)
  | h_char_str : forall c l, c < 128 -> handed (SdChar c) (SdStr l [c])
  | h_bytes : forall l b w, text_as b w -> handed (SdBytes l b) w
  | h_u8s : forall b w, nums_as b w -> handed (SdU8s b) w
  | h_none : handed SdNone SdNone
  | h_some : forall v w, handed v w -> handed (SdSome v) (SdSome w)
  | h_some_bare : forall v w, handed v w -> w <> SdNone -> (forall x, w <> SdSome x) ->
      handed (SdSome v) w
  | h_newtype : forall v w, handed v w -> handed (SdNewtype v) (SdNewtype w)
  | h_newtype_bare : forall v w, handed v w -> (forall x, w <> SdNewtype x) ->
      handed (SdNewtype v) w
  | h_seq : forall l l', Forall2 handed l l' -> handed (SdSeq l) (SdSeq l')
  | h_map : forall l kept dropped m extra l',
      Permutation l (kept ++ dropped) -> Forall (fun kv => snd kv = SdNone) dropped ->
      Forall2 (fun a b => fst a = fst b /\ handed (snd a) (snd b)) kept m ->
      Permutation l' (m ++ extra) -> (forall kv, In kv extra -> ~ In (fst kv) (map fst l)) ->
      handed (SdMap l) (SdMap l')
  | h_map_seq : forall l l', Forall2 (fun a b => handed (snd a) b) l l' -> handed (SdMap l) (SdSeq l').
End Handed.

(** a sequence of numbers *)
Definition as_numbers (b : bytes) (w : sdv) : Prop :=
  Forall (fun c => c < 256) b /\ (w = SdU8s b \/ w = SdSeq (map SdNum b)).
(** bytes or a string that the input lends, as compact formats do *)
Definition as_lent (b : bytes) (w : sdv) : Prop := w = SdBytes true b \/ w = SdStr true b.
(** any of the two, or bytes or a string that are not lent *)
Definition as_any (b : bytes) (w : sdv) : Prop :=
  as_numbers b w \/ exists l, w = SdBytes l b \/ w = SdStr l b.

(** * Specification of the texts of JEL and ISO 639 codes *)

From Coq Require Import String.
From Verif Require Import Bytes.

Definition capitals : bytes := lit "ABCDEFGHIJKLMNOPQRSTUVWXYZ".
Definition smalls : bytes := lit "abcdefghijklmnopqrstuvwxyz".
Definition figures : bytes := lit "0123456789".

(** a JEL category: a capital and a figure *)
Definition jel_category (v : bytes) : Prop :=
  exists a b, v = [a; b] /\ In a capitals /\ In b figures.
(** a JEL code: a category and a figure *)
Definition jel_full (v : bytes) : Prop :=
  exists c d, v = c ++ [d] /\ jel_category c /\ In d figures.
(** an ISO 639-2 code: three small letters *)
Definition iso639_text (v : bytes) : Prop :=
  exists a b c, v = [a; b; c] /\ In a smalls /\ In b smalls /\ In c smalls.

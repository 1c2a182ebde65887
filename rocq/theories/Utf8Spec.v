(** * Specification of UTF-8: encodings of sequences of scalar values *)

From Verif Require Import Bytes.

(** Unicode scalar values *)
Definition is_scalar (c : N) : Prop := c < 55296 \/ (57344 <= c /\ c < 1114112).

(** The encoding of one scalar value (RFC 3629) *)
Definition utf8_encode_char (c : N) : bytes :=
  if c <? 128 then [c]
  else if c <? 2048 then [192 + c / 64; 128 + c mod 64]
  else if c <? 65536 then [224 + c / 4096; 128 + (c / 64) mod 64; 128 + c mod 64]
  else [240 + c / 262144; 128 + (c / 4096) mod 64; 128 + (c / 64) mod 64; 128 + c mod 64].

Definition utf8_encode (l : list N) : bytes := flat_map utf8_encode_char l.

Definition is_utf8 (b : bytes) : Prop :=
  exists l, Forall is_scalar l /\ b = utf8_encode l.

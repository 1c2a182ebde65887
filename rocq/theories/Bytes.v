(** * Bytes, byte strings, character classes

    Shared vocabulary of the model.  A Rust [u8] is modelled by a number of
    type [N] (no upper bound is imposed), [&[u8]], [BStr], [BString], [String]
    and [&str] by lists of such numbers. *)

From Coq Require Export List NArith Bool Arith Lia.
From Coq Require Import String Ascii.
Export ListNotations.
Open Scope N_scope.
Open Scope list_scope.
Open Scope bool_scope.

Notation byte := N (only parsing).
Notation bytes := (list N) (only parsing).

(** Literals: [lit "abc"] is the byte string b"abc" of the Rust sources. *)
Fixpoint lit (s : string) : bytes :=
  match s with
  | EmptyString => []
  | String c s' => N_of_ascii c :: lit s'
  end.

(** Equality of byte strings ([==] on slices / [BStr]). *)
Fixpoint bytes_eqb (a b : bytes) : bool :=
  match a, b with
  | [], [] => true
  | x :: a', y :: b' => (x =? y) && bytes_eqb a' b'
  | _, _ => false
  end.

(** [slice.contains(&x)] for bytes. *)
Definition mem_byte (x : byte) (l : list byte) : bool := existsb (N.eqb x) l.

(** [u8::is_ascii_digit] *)
Definition is_digit (c : byte) : bool := (48 <=? c) && (c <=? 57).
(** [u8::is_ascii_lowercase] *)
Definition is_lower (c : byte) : bool := (97 <=? c) && (c <=? 122).
(** [u8::is_ascii_uppercase] *)
Definition is_upper (c : byte) : bool := (65 <=? c) && (c <=? 90).
(** [u8::is_ascii_alphanumeric] *)
Definition is_alnum (c : byte) : bool := is_digit c || is_lower c || is_upper c.
(** winnow's [multispace0]/[multispace1] skip these bytes *)
Definition is_mspace (c : byte) : bool :=
  (c =? 32) || (c =? 9) || (c =? 13) || (c =? 10).

(** The control bytes that structure a PICA+ record. *)
Definition US : byte := 31. (* 0x1f, starts a subfield *)
Definition RS : byte := 30. (* 0x1e, ends a field *)
Definition GS : byte := 29. (* 0x1d, ends a record in binary PICA *)
Definition LF : byte := 10. (* '\n' *)
Definition SP : byte := 32. (* ' ' *)
Definition SLASH : byte := 47. (* '/' *)

(** Lexicographic order of byte strings ([Ord] for slices). *)
Fixpoint bytes_cmp (a b : bytes) : comparison :=
  match a, b with
  | [], [] => Eq
  | [], _ :: _ => Lt
  | _ :: _, [] => Gt
  | x :: a', y :: b' =>
      match x ?= y with
      | Eq => bytes_cmp a' b'
      | c => c
      end
  end.

Definition bytes_leb (a b : bytes) : bool :=
  match bytes_cmp a b with Gt => false | _ => true end.
Definition bytes_ltb (a b : bytes) : bool :=
  match bytes_cmp a b with Lt => true | _ => false end.

(** [slice::starts_with] *)
Fixpoint starts_with (s p : bytes) : bool :=
  match p, s with
  | [], _ => true
  | y :: p', x :: s' => (x =? y) && starts_with s' p'
  | _ :: _, [] => false
  end.

(** [slice::ends_with] *)
Definition ends_with (s p : bytes) : bool := starts_with (rev s) (rev p).

(** [[T]::join(sep)] / [bstr::join] *)
Fixpoint join (sep : bytes) (l : list bytes) : bytes :=
  match l with
  | [] => []
  | [x] => x
  | x :: l' => x ++ sep ++ join sep l'
  end.

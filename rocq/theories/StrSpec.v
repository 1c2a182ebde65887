(** * Specification of quoted strings *)

From Coq Require Import String.
From Verif Require Import Bytes Utf8Spec.

(** escape sequences: the byte after the backslash and the byte it denotes *)
Definition escape_of (q : byte) (d c : byte) : Prop :=
  In (d, c) [(110, 10); (114, 13); (116, 9); (98, 8); (102, 12); (92, 92); (47, 47); (q, q)].

Definition blank (c : byte) : Prop := In c [32; 9; 13; 10].

(** [quoted q w t]: between two quotes [q], the text [w] denotes [t].  A
    backslash followed by blanks is a line continuation and denotes nothing. *)
Inductive quoted (q : byte) : bytes -> bytes -> Prop :=
| quoted_nil : quoted q [] []
| quoted_plain : forall c w t, c <> q -> c <> 92 -> quoted q w t -> quoted q (c :: w) (c :: t)
| quoted_escape : forall d c w t, escape_of q d c -> quoted q w t ->
    quoted q (92 :: d :: w) (c :: t)
| quoted_continue : forall sp w t, sp <> [] -> Forall blank sp ->
    (forall c w', w = c :: w' -> ~ blank c) -> quoted q w t ->
    quoted q (92 :: sp ++ w) t.

(** one way to quote a text: escape the quote and the backslash *)
Definition quote (q : byte) (t : bytes) : bytes :=
  q :: flat_map (fun c => if (c =? q) || (c =? 92) then [92; c] else [c]) t ++ [q].

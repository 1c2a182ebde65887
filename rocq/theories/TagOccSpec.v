(** * Specification of tag and occurrence matchers

    The language of matcher texts, each text paired with the set it denotes. *)

From Coq Require Import String.
From Verif Require Import Bytes RecordSpec.

(** One item of a bracket list: a byte or a range of bytes. *)
Inductive item_text (allowed : bytes) : bytes -> (byte -> Prop) -> Prop :=
| item_single : forall c, In c allowed -> item_text allowed [c] (fun x => x = c)
| item_range : forall a b, In a allowed -> In b allowed -> a < b ->
    item_text allowed (a :: lit "-" ++ [b]) (fun x => a <= x /\ x <= b).

Inductive items_text (allowed : bytes) : bytes -> (byte -> Prop) -> Prop :=
| items_one : forall t P, item_text allowed t P -> items_text allowed t P
| items_more : forall t P ts Q, item_text allowed t P -> items_text allowed ts Q ->
    items_text allowed (t ++ ts) (fun x => P x \/ Q x).

(** One position of a tag pattern *)
Inductive pos_text (allowed : bytes) : bytes -> (byte -> Prop) -> Prop :=
| pos_lit : forall c, In c allowed -> pos_text allowed [c] (fun x => x = c)
| pos_dot : pos_text allowed (lit ".") (fun x => In x allowed)
| pos_list : forall t P, items_text allowed t P ->
    pos_text allowed (lit "[" ++ t ++ lit "]") P.

(** A tag matcher text and the set of tags it denotes *)
Inductive tag_matcher_text : bytes -> (bytes -> Prop) -> Prop :=
| tmt_intro : forall t0 t1 t2 t3 P0 P1 P2 P3,
    pos_text (lit "012") t0 P0 ->
    pos_text digits t1 P1 ->
    pos_text digits t2 P2 ->
    pos_text (uppers ++ lit "@") t3 P3 ->
    tag_matcher_text (t0 ++ t1 ++ t2 ++ t3)
      (fun tag => exists a b c d, tag = [a; b; c; d] /\ P0 a /\ P1 b /\ P2 c /\ P3 d).

(** Dictionary order of byte strings *)
Definition lex_le (a b : bytes) : Prop :=
  (exists s, b = a ++ s)
  \/ (exists p x y a' b', a = p ++ x :: a' /\ b = p ++ y :: b' /\ x < y).

(** The number written by a string of digits *)
Definition number (b : bytes) : N := fold_left (fun acc c => 10 * acc + (c - 48)) b 0.

(** An occurrence matcher text and the set of occurrences it denotes; [None]
    stands for a field without occurrence. *)
Inductive occ_matcher_text : bytes -> (option bytes -> Prop) -> Prop :=
| omt_empty : occ_matcher_text [] (fun o => o = None \/ o = Some (lit "00"))
| omt_zero : occ_matcher_text (lit "/00") (fun o => o = None \/ o = Some (lit "00"))
| omt_any : occ_matcher_text (lit "/*") (fun _ => True)
| omt_exact : forall x, valid_occ x -> x <> lit "00" ->
    occ_matcher_text (lit "/" ++ x) (fun o => o = Some x)
| omt_range : forall x y, valid_occ x -> valid_occ y -> length x = length y ->
    number x < number y ->
    occ_matcher_text (lit "/" ++ x ++ lit "-" ++ y)
      (fun o => exists z, o = Some z /\ lex_le x z /\ lex_le z y).

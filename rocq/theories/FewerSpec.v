(** * Specification of rows that are left out *)

From Verif Require Import Bytes.

(** a row without an empty cell *)
Definition full (r : list bytes) : bool := negb (existsb (fun c => match c with [] => true | _ => false end) r).

(** [l] is [m] with some elements left out *)
Inductive sublist {A} : list A -> list A -> Prop :=
| sub_nil : sublist [] []
| sub_take : forall x l m, sublist l m -> sublist (x :: l) (x :: m)
| sub_skip : forall x l m, sublist l m -> sublist l (x :: m).

(** * Specification of the chances of being sampled *)

From Verif Require Import Bytes.

(** all sequences of [k] numbers, the first below [n], the second below [n + 1]
    and so on: the possible results of [random_range(0..n)],
    [random_range(0..n + 1)], ..., all equally likely *)
Fixpoint all_draws (n k : nat) : list (list nat) :=
  match k with
  | O => [[]]
  | S k' => flat_map (fun d => map (cons d) (all_draws (S n) k')) (seq 0 n)
  end.

(** the number drawn when [count] records have been read, if the first is drawn
    after [size] records *)
Definition draw_of (size : nat) (v : list nat) (count : N) : N :=
  N.of_nat (nth (N.to_nat count - size) v 0%nat).

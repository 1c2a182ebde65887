(** * Specification of inputs dealt out to two runs *)

From Coq Require Import String.
From Verif Require Import Bytes CliModel DiskModel MainModel OptionsModel.

(** "pica filter [-v] W" with the other options [o] *)
Definition sifted (o : file_opts) (W : bytes) (invert : bool) (names : list bytes) : command :=
  KFilter o (mkFilterOnly W None invert None None) false false None None names.

(** one line *)
Definition a_line (l : bytes) : Prop := exists x, ~ In 10 x /\ l = x ++ [10].

(** The lines of the third text, each given to one of the first two. *)
Inductive dealt : bytes -> bytes -> bytes -> Prop :=
| dealt_none : dealt [] [] []
| dealt_left : forall l a b c, a_line l -> dealt a b c -> dealt (l ++ a) b (l ++ c)
| dealt_right : forall l a b c, a_line l -> dealt a b c -> dealt a (l ++ b) (l ++ c).

(** --start and --end of the slices that cut the records at these numbers, from the record with this number on; 0 is no end *)
Fixpoint cut_at (start : N) (cuts : list N) : list (N * N) :=
  match cuts with
  | [] => [(start, 0)]
  | b :: cuts' => (start, b) :: cut_at b cuts'
  end.

(** numbers from this one on, in order *)
Fixpoint in_order (start : N) (cuts : list N) : Prop :=
  match cuts with
  | [] => True
  | b :: cuts' => start <= b /\ 0 < b /\ b <= usize_max /\ in_order b cuts'
  end.

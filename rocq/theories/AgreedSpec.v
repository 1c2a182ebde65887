(** * Specification of commands that choose the records which filter chooses *)

From Verif Require Import Bytes CliModel DiskModel MainModel ExplodeModel OptionsModel.

(** how often a byte stands in a text *)
Definition bytes_in (b : byte) (t : bytes) : N := N.of_nat (count_occ N.eq_dec t b).

(** "pica explode main", "pica slice" and "pica count" with the options [o] and nothing else *)
Definition exploded_main (o : file_opts) (names : list bytes) : command := KExplode o None None LMain false None names.
Definition sliced (o : file_opts) (names : list bytes) : command := KSlice o false false None 0 0 0 names.
Definition counted (o : file_opts) (m : count_mode) (names : list bytes) : command := KCount o false None m names.

(** "pica sample" with the options [o]; [draw] are the random numbers *)
Definition sampled (o : file_opts) (draw : N -> N) (size : N) (names : list bytes) : command := KSample o false None draw size names.

(** The second text consists of [n] lines of the first, or all if there are fewer, none of them taken twice. *)
Definition lines_drawn (n : N) (t t' : bytes) : Prop := exists ls us, t = concat ls /\ t' = concat us
  /\ Forall (fun l => exists x, ~ In 10 x /\ l = x ++ [10]) ls
  /\ N.of_nat (length us) = N.min n (N.of_nat (length ls))
  /\ exists places : list nat, NoDup places /\ Forall2 (fun i u => nth_error ls i = Some u) places us.

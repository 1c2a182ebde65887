(** * Specification of concat in parts *)

From Coq Require Import String.
From Verif Require Import Bytes CliModel DiskModel MainModel.

(** "pica concat [--unique ..]" from these inputs to stdout *)
Definition concat_part (skip : bool) (unique : option strategy) (names : list bytes) : command :=
  KConcat skip false None None unique names.

(** the run of this command comes to its end and writes this to stdout *)
Definition run_writes (e : env) (cfg : option bytes) (w : world) (k : command) (t : bytes) : Prop :=
  exists w1, run e (mkInvocation cfg k) w = Some (CEnded 0, w1) /\ w_stdout w1 = w_stdout w ++ t.

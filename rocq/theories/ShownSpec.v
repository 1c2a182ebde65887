(** * Specification of what print shows *)

From Verif Require Import Bytes CliModel DiskModel MainModel OptionsModel.

(** "pica print" without --translit and without conditions *)
Definition printed (skip : bool) (names : list bytes) : command :=
  KPrint (mkFileOpts skip 0 false 0 [] [] None None None [] [] []) None None names.

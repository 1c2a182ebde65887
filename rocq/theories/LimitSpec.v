(** * Specification of the commands that stop early, after each other *)

From Coq Require Import String.
From Verif Require Import Bytes MatcherModel CliModel DiskModel MainModel OptionsModel.

(** "pica filter [-v] W .. --limit N" with the other options [o], but without --keep, --discard and --tee *)
Definition filter_limited (o : file_opts) (invert : bool) (W : bytes) (limit : N) (append gzip : bool) (output : option bytes)
    (names : list bytes) : command :=
  KFilter (mkFileOpts (o_skip o) limit (o_ci o) (o_threshold o) (o_allow o) (o_deny o) (o_column o) (o_source o) None (o_and o) (o_or o) (o_not o))
    (mkFilterOnly W None invert None None) append gzip output None names.

(** "pica slice" without options that choose records *)
Definition slice_of (skip : bool) (gzip append : bool) (output : option bytes) (start end_ length : N) (names : list bytes) : command :=
  KSlice (mkFileOpts skip 0 false 0 [] [] None None None [] [] []) gzip append output start end_ length names.

(** --end of two slices after each other; 0 is none *)
Definition end_after (start end1 end2 : N) : N :=
  if end2 =? 0 then end1 else if end1 =? 0 then start + end2 else N.min end1 (start + end2).

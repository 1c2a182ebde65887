(** * Specification of two runs of filter after each other *)

From Coq Require Import String.
From Verif Require Import Bytes MatcherModel CliModel DiskModel MainModel MainSpec OptionsModel PrepareSpec FrontSpec.

(** "pica filter [-v] A --and .. --or .. --not .." with all of the options [o] but its own conditions *)
Definition filter_whole (o : file_opts) (invert : bool) (A : bytes) (ands ors nots : list bytes) (keep discard : option bytes)
    (append gzip : bool) (output tee : option bytes) (names : list bytes) : command :=
  KFilter (mkFileOpts (o_skip o) (o_limit o) (o_ci o) (o_threshold o) (o_allow o) (o_deny o) (o_column o) (o_source o) None ands ors nots)
    (mkFilterOnly A None invert keep discard) append gzip output tee names.

(** "pica filter [-v] A" with the lists, from these inputs to stdout *)
Definition filter_before (o : file_opts) (invert : bool) (A : bytes) (names : list bytes) : command :=
  KFilter (mkFileOpts (o_skip o) 0 (o_ci o) (o_threshold o) (o_allow o) (o_deny o) (o_column o) (o_source o) None [] [] [])
    (mkFilterOnly A None invert None None) false false None None names.

(** "pica filter [-v] B --and .. --or .. --not .." without the lists, from stdin *)
Definition filter_behind (o : file_opts) (invert : bool) (B : bytes) (ands ors nots : list bytes) (keep discard : option bytes)
    (append gzip : bool) (output tee : option bytes) : command :=
  KFilter (mkFileOpts (o_skip o) (o_limit o) (o_ci o) (o_threshold o) [] [] None None None ands ors nots)
    (mkFilterOnly B None invert keep discard) append gzip output tee [lit "-"].

(** the first expression leaves the nesting levels of the parsers as they were, so that the second is
    read in the same thread as in a thread of its own *)
Definition leaves_levels (e : env) (o : file_opts) (A : bytes) : Prop :=
  (o_source o = None \/ exists V, source_values (default_oracles e) true (o_source o) V)
  /\ forall nf, balanced (oracles_for e o) (translit e nf A).

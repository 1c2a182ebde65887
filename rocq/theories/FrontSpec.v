(** * Specification of one command in front of another *)

From Coq Require Import String.
From Verif Require Import Bytes MatcherModel CliModel DiskModel MainModel DiskSpec MainSpec OptionsModel PipeSpec PrepareSpec.
From Verif Require RunSpec.

(** the options without those that choose records *)
Definition bare (o : file_opts) : file_opts :=
  mkFileOpts (o_skip o) (o_limit o) (o_ci o) (o_threshold o) [] [] None None None [] [] [].

(** the command with other options *)
Definition with_opts (o : file_opts) (k : command) : command :=
  match k with
  | KCheck _ rules filter tags output names => KCheck o rules filter tags output names
  | KCount _ append output mode names => KCount o append output mode names
  | KDescribe _ discard keep csv tsv output names => KDescribe o discard keep csv tsv output names
  | KExplode _ discard keep l gzip output names => KExplode o discard keep l gzip output names
  | KFilter _ f append gzip output tee names => KFilter o f append gzip output tee names
  | KFrequency _ q unique num threshold reverse nf tsv output names =>
      KFrequency o q unique num threshold reverse nf tsv output names
  | KHash _ output tsv header names => KHash o output tsv header names
  | KPartition _ p gzip outdir template names => KPartition o p gzip outdir template names
  | KPrint _ nf output names => KPrint o nf output names
  | KSample _ gzip output draw size names => KSample o gzip output draw size names
  | KSelect _ q unique no_empty nf quote tsv append output names => KSelect o q unique no_empty nf quote tsv append output names
  | KSlice _ gzip append output start end_ length names => KSlice o gzip append output start end_ length names
  | KSplit _ gzip outdir template size names => KSplit o gzip outdir template size names
  | KConcat _ _ _ _ _ _ | KConfig _ | KConvert _ _ _ _ _ | KInvalid _ _ => k
  end.

(** "pica filter W" with the options that choose records, from these inputs to stdout *)
Definition filter_of (o : file_opts) (W : bytes) (names : list bytes) : command :=
  KFilter (mkFileOpts (o_skip o) 0 (o_ci o) (o_threshold o) (o_allow o) (o_deny o) (o_column o) (o_source o) None (o_and o) (o_or o) (o_not o))
    (mkFilterOnly W None false None None) false false None None names.

(** "pica concat" from these inputs to stdout *)
Definition concat_of (skip : bool) (names : list bytes) : command := KConcat skip false None None None names.

(** the command without the options that choose records, from stdin *)
Definition after_filter (k : command) : command :=
  match opts_of k with
  | Some o => with_opts (bare o) (with_inputs [lit "-"] k)
  | None => with_inputs [lit "-"] k
  end.

(** --skip-invalid of a command *)
Definition skip_flag (k : command) : bool :=
  match k with
  | KConcat skip _ _ _ _ _ | KConvert skip _ _ _ _ => skip
  | _ => match opts_of k with Some o => o_skip o | None => false end
  end.

(** Slice with --length writes one record more for each line that it has skipped, see C35, so it must not skip. *)
Definition counts_records (e : env) (cfg : option bytes) (w : world) (k : command) : Prop :=
  forall o gzip append output start end_ length names, k = KSlice o gzip append output start end_ length names ->
  length = 0 \/ (o_skip o = false /\ forall c, RunSpec.settings e (mkInvocation cfg k) w c -> cf_skip_invalid c = false).

(** Texts that do not change the nesting level of the parsers: without an opening
    parenthesis, or an expression nested less than 256 times *)
Definition balanced (O : oracles) (t : bytes) : Prop := ~ In 40 t \/ exists P, expression O true t P.

(** Check, frequency and select parse more after the conditions, in the same thread;
    the conditions leave the nesting levels as they were. *)
Definition levelled (e : env) (k : command) : Prop :=
  match k with
  | KCheck o _ _ _ _ _ | KFrequency o _ _ _ _ _ _ _ _ _ | KSelect o _ _ _ _ _ _ _ _ _ =>
      (o_source o = None \/ exists V, source_values (default_oracles e) true (o_source o) V)
      /\ forall nf t, o_where o = Some t \/ In t (o_and o ++ o_or o ++ o_not o) -> balanced (oracles_for e o) (translit e nf t)
  | _ => True
  end.

(** "pica explode" without options, from these inputs to stdout *)
Definition explode_of (o : file_opts) (l : ExplodeModel.level) (names : list bytes) : command :=
  KExplode (mkFileOpts (o_skip o) 0 (o_ci o) (o_threshold o) [] [] None None None [] [] []) None None l false None names.

(** "pica filter W" with the options of explode, from stdin *)
Definition filter_parts (o : file_opts) (W : bytes) (discard keep : option bytes) (gzip : bool) (output : option bytes) : command :=
  KFilter (mkFileOpts (o_skip o) (o_limit o) (o_ci o) (o_threshold o) (o_allow o) (o_deny o) (o_column o) (o_source o) None
             (o_and o) (o_or o) (o_not o))
    (mkFilterOnly W None false keep discard) false gzip output None [lit "-"].

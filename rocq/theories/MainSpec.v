(** * Specification of the whole program: which files a run uses and changes *)

From Coq Require Import String.
From Verif Require Import Bytes RecordModel MatcherModel CliModel CheckModel OptionsModel OptionsSpec PrepareModel IoModel DiskModel DirModel
  RuleModel MainModel DiskSpec RuleSpec.
From Verif Require DirSpec.

(** the file of the configuration: the argument of --config, or the one in the home
    directory *)
Definition config_name (e : env) (i : invocation) : option bytes :=
  match in_config i with Some n => Some n | None => e_home e end.

(** the shared options, if the command has them *)
Definition opts_of (k : command) : option file_opts :=
  match k with
  | KCheck o _ _ _ _ _ | KCount o _ _ _ _ | KDescribe o _ _ _ _ _ _ | KExplode o _ _ _ _ _ _ | KFilter o _ _ _ _ _ _
  | KFrequency o _ _ _ _ _ _ _ _ _ | KHash o _ _ _ _ | KPartition o _ _ _ _ _ | KPrint o _ _ _ | KSample o _ _ _ _ _
  | KSelect o _ _ _ _ _ _ _ _ _ | KSlice o _ _ _ _ _ _ _ | KSplit o _ _ _ _ _ => Some o
  | KConcat _ _ _ _ _ _ | KConfig _ | KConvert _ _ _ _ _ | KInvalid _ _ => None
  end.

(** the files that are given as inputs *)
Definition input_names (k : command) : list bytes :=
  match k with
  | KCheck _ _ _ _ _ names | KConcat _ _ _ _ _ names | KConvert _ _ _ _ names | KCount _ _ _ _ names
  | KDescribe _ _ _ _ _ _ names | KExplode _ _ _ _ _ _ names | KFilter _ _ _ _ _ _ names
  | KFrequency _ _ _ _ _ _ _ _ _ names | KHash _ _ _ _ names | KInvalid _ names | KPartition _ _ _ _ _ names
  | KPrint _ _ _ names | KSample _ _ _ _ _ names | KSelect _ _ _ _ _ _ _ _ _ names | KSlice _ _ _ _ _ _ _ names
  | KSplit _ _ _ _ _ names => names
  | KConfig _ => []
  end.

(** --output and --tee, if given *)
Definition output_names (k : command) : list bytes :=
  match k with
  | KCheck _ _ _ _ output _ | KConvert _ _ _ output _ | KCount _ _ output _ _ | KDescribe _ _ _ _ _ output _
  | KExplode _ _ _ _ _ output _ | KFrequency _ _ _ _ _ _ _ _ output _ | KHash _ output _ _ _ | KInvalid output _
  | KPrint _ _ output _ | KSample _ _ output _ _ _ | KSelect _ _ _ _ _ _ _ _ output _ | KSlice _ _ _ output _ _ _ _ =>
      named output
  | KConcat _ _ output tee _ _ | KFilter _ _ _ _ output tee _ => named output ++ named tee
  | KConfig _ | KPartition _ _ _ _ _ _ | KSplit _ _ _ _ _ _ => []
  end.

(** --append *)
Definition appends (k : command) : bool :=
  match k with
  | KConcat _ append _ _ _ _ | KCount _ append _ _ _ | KFilter _ _ append _ _ _ _ | KSelect _ _ _ _ _ _ _ append _ _
  | KSlice _ _ append _ _ _ _ _ => append
  | _ => false
  end.

(** the files that a run may create or change *)
Inductive may_change (e : env) (i : invocation) : bytes -> Prop :=
| mc_output : forall n, In n (output_names (in_command i)) -> may_change e i n
| mc_chunk : forall o gzip outdir template size names k n,
    in_command i = KSplit o gzip outdir template size names ->
    DirSpec.chunk_file template gzip outdir k n -> may_change e i n
| mc_value : forall o p gzip outdir template names v n,
    in_command i = KPartition o p gzip outdir template names ->
    DirSpec.file_for template gzip outdir (e_lossy e v) n -> may_change e i n
| mc_config : forall a name v n,
    in_command i = KConfig a -> changes a name v -> config_name e i = Some n -> may_change e i n.

(** a text in a TOML document *)
Inductive text_in : toml -> bytes -> Prop :=
| ti_text : forall b, text_in (TmText b) b
| ti_array : forall l v b, In v l -> text_in v b -> text_in (TmArray l) b
| ti_table : forall l k v b, In (k, v) l -> text_in v b -> text_in (TmTable l) b.

(** The files whose content matters to a command: its inputs, allow and deny lists,
    the file with the expression (then what is given as expression is an input), the
    rule files, and what is named in a rule file, which is read when the output has
    been opened. *)
Inductive uses (e : env) (w : world) (k : command) : bytes -> Prop :=
| us_input : forall n, In n (input_names k) -> uses e w k n
| us_list : forall o n, opts_of k = Some o -> In n (o_allow o) \/ In n (o_deny o) -> uses e w k n
| us_expr : forall o f append gzip output tee names x n, k = KFilter o f append gzip output tee names ->
    fi_expr_file f = Some x -> n = x \/ n = fi_expr f -> uses e w k n
| us_rule : forall o rules filter tags output names n, k = KCheck o rules filter tags output names ->
    In n rules -> uses e w k n
| us_named : forall o rules filter tags output names r b nf v n, k = KCheck o rules filter tags output names ->
    In r rules -> running output w r b -> e_rules_toml e (translit e nf b) = Some v -> text_in v n -> uses e w k n.

(** the files whose content matters to a run *)
Inductive needs (e : env) (i : invocation) (w : world) : bytes -> Prop :=
| nd_config : forall n, config_name e i = Some n -> needs e i w n
| nd_used : forall n, uses e w (in_command i) n -> needs e i w n.

(** One run led from [w1] to [w1'], another one from [w2] to [w2'], and they did the
    same: every file was left alone by both, or got the same content from both, or
    both added the same text to it ([extended] tells for which files this may be);
    both wrote the same to stdout. *)
Definition same_done (extended : bytes -> Prop) (w1 w1' w2 w2' : world) : Prop :=
  (forall n,
     (disk_get (w_disk w1') n = disk_get (w_disk w1) n /\ disk_get (w_disk w2') n = disk_get (w_disk w2) n)
     \/ (exists c, disk_get (w_disk w1') n = Some c /\ disk_get (w_disk w2') n = Some c)
     \/ (extended n /\ exists t, disk_get (w_disk w1') n = Some (before w1 n ++ t)
                               /\ disk_get (w_disk w2') n = Some (before w2 n ++ t)))
  /\ exists t, w_stdout w1' = w_stdout w1 ++ t /\ w_stdout w2' = w_stdout w2 ++ t.

(** with --append the outputs are extended *)
Definition extends (i : invocation) (n : bytes) : Prop :=
  appends (in_command i) = true /\ In n (output_names (in_command i)).

(** the command with --skip-invalid; invalid and config do not have it *)
Definition skipping (o : file_opts) : file_opts :=
  mkFileOpts true (o_limit o) (o_ci o) (o_threshold o) (o_allow o) (o_deny o) (o_column o) (o_source o) (o_where o)
    (o_and o) (o_or o) (o_not o).
Definition with_skip (k : command) : command :=
  match k with
  | KCheck o rules filter tags output names => KCheck (skipping o) rules filter tags output names
  | KConcat _ append output tee unique names => KConcat true append output tee unique names
  | KConfig a => KConfig a
  | KConvert _ from to output names => KConvert true from to output names
  | KCount o append output m names => KCount (skipping o) append output m names
  | KDescribe o discard keep csv tsv output names => KDescribe (skipping o) discard keep csv tsv output names
  | KExplode o discard keep l gzip output names => KExplode (skipping o) discard keep l gzip output names
  | KFilter o f append gzip output tee names => KFilter (skipping o) f append gzip output tee names
  | KFrequency o q unique num threshold reverse nf tsv output names =>
      KFrequency (skipping o) q unique num threshold reverse nf tsv output names
  | KHash o output tsv header names => KHash (skipping o) output tsv header names
  | KInvalid output names => KInvalid output names
  | KPartition o p gzip outdir template names => KPartition (skipping o) p gzip outdir template names
  | KPrint o nf output names => KPrint (skipping o) nf output names
  | KSample o gzip output draw size names => KSample (skipping o) gzip output draw size names
  | KSelect o q unique no_empty nf quote tsv append output names =>
      KSelect (skipping o) q unique no_empty nf quote tsv append output names
  | KSlice o gzip append output start end_ length names => KSlice (skipping o) gzip append output start end_ length names
  | KSplit o gzip outdir template size names => KSplit (skipping o) gzip outdir template size names
  end.

(** the same world, with something else to come from stdin *)
Definition fed (stdin : bytes) (w : world) : world := mkWorld (w_disk w) stdin (w_stdout w).

(** the command with its expressions spelled otherwise: --where, --and, --or, --not,
    the expression of filter and the query *)
Definition respelled_opts (f : bytes -> bytes) (o : file_opts) : file_opts :=
  mkFileOpts (o_skip o) (o_limit o) (o_ci o) (o_threshold o) (o_allow o) (o_deny o) (o_column o) (o_source o)
    (option_map f (o_where o)) (map f (o_and o)) (map f (o_or o)) (map f (o_not o)).
Definition respelled_filter (f : bytes -> bytes) (x : filter_only) : filter_only :=
  mkFilterOnly (match fi_expr_file x with None => f (fi_expr x) | Some _ => fi_expr x end) (fi_expr_file x) (fi_invert x)
    (fi_keep x) (fi_discard x).
Definition respelled_columns (f : bytes -> bytes) (q : columns) : columns :=
  mkColumns (f (co_query q)) (co_separator q) (co_squash q) (co_merge q) (co_header q).
Definition respelled (f : bytes -> bytes) (k : command) : command :=
  match k with
  | KCheck o rules filter tags output names => KCheck (respelled_opts f o) rules filter tags output names
  | KConcat _ _ _ _ _ _ | KConfig _ | KConvert _ _ _ _ _ | KInvalid _ _ => k
  | KCount o append output m names => KCount (respelled_opts f o) append output m names
  | KDescribe o discard keep csv tsv output names => KDescribe (respelled_opts f o) discard keep csv tsv output names
  | KExplode o discard keep l gzip output names => KExplode (respelled_opts f o) discard keep l gzip output names
  | KFilter o x append gzip output tee names => KFilter (respelled_opts f o) (respelled_filter f x) append gzip output tee names
  | KFrequency o q unique num threshold reverse nf tsv output names =>
      KFrequency (respelled_opts f o) (respelled_columns f q) unique num threshold reverse nf tsv output names
  | KHash o output tsv header names => KHash (respelled_opts f o) output tsv header names
  | KPartition o p gzip outdir template names => KPartition (respelled_opts f o) p gzip outdir template names
  | KPrint o nf output names => KPrint (respelled_opts f o) nf output names
  | KSample o gzip output draw size names => KSample (respelled_opts f o) gzip output draw size names
  | KSelect o q unique no_empty nf quote tsv append output names =>
      KSelect (respelled_opts f o) (respelled_columns f q) unique no_empty nf quote tsv append output names
  | KSlice o gzip append output start end_ length names => KSlice (respelled_opts f o) gzip append output start end_ length names
  | KSplit o gzip outdir template size names => KSplit (respelled_opts f o) gzip outdir template size names
  end.

(** the configuration that a run finds in its file *)
Definition configured (e : env) (i : invocation) (w : world) (c : config) : Prop :=
  exists n t, config_name e i = Some n /\ disk_get (w_disk w) n = Some t /\ OptionsSpec.file_says t c.

(** the options with another --filter-set-source *)
Definition with_source (s : bytes) (o : file_opts) : file_opts :=
  mkFileOpts (o_skip o) (o_limit o) (o_ci o) (o_threshold o) (o_allow o) (o_deny o) (o_column o) (Some s) (o_where o)
    (o_and o) (o_or o) (o_not o).

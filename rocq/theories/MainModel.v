(** * The whole program

    Model of /repo/crates/pica-cli/src/main.rs: the configuration is loaded from
    its file, and the command is executed on the disk.  The commands are those of
    [DiskModel.v], [DirModel.v] and [RuleModel.v]; here their options, their allow
    and deny lists and the configuration are put together.

    Not modelled: the reading of the command line (an invocation is given with its
    arguments as clap hands them over), the command completions, and the progress
    bars.  The simplifications of the models of the commands apply. *)

From Coq Require Import String ZArith.
From Verif Require Import Bytes Winnow RecordModel TagOccModel Utf8Model ByteRecordModel ReaderModel
  MatcherModel StateParser MatcherParserModel BuilderModel PathModel FmtModel QueryModel CliModel TableModel
  ExplodeModel CheckModel ConvertModel CsvModel OptionsModel ConfigModel PrepareModel IoModel DiskModel DirModel RuleModel.

(** ** What is outside of the program *)

(** The libraries, the file system and the unspecified orders of hash maps, see the
    models that use them *)
Record env := mkEnv {
  e_gz_enc : bytes -> bytes;
  e_gz_dec : bytes -> list piece;
  e_writable : bytes -> bool;
  (** the output directory exists or can be created *)
  e_dir_ok : bytes -> bool;
  (** the external functions of matchers with a similarity threshold *)
  e_oracles : N -> oracles;
  (** [threshold as f64 / 100f64] *)
  e_hundredth : N -> N;
  e_nf : norm_form -> bytes -> bytes;
  e_sha : bytes -> bytes;
  e_lossy : bytes -> bytes;
  e_text : text_fns;
  e_numeric : bytes -> bool;
  e_hash : list bytes -> N;
  e_esc : bytes -> bytes;
  e_polars : bytes -> bytes -> option table;
  e_frame : frame_format -> list N * list (bytes * list N) -> bytes;
  e_freq_order : ftable -> ftable;
  e_writer_order : list (bytes * bytes) -> list (bytes * bytes);
  e_tag_order : tag_counts -> tag_counts;
  e_rule_order : list (bytes * N) -> list (bytes * N);
  e_link_order : list (bytes * list bytes) -> list (bytes * list bytes);
  e_rules_order : list rule -> list rule;
  e_int_f64 : Z -> N;
  e_strptime : bytes -> bytes -> bool;
  e_is_nf : norm_form -> bytes -> bool;
  e_rules_toml : bytes -> option toml;
  e_patterns : list bytes -> option (bytes -> bool);
  e_config_toml : bytes -> option config;
  (** the file of the configuration in the home directory, if there is one *)
  e_home : option bytes }.

(** ** Arguments *)

(** /repo/crates/pica-cli/src/cli.rs:46-143 FilterOpts *)
Record file_opts := mkFileOpts {
  o_skip : bool;
  o_limit : N;
  o_ci : bool;
  o_threshold : N;
  o_allow : list bytes;
  o_deny : list bytes;
  o_column : option bytes;
  o_source : option bytes;
  o_where : option bytes;
  o_and : list bytes;
  o_or : list bytes;
  o_not : list bytes }.

(** the arguments of /repo/crates/pica-cli/src/commands/filter.rs:14-158 Filter
    that it does not share with the others *)
Record filter_only := mkFilterOnly {
  fi_expr : bytes;
  fi_expr_file : option bytes;
  fi_invert : bool;
  fi_keep : option bytes;
  fi_discard : option bytes }.

(** what /repo/crates/pica-cli/src/commands/select.rs:38-109 Select and
    /repo/crates/pica-cli/src/commands/frequency.rs:28-109 Frequency have in common *)
Record columns := mkColumns {
  co_query : bytes;
  co_separator : bytes;
  co_squash : bool;
  co_merge : bool;
  co_header : option bytes }.

(** /repo/crates/pica-cli/src/cli.rs:25-44 Command.  Filter has its own struct with
    the same options, /repo/crates/pica-cli/src/commands/filter.rs:14-158; [o_where]
    is not used there.  The random numbers of sample are given. *)
Inductive command :=
| KCheck (o : file_opts) (rules filter : list bytes) (tags output : option bytes) (names : list bytes)
| KConcat (skip append : bool) (output tee : option bytes) (unique : option strategy) (names : list bytes)
| KConfig (a : config_args)
| KConvert (skip : bool) (from to : format) (output : option bytes) (names : list bytes)
| KCount (o : file_opts) (append : bool) (output : option bytes) (m : count_mode) (names : list bytes)
| KDescribe (o : file_opts) (discard keep : option bytes) (csv tsv : bool) (output : option bytes) (names : list bytes)
| KExplode (o : file_opts) (discard keep : option bytes) (l : level) (gzip : bool) (output : option bytes) (names : list bytes)
| KFilter (o : file_opts) (f : filter_only) (append gzip : bool) (output tee : option bytes) (names : list bytes)
| KFrequency (o : file_opts) (q : columns) (unique : bool) (num threshold : N) (reverse : bool) (nf : option norm_form)
    (tsv : bool) (output : option bytes) (names : list bytes)
| KHash (o : file_opts) (output : option bytes) (tsv : bool) (header : bytes) (names : list bytes)
| KInvalid (output : option bytes) (names : list bytes)
| KPartition (o : file_opts) (p : path) (gzip : bool) (outdir : bytes) (template : option bytes) (names : list bytes)
| KPrint (o : file_opts) (nf : option norm_form) (output : option bytes) (names : list bytes)
| KSample (o : file_opts) (gzip : bool) (output : option bytes) (draw : N -> N) (size : N) (names : list bytes)
| KSelect (o : file_opts) (q : columns) (unique no_empty : bool) (nf : option norm_form) (quote : quotes)
    (tsv append : bool) (output : option bytes) (names : list bytes)
| KSlice (o : file_opts) (gzip append : bool) (output : option bytes) (start end_ length : N) (names : list bytes)
| KSplit (o : file_opts) (gzip : bool) (outdir : bytes) (template : option bytes) (size : N) (names : list bytes).

(** one start of the program: the argument of --config and the command *)
Record invocation := mkInvocation { in_config : option bytes; in_command : command }.

Section Main.
  Variable e : env.

  (** /repo/crates/pica-cli/src/translit.rs:45-63 translit *)
  Definition translit (nf : option norm_form) : bytes -> bytes :=
    match nf with Some f => e_nf e f | None => fun b => b end.

  (** /repo/crates/pica-cli/src/cli.rs:175-181 From<&FilterOpts>, and
      /repo/crates/pica-cli/src/commands/filter.rs:216-218 *)
  Definition oracles_for (o : file_opts) : oracles := e_oracles e (e_hundredth e (o_threshold o)).

  (** [MatcherOptions::default()] *)
  Definition default_oracles : oracles := e_oracles e strsim_default.

  (** /repo/crates/pica-cli/src/utils.rs:107-140: the table in a file.  A file that
      cannot be opened or read gives a table without columns: in both cases the
      command fails. *)
  Definition load_table (d : disk) (n : bytes) : table :=
    match disk_get d n with
    | Some b => match e_polars e n b with Some t => t | None => [] end
    | None => []
    end.

  (** the options with the lists as they are on the disk *)
  Definition load_opts (d : disk) (o : file_opts) : opts_args :=
    mkOptsArgs (o_ci o) (o_limit o) (o_where o) (o_and o) (o_or o) (o_not o)
      (map (load_table d) (o_allow o)) (map (load_table d) (o_deny o)) (o_column o) (o_source o).

  (** /repo/crates/pica-cli/src/commands/filter.rs:161-173: the arguments of filter
      with the lists *)
  Definition load_filter (d : disk) (skip : bool) (o : file_opts) (f : filter_only) (names : list bytes) : filter_args :=
    mkFilterArgs skip (o_limit o) (fi_invert f) (o_ci o) (fi_keep f) (fi_discard f) (fi_expr_file f)
      (map (load_table d) (o_allow o)) (map (load_table d) (o_deny o)) (o_column o) (o_source o)
      (o_and o) (o_or o) (o_not o) (fi_expr f) names.

  Definition load_columns (d : disk) (o : file_opts) (q : columns) : table_args :=
    mkTableArgs (load_opts d o) (co_query q) (co_separator q) (co_squash q) (co_merge q) (co_header q).

  (** the disk after the output has been opened: check, count and explode read the
      lists then, /repo/crates/pica-cli/src/commands/count.rs:66-81,
      check/mod.rs:51-59, explode.rs:149-161 *)
  Definition after_open (output : option bytes) (append : bool) (d : disk) : disk :=
    match open_output (e_writable e) (mkOut output append false) d with Some d' => d' | None => d end.

  (** /repo/crates/pica-cli/src/main.rs:28-47: every command but config, with
      [let skip_invalid = self.filter_opts.skip_invalid || config.skip_invalid] (e.g.
      count.rs:63-64) and [config.normalization] (e.g. count.rs:80-83);
      /repo/crates/pica-cli/src/commands/invalid.rs:66 does not use the
      configuration *)
  Definition execute (c : config) (k : command) (w : world) : option (command_end * world) :=
    let transform := translit (cf_normalization c) in
    let skip o := o_skip o || cf_skip_invalid c in
    let d := w_disk w in
    match k with
    | KCheck o rules filter tags output names =>
        check_files_on_disk (e_gz_enc e) (e_gz_dec e) (e_writable e) (oracles_for o) transform (e_lossy e) (e_text e)
          (e_rule_order e) (e_link_order e) (e_oracles e) (e_int_f64 e) (e_strptime e) (e_is_nf e) (e_polars e)
          (e_rules_order e) (e_rules_toml e) transform (e_patterns e)
          (load_opts (after_open output false d) o) rules filter tags output (skip o) names w
    | KConcat s append output tee unique names =>
        concat_on_disk (e_gz_enc e) (e_gz_dec e) (e_writable e) default_oracles (e_sha e) (e_lossy e)
          append output tee unique (s || cf_skip_invalid c) names w
    | KConfig _ => None
    | KConvert s from to output names =>
        convert_on_disk (e_gz_enc e) (e_gz_dec e) (e_writable e) (e_lossy e) (e_esc e)
          from to output (s || cf_skip_invalid c) names w
    | KCount o append output m names =>
        count_on_disk (e_gz_enc e) (e_gz_dec e) (e_writable e) (oracles_for o) default_oracles transform
          (load_opts (after_open output append d) o) append output m (skip o) names w
    | KDescribe o discard keep csv tsv output names =>
        describe_on_disk (e_gz_enc e) (e_gz_dec e) (e_writable e) (oracles_for o) default_oracles transform
          (e_tag_order e) (e_frame e) (load_opts d o) discard keep csv tsv output (skip o) names w
    | KExplode o discard keep l gzip output names =>
        explode_on_disk (e_gz_enc e) (e_gz_dec e) (e_writable e) (oracles_for o) default_oracles transform
          (load_opts (after_open output false d) o) discard keep l gzip output (skip o) names w
    | KFilter o f append gzip output tee names =>
        filter_on_disk (e_gz_enc e) (e_gz_dec e) (e_writable e) (oracles_for o) default_oracles transform
          (load_filter d (skip o) o f names) append gzip output tee w
    | KFrequency o q unique num threshold reverse nf tsv output names =>
        freq_on_disk (e_gz_enc e) (e_gz_dec e) (e_writable e) (oracles_for o) default_oracles transform
          (e_lossy e) (e_text e) (e_numeric e) (e_freq_order e)
          (load_columns d o q) unique num threshold reverse (translit nf) tsv output (skip o) names w
    | KHash o output tsv header names =>
        hash_on_disk (e_gz_enc e) (e_gz_dec e) (e_writable e) (oracles_for o) default_oracles transform
          (e_sha e) (e_lossy e) (e_numeric e) (load_opts d o) output tsv header (skip o) names w
    | KInvalid output names => invalid_on_disk (e_gz_enc e) (e_gz_dec e) (e_writable e) output names w
    | KPartition o p gzip outdir template names =>
        partition_on_disk (e_gz_enc e) (e_gz_dec e) (e_writable e) (oracles_for o) default_oracles transform
          (e_lossy e) (e_writer_order e) (load_opts d o) p gzip outdir (e_dir_ok e outdir) template (skip o) names w
    | KPrint o nf output names =>
        print_on_disk (e_gz_enc e) (e_gz_dec e) (e_writable e) (oracles_for o) default_oracles transform
          (load_opts d o) (translit nf) output (skip o) names w
    | KSample o gzip output draw size names =>
        sample_on_disk (e_gz_enc e) (e_gz_dec e) (e_writable e) (oracles_for o) default_oracles transform
          (load_opts d o) gzip output draw size (skip o) names w
    | KSelect o q unique no_empty nf quote tsv append output names =>
        select_on_disk (e_gz_enc e) (e_gz_dec e) (e_writable e) (oracles_for o) default_oracles transform
          (e_lossy e) (e_text e) (e_numeric e) (e_hash e)
          (load_columns d o q) unique no_empty (option_map (e_nf e) nf) quote tsv append output (skip o) names w
    | KSlice o gzip append output start end_ length names =>
        slice_on_disk (e_gz_enc e) (e_gz_dec e) (e_writable e) (oracles_for o) default_oracles transform
          (load_opts d o) gzip append output start end_ length (skip o) names w
    | KSplit o gzip outdir template size names =>
        split_on_disk (e_gz_enc e) (e_gz_dec e) (e_writable e) (oracles_for o) default_oracles transform
          (load_opts d o) gzip outdir (e_dir_ok e outdir) template size (skip o) names w
    end.

  (** /repo/crates/pica-cli/src/main.rs:22-26: the place of the configuration and
      the name of its file *)
  Definition place (i : invocation) : config_place * option bytes :=
    match in_config i with
    | Some n => (PGiven, Some n)
    | None => match e_home e with Some n => (PHome, Some n) | None => (PNowhere, None) end
    end.

  (** the file as [ConfigModel.v] sees it; a file that is there can be read *)
  Definition file_on (d : disk) (n : option bytes) : config_file :=
    match n with
    | Some n => match disk_get d n with Some b => FHolds b | None => FMissing end
    | None => FMissing
    end.

  (** /repo/crates/pica-cli/src/commands/config.rs:42-103 on the disk; writing does
      not fail once the file is open *)
  Definition run_config (i : invocation) (a : config_args) (w : world) : command_end * world :=
    let '(p, n) := place i in
    let fate := match n with Some n => if e_writable e n then SaveWorks else SaveRefused | None => SaveRefused end in
    let '(x, f) := config_main (e_config_toml e) p fate a (file_on (w_disk w) n) in
    let w' := match n, f with Some n, FHolds b => with_disk w (disk_set (w_disk w) n b) | _, _ => w end in
    match x with
    | CfError => (CRefused, w')
    | CfPanic => (CPanicked, w')
    | CfDone out => (CEnded 0, mkWorld (w_disk w') (w_stdin w') (w_stdout w' ++ out))
    end.

  (** /repo/crates/pica-cli/src/main.rs:19-48 run; [None] if fuel ran out *)
  Definition run (i : invocation) (w : world) : option (command_end * world) :=
    match in_command i with
    | KConfig a => Some (run_config i a w)
    | k =>
        let '(p, n) := place i in
        match config_start (e_config_toml e) p (file_on (w_disk w) n) with
        | LFails => Some (CRefused, w)
        | LPanics => Some (CPanicked, w)
        | LConfig c => execute c k w
        end
    end.
End Main.

(** /repo/crates/pica-cli/src/main.rs:50-63 main: the exit status; [None] is a panic *)
Definition end_status (x : command_end) : option N :=
  match x with CRefused => Some 2 | CPanicked => None | CEnded n => Some n end.

(** starts of the program one after the other, each with what it gets from stdin
    and with its own environment *)
Fixpoint session (steps : list (env * invocation * bytes)) (w : world) : option (list command_end * world) :=
  match steps with
  | [] => Some ([], w)
  | (e, i, stdin) :: rest =>
      do r <- run e i (mkWorld (w_disk w) stdin (w_stdout w));
      do rs <- session rest (snd r);
      Some (fst r :: fst rs, snd rs)
  end.

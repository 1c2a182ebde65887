(** * The command line

    Model of the arguments of all commands, /repo/crates/pica-cli/src/cli.rs and the
    structs of /repo/crates/pica-cli/src/commands, and of the program from its
    command line on.  The arguments are read by [ClapModel.v].

    Fields are named by their long options here ([skip_invalid] is "skip-invalid",
    [allow] is "allow-list"), the flag --progress is read and dropped.  The texts that
    clap prints (help, version, completions) are arguments. *)

From Coq Require Import String.
From Verif Require Import Bytes Winnow Utf8Model RecordModel MatcherModel StateParser MatcherParserModel BuilderModel PathModel CliModel
  ExplodeModel ConvertModel CsvModel OptionsModel ConfigModel DiskModel DirModel ClapModel MainModel.

(** ** Ways to write [#[arg(...)]] *)

(** a field of type [bool] *)
Definition flag (id : bytes) (short : option byte) : arg := mkArg id (Some id) short AFlag VOs false [] [].
(** a field of type [Option<T>], or with a default value *)
Definition one (id : bytes) (short : option byte) (t : value_type) : arg := mkArg id (Some id) short AOne t false [] [].
(** a field of type [Vec<T>] *)
Definition many (id : bytes) (short : option byte) (t : value_type) : arg := mkArg id (Some id) short AMany t false [] [].
(** [requires], [conflicts_with] and [conflicts_with_all], [required] *)
Definition requires (x : bytes) (a : arg) : arg :=
  mkArg (g_id a) (g_long a) (g_short a) (g_arity a) (g_type a) (g_required a) (x :: g_requires a) (g_conflicts a).
Definition conflicts (xs : list bytes) (a : arg) : arg :=
  mkArg (g_id a) (g_long a) (g_short a) (g_arity a) (g_type a) (g_required a) (g_requires a) (xs ++ g_conflicts a).
Definition required (a : arg) : arg :=
  mkArg (g_id a) (g_long a) (g_short a) (g_arity a) (g_type a) true (g_requires a) (g_conflicts a).
(** neither [long] nor [short] *)
Definition unnamed (a : arg) : arg :=
  mkArg (g_id a) None None (g_arity a) (g_type a) (g_required a) (g_requires a) (g_conflicts a).
(** only [short] *)
Definition no_long (a : arg) : arg :=
  mkArg (g_id a) None (g_short a) (g_arity a) (g_type a) (g_required a) (g_requires a) (g_conflicts a).

(** ** The values of enums *)

(** /repo/crates/pica-cli/src/translit.rs:8-18 ValueEnum for NormalizationForm *)
Definition nf_names : list bytes := [lit "nfc"; lit "nfkc"; lit "nfd"; lit "nfkd"].
(** /repo/crates/pica-cli/src/commands/concat.rs:65-74 Strategy *)
Definition strategy_names : list bytes := [lit "idn"; lit "hash"].
Definition strategy_parse (v : bytes) : option strategy :=
  if bytes_eqb v (lit "idn") then Some SIdn else if bytes_eqb v (lit "hash") then Some SHash else None.
(** /repo/crates/pica-cli/src/commands/convert/mod.rs:20-28 Format *)
Definition format_names : list bytes := [lit "binary"; lit "import"; lit "json"; lit "plain"; lit "plus"; lit "xml"].
Definition format_parse (v : bytes) : option format :=
  if bytes_eqb v (lit "binary") then Some TBinary
  else if bytes_eqb v (lit "import") then Some TImport
  else if bytes_eqb v (lit "json") then Some TJson
  else if bytes_eqb v (lit "plain") then Some TPlain
  else if bytes_eqb v (lit "plus") then Some TPlus
  else if bytes_eqb v (lit "xml") then Some TXml
  else None.
(** /repo/crates/pica-cli/src/commands/select.rs:16-23 Quotes *)
Definition quotes_names : list bytes := [lit "always"; lit "necessary"; lit "non-numeric"; lit "never"].
Definition quotes_parse (v : bytes) : option quotes :=
  if bytes_eqb v (lit "always") then Some QAlways
  else if bytes_eqb v (lit "necessary") then Some QNecessary
  else if bytes_eqb v (lit "non-numeric") then Some QNonNumeric
  else if bytes_eqb v (lit "never") then Some QNever
  else None.
(** /repo/src/primitives/tag.rs:24-36 FromStr for Level *)
Definition level_parse (v : bytes) : option level :=
  if bytes_eqb v (lit "main") then Some LMain
  else if bytes_eqb v (lit "local") then Some LLocal
  else if bytes_eqb v (lit "copy") then Some LCopy
  else None.
(** the same as a value parser, /repo/crates/pica-cli/src/commands/explode.rs:33-34 *)
Definition level_ok (v : bytes) : bool := match level_parse v with Some _ => true | None => false end.
(** clap_complete's Shell, /repo/crates/pica-cli/src/commands/completions.rs:31-38 *)
Definition shell_names : list bytes := [lit "bash"; lit "elvish"; lit "fish"; lit "powershell"; lit "zsh"].

Section Args.
  Variable e : env.
  (** the random numbers of sample, with a seed or without,
      /repo/crates/pica-cli/src/commands/sample.rs:62-65 *)
  Variable draws : option N -> N -> N.

  (** /repo/src/path.rs:59-78 FromStr for Path *)
  Definition path_parse (v : bytes) : option path :=
    match fst (path_new (default_oracles e) fresh v) with Some (Some p) => Some p | _ => None end.
  (** the same as a value parser, /repo/crates/pica-cli/src/cli.rs:116-117 *)
  Definition path_ok (v : bytes) : bool := match path_parse v with Some _ => true | None => false end.

  (** ** The structs of arguments *)

  (** /repo/crates/pica-cli/src/cli.rs:46-143 FilterOpts *)
  Definition filter_opts_args : list arg := [
    flag (lit "skip-invalid") (Some 115);
    one (lit "limit") (Some 108) VU64;
    flag (lit "ignore-case") (Some 105);
    one (lit "strsim-threshold") None (VRange 0 99);
    many (lit "allow-list") (Some 65) VPath;
    many (lit "deny-list") (Some 68) VPath;
    one (lit "filter-set-column") None VString;
    one (lit "filter-set-source") None (VParsed path_ok);
    one (lit "where") None VString;
    requires (lit "where") (conflicts [lit "or"] (many (lit "and") None VString));
    requires (lit "where") (conflicts [lit "and"; lit "not"] (many (lit "or") None VString));
    requires (lit "where") (conflicts [lit "or"] (many (lit "not") None VString))].

  (** the two fields that many commands have, e.g.
      /repo/crates/pica-cli/src/commands/print.rs:20-26 *)
  Definition progress_output : list arg := [
    requires (lit "output") (flag (lit "progress") (Some 112));
    one (lit "output") (Some 111) VOs].
  (** e.g. /repo/crates/pica-cli/src/commands/print.rs:28-30 *)
  Definition filenames : arg := unnamed (many (lit "filenames") None VOs).

  (** a struct of arguments of /repo/crates/pica-cli/src/commands: no subcommands, no
      "--version" *)
  Definition spec (options positionals : list arg) : arg_spec := mkSpec options positionals (fun _ => None) false.

  (** /repo/crates/pica-cli/src/commands/check/mod.rs:17-47 *)
  Definition check_args : arg_spec := spec
    ([requires (lit "output") (flag (lit "progress") (Some 112));
      required (many (lit "rule-set") (Some 82) VOs);
      many (lit "rule") (Some 114) VString;
      one (lit "tags") (Some 116) VString;
      one (lit "output") (Some 111) VPath] ++ filter_opts_args)
    [filenames].

  (** /repo/crates/pica-cli/src/commands/completions.rs:11-20 *)
  Definition completions_args : arg_spec := spec
    [one (lit "output") (Some 111) VOs]
    [required (unnamed (one (lit "shell") None (VOneOf shell_names)))].

  (** /repo/crates/pica-cli/src/commands/concat.rs:13-63 *)
  Definition concat_args : arg_spec := spec
    (flag (lit "skip-invalid") (Some 115)
     :: one (lit "tee") None VOs
     :: flag (lit "unique") (Some 117)
     :: requires (lit "unique") (one (lit "unique-strategy") None (VOneOf strategy_names))
     :: flag (lit "append") None
     :: progress_output)
    [filenames].

  (** /repo/crates/pica-cli/src/commands/config.rs:7-28 *)
  Definition config_args_spec : arg_spec := spec
    [conflicts [lit "value"; lit "unset"; lit "set"] (flag (lit "get") None);
     conflicts [lit "value"; lit "get"; lit "set"] (flag (lit "unset") None);
     requires (lit "value") (conflicts [lit "get"; lit "unset"] (flag (lit "set") None))]
    [required (unnamed (one (lit "name") None VString));
     conflicts [lit "get"; lit "unset"] (unnamed (one (lit "value") None VString))].

  (** /repo/crates/pica-cli/src/commands/convert/mod.rs:30-70 *)
  Definition convert_args : arg_spec := spec
    (flag (lit "skip-invalid") (Some 115)
     :: one (lit "from") (Some 102) (VOneOf format_names)
     :: one (lit "to") (Some 116) (VOneOf format_names)
     :: progress_output)
    [filenames].

  (** /repo/crates/pica-cli/src/commands/count.rs:11-59 *)
  Definition count_args : arg_spec := spec
    ([flag (lit "append") None;
      conflicts [lit "fields"; lit "subfields"; lit "csv"; lit "tsv"; lit "no-header"] (flag (lit "records") (Some 114));
      conflicts [lit "records"; lit "subfields"; lit "csv"; lit "tsv"; lit "no-header"] (flag (lit "fields") None);
      conflicts [lit "records"; lit "fields"; lit "csv"; lit "tsv"; lit "no-header"] (flag (lit "subfields") None);
      conflicts [lit "tsv"] (flag (lit "csv") None);
      flag (lit "tsv") None;
      flag (lit "no-header") None] ++ progress_output ++ filter_opts_args)
    [filenames].

  (** /repo/crates/pica-cli/src/commands/describe.rs:12-45 *)
  Definition describe_args : arg_spec := spec
    ([one (lit "keep") (Some 107) VString;
      one (lit "discard") (Some 100) VString;
      requires (lit "output") (conflicts [lit "tsv"] (flag (lit "csv") (Some 99)));
      requires (lit "output") (conflicts [lit "csv"] (flag (lit "tsv") (Some 116)))] ++ progress_output ++ filter_opts_args)
    [filenames].

  (** /repo/crates/pica-cli/src/commands/explode.rs:10-44 *)
  Definition explode_args : arg_spec := spec
    ([flag (lit "gzip") (Some 103);
      one (lit "keep") (Some 107) VString;
      one (lit "discard") (Some 100) VString] ++ progress_output ++ filter_opts_args)
    [required (unnamed (one (lit "level") None (VParsed level_ok))); filenames].

  (** /repo/crates/pica-cli/src/commands/filter.rs:12-158 *)
  Definition filter_args_spec : arg_spec := spec
    ([flag (lit "skip-invalid") (Some 115);
      one (lit "limit") (Some 108) VU64;
      flag (lit "invert-match") (Some 118);
      flag (lit "ignore-case") (Some 105);
      one (lit "strsim-threshold") None (VRange 0 99);
      one (lit "keep") (Some 107) VString;
      one (lit "discard") (Some 100) VString;
      one (lit "file") (Some 70) VPath;
      many (lit "allow-list") (Some 65) VPath;
      many (lit "deny-list") (Some 68) VPath;
      one (lit "filter-set-column") None VString;
      one (lit "filter-set-source") None (VParsed path_ok);
      conflicts [lit "or"] (many (lit "and") None VString);
      conflicts [lit "and"; lit "not"] (many (lit "or") None VString);
      conflicts [lit "or"] (many (lit "not") None VString);
      flag (lit "gzip") (Some 103);
      conflicts [lit "gzip"] (flag (lit "append") None);
      conflicts [lit "output"] (one (lit "tee") None VPath)] ++ progress_output)
    [unnamed (one (lit "filter") None VString); filenames].

  (** /repo/crates/pica-cli/src/commands/frequency.rs:26-109 *)
  Definition frequency_args : arg_spec := spec
    ([conflicts [lit "merge"] (flag (lit "squash") None);
      conflicts [lit "squash"] (flag (lit "merge") None);
      one (lit "separator") None VString;
      flag (lit "unique") (Some 117);
      flag (lit "reverse") (Some 114);
      no_long (one (lit "num") (Some 110) VU64);
      one (lit "threshold") None VU64;
      one (lit "header") (Some 72) VString;
      flag (lit "tsv") (Some 116);
      one (lit "translit") None (VOneOf nf_names)] ++ progress_output ++ filter_opts_args)
    [required (unnamed (one (lit "query") None VString)); filenames].

  (** /repo/crates/pica-cli/src/commands/hash.rs:13-40 *)
  Definition hash_args : arg_spec := spec
    ([one (lit "header") (Some 72) VString;
      flag (lit "tsv") (Some 116)] ++ progress_output ++ filter_opts_args)
    [filenames].

  (** /repo/crates/pica-cli/src/commands/invalid.rs:17-35 *)
  Definition invalid_args : arg_spec := spec progress_output [filenames].

  (** /repo/crates/pica-cli/src/commands/partition.rs:12-56 *)
  Definition partition_args : arg_spec := spec
    ([flag (lit "gzip") (Some 103);
      flag (lit "progress") (Some 112);
      one (lit "outdir") (Some 111) VPath;
      one (lit "template") (Some 116) VString] ++ filter_opts_args)
    [required (unnamed (one (lit "path") None (VParsed path_ok))); filenames].

  (** /repo/crates/pica-cli/src/commands/print.rs:13-34 *)
  Definition print_args : arg_spec := spec
    ([one (lit "translit") None (VOneOf nf_names)] ++ progress_output ++ filter_opts_args)
    [filenames].

  (** /repo/crates/pica-cli/src/commands/sample.rs:11-44 *)
  Definition sample_args : arg_spec := spec
    ([flag (lit "gzip") (Some 103);
      one (lit "seed") None VU64] ++ progress_output ++ filter_opts_args)
    [required (unnamed (one (lit "sample-size") None (VRange 1 4294967295))); filenames].

  (** /repo/crates/pica-cli/src/commands/select.rs:36-109 *)
  Definition select_args : arg_spec := spec
    ([conflicts [lit "merge"] (flag (lit "squash") None);
      conflicts [lit "squash"] (flag (lit "merge") None);
      one (lit "separator") None VString;
      flag (lit "no-empty-columns") None;
      flag (lit "unique") (Some 117);
      flag (lit "tsv") (Some 116);
      one (lit "quote-style") None (VOneOf quotes_names);
      one (lit "translit") None (VOneOf nf_names);
      one (lit "header") (Some 72) VString;
      flag (lit "append") None] ++ progress_output ++ filter_opts_args)
    [required (unnamed (one (lit "query") None VString)); filenames].

  (** /repo/crates/pica-cli/src/commands/slice.rs:9-81 *)
  Definition slice_args : arg_spec := spec
    ([one (lit "start") None VU64;
      conflicts [lit "length"] (one (lit "end") None VU64);
      conflicts [lit "end"] (one (lit "length") None VU64);
      flag (lit "gzip") (Some 103);
      flag (lit "append") (Some 97)] ++ progress_output ++ filter_opts_args)
    [filenames].

  (** /repo/crates/pica-cli/src/commands/split.rs:11-48 *)
  Definition split_args : arg_spec := spec
    ([flag (lit "gzip") (Some 103);
      flag (lit "progress") (Some 112);
      one (lit "template") None VString;
      one (lit "outdir") (Some 111) VPath] ++ filter_opts_args)
    [required (unnamed (one (lit "chunk-size") None (VRange 1 4294967295))); filenames].

  (** ** From the arguments to the commands: [FromArgMatches] *)

  (** fields of type [usize] and [u64] with a default value, e.g.
      /repo/crates/pica-cli/src/cli.rs:52-55 limit *)
  Definition number_or (m : list (bytes * bytes)) (id : bytes) (default : N) : N :=
    match get_one m id with
    | Some v => match parse_u64 v with Some n => n | None => default end
    | None => default
    end.
  (** fields of type [u8] with a range and a default value,
      /repo/crates/pica-cli/src/cli.rs:62-66 strsim_threshold *)
  Definition ranged_or (m : list (bytes * bytes)) (id : bytes) (lo hi default : N) : N :=
    match get_one m id with
    | Some v => match parse_range lo hi v with Some n => n | None => default end
    | None => default
    end.
  (** e.g. /repo/crates/pica-cli/src/commands/print.rs:16-18 nf *)
  Definition nf_of (m : list (bytes * bytes)) : option norm_form :=
    match get_one m (lit "translit") with Some v => nf_parse v | None => None end.
  (** [default_value = "-"], e.g. /repo/crates/pica-cli/src/commands/print.rs:28-30 *)
  Definition files_of (m : list (bytes * bytes)) : list bytes :=
    match get_many m (lit "filenames") with [] => [lit "-"] | l => l end.

  (** /repo/crates/pica-cli/src/cli.rs:46-143; filter has no --where *)
  Definition opts_of (m : list (bytes * bytes)) : file_opts :=
    mkFileOpts (get_flag m (lit "skip-invalid")) (number_or m (lit "limit") 0) (get_flag m (lit "ignore-case"))
      (ranged_or m (lit "strsim-threshold") 0 99 75) (get_many m (lit "allow-list")) (get_many m (lit "deny-list"))
      (get_one m (lit "filter-set-column")) (get_one m (lit "filter-set-source")) (get_one m (lit "where"))
      (get_many m (lit "and")) (get_many m (lit "or")) (get_many m (lit "not")).
  (** /repo/crates/pica-cli/src/commands/count.rs:125-145: the order of the tests *)
  Definition mode_of (m : list (bytes * bytes)) : count_mode :=
    if get_flag m (lit "records") then MRecords
    else if get_flag m (lit "fields") then MFields
    else if get_flag m (lit "subfields") then MSubfields
    else if get_flag m (lit "csv") then MCsv (get_flag m (lit "no-header"))
    else if get_flag m (lit "tsv") then MTsv (get_flag m (lit "no-header"))
    else MPlain.
  (** /repo/crates/pica-cli/src/commands/select.rs:36-109 and
      /repo/crates/pica-cli/src/commands/frequency.rs:26-109 *)
  Definition columns_of_args (m : list (bytes * bytes)) : columns :=
    mkColumns (get_or m (lit "query") []) (get_or m (lit "separator") (lit "|")) (get_flag m (lit "squash"))
      (get_flag m (lit "merge")) (get_one m (lit "header")).
  (** /repo/crates/pica-cli/src/commands/concat.rs:113-128: the strategy is used with
      --unique *)
  Definition unique_of (m : list (bytes * bytes)) : option strategy :=
    if get_flag m (lit "unique") then strategy_parse (get_or m (lit "unique-strategy") (lit "idn")) else None.
  (** /repo/crates/pica-cli/src/commands/convert/mod.rs:37-57 from, to *)
  Definition format_of (m : list (bytes * bytes)) (id : bytes) : format :=
    match format_parse (get_or m id (lit "plus")) with Some f => f | None => TPlus end.
  (** /repo/crates/pica-cli/src/commands/select.rs:72-74 quote_style *)
  Definition quotes_of (m : list (bytes * bytes)) : quotes :=
    match quotes_parse (get_or m (lit "quote-style") (lit "necessary")) with Some q => q | None => QNecessary end.
  (** /repo/crates/pica-cli/src/commands/sample.rs:27-30 seed *)
  Definition seed_of (m : list (bytes * bytes)) : option N :=
    match get_one m (lit "seed") with Some v => parse_u64 v | None => None end.

  (** e.g. /repo/crates/pica-cli/src/commands/print.rs:24-26 output *)
  Definition output_of (m : list (bytes * bytes)) : option bytes := get_one m (lit "output").

  (** the commands by name, /repo/crates/pica-cli/src/cli.rs:24-44; the aliases of
      concat and frequency are in commands/concat.rs:14 and commands/frequency.rs:27;
      clap adds help *)
  Definition command_names : list (bytes * list bytes) := [
    (lit "check", []); (lit "completions", []); (lit "concat", [lit "cat"]); (lit "config", []); (lit "convert", []);
    (lit "count", []); (lit "describe", []); (lit "explode", []); (lit "filter", []); (lit "frequency", [lit "freq"]);
    (lit "hash", []); (lit "invalid", []); (lit "partition", []); (lit "print", []); (lit "sample", []); (lit "select", []);
    (lit "slice", []); (lit "split", []); (lit "help", [])].

  (** what is asked for: a command of /repo/crates/pica-cli/src/cli.rs:24-44 Command *)
  Inductive ask :=
  | AskRun (k : command)
  | AskCompletions (shell : bytes) (output : option bytes).

  (** [Subcommand] for /repo/crates/pica-cli/src/cli.rs:24-44 Command: the arguments of a
      command and the command that is made of them *)
  Definition args_of (name : bytes) : option (arg_spec * (list (bytes * bytes) -> option ask)) :=
    let run k := Some (AskRun k) in
    let is n := bytes_eqb name (lit n) in
    if is "check"%string then Some (check_args, fun m => run (KCheck (opts_of m) (get_many m (lit "rule-set")) (get_many m (lit "rule"))
      (get_one m (lit "tags")) (output_of m) (files_of m)))
    else if is "completions"%string then Some (completions_args, fun m => do s <- get_one m (lit "shell"); Some (AskCompletions s (output_of m)))
    else if is "concat"%string then Some (concat_args, fun m => run (KConcat (get_flag m (lit "skip-invalid")) (get_flag m (lit "append"))
      (output_of m) (get_one m (lit "tee")) (unique_of m) (files_of m)))
    else if is "config"%string then Some (config_args_spec, fun m => do n <- get_one m (lit "name"); run (KConfig (mkConfigArgs
      (get_flag m (lit "get")) (get_flag m (lit "unset")) (get_flag m (lit "set")) n (get_one m (lit "value")))))
    else if is "convert"%string then Some (convert_args, fun m => run (KConvert (get_flag m (lit "skip-invalid")) (format_of m (lit "from"))
      (format_of m (lit "to")) (output_of m) (files_of m)))
    else if is "count"%string then Some (count_args, fun m => run (KCount (opts_of m) (get_flag m (lit "append")) (output_of m) (mode_of m)
      (files_of m)))
    else if is "describe"%string then Some (describe_args, fun m => run (KDescribe (opts_of m) (get_one m (lit "discard"))
      (get_one m (lit "keep")) (get_flag m (lit "csv")) (get_flag m (lit "tsv")) (output_of m) (files_of m)))
    else if is "explode"%string then Some (explode_args, fun m => do v <- get_one m (lit "level"); do l <- level_parse v;
      run (KExplode (opts_of m) (get_one m (lit "discard")) (get_one m (lit "keep")) l (get_flag m (lit "gzip")) (output_of m) (files_of m)))
    else if is "filter"%string then Some (filter_args_spec, fun m => run (KFilter (opts_of m)
      (mkFilterOnly (get_or m (lit "filter") []) (get_one m (lit "file")) (get_flag m (lit "invert-match")) (get_one m (lit "keep"))
         (get_one m (lit "discard")))
      (get_flag m (lit "append")) (get_flag m (lit "gzip")) (output_of m) (get_one m (lit "tee")) (files_of m)))
    else if is "frequency"%string then Some (frequency_args, fun m => run (KFrequency (opts_of m) (columns_of_args m) (get_flag m (lit "unique"))
      (number_or m (lit "num") 0) (number_or m (lit "threshold") 0) (get_flag m (lit "reverse")) (nf_of m) (get_flag m (lit "tsv"))
      (output_of m) (files_of m)))
    else if is "hash"%string then Some (hash_args, fun m => run (KHash (opts_of m) (output_of m) (get_flag m (lit "tsv"))
      (get_or m (lit "header") (lit "ppn,hash")) (files_of m)))
    else if is "invalid"%string then Some (invalid_args, fun m => run (KInvalid (output_of m) (files_of m)))
    else if is "partition"%string then Some (partition_args, fun m => do v <- get_one m (lit "path"); do p <- path_parse v;
      run (KPartition (opts_of m) p (get_flag m (lit "gzip")) (get_or m (lit "outdir") (lit ".")) (get_one m (lit "template")) (files_of m)))
    else if is "print"%string then Some (print_args, fun m => run (KPrint (opts_of m) (nf_of m) (output_of m) (files_of m)))
    else if is "sample"%string then Some (sample_args, fun m => do v <- get_one m (lit "sample-size"); do n <- parse_range 1 4294967295 v;
      run (KSample (opts_of m) (get_flag m (lit "gzip")) (output_of m) (draws (seed_of m)) n (files_of m)))
    else if is "select"%string then Some (select_args, fun m => run (KSelect (opts_of m) (columns_of_args m) (get_flag m (lit "unique"))
      (get_flag m (lit "no-empty-columns")) (nf_of m) (quotes_of m) (get_flag m (lit "tsv")) (get_flag m (lit "append")) (output_of m)
      (files_of m)))
    else if is "slice"%string then Some (slice_args, fun m => run (KSlice (opts_of m) (get_flag m (lit "gzip")) (get_flag m (lit "append"))
      (output_of m) (number_or m (lit "start") 0) (number_or m (lit "end") 0) (number_or m (lit "length") 0) (files_of m)))
    else if is "split"%string then Some (split_args, fun m => do v <- get_one m (lit "chunk-size"); do n <- parse_range 1 4294967295 v;
      run (KSplit (opts_of m) (get_flag m (lit "gzip")) (get_or m (lit "outdir") (lit ".")) (get_one m (lit "template")) n (files_of m)))
    else None.

  (** /repo/crates/pica-cli/src/cli.rs:10-22 Args *)
  Definition main_args : arg_spec :=
    mkSpec [one (lit "config") (Some 99) VPath] [] (infer_subcommand command_names) true.

  (** [Args::parse()], /repo/crates/pica-cli/src/main.rs:20: the argument of
      --config and the command.  Without a command, clap prints its help and ends with
      an error; the arguments of help are names of commands (at most one, as the commands
      have no subcommands). *)
  Definition read_line (ts : list bytes) : parsed (option bytes * ask) :=
    pbind (parse_args main_args 0 [] ts) (fun '(m, sub) =>
      match sub with
      | None => PError
      | Some (name, rest) =>
          if bytes_eqb name (lit "help") then
            match rest with
            | [] => PHelp
            | [c] => match find_subcommand command_names c with Some _ => PHelp | None => PError end
            | _ => PError
            end
          else
            match args_of name with
            | None => PError
            | Some (c, make) =>
                pbind (read_args c rest) (fun m' =>
                  match make m' with Some k => PGiven (get_one m (lit "config"), k) | None => PError end)
            end
      end).

  (** ** The program *)

  (** what clap prints for "--help" and "--version", and the completions for a
      shell *)
  Variable help : list bytes -> bytes.
  Variable version : bytes.
  Variable completions : bytes -> bytes.

  (** /repo/crates/pica-cli/src/commands/completions.rs:22-43 Completions::execute;
      writing does not fail once the file is open *)
  Definition completions_on_disk (shell : bytes) (output : option bytes) (w : world) : command_end * world :=
    match open_output (e_writable e) (mkOut output false false) (w_disk w) with
    | None => (CRefused, w)
    | Some d => (CEnded 0, close_output (e_gz_enc e) (mkOut output false false) (completions shell) (with_disk w d))
    end.

  (** /repo/crates/pica-cli/src/main.rs:19-63 main, from the command line on; errors
      of the command line end the program with status 2, as [CRefused] does, help and
      version with status 0 *)
  Definition program (ts : list bytes) (w : world) : option (command_end * world) :=
    let print t := Some (CEnded 0, mkWorld (w_disk w) (w_stdin w) (w_stdout w ++ t)) in
    match read_line ts with
    | PError => Some (CRefused, w)
    | PHelp => print (help ts)
    | PVersion => print version
    | PGiven (c, AskRun k) => run e (mkInvocation c k) w
    | PGiven (c, AskCompletions shell output) =>
        let '(p, n) := place e (mkInvocation c (KInvalid None [])) in
        match config_start (e_config_toml e) p (file_on (w_disk w) n) with
        | LFails => Some (CRefused, w)
        | LPanics => Some (CPanicked, w)
        | LConfig _ => Some (completions_on_disk shell output w)
        end
    end.
End Args.

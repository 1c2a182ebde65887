(** * From the arguments of a command to its run

    Model of what happens in /repo/crates/pica-cli/src before the record loop:
    reading predicate lists, allow and deny lists, and expressions.  Not
    modelled: the decisions of clap (conflicting or unknown options), files that
    cannot be opened, reading the tables (a table is given as read by polars). *)

From Coq Require Import String.
From Verif Require Import Bytes Winnow RecordModel TagOccModel Utf8Model ByteRecordModel ReaderModel
  MatcherModel StateParser MatcherParserModel BuilderModel PathModel FmtModel QueryModel CliModel CheckModel
  OptionsModel TableModel.

(** /repo/crates/pica-cli/src/commands/filter.rs:14-158 Filter: the arguments.
    [fa_skip] is the flag or the option of the configuration; output options
    are left out. *)
Record filter_args := mkFilterArgs {
  fa_skip : bool;
  fa_limit : N;
  fa_invert : bool;
  fa_ci : bool;
  fa_keep : option bytes;
  fa_discard : option bytes;
  fa_expr_file : option bytes;
  fa_allow : list table;
  fa_deny : list table;
  fa_column : option bytes;
  fa_source : option bytes;
  fa_and : list bytes;
  fa_or : list bytes;
  fa_not : list bytes;
  fa_filter : bytes;
  fa_names : list bytes }.

(** /repo/crates/pica-cli/src/cli.rs:46-143 FilterOpts: the arguments *)
Record opts_args := mkOptsArgs {
  oa_ci : bool;
  oa_limit : N;
  oa_where : option bytes;
  oa_and : list bytes;
  oa_or : list bytes;
  oa_not : list bytes;
  oa_allow : list table;
  oa_deny : list table;
  oa_column : option bytes;
  oa_source : option bytes }.

(** /repo/crates/pica-cli/src/commands/select.rs:38-109 Select and
    /repo/crates/pica-cli/src/commands/frequency.rs:28-109 Frequency: the
    arguments the two have in common *)
Record table_args := mkTableArgs {
  ta_opts : opts_args;
  ta_query : bytes;
  ta_separator : bytes;
  ta_squash : bool;
  ta_merge : bool;
  ta_header : option bytes }.

(** /repo/crates/pica-cli/src/commands/select.rs:137-144,
    /repo/crates/pica-cli/src/commands/frequency.rs:129-136 *)
Definition table_options (a : table_args) : query_options :=
  mkQueryOptions (oa_ci (ta_opts a)) (ta_separator a) (ta_squash a) (ta_merge a).

(** /repo/crates/pica-cli/src/commands/select.rs:159-161,
    /repo/crates/pica-cli/src/commands/frequency.rs:199-201 *)
Definition table_header (a : table_args) : option (list bytes) :=
  match ta_header a with Some h => Some (map str_trim (split_on 44 h)) | None => None end.

(** how the program ends: with an error before the first record is read, or as
    the record loop ends *)
Inductive main_end (S : Type) :=
| Refused
| Ran (x : ending S).
Arguments Refused {S}. Arguments Ran {S}.

(** /repo/crates/pica-cli/src/main.rs:50-63 main *)
Definition main_code {S} (x : main_end S) : option N :=
  match x with Refused => Some 2 | Ran x => exit_code x end.

Section Prepare.
  (** as in CliModel.v: [O] with the similarity threshold of the command, [Od]
      with the default one *)
  Variables O Od : oracles.
  (** /repo/crates/pica-cli/src/translit.rs:45-63 translit *)
  Variable transform : bytes -> bytes.
  (** the contents of files, of the standard input for "-" *)
  Variable content : bytes -> bytes.

  (** the value of --filter-set-source, by /repo/src/path.rs:71-78 from_str; clap
      reads it before the command starts, in the same thread *)
  Definition source_parse (s : levels) (t : option bytes) : presult (option path) :=
    match t with
    | None => (Some (Some None), s)
    | Some t => and_then (path_new Od s t) (fun p s' => (Some (Some (Some p)), s'))
    end.

  (** /repo/crates/pica-cli/src/commands/filter.rs:190-207: the expression;
      [None] if the file is not UTF-8 *)
  Definition filter_expr (a : filter_args) : option bytes :=
    match fa_expr_file a with
    | Some name => if utf8_valid (content name) then Some (content name) else None
    | None => Some (fa_filter a)
    end.

  (** /repo/crates/pica-cli/src/commands/filter.rs:161-218 *)
  Definition filter_prepare (a : filter_args) : presult filter_cmd :=
    and_then (source_parse fresh (fa_source a)) (fun source s =>
    match parse_predicates (fa_discard a) with
    | None => (Some None, s)
    | Some discard =>
    match parse_predicates (fa_keep a) with
    | None => (Some None, s)
    | Some keep =>
    match filter_set_build source (fa_column a) (fa_allow a) (fa_deny a) with
    | None => (Some None, s)
    | Some fs =>
    match filter_expr a with
    | None => (Some None, s)
    | Some e =>
        and_then (builder_run O transform s e [CallAnd (fa_and a); CallOr (fa_or a); CallNot (fa_not a)])
          (fun m s' =>
             (Some (Some (mkFilter fs m (fa_ci a) (fa_invert a) discard keep (fa_limit a))), s'))
    end end end end).

  (** the inputs: file names with contents *)
  Definition filter_inputs (a : filter_args) : list (bytes * bytes) :=
    map (fun n => (n, content n))
      (filter_names (match fa_expr_file a with Some _ => true | None => false end) (fa_filter a) (fa_names a)).

  (** /repo/crates/pica-cli/src/commands/filter.rs:161-273 Filter::execute *)
  Definition filter_execute (a : filter_args) : option (main_end filter_state) :=
    match fst (filter_prepare a) with
    | None => None
    | Some None => Some Refused
    | Some (Some c) => do x <- filter_run O Od (fa_skip a) c (filter_inputs a); Some (Ran x)
    end.

  (** The beginning of the other commands, e.g.
      /repo/crates/pica-cli/src/commands/count.rs:71-83: the filter set, then the
      matcher *)
  Definition opts_prepare (a : opts_args) : presult filter_opts :=
    and_then (source_parse fresh (oa_source a)) (fun source s =>
    match filter_set_build source (oa_column a) (oa_allow a) (oa_deny a) with
    | None => (Some None, s)
    | Some fs =>
        and_then (filter_opts_matcher O transform None (oa_where a) (oa_and a) (oa_or a) (oa_not a) s)
          (fun m s' => (Some (Some (mkOpts fs m (oa_ci a) (oa_limit a))), s'))
    end).

  (** a command with the shared options and the run [run] of its loop *)
  Definition opts_execute {S} (run : filter_opts -> option (ending S)) (a : opts_args) : option (main_end S) :=
    match fst (opts_prepare a) with
    | None => None
    | Some None => Some Refused
    | Some (Some o) => do x <- run o; Some (Ran x)
    end.

  (** /repo/crates/pica-cli/src/commands/select.rs:136-152,
      /repo/crates/pica-cli/src/commands/frequency.rs:118-125: the options, then
      the query *)
  Definition table_prepare (a : table_args) : presult (filter_opts * query) :=
    and_then (opts_prepare (ta_opts a)) (fun o s =>
    and_then (query_new O s (transform (ta_query a))) (fun q s' => (Some (Some (o, q)), s'))).

  (** /repo/crates/pica-cli/src/commands/select.rs:129-240,
      /repo/crates/pica-cli/src/commands/frequency.rs:112-242: preparation and
      the run of the loop *)
  Definition table_execute {S} (run : query -> filter_opts -> option (ending S)) (a : table_args)
    : option (main_end S) :=
    match fst (table_prepare a) with
    | None => None
    | Some None => Some Refused
    | Some (Some (o, q)) => do x <- run q o; Some (Ran x)
    end.

  Variable T : text_fns.
  Variable lossy : bytes -> bytes.
  Variable hash : list bytes -> N.
  Variable order : ftable -> ftable.

  (** /repo/crates/pica-cli/src/commands/select.rs:129-240 Select::execute *)
  Definition select_execute (a : table_args) (unique no_empty : bool) (nf : option (bytes -> bytes)) (skip : bool)
      (inputs : list (bytes * bytes)) : option (main_end (list (list bytes) * bool)) :=
    table_execute (fun q o => select_run O Od T lossy hash
        (mkSelect q (table_options a) unique no_empty (table_header a) nf) skip o inputs) a.

  (** /repo/crates/pica-cli/src/commands/frequency.rs:112-242 Frequency::execute *)
  Definition freq_execute (a : table_args) (unique : bool) (num threshold : N) (reverse : bool)
      (nf : bytes -> bytes) (skip : bool) (inputs : list (bytes * bytes))
    : option (main_end (list (list bytes) * bool)) :=
    table_execute (fun q o => freq_run O Od T lossy order
        (mkFreq q (table_options a) unique num threshold reverse (table_header a) nf) skip o inputs) a.
End Prepare.

(** * Specification of the whole program: what the arguments of a run mean

    [says] gives a command its meaning: a relation between the contents of its
    inputs, the status of the run and the world after it.  The effects are those of
    EndSpec.v, DirSpec.v and RuleSpec.v. *)

From Coq Require Import String Permutation.
From Verif Require Import Bytes RecordModel RecordSpec Utf8Spec ByteRecordModel ByteRecordSpec ReaderModel MatcherModel MatcherSpec GrammarSpec
  PathModel FmtModel QueryModel QuerySpec QueryGrammarSpec CliModel CliSpec CheckModel CsvSpec ConvertModel ConvertSpec CsvModel OptionsModel
  PrepareModel PrepareSpec IoModel IoSpec TableSpec DiskModel DiskSpec DirModel EndSpec RuleModel RuleSpec MainModel.
From Verif Require MainSpec DirSpec.

(** ** The configuration *)

(** The configuration of a run: the one in its file; without a file, nothing is
    configured.  A file that is given with --config and is no text counts as no
    file. *)
Inductive settings (e : env) (i : invocation) (w : world) : config -> Prop :=
| se_file : forall n t c, MainSpec.config_name e i = Some n -> disk_get (w_disk w) n = Some t -> is_utf8 t ->
    e_config_toml e t = Some c -> settings e i w c
| se_missing : forall n, MainSpec.config_name e i = Some n -> disk_get (w_disk w) n = None -> settings e i w (mkConfig false None)
| se_nowhere : MainSpec.config_name e i = None -> settings e i w (mkConfig false None)
| se_illegible : forall n t, in_config i = Some n -> disk_get (w_disk w) n = Some t -> ~ is_utf8 t ->
    settings e i w (mkConfig false None).

(** --skip-invalid, or its configuration *)
Definition skips (c : config) (flag : bool) : bool := flag || cf_skip_invalid c.

(** the normal form, if there is one *)
Definition normal (e : env) (nf : option norm_form) (b : bytes) : bytes :=
  match nf with Some f => e_nf e f b | None => b end.

(** the external functions of matchers: with the threshold of the options, and with
    the default one *)
Definition with_threshold (e : env) (o : file_opts) : oracles := e_oracles e (e_hundredth e (o_threshold o)).
Definition usual (e : env) : oracles := e_oracles e strsim_default.

(** ** The arguments, with the lists that are on the disk *)

Definition list_in (e : env) (w : world) (n : bytes) (t : table) : Prop :=
  exists b, disk_get (w_disk w) n = Some b /\ e_polars e n b = Some t.

Record given (e : env) (w : world) (o : file_opts) (a : opts_args) : Prop := {
  gi_ci : oa_ci a = o_ci o;
  gi_limit : oa_limit a = o_limit o;
  gi_where : oa_where a = o_where o;
  gi_and : oa_and a = o_and o;
  gi_or : oa_or a = o_or o;
  gi_not : oa_not a = o_not o;
  gi_column : oa_column a = o_column o;
  gi_source : oa_source a = o_source o;
  gi_allow : Forall2 (list_in e w) (o_allow o) (oa_allow a);
  gi_deny : Forall2 (list_in e w) (o_deny o) (oa_deny a) }.

(** filter; the file of the expression must be there *)
Record given_filter (e : env) (w : world) (c : config) (o : file_opts) (f : filter_only) (names : list bytes) (a : filter_args)
  : Prop := {
  gf_skip : fa_skip a = skips c (o_skip o);
  gf_ci : fa_ci a = o_ci o;
  gf_limit : fa_limit a = o_limit o;
  gf_and : fa_and a = o_and o;
  gf_or : fa_or a = o_or o;
  gf_not : fa_not a = o_not o;
  gf_column : fa_column a = o_column o;
  gf_source : fa_source a = o_source o;
  gf_allow : Forall2 (list_in e w) (o_allow o) (fa_allow a);
  gf_deny : Forall2 (list_in e w) (o_deny o) (fa_deny a);
  gf_invert : fa_invert a = fi_invert f;
  gf_keep : fa_keep a = fi_keep f;
  gf_discard : fa_discard a = fi_discard f;
  gf_expr : fa_filter a = fi_expr f;
  gf_expr_file : fa_expr_file a = fi_expr_file f;
  gf_there : forall n, fi_expr_file f = Some n -> disk_get (w_disk w) n <> None;
  gf_names : fa_names a = names }.

(** select and frequency *)
Record given_table (e : env) (w : world) (o : file_opts) (q : columns) (a : table_args) : Prop := {
  gt_opts : given e w o (ta_opts a);
  gt_query : ta_query a = co_query q;
  gt_separator : ta_separator a = co_separator q;
  gt_squash : ta_squash a = co_squash q;
  gt_merge : ta_merge a = co_merge q;
  gt_header : ta_header a = co_header q }.

(** the input files: the argument in the place of filter's expression is one, if
    there is an expression file *)
Inductive inputs_of (k : command) : list bytes -> Prop :=
| io_names : (forall o f append gzip output tee names, k = KFilter o f append gzip output tee names ->
                fi_expr_file f = None \/ fi_expr f = []) -> inputs_of k (MainSpec.input_names k)
| io_only : forall o f append gzip output tee x, k = KFilter o f append gzip output tee [lit "-"] ->
    fi_expr_file f = Some x -> fi_expr f <> [] -> inputs_of k [fi_expr f]
| io_more : forall o f append gzip output tee names x, k = KFilter o f append gzip output tee names ->
    fi_expr_file f = Some x -> fi_expr f <> [] -> names <> [lit "-"] -> inputs_of k (fi_expr f :: names).

(** ** What the commands mean *)

(** the outputs of commands that write to [--output] and [--tee] *)
Definition both_outputs (append gzip : bool) (out tee : option bytes) (text : bytes) : list (output * bytes) :=
  map (fun o => (builder_output (mkWB append gzip) o, text)) (out :: match tee with Some n => [Some n] | None => [] end).

Section Says.
  Variable e : env.
  (** whether the limits of the parsers are kept, see GrammarSpec.v *)
  Variable strict : bool.
  Variable c : config.
  Variable w : world.

  (** the shared options mean the condition [M] and the values [V] for the lists *)
  Definition options_say (o : file_opts) (a : opts_args) (M : meaning field) (V : record -> list bytes -> Prop) : Prop :=
    given e w o a /\ opts_say (with_threshold e o) (usual e) strict (normal e (cf_normalization c)) a M V.

  (** the query means [Ms] *)
  Definition table_means (o : file_opts) (q : columns) (a : table_args) (M : meaning field) (V : record -> list bytes -> Prop)
      (Ms : list (nat * qmeaning)) (header : option (list bytes)) : Prop :=
    given_table e w o q a
    /\ opts_say (with_threshold e o) (usual e) strict (normal e (cf_normalization c)) (ta_opts a) M V
    /\ table_says (with_threshold e o) (e_text e) strict (normal e (cf_normalization c)) a Ms header.

  (** the rule files *)
  Definition rule_files_say (rules filter : list bytes) (tags output : option bytes) (ms : list set_meaning) : Prop :=
    rules_say (e_text e) (e_lossy e) (e_oracles e) (e_int_f64 e) (e_strptime e) (e_is_nf e) (running output w) (e_polars e)
      strict (e_rules_toml e) (normal e (cf_normalization c)) (e_patterns e) rules filter tags ms.

  Definition wrote (outs : list (output * bytes)) (w' : world) : Prop := received (e_gz_enc e) outs w w'.

  Inductive says : command -> (list (bytes * bytes) -> N -> world -> Prop) -> Prop :=
  | sy_check : forall o rules filter tags output names a M V ms0,
      options_say o a M V -> rule_files_say rules filter tags output ms0 ->
      says (KCheck o rules filter tags output names) (fun cs st w' => exists ms text,
        rule_files_say rules filter tags output ms
        /\ rules_effect a M V (skips c (o_skip o)) cs (e_lossy e) ms output st text
        /\ wrote [(mkOut output false false, text)] w')
  | sy_concat : forall s append output tee unique names,
      says (KConcat s append output tee unique names) (fun cs st w' => exists text,
        concat_effect (e_sha e) (e_lossy e) unique (skips c s) cs st text
        /\ wrote (both_outputs append false output tee text) w')
  | sy_convert : forall s to output names,
      says (KConvert s TPlus to output names) (fun cs st w' => exists recs err text,
        reads (skips c s) cs recs err /\ st = status_of err
        /\ (err = None -> converted (e_lossy e) (e_esc e) to recs text)
        /\ wrote [(convert_output to output, text)] w')
  | sy_count : forall o append output m names a M V,
      options_say o a M V ->
      says (KCount o append output m names) (fun cs st w' => exists text,
        count_effect a M V (skips c (o_skip o)) cs m st text /\ wrote [(mkOut output append false, text)] w')
  | sy_describe : forall o discard keep csv tsv output names a M V D K f,
      options_say o a M V -> fields_option discard D -> fields_option keep K -> DirSpec.table_format csv tsv output f ->
      says (KDescribe o discard keep csv tsv output names) (fun cs st w' =>
        (exists recs err, opts_records a M V (skips c (o_skip o)) cs recs (Some err) /\ st = 2 /\ w' = w)
        \/ exists text, describe_effect a M V (skips c (o_skip o)) cs D K (e_frame e f) text /\ st = 0
             /\ wrote [(mkOut output false false, text)] w')
  | sy_explode : forall o discard keep l gzip output names a M V D K,
      options_say o a M V -> fields_option discard D -> fields_option keep K ->
      says (KExplode o discard keep l gzip output names) (fun cs st w' => exists text,
        explode_effect a M V (skips c (o_skip o)) cs l D K st text
        /\ wrote [(builder_output (mkWB false gzip) output, text)] w')
  | sy_filter : forall o f append gzip output tee names a M D K V,
      given_filter e w c o f names a -> append && gzip = false ->
      filter_says (with_threshold e o) (usual e) strict (normal e (cf_normalization c)) (before w) a M D K V ->
      says (KFilter o f append gzip output tee names) (fun cs st w' => exists all e0 sel recs err texts,
        reads (fa_skip a) cs all e0
        /\ chosen (fun r => admits V (fa_allow a) (fa_deny a) (fa_column a) r
                            /\ (if fa_invert a then ~ M (fa_ci a) r else M (fa_ci a) r)) all sel
        /\ limited (fa_limit a) sel e0 recs err
        /\ Forall2 (remaining_text D K) recs texts
        /\ st = status_of err
        /\ wrote (both_outputs append gzip output tee (concat texts)) w')
  | sy_frequency : forall o q unique num threshold reverse nf tsv output names a M V Ms header,
      table_means o q a M V Ms header ->
      says (KFrequency o q unique num threshold reverse nf tsv output names) (fun cs st w' => exists text,
        frequency_effect a M V Ms header (e_lossy e) (skips c (o_skip o)) cs unique num threshold reverse (normal e nf) tsv st text
        /\ wrote [(mkOut output false false, text)] w')
  | sy_hash : forall o output tsv header names a M V h1 h2,
      options_say o a M V -> header_text (Some header) (Some [h1; h2]) ->
      says (KHash o output tsv header names) (fun cs st w' => exists text,
        hash_effect a M V (skips c (o_skip o)) cs (e_sha e) (e_lossy e) tsv h1 h2 st text
        /\ wrote [(mkOut output false false, text)] w')
  | sy_invalid : forall output names,
      says (KInvalid output names) (fun cs st w' => exists ls valid invalid,
        input_lines cs ls /\ Split (map snd ls) valid invalid
        /\ Forall (fun l => exists r, record_text r l) valid /\ Forall (fun l => forall r, ~ record_text r l) invalid
        /\ st = 0 /\ wrote [(mkOut output false false, concat invalid)] w')
  | sy_partition : forall o p gzip outdir template names a M V,
      options_say o a M V -> e_dir_ok e outdir = true ->
      says (KPartition o p gzip outdir template names) (fun cs st w' => exists all err sel,
        reads (skips c (o_skip o)) cs all err /\ chosen (meant a M V) all sel /\ st = status_of err
        /\ DirSpec.sorted_out (e_gz_enc e) (with_threshold e o) (e_lossy e) template gzip outdir (o_ci o) p sel w w')
  | sy_print : forall o nf output names a M V,
      options_say o a M V ->
      says (KPrint o nf output names) (fun cs st w' => exists text,
        print_effect a M V (skips c (o_skip o)) cs (normal e nf) st text /\ wrote [(mkOut output false false, text)] w')
  | sy_sample : forall o gzip output draw size names a M V,
      options_say o a M V ->
      says (KSample o gzip output draw size names) (fun cs st w' => exists text,
        sample_effect a M V (skips c (o_skip o)) cs size st text
        /\ wrote [(builder_output (mkWB false gzip) output, text)] w')
  | sy_select : forall o q unique no_empty nf quote tsv append output names a M V Ms header,
      table_means o q a M V Ms header ->
      says (KSelect o q unique no_empty nf quote tsv append output names) (fun cs st w' => exists text,
        select_effect a M V Ms header (e_lossy e) (skips c (o_skip o)) cs (e_hash e) unique no_empty
          (match nf with Some f => Some (e_nf e f) | None => None end) tsv st text
        /\ wrote [(mkOut output append false, text)] w')
  | sy_slice : forall o gzip append output start end_ len names a M V,
      options_say o a M V -> append && gzip = false ->
      says (KSlice o gzip append output start end_ len names) (fun cs st w' => exists stop text,
        slice_stop start end_ len stop
        /\ slice_effect a M V (skips c (o_skip o)) cs start stop st text
        /\ wrote [(builder_output (mkWB append gzip) output, text)] w')
  | sy_split : forall o gzip outdir template size names a M V,
      options_say o a M V -> e_dir_ok e outdir = true ->
      says (KSplit o gzip outdir template size names) (fun cs st w' => exists recs err chunks fs,
        opts_records a M V (skips c (o_skip o)) cs recs err /\ st = status_of err
        /\ chunked size recs chunks /\ DirSpec.chunk_texts template gzip outdir chunks fs
        /\ DirSpec.only_files (e_gz_enc e) gzip fs w w').
End Says.

(** ** What the theorems are about *)

(** the libraries do what they promise *)
Record lawful (e : env) : Prop := {
  lw_regex : forall x ci, regexes_compile (e_oracles e x) ci;
  lw_lossy : forall v, e_lossy e v = [] <-> v = [];
  lw_utf8 : keeps_utf8 (e_lossy e);
  lw_numeric : forall v tsv, e_numeric e v = true -> Forall (plain_byte (delimiter tsv)) v;
  lw_toml : forall b v, e_rules_toml e b = Some v -> tidy v;
  lw_freq : forall t, Permutation (e_freq_order e t) t;
  lw_writer : forall t, Permutation (e_writer_order e t) t;
  lw_tag : forall t, Permutation (e_tag_order e t) t;
  lw_rule : forall t, Permutation (e_rule_order e t) t;
  lw_link : forall t, Permutation (e_link_order e t) t;
  lw_rules : forall t, Permutation (e_rules_order e t) t }.

(** the query and the header, for themselves *)
Definition query_means (e : env) (strict : bool) (c : config) (o : file_opts) (q : columns) (Ms : list (nat * qmeaning))
    (header : option (list bytes)) : Prop :=
  exists a, ta_query a = co_query q /\ ta_header a = co_header q
    /\ table_says (with_threshold e o) (e_text e) strict (normal e (cf_normalization c)) a Ms header.

(** The cases in which a command does what it is to do; for the others see C34,
    C37, C52, C58, C65, C74 and C95: records must be UTF-8 to be printed or converted to
    XML, headers must fit, values of different names must have different files, and so
    on.  Not covered are convert from other formats than PICA+, and config. *)
Definition covered (e : env) (c : config) (k : command) (cs : list (bytes * bytes)) : Prop :=
  match k with
  | KConcat s _ _ _ unique _ =>
      forall st recs err, unique = Some st -> reads (skips c s) cs recs err -> Forall (has_key (e_sha e) (e_lossy e) st) recs
  | KConfig _ => False
  | KConvert s from to _ _ =>
      from = TPlus
      /\ (to = TXml -> forall recs err, reads (skips c s) cs recs err -> Forall (fun r => utf8_record (br_record r)) recs)
  | KFrequency o q _ _ _ _ _ _ _ _ =>
      forall strict Ms header, query_means e strict c o q Ms header -> header_fits header (columns_of Ms + 1)
  | KHash _ _ _ header _ => exists h1 h2, header_text (Some header) (Some [h1; h2])
  | KPartition o p gzip outdir template _ =>
      o_limit o = 0 /\ opt_sm_wf (with_threshold e o) (o_ci o) (p_sub p)
      /\ (forall every r1 r2 v1 v2 n, reads true cs every None -> In r1 every -> In r2 every ->
            has_value (with_threshold e o) (o_ci o) p v1 (br_record r1) ->
            has_value (with_threshold e o) (o_ci o) p v2 (br_record r2) ->
            DirSpec.file_for template gzip outdir (e_lossy e v1) n -> DirSpec.file_for template gzip outdir (e_lossy e v2) n ->
            v1 = v2)
  | KPrint o _ _ _ =>
      forall recs err, reads (skips c (o_skip o)) cs recs err -> Forall (fun r => utf8_record (br_record r)) recs
  | KSelect o q _ _ _ quote _ _ _ _ =>
      quote <> QNever
      /\ (forall strict Ms header, query_means e strict c o q Ms header -> header_fits header (columns_of Ms))
  | KSlice o _ _ _ start end_ len _ =>
      (exists stop, slice_stop start end_ len stop) /\ (len = 0 \/ skips c (o_skip o) = false)
  | KSplit o _ _ template size _ =>
      DirSpec.placeholder template /\ 1 <= size
      /\ (forall recs err, reads (skips c (o_skip o)) cs recs err -> N.of_nat (length recs) <= 4294967296)
  | _ => True
  end.

(** the files that a command writes, given the contents of its inputs *)
Inductive target (e : env) (k : command) (cs : list (bytes * bytes)) : bytes -> Prop :=
| tg_output : forall n, In n (MainSpec.output_names k) -> target e k cs n
| tg_chunk : forall o gzip outdir template size names j n, k = KSplit o gzip outdir template size names ->
    DirSpec.chunk_file template gzip outdir j n -> target e k cs n
| tg_value : forall o p gzip outdir template names every r v n, k = KPartition o p gzip outdir template names ->
    reads true cs every None -> In r every -> has_value (with_threshold e o) (o_ci o) p v (br_record r) ->
    DirSpec.file_for template gzip outdir (e_lossy e v) n -> target e k cs n.

(** The inputs of the command have the contents [cs]; no file is written that is
    used, nor is a file written twice. *)
Definition proper (e : env) (w : world) (k : command) (cs : list (bytes * bytes)) : Prop :=
  (exists names, inputs_of k names /\ available (e_gz_dec e) (w_disk w) (w_stdin w) names cs)
  /\ (forall n, target e k cs n -> ~ MainSpec.uses e w k n)
  /\ NoDup (MainSpec.output_names k).

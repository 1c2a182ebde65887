(** * Commands from the texts of their arguments to the contents of the files: C88

    Each command has two theorems.  The first: if the arguments mean something,
    and the inputs can be read as [cs], and no output is an input, the command
    yields the status and the text of its specification (EndSpec.v).  The second,
    with suffix [_read]: if a command ends with a status, its arguments mean
    something, and it did what they say. *)

From Coq Require Import String Permutation.
From Verif Require Import Bytes Winnow RecordModel RecordSpec TagOccModel Utf8Model ByteRecordModel ByteRecordSpec ReaderModel
  MatcherModel MatcherSpec StateParser MatcherParserModel BuilderModel PathModel FmtModel QueryModel CliModel CliSpec TableModel
  ExplodeModel CheckModel CheckSpec CsvModel CsvSpec ConvertModel ConvertSpec OptionsModel PrepareModel IoModel IoSpec WriteSpec GrammarSpec
  QuerySpec QueryGrammarSpec PrepareSpec TableSpec DiskModel DiskSpec DirModel EndSpec EndProofs EndTableProofs PropertiesMatcher PropertiesCli
  PropertiesQuery PropertiesIo PropertiesPrepare PropertiesDisk PropertiesDir.

(** count: the numbers, if everything could be read *)
Theorem C88_count_end_to_end : forall gz_enc gz_dec writable O Od transform a,
  regexes_compile O (oa_ci a) -> regexes_compile Od false ->
  forall M V append output m skip names w cs,
  opts_say O Od true transform a M V -> available gz_dec (w_disk w) (w_stdin w) names cs -> (forall n, output = Some n -> ~ In n names) ->
  exists st text, count_effect a M V skip cs m st text
    /\ yields gz_enc writable (count_on_disk gz_enc gz_dec writable O Od transform a append output m skip names w) st
         [(mkOut output append false, text)] w.
Proof. exact count_accepted. Qed.
Print Assumptions C88_count_end_to_end.
Theorem C88_count_end_to_end_read : forall gz_enc gz_dec writable O Od transform a,
  regexes_compile O (oa_ci a) -> regexes_compile Od false ->
  forall append output m skip names w cs st w', available gz_dec (w_disk w) (w_stdin w) names cs -> (forall n, output = Some n -> ~ In n names) ->
  count_on_disk gz_enc gz_dec writable O Od transform a append output m skip names w = Some (CEnded st, w') ->
  exists M V text, opts_say O Od false transform a M V /\ count_effect a M V skip cs m st text
    /\ received gz_enc [(mkOut output append false, text)] w w'.
Proof. exact count_reads. Qed.
Print Assumptions C88_count_end_to_end_read.

(** print of records that are UTF-8 *)
Theorem C88_print_end_to_end : forall gz_enc gz_dec writable O Od transform a,
  regexes_compile O (oa_ci a) -> regexes_compile Od false ->
  forall M V nf output skip names w cs all e0,
  opts_say O Od true transform a M V -> available gz_dec (w_disk w) (w_stdin w) names cs -> (forall n, output = Some n -> ~ In n names) ->
  reads skip cs all e0 -> Forall (fun r => meant a M V (br_record r) -> utf8_record (br_record r)) all ->
  exists st text, print_effect a M V skip cs nf st text
    /\ yields gz_enc writable (print_on_disk gz_enc gz_dec writable O Od transform a nf output skip names w) st
         [(mkOut output false false, text)] w.
Proof. exact print_accepted. Qed.
Print Assumptions C88_print_end_to_end.
Theorem C88_print_end_to_end_read : forall gz_enc gz_dec writable O Od transform a,
  regexes_compile O (oa_ci a) -> regexes_compile Od false ->
  forall nf output skip names w cs st w' all e0, available gz_dec (w_disk w) (w_stdin w) names cs -> (forall n, output = Some n -> ~ In n names) ->
  reads skip cs all e0 -> Forall (fun r => utf8_record (br_record r)) all ->
  print_on_disk gz_enc gz_dec writable O Od transform a nf output skip names w = Some (CEnded st, w') ->
  exists M V text, opts_say O Od false transform a M V /\ print_effect a M V skip cs nf st text
    /\ received gz_enc [(mkOut output false false, text)] w w'.
Proof. exact print_reads. Qed.
Print Assumptions C88_print_end_to_end_read.

(** slice: the records from [start] to [stop] *)
Theorem C88_slice_end_to_end : forall gz_enc gz_dec writable O Od transform a,
  regexes_compile O (oa_ci a) -> regexes_compile Od false ->
  forall M V gzip append output start end_ len stop skip names w cs,
  opts_say O Od true transform a M V -> append && gzip = false ->
  available gz_dec (w_disk w) (w_stdin w) names cs -> (forall n, output = Some n -> ~ In n names) -> slice_stop start end_ len stop -> len = 0 \/ skip = false ->
  exists st text, slice_effect a M V skip cs start stop st text
    /\ yields gz_enc writable (slice_on_disk gz_enc gz_dec writable O Od transform a gzip append output start end_ len skip names w) st
         [(builder_output (mkWB append gzip) output, text)] w.
Proof. exact slice_accepted. Qed.
Print Assumptions C88_slice_end_to_end.
Theorem C88_slice_end_to_end_read : forall gz_enc gz_dec writable O Od transform a,
  regexes_compile O (oa_ci a) -> regexes_compile Od false ->
  forall gzip append output start end_ len stop skip names w cs st w',
  available gz_dec (w_disk w) (w_stdin w) names cs -> (forall n, output = Some n -> ~ In n names) -> slice_stop start end_ len stop -> len = 0 \/ skip = false ->
  slice_on_disk gz_enc gz_dec writable O Od transform a gzip append output start end_ len skip names w = Some (CEnded st, w') ->
  exists M V text, opts_say O Od false transform a M V /\ slice_effect a M V skip cs start stop st text
    /\ received gz_enc [(builder_output (mkWB append gzip) output, text)] w w'.
Proof. exact slice_reads. Qed.
Print Assumptions C88_slice_end_to_end_read.

(** sample: some of the records, as many as asked for *)
Theorem C88_sample_end_to_end : forall gz_enc gz_dec writable O Od transform a,
  regexes_compile O (oa_ci a) -> regexes_compile Od false ->
  forall M V gzip output draw size skip names w cs,
  opts_say O Od true transform a M V -> available gz_dec (w_disk w) (w_stdin w) names cs -> (forall n, output = Some n -> ~ In n names) ->
  exists st text, sample_effect a M V skip cs size st text
    /\ yields gz_enc writable (sample_on_disk gz_enc gz_dec writable O Od transform a gzip output draw size skip names w) st
         [(builder_output (mkWB false gzip) output, text)] w.
Proof. exact sample_accepted. Qed.
Print Assumptions C88_sample_end_to_end.
Theorem C88_sample_end_to_end_read : forall gz_enc gz_dec writable O Od transform a,
  regexes_compile O (oa_ci a) -> regexes_compile Od false ->
  forall gzip output draw size skip names w cs st w', available gz_dec (w_disk w) (w_stdin w) names cs -> (forall n, output = Some n -> ~ In n names) ->
  sample_on_disk gz_enc gz_dec writable O Od transform a gzip output draw size skip names w = Some (CEnded st, w') ->
  exists M V text, opts_say O Od false transform a M V /\ sample_effect a M V skip cs size st text
    /\ received gz_enc [(builder_output (mkWB false gzip) output, text)] w w'.
Proof. exact sample_reads. Qed.
Print Assumptions C88_sample_end_to_end_read.

(** explode: the parts that fulfil the condition, with the fields that remain *)
Theorem C88_explode_end_to_end : forall gz_enc gz_dec writable O Od transform a,
  regexes_compile O (oa_ci a) -> regexes_compile Od false ->
  forall M V D K discard keep l gzip output skip names w cs,
  opts_say O Od true transform a M V -> fields_option discard D -> fields_option keep K ->
  available gz_dec (w_disk w) (w_stdin w) names cs -> (forall n, output = Some n -> ~ In n names) ->
  exists st text, explode_effect a M V skip cs l D K st text
    /\ yields gz_enc writable (explode_on_disk gz_enc gz_dec writable O Od transform a discard keep l gzip output skip names w) st
         [(builder_output (mkWB false gzip) output, text)] w.
Proof. exact explode_accepted. Qed.
Print Assumptions C88_explode_end_to_end.
Theorem C88_explode_end_to_end_read : forall gz_enc gz_dec writable O Od transform a,
  regexes_compile O (oa_ci a) -> regexes_compile Od false ->
  forall discard keep l gzip output skip names w cs st w', available gz_dec (w_disk w) (w_stdin w) names cs -> (forall n, output = Some n -> ~ In n names) ->
  explode_on_disk gz_enc gz_dec writable O Od transform a discard keep l gzip output skip names w = Some (CEnded st, w') ->
  exists M V D K text, opts_say O Od false transform a M V /\ fields_option discard D /\ fields_option keep K
    /\ explode_effect a M V skip cs l D K st text
    /\ received gz_enc [(builder_output (mkWB false gzip) output, text)] w w'.
Proof. exact explode_reads. Qed.
Print Assumptions C88_explode_end_to_end_read.

(** hash: a row for each record *)
Theorem C88_hash_end_to_end : forall gz_enc gz_dec writable O Od transform sha lossy numeric a,
  regexes_compile O (oa_ci a) -> regexes_compile Od false ->
  forall M V output tsv header h1 h2 skip names w cs,
  opts_say O Od true transform a M V -> header_text (Some header) (Some [h1; h2]) ->
  available gz_dec (w_disk w) (w_stdin w) names cs -> (forall n, output = Some n -> ~ In n names) ->
  exists st text, hash_effect a M V skip cs sha lossy tsv h1 h2 st text
    /\ yields gz_enc writable (hash_on_disk gz_enc gz_dec writable O Od transform sha lossy numeric a output tsv header skip names w) st
         [(mkOut output false false, text)] w.
Proof. exact hash_accepted. Qed.
Print Assumptions C88_hash_end_to_end.
Theorem C88_hash_end_to_end_read : forall gz_enc gz_dec writable O Od transform sha lossy numeric a,
  regexes_compile O (oa_ci a) -> regexes_compile Od false ->
  forall output tsv header h1 h2 skip names w cs st w', available gz_dec (w_disk w) (w_stdin w) names cs -> (forall n, output = Some n -> ~ In n names) ->
  header_text (Some header) (Some [h1; h2]) ->
  hash_on_disk gz_enc gz_dec writable O Od transform sha lossy numeric a output tsv header skip names w = Some (CEnded st, w') ->
  exists M V text, opts_say O Od false transform a M V /\ hash_effect a M V skip cs sha lossy tsv h1 h2 st text
    /\ received gz_enc [(mkOut output false false, text)] w w'.
Proof. exact hash_reads. Qed.
Print Assumptions C88_hash_end_to_end_read.

(** check: the rows of the rules that are violated *)
Theorem C88_check_end_to_end : forall gz_enc gz_dec writable O Od transform lossy T rule_order link_order a,
  regexes_compile O (oa_ci a) -> regexes_compile Od false ->
  forall M V sets output skip names w cs,
  opts_say O Od true transform a M V -> (forall v, lossy v = [] <-> v = []) ->
  (forall l, Permutation (rule_order l) l) -> (forall l, Permutation (link_order l) l) -> Forall (set_wf Od) sets ->
  available gz_dec (w_disk w) (w_stdin w) names cs -> (forall n, output = Some n -> ~ In n names) ->
  exists st text, check_effect a M V skip cs Od T lossy sets output st text
    /\ yields gz_enc writable (check_on_disk gz_enc gz_dec writable O Od transform lossy T rule_order link_order a (Some sets) output skip names w) st
         [(mkOut output false false, text)] w.
Proof. exact check_accepted. Qed.
Print Assumptions C88_check_end_to_end.
Theorem C88_check_end_to_end_read : forall gz_enc gz_dec writable O Od transform lossy T rule_order link_order a,
  regexes_compile O (oa_ci a) -> regexes_compile Od false ->
  forall rules output skip names w cs st w', available gz_dec (w_disk w) (w_stdin w) names cs -> (forall n, output = Some n -> ~ In n names) ->
  (forall v, lossy v = [] <-> v = []) ->
  (forall l, Permutation (rule_order l) l) -> (forall l, Permutation (link_order l) l) ->
  (forall sets, rules = Some sets -> Forall (set_wf Od) sets) ->
  check_on_disk gz_enc gz_dec writable O Od transform lossy T rule_order link_order a rules output skip names w = Some (CEnded st, w') ->
  exists M V sets text, opts_say O Od false transform a M V /\ rules = Some sets
    /\ check_effect a M V skip cs Od T lossy sets output st text
    /\ received gz_enc [(mkOut output false false, text)] w w'.
Proof. exact check_reads. Qed.
Print Assumptions C88_check_end_to_end_read.

(** select: the rows of the query *)
Theorem C88_select_end_to_end : forall gz_enc gz_dec writable O Od transform lossy T numeric hash a,
  regexes_compile O (oa_ci (ta_opts a)) -> regexes_compile Od false ->
  forall M V Ms header unique no_empty nf quote tsv append output skip names w cs,
  opts_say O Od true transform (ta_opts a) M V -> table_says O T true transform a Ms header ->
  header_fits header (columns_of Ms) ->
  quote <> QNever -> (forall v, numeric v = true -> Forall (plain_byte (delimiter tsv)) v) ->
  available gz_dec (w_disk w) (w_stdin w) names cs -> (forall n, output = Some n -> ~ In n names) ->
  exists st text, select_effect a M V Ms header lossy skip cs hash unique no_empty nf tsv st text
    /\ yields gz_enc writable (select_on_disk gz_enc gz_dec writable O Od transform lossy T numeric hash a unique no_empty nf quote tsv append output skip names w) st
         [(mkOut output append false, text)] w.
Proof. exact select_accepted. Qed.
Print Assumptions C88_select_end_to_end.
Theorem C88_select_end_to_end_read : forall gz_enc gz_dec writable O Od transform lossy T numeric hash a,
  regexes_compile O (oa_ci (ta_opts a)) -> regexes_compile Od false ->
  forall header unique no_empty nf quote tsv append output skip names w cs st w',
  header_text (ta_header a) header ->
  (forall Ms, table_says O T false transform a Ms header -> header_fits header (columns_of Ms)) ->
  quote <> QNever -> (forall v, numeric v = true -> Forall (plain_byte (delimiter tsv)) v) ->
  available gz_dec (w_disk w) (w_stdin w) names cs -> (forall n, output = Some n -> ~ In n names) ->
  select_on_disk gz_enc gz_dec writable O Od transform lossy T numeric hash a unique no_empty nf quote tsv append output skip names w
    = Some (CEnded st, w') ->
  exists M V Ms text, opts_say O Od false transform (ta_opts a) M V /\ table_says O T false transform a Ms header
    /\ select_effect a M V Ms header lossy skip cs hash unique no_empty nf tsv st text
    /\ received gz_enc [(mkOut output append false, text)] w w'.
Proof. exact select_reads. Qed.
Print Assumptions C88_select_end_to_end_read.

(** frequency: the values and how often they occur *)
Theorem C88_frequency_end_to_end : forall gz_enc gz_dec writable O Od transform lossy T numeric freq_order a,
  regexes_compile O (oa_ci (ta_opts a)) -> regexes_compile Od false ->
  forall M V Ms header unique num threshold reverse nf tsv output skip names w cs,
  (forall t, Permutation (freq_order t) t) ->
  opts_say O Od true transform (ta_opts a) M V -> table_says O T true transform a Ms header ->
  header_fits header (columns_of Ms + 1) -> available gz_dec (w_disk w) (w_stdin w) names cs -> (forall n, output = Some n -> ~ In n names) ->
  exists st text, frequency_effect a M V Ms header lossy skip cs unique num threshold reverse nf tsv st text
    /\ yields gz_enc writable (freq_on_disk gz_enc gz_dec writable O Od transform lossy T numeric freq_order a unique num threshold reverse nf tsv output skip names w) st
         [(mkOut output false false, text)] w.
Proof. exact freq_accepted. Qed.
Print Assumptions C88_frequency_end_to_end.
Theorem C88_frequency_end_to_end_read : forall gz_enc gz_dec writable O Od transform lossy T numeric freq_order a,
  regexes_compile O (oa_ci (ta_opts a)) -> regexes_compile Od false ->
  forall header unique num threshold reverse nf tsv output skip names w cs st w',
  (forall t, Permutation (freq_order t) t) -> header_text (ta_header a) header ->
  (forall Ms, table_says O T false transform a Ms header -> header_fits header (columns_of Ms + 1)) ->
  available gz_dec (w_disk w) (w_stdin w) names cs -> (forall n, output = Some n -> ~ In n names) ->
  freq_on_disk gz_enc gz_dec writable O Od transform lossy T numeric freq_order a unique num threshold reverse nf tsv output skip names w
    = Some (CEnded st, w') ->
  exists M V Ms text, opts_say O Od false transform (ta_opts a) M V /\ table_says O T false transform a Ms header
    /\ frequency_effect a M V Ms header lossy skip cs unique num threshold reverse nf tsv st text
    /\ received gz_enc [(mkOut output false false, text)] w w'.
Proof. exact freq_reads. Qed.
Print Assumptions C88_frequency_end_to_end_read.

(** concat; with --unique all records must have keys *)
Theorem C88_concat_end_to_end : forall gz_enc gz_dec writable O sha lossy,
  forall append output tee unique skip names w cs,
available gz_dec (w_disk w) (w_stdin w) names cs ->
(forall n, output = Some n -> tee <> Some n) -> (forall n, In n (named output ++ named tee) -> ~ In n names) ->
(forall st recs e, unique = Some st -> reads skip cs recs e -> Forall (has_key sha lossy st) recs) ->
exists st text, concat_effect sha lossy unique skip cs st text
  /\ yields gz_enc writable (concat_on_disk gz_enc gz_dec writable O sha lossy append output tee unique skip names w) st
       (map (fun o => (builder_output (mkWB append false) o, text)) (output :: match tee with Some n => [Some n] | None => [] end)) w.
Proof. exact concat_full. Qed.
Print Assumptions C88_concat_end_to_end.

(** ** Samples *)

(** a query of one column, and a header of as many columns *)
Definition id_args : table_args := mkTableArgs bare_args (lit "003@.0") (lit "|") false false (Some (lit " id ")).
Example C88_table_says : exists Ms,
  table_says sample_oracles sample_text true (fun x => x) id_args Ms (Some [lit "id"])
  /\ header_fits (Some [lit "id"]) (columns_of Ms).
Proof.
  destruct (id_path_text sample_oracles) as (F & Cs & HF).
  assert (L : length Cs = 1%nat).
  { inversion HF as [w1 tt T to S tc C w2 H1 H2 H3 H4 H5 E|w1 tt T to S w2 w3 tc Cs' w4 tg g P w5 H1 H2 H3 H4 H5 H6 H7 H8 H9 E]; [reflexivity|].
    exfalso. assert (I : In 123 [48; 48; 51; 64; 46; 48]) by (rewrite <- E; rewrite !in_app_iff; cbn; auto 20).
    cbn in I. repeat destruct I as [I|I]; try discriminate. exact I. }
  exists [(length Cs, path_rows F Cs)]. split; [constructor|].
  - exists 0. split; [|reflexivity]. apply query_one. apply fragment_path. exact HF.
  - exists [lit " id "]. split; [apply ci_one; vm_compute; intuition discriminate|].
    constructor; [|constructor]. apply PropertiesOptions.C51_C64_trim. vm_compute. reflexivity.
  - intros h [= <-]. cbn. rewrite L. reflexivity.
Qed.

Definition sample_world : world := three (lit "x") (lit "y") (lit "x").
Notation toy_hash := (hash_on_disk toy_enc toy_dec all_writable sample_oracles sample_oracles (fun x => x)
  sample_sha sample_lossy (fun _ => false)).
Notation toy_sample := (sample_on_disk toy_enc toy_dec all_writable sample_oracles sample_oracles (fun x => x)).
Notation toy_print := (print_on_disk toy_enc toy_dec all_writable sample_oracles sample_oracles (fun x => x)).
Notation toy_freq := (freq_on_disk toy_enc toy_dec all_writable sample_oracles sample_oracles (fun x => x) sample_lossy
  sample_text (fun _ => false) (fun x => x)).

(** runs of the commands: what the output contains *)
Definition leaves (X : option (command_end * world)) (n text : bytes) : Prop :=
  exists w', X = Some (CEnded 0, w') /\ disk_get (w_disk w') n = Some text.

Example C88_count_example : leaves (toy_count bare_args false (Some (lit "c.dat")) MPlain false [lit "a.dat"; lit "b.dat"] sample_world)
  (lit "c.dat") (lit "records: 4" ++ [10] ++ lit "fields: 7" ++ [10] ++ lit "subfields: 7" ++ [10]).
Proof. eexists. split; vm_compute; reflexivity. Qed.
Example C88_print_example : leaves (toy_print bare_args (fun x => x) (Some (lit "c.dat")) false [lit "b.dat"] sample_world)
  (lit "c.dat") (lit "003@ $0 2" ++ [10; 10]).
Proof. eexists. split; vm_compute; reflexivity. Qed.
Example C88_slice_example : leaves (toy_slice bare_args false false (Some (lit "c.dat")) 1 2 0 false [lit "a.dat"] sample_world)
  (lit "c.dat") (value_line "2" (lit "y")).
Proof. eexists. split; vm_compute; reflexivity. Qed.
Example C88_sample_example : leaves (toy_sample bare_args true (Some (lit "c.gz")) (fun _ => 0) 1 false [lit "b.dat"] sample_world)
  (lit "c.gz") (toy_enc io_line_2).
Proof. eexists. split; vm_compute; reflexivity. Qed.
Example C88_hash_example : leaves (toy_hash bare_args (Some (lit "c.csv")) false (lit "idn,hash") false [lit "b.dat"] sample_world)
  (lit "c.csv") (lit "idn,hash" ++ [10] ++ lit "2,0a" ++ [10]).
Proof. eexists. split; vm_compute; reflexivity. Qed.
Example C88_select_example : leaves (toy_select id_args false false None QNecessary true false (Some (lit "c.tsv")) false [lit "a.dat"] sample_world)
  (lit "c.tsv") (lit "id" ++ [10] ++ lit "1" ++ [10] ++ lit "2" ++ [10] ++ lit "3" ++ [10]).
Proof. eexists. split; vm_compute; reflexivity. Qed.
Example C88_frequency_example :
  leaves (toy_freq (mkTableArgs bare_args (lit "012A.a") (lit "|") false false None) false 0 0 false (fun x => x) false
            (Some (lit "c.csv")) false [lit "a.dat"] sample_world)
    (lit "c.csv") (lit "x,2" ++ [10] ++ lit "y,1" ++ [10]).
Proof. eexists. split; vm_compute; reflexivity. Qed.
Example C88_concat_example : leaves (toy_concat false (Some (lit "c.dat")) (Some (lit "d.gz")) None false [lit "b.dat"; lit "a.dat"] sample_world)
  (lit "d.gz") (toy_enc (io_line_2 ++ value_line "1" (lit "x") ++ value_line "2" (lit "y") ++ value_line "3" (lit "x"))).
Proof. eexists. split; vm_compute; reflexivity. Qed.

(** * Properties of the commands that write many files: C93 to C95

    Also further theorems about C87, C88, C90 and C92, for the commands split,
    partition, convert, invalid and describe. *)

From Coq Require Import String Permutation.
From Verif Require Import Bytes Winnow RecordModel RecordSpec TagOccModel Utf8Model ByteRecordModel ByteRecordSpec ReaderModel
  MatcherModel MatcherSpec StateParser MatcherParserModel BuilderModel PathModel FmtModel QueryModel CliModel CliSpec TableModel
  ConvertModel OptionsModel PrepareModel IoModel IoSpec WriteSpec GrammarSpec QuerySpec PrepareSpec ConvertSpec DiskModel DiskSpec
  DirModel DirSpec EndSpec DirSplitProofs DirPartProofs DirFailProofs DirCommandProofs DirRoundProofs PropertiesMatcher PropertiesCli
  PropertiesQuery PropertiesIo PropertiesPrepare PropertiesDisk.

Section Commands.
  Variable gz_enc : bytes -> bytes.
  Variable gz_dec : bytes -> list piece.
  Variable writable : bytes -> bool.
  Variables O Od : oracles.
  Variable transform : bytes -> bytes.
  Variable sha : bytes -> bytes.
  Variable lossy : bytes -> bytes.
  Variable esc : bytes -> bytes.
  Variable writer_order : list (bytes * bytes) -> list (bytes * bytes).
  Variable tag_order : tag_counts -> tag_counts.
  Variable frame_text : frame_format -> list N * list (bytes * list N) -> bytes.

  Notation split_on_disk := (split_on_disk gz_enc gz_dec writable O Od transform).
  Notation partition_on_disk := (partition_on_disk gz_enc gz_dec writable O Od transform lossy writer_order).
  Notation convert_on_disk := (convert_on_disk gz_enc gz_dec writable lossy esc).
  Notation invalid_on_disk := (invalid_on_disk gz_enc gz_dec writable).
  Notation describe_on_disk := (describe_on_disk gz_enc gz_dec writable O Od transform tag_order frame_text).

  (** ** C87: a refused command changes no file; true of these commands *)
Theorem C87_split : forall a gzip outdir dir_ok template size skip names w w',
  split_on_disk a gzip outdir dir_ok template size skip names w = Some (CRefused, w') -> w' = w.
Proof. exact (split_refused gz_enc gz_dec writable O Od transform). Qed.
Theorem C87_partition : forall a p gzip outdir dir_ok template skip names w w',
  partition_on_disk a p gzip outdir dir_ok template skip names w = Some (CRefused, w') -> w' = w.
Proof. exact (partition_refused gz_enc gz_dec writable O Od transform lossy writer_order). Qed.
Theorem C87_convert : forall from to output skip names w w',
  convert_on_disk from to output skip names w = Some (CRefused, w') -> w' = w.
Proof. exact (convert_refused gz_enc gz_dec writable lossy esc). Qed.
Theorem C87_invalid : forall output names w w',
  invalid_on_disk output names w = Some (CRefused, w') -> w' = w.
Proof. exact (invalid_refused gz_enc gz_dec writable). Qed.

(** describe opens its output when it is done: unless it succeeds, nothing has
    changed at all *)
Theorem C87_describe : forall a discard keep csv tsv output skip names w c w',
  describe_on_disk a discard keep csv tsv output skip names w = Some (c, w') -> c <> CEnded 0 -> w' = w.
Proof. exact (describe_unless_done gz_enc gz_dec writable O Od transform tag_order frame_text). Qed.

  (** ** C88: a command changes its outputs and nothing else *)
Theorem C88_split_frame : forall a gzip outdir dir_ok template size skip names w c w',
  split_on_disk a gzip outdir dir_ok template size skip names w = Some (c, w') ->
  (forall n, (forall k, ~ chunk_file template gzip outdir k n) -> disk_get (w_disk w') n = disk_get (w_disk w) n)
  /\ w_stdout w' = w_stdout w.
Proof. exact (split_frame gz_enc gz_dec writable O Od transform). Qed.
Theorem C88_partition_frame : forall a p gzip outdir dir_ok template skip names w c w',
  (forall l, Permutation (writer_order l) l) ->
  regexes_compile O (oa_ci a) -> regexes_compile Od false -> opt_sm_wf O (oa_ci a) (p_sub p) ->
  partition_on_disk a p gzip outdir dir_ok template skip names w = Some (c, w') ->
  (forall n, (forall v, ~ file_for template gzip outdir (lossy v) n) -> disk_get (w_disk w') n = disk_get (w_disk w) n)
  /\ w_stdout w' = w_stdout w.
Proof. intros a p gzip outdir dir_ok template skip names w c w' HO. exact (partition_frame gz_enc gz_dec writable O Od transform lossy writer_order HO a p gzip outdir dir_ok template skip names w c w'). Qed.
Theorem C88_convert_frame : forall from to output skip names w c w',
  convert_on_disk from to output skip names w = Some (c, w') -> same_but (named output) w w'.
Proof. exact (convert_frame gz_enc gz_dec writable lossy esc). Qed.
Theorem C88_invalid_frame : forall output names w c w',
  invalid_on_disk output names w = Some (c, w') -> same_but (named output) w w'.
Proof. exact (invalid_frame gz_enc gz_dec writable). Qed.
Theorem C88_describe_frame : forall a discard keep csv tsv output skip names w c w',
  describe_on_disk a discard keep csv tsv output skip names w = Some (c, w') -> same_but (named output) w w'.
Proof. exact (describe_frame gz_enc gz_dec writable O Od transform tag_order frame_text). Qed.

  (** *** From the arguments to the contents of the files *)

(** split: the chunks, in order, each in its file *)
Theorem C88_split_end_to_end : forall a M V gzip outdir template size skip names w cs recs e,
  regexes_compile O (oa_ci a) -> regexes_compile Od false -> opts_say O Od true transform a M V ->
  placeholder template -> 1 <= size ->
  (forall k n, chunk_file template gzip outdir k n -> writable n = true /\ ~ In n names) ->
  available gz_dec (w_disk w) (w_stdin w) names cs ->
  opts_records a M V skip cs recs e -> N.of_nat (length recs) <= 4294967296 ->
  exists chunks fs w', chunked size recs chunks /\ chunk_texts template gzip outdir chunks fs
    /\ split_on_disk a gzip outdir true template size skip names w = Some (CEnded (status_of e), w')
    /\ only_files gz_enc gzip fs w w'.
Proof. exact (split_disk_accepted gz_enc gz_dec writable O Od transform). Qed.
Theorem C88_split_end_to_end_read : forall a gzip outdir dir_ok template size skip names w cs st w',
  regexes_compile O (oa_ci a) -> regexes_compile Od false ->
  placeholder template -> 1 <= size ->
  (forall k n, chunk_file template gzip outdir k n -> writable n = true /\ ~ In n names) ->
  available gz_dec (w_disk w) (w_stdin w) names cs ->
  split_on_disk a gzip outdir dir_ok template size skip names w = Some (CEnded st, w') ->
  dir_ok = true /\ exists M V recs e, opts_say O Od false transform a M V
    /\ opts_records a M V skip cs recs e
    /\ (N.of_nat (length recs) <= 4294967296 ->
        st = status_of e
        /\ exists chunks fs, chunked size recs chunks /\ chunk_texts template gzip outdir chunks fs
             /\ only_files gz_enc gzip fs w w').
Proof. exact (split_disk_read gz_enc gz_dec writable O Od transform). Qed.

(** status 0: all chunks could be opened, all records were read, and all is there *)
Theorem C88_split_success : forall a gzip outdir dir_ok template size skip names w cs w',
  regexes_compile O (oa_ci a) -> regexes_compile Od false ->
  placeholder template -> 1 <= size ->
  (forall k n, chunk_file template gzip outdir k n -> ~ In n names) ->
  available gz_dec (w_disk w) (w_stdin w) names cs ->
  split_on_disk a gzip outdir dir_ok template size skip names w = Some (CEnded 0, w') ->
  exists M V recs e, opts_say O Od false transform a M V
    /\ opts_records a M V skip cs recs e
    /\ (N.of_nat (length recs) <= 4294967296 ->
        e = None
        /\ exists chunks fs, chunked size recs chunks /\ chunk_texts template gzip outdir chunks fs
             /\ only_files gz_enc gzip fs w w').
Proof. exact (split_success gz_enc gz_dec writable O Od transform). Qed.

(** convert of PICA+ *)
Theorem C88_convert_end_to_end : forall to output skip names w cs recs e,
  keeps_utf8 lossy -> available gz_dec (w_disk w) (w_stdin w) names cs -> (forall n, output = Some n -> ~ In n names) ->
  reads skip cs recs e -> (to = TXml -> Forall (fun r => utf8_record (br_record r)) recs) ->
  exists text, (e = None -> converted lossy esc to recs text)
    /\ yields gz_enc writable (convert_on_disk TPlus to output skip names w) (status_of e) [(convert_output to output, text)] w.
Proof. exact (convert_full gz_enc gz_dec writable lossy esc). Qed.

(** only PICA+ is compressed, and only if the name asks for it *)
Theorem C88_convert_compressed : forall to name,
  out_name (convert_output to name) = name /\ out_append (convert_output to name) = false
  /\ (out_gz (convert_output to name) = true <-> to = TPlus /\ exists n, name = Some n /\ gz_extension n).
Proof. exact convert_output_is. Qed.

(** invalid: the lines that are no records *)
Theorem C88_invalid_end_to_end : forall output names w cs,
  available gz_dec (w_disk w) (w_stdin w) names cs -> (forall n, output = Some n -> ~ In n names) ->
  exists ls valid invalid, input_lines cs ls /\ Split (map snd ls) valid invalid
    /\ Forall (fun l => exists r, record_text r l) valid /\ Forall (fun l => forall r, ~ record_text r l) invalid
    /\ yields gz_enc writable (invalid_on_disk output names w) 0 [(mkOut output false false, concat invalid)] w.
Proof. exact (invalid_full gz_enc gz_dec writable O). Qed.

(** describe: it fails and changes nothing, or the table is in the output, in the
    format that the options and the name of the output ask for *)
Theorem C88_describe_end_to_end : forall a M V D K discard keep csv tsv output skip names w cs f,
  regexes_compile O (oa_ci a) -> regexes_compile Od false -> (forall t, Permutation (tag_order t) t) ->
  opts_say O Od true transform a M V -> fields_option discard D -> fields_option keep K ->
  available gz_dec (w_disk w) (w_stdin w) names cs -> table_format csv tsv output f ->
  (exists recs err, opts_records a M V skip cs recs (Some err)
     /\ describe_on_disk a discard keep csv tsv output skip names w = Some (CEnded 2, w))
  \/ exists text, describe_effect a M V skip cs D K (frame_text f) text
     /\ ((exists w', describe_on_disk a discard keep csv tsv output skip names w = Some (CEnded 0, w')
           /\ received gz_enc [(mkOut output false false, text)] w w')
         \/ (exists n, output = Some n /\ writable n = false)
            /\ describe_on_disk a discard keep csv tsv output skip names w = Some (CEnded 2, w)).
Proof. exact (describe_accepted_format gz_enc gz_dec writable O Od transform tag_order frame_text). Qed.
Theorem C88_describe_end_to_end_read : forall a discard keep csv tsv output skip names w cs w',
  regexes_compile O (oa_ci a) -> regexes_compile Od false -> (forall t, Permutation (tag_order t) t) ->
  available gz_dec (w_disk w) (w_stdin w) names cs ->
  describe_on_disk a discard keep csv tsv output skip names w = Some (CEnded 0, w') ->
  exists M V D K f text, opts_say O Od false transform a M V /\ fields_option discard D /\ fields_option keep K
    /\ table_format csv tsv output f /\ describe_effect a M V skip cs D K (frame_text f) text
    /\ received gz_enc [(mkOut output false false, text)] w w'.
Proof. exact (describe_reads_format gz_enc gz_dec writable O Od transform tag_order frame_text). Qed.

  (** ** C90: split destroys an input that is its first chunk *)
Theorem C90_split_refuted : forall a o outdir template size skip n w,
  fst (opts_prepare O Od transform a) = Some (Some o) ->
  chunk_file template false outdir 0 n -> writable n = true -> n <> lit "-" -> gz_name n = false ->
  exists w', split_on_disk a false outdir true template size skip [n] w = Some (CEnded 0, w')
    /\ disk_get (w_disk w') n = Some [].
Proof. exact (split_self gz_enc gz_dec writable O Od transform). Qed.

  (** ** C93: split and partition write only into the output directory

      True of split, if the template has no slash. *)
Theorem C93_split_partial : forall a gzip outdir dir_ok template size skip names w c w' n,
  (forall t, template = Some t -> ~ In 47 t) ->
  split_on_disk a gzip outdir dir_ok template size skip names w = Some (c, w') ->
  ~ in_dir outdir n -> disk_get (w_disk w') n = disk_get (w_disk w) n.
Proof. exact (split_in_dir gz_enc gz_dec writable O Od transform). Qed.

(** True of partition, if no value has a slash either. *)
Theorem C93_partition_partial : forall a p gzip outdir dir_ok template skip names w c w' cs every n,
  (forall l, Permutation (writer_order l) l) ->
  regexes_compile O (oa_ci a) -> regexes_compile Od false -> opt_sm_wf O (oa_ci a) (p_sub p) ->
  available gz_dec (w_disk w) (w_stdin w) names cs -> reads true cs every None ->
  (forall t, template = Some t -> ~ In 47 t) ->
  (forall r v, In r every -> has_value O (oa_ci a) p v (br_record r) -> ~ In 47 (lossy v)) ->
  (forall m, In m names -> ~ in_dir outdir m) ->
  partition_on_disk a p gzip outdir dir_ok template skip names w = Some (c, w') ->
  ~ in_dir outdir n -> disk_get (w_disk w') n = disk_get (w_disk w) n.
Proof. intros a p gzip outdir dir_ok template skip names w c w' cs every n HO. exact (partition_in_dir gz_enc gz_dec writable O Od transform lossy writer_order HO a p gzip outdir dir_ok template skip names w c w' cs every n). Qed.

  (** ** C94: the chunks together are the whole *)
Theorem C94_split_concat : forall a M V gzip outdir template size skip skip' names w cs recs e m,
  gz_first gz_enc gz_dec ->
  regexes_compile O (oa_ci a) -> regexes_compile Od false -> opts_say O Od true transform a M V ->
  placeholder template -> 1 <= size ->
  (forall k n, chunk_file template gzip outdir k n ->
     writable n = true /\ ~ In n names /\ n <> m /\ (gzip = true -> gz_extension n)) ->
  writable m = true ->
  available gz_dec (w_disk w) (w_stdin w) names cs ->
  opts_records a M V skip cs recs e -> N.of_nat (length recs) <= 4294967296 ->
  exists files w1 w2 text, lines_of recs text
    /\ (forall k n, nth_error files k = Some n -> chunk_file template gzip outdir (N.of_nat k) n)
    /\ split_on_disk a gzip outdir true template size skip names w = Some (CEnded (status_of e), w1)
    /\ concat_on_disk gz_enc gz_dec writable O sha lossy false (Some m) None None skip' files w1 = Some (CEnded 0, w2)
    /\ reads_as gz_dec (w_disk w2) m text.
Proof. exact (split_concat gz_enc gz_dec writable O Od transform sha lossy). Qed.

  (** ** C95: partition puts every record into the file of each of its values

      True if different values have different files that are no inputs; [P] is
      a property of all values. *)
Theorem C95_partition_partial : forall (P : bytes -> Prop) a M V p gzip outdir template skip names w cs every,
  (forall l, Permutation (writer_order l) l) ->
  regexes_compile O (oa_ci a) -> regexes_compile Od false -> opts_say O Od true transform a M V -> oa_limit a = 0 ->
  opt_sm_wf O (oa_ci a) (p_sub p) ->
  available gz_dec (w_disk w) (w_stdin w) names cs -> reads true cs every None ->
  (forall r v, In r every -> has_value O (oa_ci a) p v (br_record r) -> P v) ->
  (forall v n, P v -> file_for template gzip outdir (lossy v) n -> writable n = true /\ ~ In n names) ->
  (forall v u n, P v -> P u -> file_for template gzip outdir (lossy v) n -> file_for template gzip outdir (lossy u) n -> v = u) ->
  exists all e sel w',
    reads skip cs all e /\ chosen (meant a M V) all sel
    /\ partition_on_disk a p gzip outdir true template skip names w = Some (CEnded (status_of e), w')
    /\ sorted_out gz_enc O lossy template gzip outdir (oa_ci a) p sel w w'.
Proof. intros P a M V p gzip outdir template skip names w cs every HO. exact (partition_disk_accepted gz_enc gz_dec writable O Od transform lossy writer_order HO P a M V p gzip outdir template skip names w cs every). Qed.
Theorem C95_partition_read_partial : forall (P : bytes -> Prop) a p gzip outdir dir_ok template skip names w cs every st w',
  (forall l, Permutation (writer_order l) l) ->
  regexes_compile O (oa_ci a) -> regexes_compile Od false -> oa_limit a = 0 ->
  opt_sm_wf O (oa_ci a) (p_sub p) ->
  available gz_dec (w_disk w) (w_stdin w) names cs -> reads true cs every None ->
  (forall r v, In r every -> has_value O (oa_ci a) p v (br_record r) -> P v) ->
  (forall v n, P v -> file_for template gzip outdir (lossy v) n -> writable n = true /\ ~ In n names) ->
  (forall v u n, P v -> P u -> file_for template gzip outdir (lossy v) n -> file_for template gzip outdir (lossy u) n -> v = u) ->
  partition_on_disk a p gzip outdir dir_ok template skip names w = Some (CEnded st, w') ->
  dir_ok = true /\ exists M V all e sel, opts_say O Od false transform a M V
    /\ reads skip cs all e /\ chosen (meant a M V) all sel /\ st = status_of e
    /\ sorted_out gz_enc O lossy template gzip outdir (oa_ci a) p sel w w'.
Proof. intros P a p gzip outdir dir_ok template skip names w cs every st w' HO. exact (partition_disk_read gz_enc gz_dec writable O Od transform lossy writer_order HO P a p gzip outdir dir_ok template skip names w cs every st w'). Qed.
(** status 0: all files could be opened, all records were read, and all is there *)
Theorem C95_partition_success_partial : forall (P : bytes -> Prop) a p gzip outdir dir_ok template skip names w cs every w',
  (forall l, Permutation (writer_order l) l) ->
  regexes_compile O (oa_ci a) -> regexes_compile Od false -> oa_limit a = 0 ->
  opt_sm_wf O (oa_ci a) (p_sub p) ->
  available gz_dec (w_disk w) (w_stdin w) names cs -> reads true cs every None ->
  (forall r v, In r every -> has_value O (oa_ci a) p v (br_record r) -> P v) ->
  (forall v n, P v -> file_for template gzip outdir (lossy v) n -> ~ In n names) ->
  (forall v u n, P v -> P u -> file_for template gzip outdir (lossy v) n -> file_for template gzip outdir (lossy u) n -> v = u) ->
  partition_on_disk a p gzip outdir dir_ok template skip names w = Some (CEnded 0, w') ->
  exists M V all sel, opts_say O Od false transform a M V
    /\ reads skip cs all None /\ chosen (meant a M V) all sel
    /\ sorted_out gz_enc O lossy template gzip outdir (oa_ci a) p sel w w'.
Proof. exact (partition_success gz_enc gz_dec writable O Od transform lossy writer_order). Qed.
End Commands.

(** Different texts without a slash have different files, if the template has a
    placeholder and no slash *)
Theorem C95_distinct_files : forall template gzip dir x y n, placeholder template -> (forall t, template = Some t -> ~ In 47 t) ->
  ~ In 47 x -> ~ In 47 y ->
  file_for template gzip dir x n -> file_for template gzip dir y n -> x = y.
Proof. exact distinct_files. Qed.

Print Assumptions C87_split.
Print Assumptions C87_partition.
Print Assumptions C87_convert.
Print Assumptions C87_invalid.
Print Assumptions C87_describe.
Print Assumptions C88_split_frame.
Print Assumptions C88_partition_frame.
Print Assumptions C88_convert_frame.
Print Assumptions C88_invalid_frame.
Print Assumptions C88_describe_frame.
Print Assumptions C88_split_end_to_end.
Print Assumptions C88_split_end_to_end_read.
Print Assumptions C88_split_success.
Print Assumptions C95_partition_success_partial.
Print Assumptions C88_convert_end_to_end.
Print Assumptions C88_convert_compressed.
Print Assumptions C88_invalid_end_to_end.
Print Assumptions C88_describe_end_to_end.
Print Assumptions C88_describe_end_to_end_read.
Print Assumptions C90_split_refuted.
Print Assumptions C93_split_partial.
Print Assumptions C93_partition_partial.
Print Assumptions C94_split_concat.
Print Assumptions C95_partition_partial.
Print Assumptions C95_partition_read_partial.
Print Assumptions C95_distinct_files.

(** ** Samples *)

Definition bare_args : opts_args := where_args None.

Example bare_says : exists V,
  opts_say sample_oracles sample_oracles true (fun x => x) bare_args (fun _ _ => True) V.
Proof.
  destruct C69_sample as (M & D & K & V & [_ _ _ HS _ _] & _). exists V.
  constructor; [cbn; auto|exact HS|intros t []|intros t []].
Qed.

Notation toy_split := (split_on_disk toy_enc toy_dec all_writable sample_oracles sample_oracles (fun x => x)).
Notation toy_invalid := (invalid_on_disk toy_enc toy_dec all_writable).
Notation toy_partition lossy := (partition_on_disk toy_enc toy_dec all_writable sample_oracles sample_oracles (fun x => x)
  lossy (fun x => x)).
Notation toy_convert := (convert_on_disk toy_enc toy_dec all_writable sample_lossy (fun x => x)).
Notation toy_describe := (describe_on_disk toy_enc toy_dec all_writable sample_oracles sample_oracles (fun x => x) (fun x => x)
  (fun _ x => flat_map (fun row => fst row ++ [32] ++ snd row) (snd x))).

(** three records with the given values *)
Definition value_line (id : string) (v : bytes) : bytes :=
  lit "003@ " ++ [31] ++ lit "0" ++ lit id ++ [30] ++ lit "012A " ++ [31] ++ lit "a" ++ v ++ [30; 10].
Definition three (u v x : bytes) : world :=
  mkWorld [(lit "a.dat", value_line "1" u ++ value_line "2" v ++ value_line "3" x); (lit "b.dat", io_line_2)] [] [].

(** C88, C94: three records in two chunks, and together again *)
Example C94_example : exists w1 w2,
  toy_split bare_args true (lit "out") true None 2 false [lit "a.dat"] (three (lit "x") (lit "y") (lit "x")) = Some (CEnded 0, w1)
  /\ disk_get (w_disk w1) (lit "out/0.dat.gz") = Some (toy_enc (value_line "1" (lit "x") ++ value_line "2" (lit "y")))
  /\ disk_get (w_disk w1) (lit "out/1.dat.gz") = Some (toy_enc (value_line "3" (lit "x")))
  /\ toy_concat false (Some (lit "c.dat")) None None false [lit "out/0.dat.gz"; lit "out/1.dat.gz"] w1 = Some (CEnded 0, w2)
  /\ disk_get (w_disk w2) (lit "c.dat") = disk_get (w_disk (three (lit "x") (lit "y") (lit "x"))) (lit "a.dat").
Proof. do 2 eexists. repeat (split; [vm_compute; reflexivity|]). vm_compute. reflexivity. Qed.

(** the hypotheses of C94 about the files of the chunks *)
Example C94_hypotheses : placeholder None
  /\ (forall k n, chunk_file None true (lit "out") k n ->
        all_writable n = true /\ ~ In n [lit "a.dat"] /\ n <> lit "c.dat" /\ (true = true -> gz_extension n)).
Proof.
  split; [discriminate|]. intros k n (num & Hd & t & name & -> & Hf & Hj).
  assert (Hs : ~ In 47 num) by exact (decimal_no_slash k num Hd). destruct Hd as (Hd & Hn & _).
  assert (En : name = num ++ lit ".dat.gz").
  { apply (CliChunkProofs.filled_fun _ _ _ Hf). apply (fill_here num (lit ".dat.gz")).
    cbn. repeat (apply fill_skip; [intros t' Et; discriminate|]). constructor. }
  subst name. assert (E : n = lit "out/" ++ (num ++ lit ".dat") ++ lit ".gz").
  { inversion Hj as [q Hq|H1 H2|d H1 H2|H1 H2 H3]; subst.
    - destruct num as [|c num]; [congruence|]. injection Hq as -> _. exfalso. apply Hs. left. reflexivity.
    - discriminate.
    - exfalso. change (lit "out") with (lit "ou" ++ [116]) in H2. apply app_inj_tail in H2. destruct H2. discriminate.
    - cbn. rewrite <- app_assoc. reflexivity. }
  subst n. split; [reflexivity|]. split; [intros [Ha|[]]; discriminate|]. split; [discriminate|]. intros _.
  exists (lit "out/"), (num ++ lit ".dat"). split; [reflexivity|]. split.
  - destruct num; discriminate.
  - split; [|right; exists (lit "out"); reflexivity]. intros Hi. apply in_app_or in Hi. destruct Hi as [Hi|Hi]; [tauto|].
    cbn in Hi. repeat destruct Hi as [Hi|Hi]; try discriminate. exact Hi.
Qed.

(** C90: split overwrites its input *)
Example C90_split_example : exists w',
  toy_split bare_args false (lit "out") true None 2 false [lit "out/0.dat"]
    (mkWorld [(lit "out/0.dat", io_line_1)] [] []) = Some (CEnded 0, w')
  /\ disk_get (w_disk w') (lit "out/0.dat") = Some [].
Proof. eexists. split; vm_compute; reflexivity. Qed.

(** the path of the samples *)
Definition value_path : path :=
  match fst (path_new sample_oracles fresh (lit "012A.a")) with
  | Some (Some p) => p
  | _ => mkPath (TMTag []) OMNone None [] []
  end.

(** C95: the records by their values *)
Example C95_example : exists w1,
  toy_partition sample_lossy bare_args value_path false (lit "out") true None false [lit "a.dat"]
    (three (lit "x") (lit "y") (lit "x")) = Some (CEnded 0, w1)
  /\ disk_get (w_disk w1) (lit "out/x.dat") = Some (value_line "1" (lit "x") ++ value_line "3" (lit "x"))
  /\ disk_get (w_disk w1) (lit "out/y.dat") = Some (value_line "2" (lit "y")).
Proof. eexists. repeat (split; [vm_compute; reflexivity|]). vm_compute. reflexivity. Qed.

(** C93 is refuted for partition: a value leads out of the directory, and
    overwrites a file that is neither an input nor in the output directory *)
Theorem C93_partition_refuted : exists w w',
  toy_partition sample_lossy bare_args value_path false (lit "out") true None false [lit "a.dat"] w = Some (CEnded 0, w')
  /\ disk_get (w_disk w) (lit "/home/b.dat") = Some io_line_2
  /\ disk_get (w_disk w') (lit "/home/b.dat") = Some (value_line "2" (lit "/home/b"))
  /\ disk_get (w_disk w') (lit "out/../c.dat") = Some (value_line "1" (lit "../c"))
  /\ ~ in_dir (lit "out") (lit "/home/b.dat") /\ ~ in_dir (lit "out") (lit "out/../c.dat").
Proof.
  exists (mkWorld ((lit "/home/b.dat", io_line_2) :: w_disk (three (lit "../c") (lit "/home/b") (lit "x"))) [] []).
  eexists. repeat (split; [vm_compute; reflexivity|]).
  split; intros (name & Hn & Hj); inversion Hj as [q Hq|H1 H2|d H1 H2|H1 H2 H3]; subst; try discriminate;
    try (change (lit "out") with (lit "ou" ++ [116]) in H2; apply app_inj_tail in H2; destruct H2; discriminate).
  - apply Hn. left. reflexivity.
  - apply Hn. cbn. auto 20.
Qed.
Print Assumptions C93_partition_refuted.

(** ... and for split with a template that has a slash *)
Theorem C93_split_refuted : exists w w',
  toy_split bare_args false (lit "out") true (Some (lit "../b{}.dat")) 2 false [lit "a.dat"] w = Some (CEnded 0, w')
  /\ disk_get (w_disk w') (lit "out/../b0.dat") = Some (io_line_1 ++ io_line_2)
  /\ disk_get (w_disk w) (lit "out/../b0.dat") = Some (lit "text")
  /\ ~ in_dir (lit "out") (lit "out/../b0.dat").
Proof.
  exists (mkWorld [(lit "out/../b0.dat", lit "text"); (lit "a.dat", io_line_1 ++ io_line_2)] [] []). eexists.
  repeat (split; [vm_compute; reflexivity|]).
  intros (name & Hn & Hj); inversion Hj as [q Hq|H1 H2|d H1 H2|H1 H2 H3]; subst; try discriminate;
    try (change (lit "out") with (lit "ou" ++ [116]) in H2; apply app_inj_tail in H2; destruct H2; discriminate).
  apply Hn. cbn. auto 20.
Qed.
Print Assumptions C93_split_refuted.

(** [String::from_utf8_lossy], for texts in which every byte above 127 is invalid *)
Definition replace_invalid (b : bytes) : bytes := flat_map (fun c => if c <? 128 then [c] else [239; 191; 189]) b.

(** C95 is refuted if values that are not UTF-8 become the same name: both
    writers begin at the start of the same file, and what one of them wrote is
    overwritten by the other.  The command reports success, and the second
    record is in no file. *)
Theorem C95_partition_refuted : exists w w',
  toy_partition replace_invalid bare_args value_path false (lit "out") true None false [lit "a.dat"] w = Some (CEnded 0, w')
  /\ w = three [254] [255] (lit "x")
  /\ w_disk w' = (w_disk w ++ [(lit "out/" ++ [239; 191; 189] ++ lit ".dat", value_line "2" [255]);
                              (lit "out/x.dat", value_line "3" (lit "x"))])%list.
Proof. do 2 eexists. split; [|split; [reflexivity|]]; vm_compute; reflexivity. Qed.
Print Assumptions C95_partition_refuted.

(** C87, C88: describe with a failing input changes nothing; convert and
    invalid write their outputs *)
Example C88_dir_examples :
  toy_describe bare_args None None false true (Some (lit "b.dat")) false [lit "a.dat"; lit "c.dat"] disk_a_b = Some (CEnded 2, disk_a_b)
  /\ (exists w', toy_describe bare_args None None false true (Some (lit "c.tsv")) false [lit "a.dat"; lit "b.dat"] disk_a_b
        = Some (CEnded 0, w') /\ disk_get (w_disk w') (lit "c.tsv") = Some (lit "003@ " ++ [2]))
  /\ (exists w', toy_invalid (Some (lit "c.dat")) [lit "a.dat"] (mkWorld [(lit "a.dat", io_line_1 ++ lit "?" ++ [10] ++ io_line_2)] [] [])
        = Some (CEnded 0, w') /\ disk_get (w_disk w') (lit "c.dat") = Some (lit "?" ++ [10]))
  /\ (exists w', toy_convert TPlus TPlus (Some (lit "c.gz")) false [lit "a.dat"] disk_a_b = Some (CEnded 0, w')
        /\ disk_get (w_disk w') (lit "c.gz") = Some (toy_enc io_line_1)).
Proof. repeat split; try (eexists; split); vm_compute; reflexivity. Qed.

(** C92 is refuted for invalid: it never compresses, whatever the name, and what
    it wrote cannot be read *)
Theorem C92_invalid_refuted : exists w1 w2,
  toy_invalid (Some (lit "c.gz")) [lit "a.dat"] (mkWorld [(lit "a.dat", lit "?" ++ [10])] [] []) = Some (CEnded 0, w1)
  /\ disk_get (w_disk w1) (lit "c.gz") = Some (lit "?" ++ [10])
  /\ toy_invalid (Some (lit "d.dat")) [lit "c.gz"] w1 = Some (CEnded 2, w2).
Proof. do 2 eexists. repeat (split; [vm_compute; reflexivity|]). vm_compute. reflexivity. Qed.
Print Assumptions C92_invalid_refuted.

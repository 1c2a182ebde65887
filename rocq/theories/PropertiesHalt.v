(** * How the commands end: C105 and C106 *)

From Coq Require Import String Permutation.
From Verif Require Import Bytes Winnow RecordModel TagOccModel Utf8Model ByteRecordModel ReaderModel
  MatcherModel StateParser MatcherParserModel BuilderModel PathModel FmtModel QueryModel QuerySpec CliModel TableModel
  ExplodeModel CheckModel CheckSpec ConvertModel CsvModel OptionsModel PrepareModel IoModel IoSpec WriteSpec DiskModel DirModel
  HaltSpec HaltProofs PropertiesMatcher PropertiesCli PropertiesQuery PropertiesIo PropertiesPrepare PropertiesDisk.

Section Commands.
  Variable gz_enc : bytes -> bytes.
  Variable gz_dec : bytes -> list piece.
  Variable writable : bytes -> bool.
  Variables O Od : oracles.
  Variable transform : bytes -> bytes.
  Variable sha : bytes -> bytes.
  Variable lossy : bytes -> bytes.
  Variable T : text_fns.
  Variable rule_order : list (bytes * N) -> list (bytes * N).
  Variable link_order : list (bytes * list bytes) -> list (bytes * list bytes).
  Variable numeric : bytes -> bool.
  Variable hash : list bytes -> N.
  Variable freq_order : ftable -> ftable.
  Variable writer_order : list (bytes * bytes) -> list (bytes * bytes).
  Variable esc : bytes -> bytes.
  Variable tag_order : tag_counts -> tag_counts.
  Variable frame_text : frame_format -> list N * list (bytes * list N) -> bytes.

  Notation filter_on_disk := (filter_on_disk gz_enc gz_dec writable O Od transform).
  Notation concat_on_disk := (concat_on_disk gz_enc gz_dec writable O sha lossy).
  Notation count_on_disk := (count_on_disk gz_enc gz_dec writable O Od transform).
  Notation explode_on_disk := (explode_on_disk gz_enc gz_dec writable O Od transform).
  Notation check_on_disk := (check_on_disk gz_enc gz_dec writable O Od transform lossy T rule_order link_order).
  Notation hash_on_disk := (hash_on_disk gz_enc gz_dec writable O Od transform sha lossy numeric).
  Notation print_on_disk := (print_on_disk gz_enc gz_dec writable O Od transform).
  Notation slice_on_disk := (slice_on_disk gz_enc gz_dec writable O Od transform).
  Notation sample_on_disk := (sample_on_disk gz_enc gz_dec writable O Od transform).
  Notation select_on_disk := (select_on_disk gz_enc gz_dec writable O Od transform lossy T numeric hash).
  Notation freq_on_disk := (freq_on_disk gz_enc gz_dec writable O Od transform lossy T numeric freq_order).
  Notation split_on_disk := (split_on_disk gz_enc gz_dec writable O Od transform).
  Notation partition_on_disk := (partition_on_disk gz_enc gz_dec writable O Od transform lossy writer_order).
  Notation convert_on_disk := (convert_on_disk gz_enc gz_dec writable lossy esc).
  Notation invalid_on_disk := (invalid_on_disk gz_enc gz_dec writable).
  Notation describe_on_disk := (describe_on_disk gz_enc gz_dec writable O Od transform tag_order frame_text).

  (** ** C105: every run comes to an end

      Whatever the arguments, the files and the regular expressions are.  The
      status is 0 or 2 if the command is not refused and does not panic. *)

Theorem C105_filter : forall a append gzip output tee w,
  comes_to_an_end (filter_on_disk a append gzip output tee w).
Proof. exact (filter_ends gz_enc gz_dec writable O Od transform). Qed.
Theorem C105_concat : forall append output tee unique skip names w,
  comes_to_an_end (concat_on_disk append output tee unique skip names w).
Proof. exact (concat_ends gz_enc gz_dec writable O sha lossy). Qed.
Theorem C105_count : forall a append output m skip names w,
  comes_to_an_end (count_on_disk a append output m skip names w).
Proof. exact (count_ends gz_enc gz_dec writable O Od transform). Qed.
Theorem C105_explode : forall a discard keep l gzip output skip names w,
  comes_to_an_end (explode_on_disk a discard keep l gzip output skip names w).
Proof. exact (explode_ends gz_enc gz_dec writable O Od transform). Qed.
Theorem C105_check : forall a rules output skip names w,
  comes_to_an_end (check_on_disk a rules output skip names w).
Proof. exact (check_ends gz_enc gz_dec writable O Od transform lossy T rule_order link_order). Qed.
Theorem C105_hash : forall a output tsv header skip names w,
  comes_to_an_end (hash_on_disk a output tsv header skip names w).
Proof. exact (hash_ends gz_enc gz_dec writable O Od transform sha lossy numeric). Qed.
Theorem C105_print : forall a nf output skip names w,
  comes_to_an_end (print_on_disk a nf output skip names w).
Proof. exact (print_ends gz_enc gz_dec writable O Od transform). Qed.
Theorem C105_slice : forall a gzip append output start end_ length skip names w,
  comes_to_an_end (slice_on_disk a gzip append output start end_ length skip names w).
Proof. exact (slice_ends gz_enc gz_dec writable O Od transform). Qed.
Theorem C105_sample : forall a gzip output draw size skip names w,
  comes_to_an_end (sample_on_disk a gzip output draw size skip names w).
Proof. exact (sample_ends gz_enc gz_dec writable O Od transform). Qed.
Theorem C105_select : forall a unique no_empty nf q tsv append output skip names w,
  comes_to_an_end (select_on_disk a unique no_empty nf q tsv append output skip names w).
Proof. exact (select_ends gz_enc gz_dec writable O Od transform lossy T numeric hash). Qed.
Theorem C105_frequency : forall a unique num threshold reverse nf tsv output skip names w,
  comes_to_an_end (freq_on_disk a unique num threshold reverse nf tsv output skip names w).
Proof. exact (freq_ends gz_enc gz_dec writable O Od transform lossy T numeric freq_order). Qed.
Theorem C105_split : forall a gzip outdir dir_ok template size skip names w,
  comes_to_an_end (split_on_disk a gzip outdir dir_ok template size skip names w).
Proof. exact (split_ends gz_enc gz_dec writable O Od transform). Qed.
Theorem C105_partition : forall a p gzip outdir dir_ok template skip names w,
  comes_to_an_end (partition_on_disk a p gzip outdir dir_ok template skip names w).
Proof. exact (partition_ends gz_enc gz_dec writable O Od transform lossy writer_order). Qed.
Theorem C105_convert : forall from to output skip names w,
  comes_to_an_end (convert_on_disk from to output skip names w).
Proof. exact (convert_ends gz_enc gz_dec writable lossy esc). Qed.
Theorem C105_invalid : forall output names w,
  comes_to_an_end (invalid_on_disk output names w).
Proof. exact (invalid_command_ends gz_enc gz_dec writable). Qed.
Theorem C105_describe : forall a discard keep csv tsv output skip names w,
  comes_to_an_end (describe_on_disk a discard keep csv tsv output skip names w).
Proof. exact (describe_ends gz_enc gz_dec writable O Od transform tag_order frame_text). Qed.

  (** ** C106: which commands cannot panic

      If the regular expressions that are accepted can be compiled: all but print,
      concat --unique idn and the conversion to XML (see C58), and filter and slice
      unless --append is used with --gzip (see C91). *)

Theorem C106_filter : forall a append gzip output tee w, regexes_compile O (fa_ci a) -> regexes_compile Od false ->
  append && gzip = false ->
  ends_without_panic (filter_on_disk a append gzip output tee w).
Proof. exact (filter_quiet gz_enc gz_dec writable O Od transform). Qed.
Theorem C106_concat : forall append output tee unique skip names w, unique <> Some SIdn ->
  ends_without_panic (concat_on_disk append output tee unique skip names w).
Proof. exact (concat_quiet gz_enc gz_dec writable O sha lossy). Qed.
Theorem C106_count : forall a append output m skip names w, regexes_compile O (oa_ci a) -> regexes_compile Od false ->
  ends_without_panic (count_on_disk a append output m skip names w).
Proof. exact (count_quiet gz_enc gz_dec writable O Od transform). Qed.
Theorem C106_explode : forall a discard keep l gzip output skip names w, regexes_compile O (oa_ci a) -> regexes_compile Od false ->
  ends_without_panic (explode_on_disk a discard keep l gzip output skip names w).
Proof. exact (explode_quiet gz_enc gz_dec writable O Od transform). Qed.
Theorem C106_check : forall a rules output skip names w, (forall v, lossy v = [] <-> v = []) ->
  (forall l, Permutation (rule_order l) l) -> regexes_compile O (oa_ci a) -> regexes_compile Od false ->
  (forall sets, rules = Some sets -> Forall (set_wf Od) sets) ->
  ends_without_panic (check_on_disk a rules output skip names w).
Proof. exact (check_quiet gz_enc gz_dec writable O Od transform lossy T rule_order link_order). Qed.
Theorem C106_hash : forall a output tsv header skip names w, regexes_compile O (oa_ci a) -> regexes_compile Od false ->
  ends_without_panic (hash_on_disk a output tsv header skip names w).
Proof. exact (hash_quiet gz_enc gz_dec writable O Od transform sha lossy numeric). Qed.
Theorem C106_slice : forall a gzip append output start end_ length skip names w, regexes_compile O (oa_ci a) -> regexes_compile Od false ->
  append && gzip = false ->
  ends_without_panic (slice_on_disk a gzip append output start end_ length skip names w).
Proof. exact (slice_quiet gz_enc gz_dec writable O Od transform). Qed.
Theorem C106_sample : forall a gzip output draw size skip names w, regexes_compile O (oa_ci a) -> regexes_compile Od false ->
  ends_without_panic (sample_on_disk a gzip output draw size skip names w).
Proof. exact (sample_quiet gz_enc gz_dec writable O Od transform). Qed.
Theorem C106_select : forall a unique no_empty nf q tsv append output skip names w, regexes_compile O (oa_ci (ta_opts a)) -> regexes_compile Od false ->
  ends_without_panic (select_on_disk a unique no_empty nf q tsv append output skip names w).
Proof. exact (select_quiet gz_enc gz_dec writable O Od transform lossy T numeric hash). Qed.
Theorem C106_frequency : forall a unique num threshold reverse nf tsv output skip names w, regexes_compile O (oa_ci (ta_opts a)) -> regexes_compile Od false ->
  ends_without_panic (freq_on_disk a unique num threshold reverse nf tsv output skip names w).
Proof. exact (freq_quiet gz_enc gz_dec writable O Od transform lossy T numeric freq_order). Qed.
Theorem C106_split : forall a gzip outdir dir_ok template size skip names w, regexes_compile O (oa_ci a) -> regexes_compile Od false ->
  ends_without_panic (split_on_disk a gzip outdir dir_ok template size skip names w).
Proof. exact (split_quiet gz_enc gz_dec writable O Od transform). Qed.
Theorem C106_partition : forall a p gzip outdir dir_ok template skip names w, regexes_compile O (oa_ci a) -> regexes_compile Od false ->
  path_wf O (oa_ci a) p ->
  ends_without_panic (partition_on_disk a p gzip outdir dir_ok template skip names w).
Proof. exact (partition_quiet gz_enc gz_dec writable O Od transform lossy writer_order). Qed.
Theorem C106_convert : forall from to output skip names w, to <> TXml ->
  ends_without_panic (convert_on_disk from to output skip names w).
Proof. exact (convert_quiet gz_enc gz_dec writable lossy esc). Qed.
Theorem C106_invalid : forall output names w, 
  ends_without_panic (invalid_on_disk output names w).
Proof. exact (invalid_quiet gz_enc gz_dec writable). Qed.
Theorem C106_describe : forall a discard keep csv tsv output skip names w, regexes_compile O (oa_ci a) -> regexes_compile Od false ->
  ends_without_panic (describe_on_disk a discard keep csv tsv output skip names w).
Proof. exact (describe_quiet gz_enc gz_dec writable O Od transform tag_order frame_text). Qed.
End Commands.

Print Assumptions C105_filter.
Print Assumptions C105_concat.
Print Assumptions C105_count.
Print Assumptions C105_explode.
Print Assumptions C105_check.
Print Assumptions C105_hash.
Print Assumptions C105_print.
Print Assumptions C105_slice.
Print Assumptions C105_sample.
Print Assumptions C105_select.
Print Assumptions C105_frequency.
Print Assumptions C105_split.
Print Assumptions C105_partition.
Print Assumptions C105_convert.
Print Assumptions C105_invalid.
Print Assumptions C105_describe.
Print Assumptions C106_filter.
Print Assumptions C106_concat.
Print Assumptions C106_count.
Print Assumptions C106_explode.
Print Assumptions C106_check.
Print Assumptions C106_hash.
Print Assumptions C106_slice.
Print Assumptions C106_sample.
Print Assumptions C106_select.
Print Assumptions C106_frequency.
Print Assumptions C106_split.
Print Assumptions C106_partition.
Print Assumptions C106_convert.
Print Assumptions C106_invalid.
Print Assumptions C106_describe.

(** the hypotheses of C106 can be met, and the runs they allow do something *)
Example C106_example :
  regexes_compile sample_oracles false
  /\ toy_concat false (Some (lit "c.dat")) None None false [lit "a.dat"; lit "b.dat"] disk_a_b
     = Some (CEnded 0, mkWorld [(lit "a.dat", io_line_1); (lit "b.dat", io_line_2); (lit "c.dat", io_line_1 ++ io_line_2)] [] [])
  /\ toy_count (where_args (Some (lit "003@.0?"))) false None MPlain false [lit "a.dat"; lit "x.dat"] disk_a_b
     = Some (CEnded 2, disk_a_b).
Proof. split; [split; intros; reflexivity|]. split; vm_compute; reflexivity. Qed.

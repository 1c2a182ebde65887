(** * Properties of the commands with their files: C87 to C91 *)

From Coq Require Import String.
From Verif Require Import Bytes Winnow RecordModel TagOccModel Utf8Model ByteRecordModel ReaderModel
  MatcherModel StateParser MatcherParserModel BuilderModel PathModel FmtModel QueryModel CliModel TableModel
  ExplodeModel CheckModel CsvModel OptionsModel PrepareModel IoModel IoSpec WriteSpec DiskModel DiskSpec
  CliSpec GrammarSpec QuerySpec PrepareSpec DiskCommandProofs DiskAppendProofs DiskEndProofs PropertiesMatcher PropertiesCli
  PropertiesQuery PropertiesIo PropertiesPrepare.

Section Commands.
  Variable gz_enc : bytes -> bytes.
  Variable gz_dec : bytes -> list piece.
  Variable writable : bytes -> bool.
  Variables O Od : oracles.
  Variable transform : bytes -> bytes.
  Variable sha : bytes -> bytes.
  Variable lossy : bytes -> bytes.
  Variable T : text_fns.
  Variable rule_order : list (bytes * N) -> list (bytes * N).
  Variable link_order : list (bytes * list bytes) -> list (bytes * list bytes).
  Variable numeric : bytes -> bool.
  Variable hash : list bytes -> N.
  Variable freq_order : ftable -> ftable.

  Notation filter_on_disk := (filter_on_disk gz_enc gz_dec writable O Od transform).
  Notation concat_on_disk := (concat_on_disk gz_enc gz_dec writable O sha lossy).
  Notation count_on_disk := (count_on_disk gz_enc gz_dec writable O Od transform).
  Notation explode_on_disk := (explode_on_disk gz_enc gz_dec writable O Od transform).
  Notation check_on_disk := (check_on_disk gz_enc gz_dec writable O Od transform lossy T rule_order link_order).
  Notation hash_on_disk := (hash_on_disk gz_enc gz_dec writable O Od transform sha lossy numeric).
  Notation print_on_disk := (print_on_disk gz_enc gz_dec writable O Od transform).
  Notation slice_on_disk := (slice_on_disk gz_enc gz_dec writable O Od transform).
  Notation sample_on_disk := (sample_on_disk gz_enc gz_dec writable O Od transform).
  Notation select_on_disk := (select_on_disk gz_enc gz_dec writable O Od transform lossy T numeric hash).
  Notation freq_on_disk := (freq_on_disk gz_enc gz_dec writable O Od transform lossy T numeric freq_order).

  (** ** C87: a refused command changes no file

      "Refused" is an error before the first record is read: an invalid
      expression, query or option, or an output that cannot be opened.  This is
      true of the commands that open their outputs last. *)

Theorem C87_hash_partial : forall a output tsv header skip names w w',
    hash_on_disk a output tsv header skip names w = Some (CRefused, w') -> w' = w.
Proof. exact (hash_refused gz_enc gz_dec writable O Od transform sha lossy numeric). Qed.

Theorem C87_print_partial : forall a nf output skip names w w',
    print_on_disk a nf output skip names w = Some (CRefused, w') -> w' = w.
Proof. exact (print_refused gz_enc gz_dec writable O Od transform). Qed.

Theorem C87_slice_partial : forall a gzip append output start end_ length skip names w w',
    slice_on_disk a gzip append output start end_ length skip names w = Some (CRefused, w') -> w' = w.
Proof. exact (slice_refused gz_enc gz_dec writable O Od transform). Qed.

Theorem C87_sample_partial : forall a gzip output draw size skip names w w',
    sample_on_disk a gzip output draw size skip names w = Some (CRefused, w') -> w' = w.
Proof. exact (sample_refused gz_enc gz_dec writable O Od transform). Qed.

Theorem C87_select_partial : forall a unique no_empty nf q tsv append output skip names w w',
    select_on_disk a unique no_empty nf q tsv append output skip names w = Some (CRefused, w') -> w' = w.
Proof. exact (select_refused gz_enc gz_dec writable O Od transform lossy T numeric hash). Qed.

Theorem C87_frequency_partial : forall a unique num threshold reverse nf tsv output skip names w w',
    freq_on_disk a unique num threshold reverse nf tsv output skip names w = Some (CRefused, w') -> w' = w.
Proof. exact (freq_refused gz_enc gz_dec writable O Od transform lossy T numeric freq_order). Qed.

  (** For the others it is refuted below.  With --append no command loses
      anything, however it ends: each file still starts with what was in it. *)

Theorem C87_filter_append : forall a gzip output tee w c w',
    filter_on_disk a true gzip output tee w = Some (c, w') -> only_grown w w'.
Proof. exact (filter_grown gz_enc gz_dec writable O Od transform). Qed.

Theorem C87_concat_append : forall output tee unique skip names w c w',
    concat_on_disk true output tee unique skip names w = Some (c, w') -> only_grown w w'.
Proof. exact (concat_grown gz_enc gz_dec writable O sha lossy). Qed.

Theorem C87_count_append : forall a output m skip names w c w',
    count_on_disk a true output m skip names w = Some (c, w') -> only_grown w w'.
Proof. exact (count_grown gz_enc gz_dec writable O Od transform). Qed.

Theorem C87_slice_append : forall a gzip output start end_ length skip names w c w',
    slice_on_disk a gzip true output start end_ length skip names w = Some (c, w') -> only_grown w w'.
Proof. exact (slice_grown gz_enc gz_dec writable O Od transform). Qed.

Theorem C87_select_append : forall a unique no_empty nf q tsv output skip names w c w',
    select_on_disk a unique no_empty nf q tsv true output skip names w = Some (c, w') -> only_grown w w'.
Proof. exact (select_grown gz_enc gz_dec writable O Od transform lossy T numeric hash). Qed.

  (** ** C88: the outputs receive what belongs to the inputs

      All files but the outputs stay as they are, however the command ends. *)

Theorem C88_filter_frame : forall a append gzip output tee w c w',
    filter_on_disk a append gzip output tee w = Some (c, w') -> same_but (named output ++ named tee) w w'.
Proof. exact (filter_frame gz_enc gz_dec writable O Od transform). Qed.

Theorem C88_concat_frame : forall append output tee unique skip names w c w',
    concat_on_disk append output tee unique skip names w = Some (c, w') -> same_but (named output ++ named tee) w w'.
Proof. exact (concat_frame gz_enc gz_dec writable O sha lossy). Qed.

Theorem C88_count_frame : forall a append output m skip names w c w',
    count_on_disk a append output m skip names w = Some (c, w') -> same_but (named output) w w'.
Proof. exact (count_frame gz_enc gz_dec writable O Od transform). Qed.

Theorem C88_explode_frame : forall a discard keep l gzip output skip names w c w',
    explode_on_disk a discard keep l gzip output skip names w = Some (c, w') -> same_but (named output) w w'.
Proof. exact (explode_frame gz_enc gz_dec writable O Od transform). Qed.

Theorem C88_check_frame : forall a rules output skip names w c w',
    check_on_disk a rules output skip names w = Some (c, w') -> same_but (named output) w w'.
Proof. exact (check_frame gz_enc gz_dec writable O Od transform lossy T rule_order link_order). Qed.

Theorem C88_hash_frame : forall a output tsv header skip names w c w',
    hash_on_disk a output tsv header skip names w = Some (c, w') -> same_but (named output) w w'.
Proof. exact (hash_frame gz_enc gz_dec writable O Od transform sha lossy numeric). Qed.

Theorem C88_print_frame : forall a nf output skip names w c w',
    print_on_disk a nf output skip names w = Some (c, w') -> same_but (named output) w w'.
Proof. exact (print_frame gz_enc gz_dec writable O Od transform). Qed.

Theorem C88_slice_frame : forall a gzip append output start end_ length skip names w c w',
    slice_on_disk a gzip append output start end_ length skip names w = Some (c, w') -> same_but (named output) w w'.
Proof. exact (slice_frame gz_enc gz_dec writable O Od transform). Qed.

Theorem C88_sample_frame : forall a gzip output draw size skip names w c w',
    sample_on_disk a gzip output draw size skip names w = Some (c, w') -> same_but (named output) w w'.
Proof. exact (sample_frame gz_enc gz_dec writable O Od transform). Qed.

Theorem C88_select_frame : forall a unique no_empty nf q tsv append output skip names w c w',
    select_on_disk a unique no_empty nf q tsv append output skip names w = Some (c, w') -> same_but (named output) w w'.
Proof. exact (select_frame gz_enc gz_dec writable O Od transform lossy T numeric hash). Qed.

Theorem C88_frequency_frame : forall a unique num threshold reverse nf tsv output skip names w c w',
    freq_on_disk a unique num threshold reverse nf tsv output skip names w = Some (c, w') -> same_but (named output) w w'.
Proof. exact (freq_frame gz_enc gz_dec writable O Od transform lossy T numeric freq_order). Qed.

  (** If no output is among the inputs, a command that ends with a status has
      run over the inputs as they were, and the outputs contain what the run gave:
      after what was there before with --append, alone otherwise, and compressed if
      asked for. *)

Theorem C88_filter : forall a append gzip output tee w st w', 
    let names := filter_names (match fa_expr_file a with Some _ => true | None => false end) (fa_filter a) (fa_names a) in
    (forall n, output = Some n -> tee <> Some n) ->
    (forall n, In n (named output ++ named tee) -> ~ In n names /\ fa_expr_file a <> Some n) ->
    filter_on_disk a append gzip output tee w = Some (CEnded st, w') ->
    (forall n, fa_expr_file a = Some n -> disk_get (w_disk w) n <> None)
    /\ exists c, fst (filter_prepare O Od transform (before w) a) = Some (Some c)
    /\ let b := mkWB append gzip in
       completed gz_enc gz_dec
         ((builder_output b output, (fun s : filter_state => snd (fst s), fun s => snd (fst s)))
            :: match tee with Some n => [(builder_output b (Some n), (fun s : filter_state => snd s, fun s => snd s))] | None => [] end)
         (fun _ => false) (fun s => s) (fun s r => as_io (filter_body O Od c s r)) (fa_skip a) (0, [], []) names st w w'.
Proof. exact (filter_completed gz_enc gz_dec writable O Od transform). Qed.

Theorem C88_concat : forall append output tee unique skip names w st w',
    (forall n, output = Some n -> tee <> Some n) ->
    (forall n, In n (named output ++ named tee) -> ~ In n names) ->
    concat_on_disk append output tee unique skip names w = Some (CEnded st, w') ->
    let b := mkWB append false in
    completed gz_enc gz_dec
      ((builder_output b output, (fun s : concat_state => snd (fst s), fun s => snd (fst s)))
         :: match tee with Some n => [(builder_output b (Some n), (fun s : concat_state => snd s, fun s => snd s))] | None => [] end)
      (fun _ => false) (fun s => s) (fun s r => as_io (concat_body O sha lossy unique s r)) skip ([], [], []) names st w w'.
Proof. exact (concat_completed gz_enc gz_dec writable O sha lossy). Qed.

Theorem C88_count : forall a append output m skip names w st w', (forall n, output = Some n -> ~ In n names) ->
    count_on_disk a append output m skip names w = Some (CEnded st, w') ->
    exists o, fst (opts_prepare O Od transform a) = Some (Some o)
      /\ completed gz_enc gz_dec [(mkOut output append false, (count_output m, fun _ => []))] (fun _ => false)
           (fun s => s) (fun s r => as_io (count_body O Od o s r)) skip (0, 0, 0) names st w w'.
Proof. exact (count_completed gz_enc gz_dec writable O Od transform). Qed.

Theorem C88_explode : forall a discard keep l gzip output skip names w st w',
    (forall n, output = Some n -> ~ In n names) ->
    explode_on_disk a discard keep l gzip output skip names w = Some (CEnded st, w') ->
    exists ds ks o, parse_predicates discard = Some ds /\ parse_predicates keep = Some ks
      /\ fst (opts_prepare O Od transform a) = Some (Some o)
      /\ completed gz_enc gz_dec [(builder_output (mkWB false gzip) output, (@snd N bytes, @snd N bytes))]
           (fun _ => false) (fun s => s) (fun s r => as_io (explode_body O Od (mkExplode l o ks ds) s r)) skip
           (0, []) names st w w'.
Proof. exact (explode_completed gz_enc gz_dec writable O Od transform). Qed.

Theorem C88_check : forall a rules output skip names w st w', (forall n, output = Some n -> ~ In n names) ->
    check_on_disk a rules output skip names w = Some (CEnded st, w') ->
    exists o sets, fst (opts_prepare O Od transform a) = Some (Some o) /\ rules = Some sets
      /\ completed gz_enc gz_dec
           [(mkOut output false false,
             (fun s : check_state => report_text output (snd s ++ sets_finish lossy link_order (snd (fst s))),
              fun s : check_state => report_text output (snd s)))] (fun _ => false)
           (fun s => s) (fun s r => as_io (check_body Od T lossy rule_order O o s r)) skip (0, sets, []) names st w w'.
Proof. exact (check_completed gz_enc gz_dec writable O Od transform lossy T rule_order link_order). Qed.

Theorem C88_hash : forall a output tsv header skip names w st w', (forall n, output = Some n -> ~ In n names) ->
    hash_on_disk a output tsv header skip names w = Some (CEnded st, w') ->
    exists o, fst (opts_prepare O Od transform a) = Some (Some o)
      /\ let text (s : N * list (list bytes) * bool) := csv_text numeric QNecessary (csv_delim tsv) (snd (fst s)) in
         completed gz_enc gz_dec [(mkOut output false false, (text, text))] (fun _ => false)
           (fun s => s) (fun s r => with_refused snd (hash_csv_body O Od sha lossy o s r)) skip
           (0, [map str_trim (split_on 44 header)], false) names st w w'.
Proof. exact (hash_completed gz_enc gz_dec writable O Od transform sha lossy numeric). Qed.

Theorem C88_print : forall a nf output skip names w st w', (forall n, output = Some n -> ~ In n names) ->
    print_on_disk a nf output skip names w = Some (CEnded st, w') ->
    exists o, fst (opts_prepare O Od transform a) = Some (Some o)
      /\ completed gz_enc gz_dec [(mkOut output false false, (@snd N bytes, @snd N bytes))] (fun _ => false)
           (fun s => s) (fun s r => as_io (print_body O Od nf o s r)) skip (0, []) names st w w'.
Proof. exact (print_completed gz_enc gz_dec writable O Od transform). Qed.

Theorem C88_slice : forall a gzip append output start end_ length skip names w st w',
    (forall n, output = Some n -> ~ In n names) ->
    slice_on_disk a gzip append output start end_ length skip names w = Some (CEnded st, w') ->
    exists o, fst (opts_prepare O Od transform a) = Some (Some o)
      /\ completed gz_enc gz_dec [(builder_output (mkWB append gzip) output, (sl_out, sl_out))] (fun _ => false)
           (slice_on_skip length) (fun s r => as_io (slice_body O Od start o s r)) skip
           (mkSlice (slice_end start end_ length) 0 0 []) names st w w'.
Proof. exact (slice_completed gz_enc gz_dec writable O Od transform). Qed.

Theorem C88_sample : forall a gzip output draw size skip names w st w',
    (forall n, output = Some n -> ~ In n names) ->
    sample_on_disk a gzip output draw size skip names w = Some (CEnded st, w') ->
    exists o, fst (opts_prepare O Od transform a) = Some (Some o)
      /\ let text (s : sample_state) := match sample_write (snd s) with Some t => t | None => [] end in
         completed gz_enc gz_dec [(builder_output (mkWB false gzip) output, (text, fun _ => []))] (fun _ => false)
           (fun s => s) (fun s r => as_io (sample_body O Od draw size o s r)) skip (0, []) names st w w'.
Proof. exact (sample_completed gz_enc gz_dec writable O Od transform). Qed.

Theorem C88_select : forall a unique no_empty nf q tsv append output skip names w st w',
    (forall n, output = Some n -> ~ In n names) ->
    select_on_disk a unique no_empty nf q tsv append output skip names w = Some (CEnded st, w') ->
    exists o query, fst (table_prepare O Od transform a) = Some (Some (o, query))
      /\ let text (s : select_state) := csv_text numeric q (csv_delim tsv) (sel_rows s) in
         let c := mkSelect query (options_of a) unique no_empty (table_header a) nf in
         completed gz_enc gz_dec [(mkOut output append false, (text, text))] (fun _ => false)
           (fun s => s) (fun s r => with_refused sel_failed (select_body O Od T lossy hash c o s r)) skip
           (mkSel 0 [] (csv_header (table_header a)) false) names st w w'.
Proof. exact (select_completed gz_enc gz_dec writable O Od transform lossy T numeric hash). Qed.

Theorem C88_frequency : forall a unique num threshold reverse nf tsv output skip names w st w',
    (forall n, output = Some n -> ~ In n names) ->
    freq_on_disk a unique num threshold reverse nf tsv output skip names w = Some (CEnded st, w') ->
    exists o query, fst (table_prepare O Od transform a) = Some (Some (o, query))
      /\ let c := mkFreq query (options_of a) unique num threshold reverse (table_header a) nf in
         let table (s : N * ftable) := freq_output lossy freq_order c (snd s) in
         completed gz_enc gz_dec
           [(mkOut output false false,
             (fun s => csv_text numeric QNecessary (csv_delim tsv) (fst (table s)), fun _ => []))]
           (fun s => snd (table s)) (fun s => s) (fun s r => as_io (freq_body O Od T c o s r)) skip (0, []) names st w w'.
Proof. exact (freq_completed gz_enc gz_dec writable O Od transform lossy T numeric freq_order). Qed.

End Commands.

Print Assumptions C87_hash_partial.
Print Assumptions C87_print_partial.
Print Assumptions C87_slice_partial.
Print Assumptions C87_sample_partial.
Print Assumptions C87_select_partial.
Print Assumptions C87_frequency_partial.
Print Assumptions C87_filter_append.
Print Assumptions C87_concat_append.
Print Assumptions C87_count_append.
Print Assumptions C87_slice_append.
Print Assumptions C87_select_append.
Print Assumptions C88_filter_frame.
Print Assumptions C88_concat_frame.
Print Assumptions C88_count_frame.
Print Assumptions C88_explode_frame.
Print Assumptions C88_check_frame.
Print Assumptions C88_hash_frame.
Print Assumptions C88_print_frame.
Print Assumptions C88_slice_frame.
Print Assumptions C88_sample_frame.
Print Assumptions C88_select_frame.
Print Assumptions C88_frequency_frame.
Print Assumptions C88_filter.
Print Assumptions C88_concat.
Print Assumptions C88_count.
Print Assumptions C88_explode.
Print Assumptions C88_check.
Print Assumptions C88_hash.
Print Assumptions C88_print.
Print Assumptions C88_slice.
Print Assumptions C88_sample.
Print Assumptions C88_select.
Print Assumptions C88_frequency.

(** the run over the inputs, if all of them can be read to their end; for what
    [run_loop] gives see the theorems on the single commands *)
Theorem C88_contents : forall S gz_enc gz_dec (outs : list (output * ((S -> bytes) * (S -> bytes)))) bad on_skip body f skip s
    names cs status w w',
  loop_body f on_skip body skip -> available gz_dec (w_disk w) (w_stdin w) names cs ->
  completed gz_enc gz_dec outs bad on_skip body skip s names status w w' ->
  exists x, run_loop f s cs = Some x
    /\ match x with
       | Done s' => status = (if bad s' then 2 else 0) /\ received gz_enc (map (fun o => (fst o, fst (snd o) s')) outs) w w'
       | Failed s' _ => status = 2 /\ received gz_enc (map (fun o => (fst o, snd (snd o) s')) outs) w w'
       | Panicked => False
       end.
Proof. exact completed_available. Qed.
Print Assumptions C88_contents.

(** an output is compressed with --gzip or if its name has the extension gz *)
Theorem C88_compressed : forall b n, out_gz (builder_output b (Some n)) = true <-> wb_gzip b = true \/ gz_extension n.
Proof. exact builder_output_gz. Qed.
Print Assumptions C88_compressed.
Theorem C88_output : forall b o, out_name (builder_output b o) = o /\ out_append (builder_output b o) = wb_append b
  /\ out_gz (builder_output b None) = wb_gzip b.
Proof. exact builder_output_is. Qed.
Print Assumptions C88_output.

(** filter, from the texts of the arguments to the contents of the files *)
Theorem C88_filter_end_to_end : forall gz_enc gz_dec writable O Od transform a M D K V append gzip output tee w names cs,
  regexes_compile O (fa_ci a) -> regexes_compile Od false -> append && gzip = false ->
  filter_says O Od true transform (before w) a M D K V ->
  (forall n, fa_expr_file a = Some n -> disk_get (w_disk w) n <> None) ->
  input_names a names -> available gz_dec (w_disk w) (w_stdin w) names cs ->
  (forall n, output = Some n -> tee <> Some n) ->
  (forall n, In n (named output ++ named tee) -> writable n = true /\ ~ In n names /\ fa_expr_file a <> Some n) ->
  exists all e0 sel recs e texts w',
    reads (fa_skip a) cs all e0
    /\ chosen (fun r => admits V (fa_allow a) (fa_deny a) (fa_column a) r
                        /\ (if fa_invert a then ~ M (fa_ci a) r else M (fa_ci a) r)) all sel
    /\ limited (fa_limit a) sel e0 recs e
    /\ Forall2 (remaining_text D K) recs texts
    /\ filter_on_disk gz_enc gz_dec writable O Od transform a append gzip output tee w = Some (CEnded (status_of e), w')
    /\ received gz_enc (map (fun o => (builder_output (mkWB append gzip) o, concat texts))
                          (output :: match tee with Some n => [Some n] | None => [] end)) w w'.
Proof. exact filter_disk_accepted. Qed.
Print Assumptions C88_filter_end_to_end.

Theorem C88_filter_end_to_end_read : forall gz_enc gz_dec writable O Od transform a append gzip output tee w names cs st w',
  regexes_compile O (fa_ci a) -> regexes_compile Od false ->
  input_names a names -> available gz_dec (w_disk w) (w_stdin w) names cs ->
  (forall n, output = Some n -> tee <> Some n) ->
  (forall n, In n (named output ++ named tee) -> ~ In n names /\ fa_expr_file a <> Some n) ->
  filter_on_disk gz_enc gz_dec writable O Od transform a append gzip output tee w = Some (CEnded st, w') ->
  exists M D K V all e0 sel recs e texts,
    filter_says O Od false transform (before w) a M D K V
    /\ reads (fa_skip a) cs all e0
    /\ chosen (fun r => admits V (fa_allow a) (fa_deny a) (fa_column a) r
                        /\ (if fa_invert a then ~ M (fa_ci a) r else M (fa_ci a) r)) all sel
    /\ limited (fa_limit a) sel e0 recs e
    /\ Forall2 (remaining_text D K) recs texts
    /\ st = status_of e
    /\ received gz_enc (map (fun o => (builder_output (mkWB append gzip) o, concat texts))
                          (output :: match tee with Some n => [Some n] | None => [] end)) w w'.
Proof. exact filter_disk_read. Qed.
Print Assumptions C88_filter_end_to_end_read.

(** ** Samples *)

(** a stand-in for compression: a mark, every byte after a 1, and a 0 *)
Definition toy_enc (t : bytes) : bytes := 31 :: flat_map (fun c => [1; c]) t ++ [0].
Fixpoint toy_member (b : bytes) : bytes :=
  match b with
  | 1 :: c :: r => c :: toy_member r
  | _ => []
  end.
Definition toy_dec (b : bytes) : list piece :=
  match b with
  | 31 :: r => match toy_member r with [] => [] | t => [PData t] end
  | _ => [PError OtherKind]
  end.

Example toy_first : gz_first toy_enc toy_dec.
Proof.
  intros t rest. unfold toy_enc, toy_dec. cbn [app]. rewrite <- app_assoc.
  assert (E : toy_member (flat_map (fun c => [1; c]) t ++ [0] ++ rest) = t).
  { induction t as [|c t IH]; [reflexivity|]. cbn [flat_map app toy_member] in *. f_equal. exact IH. }
  rewrite E. destruct t as [|c t]; [constructor|].
  rewrite <- (app_nil_r (c :: t)) at 2. apply dl_data; [discriminate|constructor].
Qed.

Definition all_writable (n : bytes) : bool := true.
Definition disk_a_b : world := mkWorld [(lit "a.dat", io_line_1); (lit "b.dat", io_line_2)] (lit "") (lit "").

Definition bad_filter (expr : bytes) (names : list bytes) : filter_args :=
  mkFilterArgs false 0 false false None None None [] [] None None [] [] [] expr names.
Definition where_args (e : option bytes) : opts_args := mkOptsArgs false 0 e [] [] [] [] [] None None.

Notation toy_filter := (filter_on_disk toy_enc toy_dec all_writable sample_oracles sample_oracles (fun x => x)).
Notation toy_concat := (concat_on_disk toy_enc toy_dec all_writable sample_oracles sample_sha sample_lossy).
Notation toy_count := (count_on_disk toy_enc toy_dec all_writable sample_oracles sample_oracles (fun x => x)).
Notation toy_explode := (explode_on_disk toy_enc toy_dec all_writable sample_oracles sample_oracles (fun x => x)).
Notation toy_check := (check_on_disk toy_enc toy_dec all_writable sample_oracles sample_oracles (fun x => x) sample_lossy
  sample_text (fun x => x) (fun x => x)).
Notation toy_slice := (slice_on_disk toy_enc toy_dec all_writable sample_oracles sample_oracles (fun x => x)).
Notation toy_select := (select_on_disk toy_enc toy_dec all_writable sample_oracles sample_oracles (fun x => x) sample_lossy
  sample_text (fun _ => false) (fun _ => 0)).

(** C87: select refuses an invalid expression, and b.dat is as before *)
Example C87_example :
  toy_select (mkTableArgs (where_args (Some (lit "003@? &&"))) (lit "003@.0") (lit "|") false false None)
    false false None QNecessary false false (Some (lit "b.dat")) false [lit "a.dat"] disk_a_b = Some (CRefused, disk_a_b).
Proof. vm_compute. reflexivity. Qed.

(** C87 is refuted for the commands that open their output before they look at
    the expression: the file is empty, though the command was refused *)
Theorem C87_filter_refuted : exists a w w', toy_filter a false false (Some (lit "b.dat")) None w = Some (CRefused, w')
  /\ disk_get (w_disk w) (lit "b.dat") = Some io_line_2 /\ disk_get (w_disk w') (lit "b.dat") = Some [].
Proof.
  exists (bad_filter (lit "003@? &&") [lit "a.dat"]), disk_a_b. eexists. split; [vm_compute; reflexivity|].
  vm_compute. split; reflexivity.
Qed.
Print Assumptions C87_filter_refuted.
Theorem C87_count_refuted : exists a w w', toy_count a false (Some (lit "b.dat")) MPlain false [lit "a.dat"] w
    = Some (CRefused, w')
  /\ disk_get (w_disk w) (lit "b.dat") = Some io_line_2 /\ disk_get (w_disk w') (lit "b.dat") = Some [].
Proof.
  exists (where_args (Some (lit "003@? &&"))), disk_a_b. eexists. split; [vm_compute; reflexivity|].
  vm_compute. split; reflexivity.
Qed.
Print Assumptions C87_count_refuted.
Theorem C87_explode_refuted : exists a w w', toy_explode a None None LMain false (Some (lit "b.dat")) false [lit "a.dat"] w
    = Some (CRefused, w')
  /\ disk_get (w_disk w) (lit "b.dat") = Some io_line_2 /\ disk_get (w_disk w') (lit "b.dat") = Some [].
Proof.
  exists (where_args (Some (lit "003@? &&"))), disk_a_b. eexists. split; [vm_compute; reflexivity|].
  vm_compute. split; reflexivity.
Qed.
Print Assumptions C87_explode_refuted.
Theorem C87_check_refuted : exists a w w', toy_check a (Some []) (Some (lit "b.dat")) false [lit "a.dat"] w
    = Some (CRefused, w')
  /\ disk_get (w_disk w) (lit "b.dat") = Some io_line_2 /\ disk_get (w_disk w') (lit "b.dat") = Some [].
Proof.
  exists (where_args (Some (lit "003@? &&"))), disk_a_b. eexists. split; [vm_compute; reflexivity|].
  vm_compute. split; reflexivity.
Qed.
Print Assumptions C87_check_refuted.

(** concat: the first output is emptied, then the second cannot be opened *)
Theorem C87_concat_refuted : exists writable w w',
  concat_on_disk toy_enc toy_dec writable sample_oracles sample_sha sample_lossy false (Some (lit "b.dat"))
    (Some (lit "dir/c.dat")) None false [lit "a.dat"] w = Some (CRefused, w')
  /\ disk_get (w_disk w) (lit "b.dat") = Some io_line_2 /\ disk_get (w_disk w') (lit "b.dat") = Some [].
Proof.
  exists (fun n => negb (bytes_eqb n (lit "dir/c.dat"))), disk_a_b. eexists. split; [vm_compute; reflexivity|].
  vm_compute. split; reflexivity.
Qed.
Print Assumptions C87_concat_refuted.

(** C88: a run with two inputs, one of them stdin, and two outputs *)
Example C88_example : exists w',
  toy_filter sample_args false false (Some (lit "c.dat")) (Some (lit "d.gz")) disk_a_b = Some (CEnded 0, w')
  /\ disk_get (w_disk w') (lit "d.gz") = Some (toy_enc (lit ""))
  /\ disk_get (w_disk w') (lit "c.dat") = Some (lit "")
  /\ disk_get (w_disk w') (lit "a.dat") = Some io_line_1.
Proof. eexists. split; [vm_compute; reflexivity|]. vm_compute. repeat split; reflexivity. Qed.
Example C88_example_text : exists w',
  toy_filter (bad_filter (lit "003@.0 == '2'") [lit "a.dat"; lit "b.dat"]) true false (Some (lit "c.dat")) None
    (mkWorld ((lit "c.dat", io_line_1) :: w_disk disk_a_b) [] []) = Some (CEnded 0, w')
  /\ disk_get (w_disk w') (lit "c.dat") = Some (io_line_1 ++ io_line_2).
Proof. eexists. split; [vm_compute; reflexivity|]. vm_compute. reflexivity. Qed.

Example C88_hypotheses :
  available toy_dec (w_disk disk_a_b) (w_stdin disk_a_b) [lit "a.dat"; lit "-"] [(lit "a.dat", io_line_1); (lit "-", lit "")]
  /\ input_names sample_args [lit "a.dat"; lit "-"]
  /\ exists M D K V,
       filter_says sample_oracles sample_oracles true (fun e => e) (before disk_a_b) sample_args M D K V.
Proof.
  split; [|split].
  - apply av_file; [discriminate|apply ra_plain; reflexivity|]. apply av_stdin. apply av_none.
  - apply (inames_expr sample_args). reflexivity.
  - destruct C69_sample as (M & D & K & V & [(e & [[H1 H2]|(n & H & _)] & Hc) HD HK HS HA HY] & _); [|discriminate].
    exists M, D, K, V. constructor; try assumption. exists e. split; [left; auto|exact Hc].
Qed.

(** ** C89: appending the output for further inputs

    One run for some inputs, then one with --append for others: the same as one
    run for all of them.  For concat and filter with one output that is not
    compressed. *)
Theorem C89_concat_partial : forall gz_enc gz_dec writable O sha lossy skip n w a b w1 w2,
  ~ In n (a ++ b) -> ~ In (lit "-") a -> gz_name n = false ->
  concat_on_disk gz_enc gz_dec writable O sha lossy false (Some n) None None skip a w = Some (CEnded 0, w1) ->
  concat_on_disk gz_enc gz_dec writable O sha lossy true (Some n) None None skip b w1 = Some (CEnded 0, w2) ->
  exists w', concat_on_disk gz_enc gz_dec writable O sha lossy false (Some n) None None skip (a ++ b) w = Some (CEnded 0, w')
    /\ same_disk w2 w' /\ w_stdout w' = w_stdout w2.
Proof. exact concat_twice. Qed.
Print Assumptions C89_concat_partial.
Theorem C89_filter_partial : forall gz_enc gz_dec writable O Od transform a n w na nb w1 w2,
  ~ In n (na ++ nb) -> ~ In (lit "-") na -> gz_name n = false -> fa_expr_file a = None -> fa_limit a = 0 ->
  filter_on_disk gz_enc gz_dec writable O Od transform (with_names a na) false false (Some n) None w = Some (CEnded 0, w1) ->
  filter_on_disk gz_enc gz_dec writable O Od transform (with_names a nb) true false (Some n) None w1 = Some (CEnded 0, w2) ->
  exists w', filter_on_disk gz_enc gz_dec writable O Od transform (with_names a (na ++ nb)) false false (Some n) None w
      = Some (CEnded 0, w')
    /\ same_disk w2 w' /\ w_stdout w' = w_stdout w2.
Proof. exact filter_twice. Qed.
Print Assumptions C89_filter_partial.

Example C89_example : exists w1 w2,
  toy_concat false (Some (lit "c.dat")) None None false [lit "a.dat"] disk_a_b = Some (CEnded 0, w1)
  /\ toy_concat true (Some (lit "c.dat")) None None false [lit "b.dat"] w1 = Some (CEnded 0, w2)
  /\ disk_get (w_disk w2) (lit "c.dat") = Some (io_line_1 ++ io_line_2).
Proof. eexists. eexists. split; [vm_compute; reflexivity|]. split; vm_compute; reflexivity. Qed.

(** Refuted with --unique: records that are in both inputs are written twice. *)
Theorem C89_unique_refuted : exists w w1 w2 w',
  toy_concat false (Some (lit "c.dat")) None (Some SIdn) false [lit "a.dat"] w = Some (CEnded 0, w1)
  /\ toy_concat true (Some (lit "c.dat")) None (Some SIdn) false [lit "a.dat"] w1 = Some (CEnded 0, w2)
  /\ toy_concat false (Some (lit "c.dat")) None (Some SIdn) false [lit "a.dat"; lit "a.dat"] w = Some (CEnded 0, w')
  /\ disk_get (w_disk w2) (lit "c.dat") = Some (io_line_1 ++ io_line_1)
  /\ disk_get (w_disk w') (lit "c.dat") = Some io_line_1.
Proof. exists disk_a_b. do 3 eexists. repeat (split; [vm_compute; reflexivity|]). vm_compute. reflexivity. Qed.
Print Assumptions C89_unique_refuted.

(** Refuted with --limit: it holds for each run. *)
Theorem C89_limit_refuted : exists a w w1 w2 w',
  toy_filter (with_names a [lit "a.dat"]) false false (Some (lit "c.dat")) None w = Some (CEnded 0, w1)
  /\ toy_filter (with_names a [lit "b.dat"]) true false (Some (lit "c.dat")) None w1 = Some (CEnded 0, w2)
  /\ toy_filter (with_names a [lit "a.dat"; lit "b.dat"]) false false (Some (lit "c.dat")) None w = Some (CEnded 0, w')
  /\ disk_get (w_disk w2) (lit "c.dat") = Some (io_line_1 ++ io_line_2)
  /\ disk_get (w_disk w') (lit "c.dat") = Some io_line_1.
Proof.
  exists (mkFilterArgs false 1 false false None None None [] [] None None [] [] [] (lit "003@?") []), disk_a_b.
  do 3 eexists. repeat (split; [vm_compute; reflexivity|]). vm_compute. reflexivity.
Qed.
Print Assumptions C89_limit_refuted.

(** Refuted for select with --header: the header is written again. *)
Theorem C89_header_refuted : exists a w w1 w2 w',
  let run append names := toy_select a false false None QNecessary false append (Some (lit "c.csv")) false names in
  run false [lit "a.dat"] w = Some (CEnded 0, w1)
  /\ run true [lit "b.dat"] w1 = Some (CEnded 0, w2)
  /\ run false [lit "a.dat"; lit "b.dat"] w = Some (CEnded 0, w')
  /\ disk_get (w_disk w2) (lit "c.csv") = Some (lit "idn" ++ 10 :: lit "1" ++ 10 :: lit "idn" ++ 10 :: lit "2" ++ [10])
  /\ disk_get (w_disk w') (lit "c.csv") = Some (lit "idn" ++ 10 :: lit "1" ++ 10 :: lit "2" ++ [10]).
Proof.
  exists (mkTableArgs (where_args None) (lit "003@.0") (lit "|") false false (Some (lit "idn"))), disk_a_b.
  do 3 eexists. cbv zeta. repeat (split; [vm_compute; reflexivity|]). vm_compute. reflexivity.
Qed.
Print Assumptions C89_header_refuted.

(** ** C90: an input is never destroyed

    Refuted: with its input as its output, concat empties the file and reports
    success, whatever was in it. *)
Theorem C90_concat_refuted : forall gz_enc gz_dec writable O sha lossy unique skip n w,
  writable n = true -> n <> lit "-" -> gz_name n = false ->
  exists w', concat_on_disk gz_enc gz_dec writable O sha lossy false (Some n) None unique skip [n] w = Some (CEnded 0, w')
    /\ disk_get (w_disk w') n = Some [].
Proof. exact concat_self. Qed.
Print Assumptions C90_concat_refuted.
Theorem C90_filter_refuted : exists a w w',
  toy_filter a false false (Some (lit "a.dat")) None w = Some (CEnded 0, w')
  /\ fa_names a = [lit "a.dat"]
  /\ disk_get (w_disk w) (lit "a.dat") = Some io_line_1 /\ disk_get (w_disk w') (lit "a.dat") = Some [].
Proof.
  exists (bad_filter (lit "003@?") [lit "a.dat"]), disk_a_b. eexists. split; [vm_compute; reflexivity|].
  vm_compute. repeat split; reflexivity.
Qed.
Print Assumptions C90_filter_refuted.

(** What is true: an input that is no output stays as it is, by C88, and with
    --append nothing is lost, by C87. *)
Theorem C90_filter_partial : forall gz_enc gz_dec writable O Od transform a append gzip output tee w c w' n,
  filter_on_disk gz_enc gz_dec writable O Od transform a append gzip output tee w = Some (c, w') ->
  output <> Some n -> tee <> Some n -> disk_get (w_disk w') n = disk_get (w_disk w) n.
Proof. exact filter_others. Qed.
Print Assumptions C90_filter_partial.

(** ** C91: no accepted combination of output options panics *)

(** filter: clap refuses --append with --gzip; then only the loop over the
    records can panic *)
Theorem C91_filter_partial : forall gz_enc gz_dec writable O Od transform a append gzip output tee w w',
  append && gzip = false ->
  filter_on_disk gz_enc gz_dec writable O Od transform a append gzip output tee w = Some (CPanicked, w') ->
  exists c files, io_files_loop (fun s => s) (fun s r => as_io (filter_body O Od c s r)) (fa_skip a) (0, [], []) files
    = Some IPanicked.
Proof. exact filter_panicked. Qed.
Print Assumptions C91_filter_partial.
Theorem C91_slice_partial : forall gz_enc gz_dec writable O Od transform a gzip append output start end_ length skip names w w',
  slice_on_disk gz_enc gz_dec writable O Od transform a gzip append output start end_ length skip names w = Some (CPanicked, w') ->
  (append = true /\ gzip = true)
  \/ exists o files, io_files_loop (slice_on_skip length) (fun s r => as_io (slice_body O Od start o s r)) skip
        (mkSlice (slice_end start end_ length) 0 0 []) files = Some IPanicked.
Proof. exact slice_panicked. Qed.
Print Assumptions C91_slice_partial.

(** Refuted: slice accepts the two together, and always panics. *)
Theorem C91_slice_refuted : forall gz_enc gz_dec writable O Od transform a output start end_ length skip names w o,
  fst (opts_prepare O Od transform a) = Some (Some o) ->
  slice_on_disk gz_enc gz_dec writable O Od transform a true true output start end_ length skip names w = Some (CPanicked, w).
Proof. exact slice_both. Qed.
Print Assumptions C91_slice_refuted.
Example C91_example :
  toy_slice (where_args None) true true (Some (lit "c.dat")) 0 0 1 false [lit "a.dat"] disk_a_b = Some (CPanicked, disk_a_b).
Proof. vm_compute. reflexivity. Qed.

(** ** C92: what was written can be read *)

(** True of a new file that is compressed iff its name says so, and of appending
    without compression. *)
Theorem C92_new_partial : forall gz_enc gz_dec outs w w' o t n, gz_first gz_enc gz_dec ->
  received gz_enc outs w w' -> In (o, t) outs -> out_name o = Some n -> out_append o = false -> out_gz o = gz_name n ->
  reads_as gz_dec (w_disk w') n t.
Proof. exact read_back. Qed.
Print Assumptions C92_new_partial.
Theorem C92_append_partial : forall gz_enc gz_dec outs w w' o t n,
  received gz_enc outs w w' -> In (o, t) outs -> out_name o = Some n -> out_append o = true -> out_gz o = false ->
  gz_name n = false -> reads_as gz_dec (w_disk w') n (before w n ++ t).
Proof. exact read_back_append. Qed.
Print Assumptions C92_append_partial.

(** Refuted for --append with a name that ends with .gz: a second member is
    appended, but the reader stops after the first, so what the second run has
    written is never read. *)
Theorem C92_append_refuted : forall gz_enc gz_dec writable O sha lossy skip unique n w a b w1 w2 st1 st2,
  gz_first gz_enc gz_dec -> gz_name n = true -> ~ In n a -> ~ In n b ->
  concat_on_disk gz_enc gz_dec writable O sha lossy false (Some n) None unique skip a w = Some (CEnded st1, w1) ->
  concat_on_disk gz_enc gz_dec writable O sha lossy true (Some n) None unique skip b w1 = Some (CEnded st2, w2) ->
  exists t, reads_as gz_dec (w_disk w1) n t /\ reads_as gz_dec (w_disk w2) n t.
Proof. exact concat_gz_twice. Qed.
Print Assumptions C92_append_refuted.
Example C92_example : exists w1 w2 w3,
  toy_concat false (Some (lit "c.gz")) None None false [lit "a.dat"] disk_a_b = Some (CEnded 0, w1)
  /\ toy_concat true (Some (lit "c.gz")) None None false [lit "b.dat"] w1 = Some (CEnded 0, w2)
  /\ toy_concat false (Some (lit "d.dat")) None None false [lit "c.gz"] w2 = Some (CEnded 0, w3)
  /\ disk_get (w_disk w3) (lit "d.dat") = Some io_line_1.
Proof. do 3 eexists. repeat (split; [vm_compute; reflexivity|]). vm_compute. reflexivity. Qed.

(** Refuted for --gzip with another name: the file is read as it is, compressed. *)
Theorem C92_gzip_refuted : forall gz_enc gz_dec outs w w' o t n,
  received gz_enc outs w w' -> In (o, t) outs -> out_name o = Some n -> out_append o = false -> out_gz o = true ->
  gz_name n = false -> reads_as gz_dec (w_disk w') n (gz_enc t).
Proof. exact read_back_flag. Qed.
Print Assumptions C92_gzip_refuted.
Example C92_gzip_example : exists w1 w2,
  toy_filter (bad_filter (lit "003@?") [lit "a.dat"]) false true (Some (lit "c.dat")) None disk_a_b = Some (CEnded 0, w1)
  /\ toy_concat false (Some (lit "d.dat")) None None false [lit "c.dat"] w1 = Some (CEnded 2, w2).
Proof. do 2 eexists. repeat (split; [vm_compute; reflexivity|]). vm_compute. reflexivity. Qed.

(** * Proofs about rows and how often they occur *)

From Coq Require Import String ZArith Lia Permutation Sorted.
From Verif Require Import Bytes BaseProofs Winnow RecordModel TagOccModel Utf8Model ByteRecordModel ByteRecordProofs ReaderModel
  MatcherModel MatcherProofs StateParser MatcherParserModel BuilderModel PathModel FmtModel QueryModel CliModel CliProofs TableModel
  ExplodeModel CheckModel ConvertModel CsvModel CsvSpec CsvProofs OptionsModel OptionsSpec ConfigModel PrepareModel
  IoModel IoSpec WriteSpec DiskModel DirModel RuleModel
  MainModel DiskSpec RuleSpec MainSpec PipeSpec DiskProofs PipeProofs PipeInProofs FrontLoop FrontSpec FrontProofs FrontRunProofs LimitProofs PartsSpec PartsProofs RecordwiseSpec QuerySpec TableSpec TableProofs
  FrequencyProofs HaltProofs DiskTableProofs RecordwiseProofs TallySpec.
From Verif Require RunSpec RunProofs.

Section Loops.
  Variables O Od : oracles.
  Variable T : text_fns.
  Variable lossy : bytes -> bytes.
  Variable hash : list bytes -> N.
  Variable fo : filter_opts.
  Hypothesis Hl : fo_limit fo = 0.

  Definition picked (r : byte_record) : bool := match opts_select O Od fo (br_record r) with Some b => b | None => false end.

  Lemma rows_cases : forall c s r, rows_body O Od T lossy hash c fo s r = IPanicked \/ exists s', rows_body O Od T lossy hash c fo s r = IDone s'.
  Proof. intros c s r. unfold rows_body, guarded. destruct (opts_select O Od fo (br_record r)) as [[|]|]; cbn [as_io]; eauto. Qed.

  Lemma rows_fold : forall c recs s s', fold_end (rows_body O Od T lossy hash c fo) s recs = IDone s' ->
    (forall r, In r recs -> opts_select O Od fo (br_record r) = Some (picked r)) /\ s' = fold_left (sel_act O T lossy hash c) (filter picked recs) s.
  Proof.
    intros c. induction recs as [|r recs IH]; intros s s' H; [injection H as <-; split; [intros r []|reflexivity]|].
    cbn [fold_end] in H. unfold rows_body at 1, guarded in H. destruct (opts_select O Od fo (br_record r)) as [b|] eqn:E; [|discriminate].
    assert (Ep : picked r = b) by (unfold picked; rewrite E; reflexivity). cbn [filter]. rewrite Ep.
    destruct b; cbn [as_io] in H; destruct (IH _ _ H) as [H1 H2]; (split; [|exact H2]); intros x [<-|Hx]; try (rewrite Ep; exact E); exact (H1 x Hx).
  Qed.

  Lemma tally_fold : forall c recs s, query_wf O (fq_qo c) (fq_query c) -> (forall r, In r recs -> opts_select O Od fo (br_record r) = Some (picked r)) ->
    fold_end (fun s r => as_io (freq_body O Od T c fo s r)) s recs = IDone (fold_left (freq_act O T c) (filter picked recs) s).
  Proof.
    intros c recs s Hq. revert s. induction recs as [|r recs IH]; intros s Hs; [reflexivity|]. cbn [fold_end filter]. unfold freq_body at 1, guarded.
    rewrite (Hs r (or_introl eq_refl)). assert (Hs' := fun x Hx => Hs x (or_intror Hx)). destruct (picked r); cbn [as_io]; [|apply IH; exact Hs'].
    destruct (query_rows_exist O T (fq_qo c) (fq_query c) r Hq) as (rows & E & _). rewrite E, Hl. cbv zeta. cbn [fst]. change (limit_reached 0 (fst s + 1)) with false. cbn [as_io fold_left].
    rewrite IH by exact Hs'. do 2 f_equal. unfold freq_act, freq_rec. rewrite E. reflexivity.
  Qed.
End Loops.

Definition some_cell (row : list bytes) : bool := negb (forallb is_nil row).

Lemma some_cell_iff : forall row, some_cell row = true <-> ~ blank row.
Proof. intros row. unfold some_cell. rewrite <- blank_iff. destruct (forallb is_nil row); cbn; intuition congruence. Qed.

Lemma pass_filter : forall hash c rows seen, se_unique c = false -> se_no_empty c = false -> snd (sel_pass hash c rows seen) = filter some_cell rows.
Proof.
  intros hash c rows seen Hu Hn. revert seen. induction rows as [|row rows IH]; intros seen; [reflexivity|]. cbn [sel_pass filter]. rewrite Hu, Hn. cbn [andb].
  specialize (IH seen). destruct (sel_pass hash c rows seen) as [s o]. cbn [snd] in *. unfold some_cell at 1. destruct (forallb is_nil row); cbn [negb]; rewrite IH; reflexivity.
Qed.

Lemma frequency_concat : forall rss k, frequency false rss k = count_occ row_dec (concat rss) k.
Proof. induction rss as [|rows rss IH]; intros k; [reflexivity|]. rewrite frequency_cons. cbn [concat]. rewrite count_occ_app, IH. reflexivity. Qed.

Lemma count_filter : forall k rows, ~ blank k -> count_occ row_dec (filter some_cell rows) k = count_occ row_dec rows k.
Proof.
  intros k rows B. induction rows as [|row rows IH]; [reflexivity|]. cbn [filter count_occ]. destruct (row_dec row k) as [->|D].
  - rewrite (proj2 (some_cell_iff k) B). cbn [count_occ]. destruct (row_dec k k); [|contradiction]. rewrite IH. reflexivity.
  - destruct (some_cell row); [cbn [count_occ]; destruct (row_dec row k); [contradiction|]|]; exact IH.
Qed.

Lemma frequencies_tally : forall rss l, frequencies false false rss l -> tally (filter some_cell (concat rss)) l.
Proof.
  intros rss l [S H]. split; [exact S|]. intros k n. rewrite H, frequency_concat, filter_In, some_cell_iff. split.
  - intros (B & -> & P). rewrite (count_filter _ _ B). split; [split; [|exact B]|reflexivity]. apply (count_occ_In row_dec). lia.
  - intros [[I B] ->]. rewrite (count_filter _ _ B). split; [exact B|]. split; [reflexivity|]. apply (count_occ_In row_dec) in I. lia.
Qed.

Section Tally.
  Variable e : env.
  Variable c : config.
  Variables (o : file_opts) (q : MainModel.columns) (tsv : bool) (names : list bytes) (w w1 : world).
  Hypothesis Ho : forall t, Permutation (e_freq_order e t) t.
  Hypothesis R1 : regexes_compile (oracles_for e o) (o_ci o).
  Hypothesis R2 : regexes_compile (default_oracles e) false.
  Hypothesis Hh : co_header q = None.
  Hypothesis Hl : o_limit o = 0.
  Hypothesis H : execute e c (listed o q tsv names) w = Some (CEnded 0, w1).

  Let delim : byte := if tsv then 9 else 44.

  Lemma execute_tally : exists rows l t tf, tally rows l
    /\ w1 = mkWorld (w_disk w) (w_stdin w) (w_stdout w ++ t) /\ csv_rows delim rows t
    /\ csv_rows delim (map (fun x => map (e_lossy e) (fst x) ++ [dec (snd x)]) l) tf
    /\ execute e c (tallied o q tsv names) w = Some (CEnded 0, mkWorld (w_disk w) (w_stdin w) (w_stdout w ++ tf)).
  Proof.
    cbn [listed execute] in H. cbn [tallied execute]. unfold select_on_disk in H. unfold freq_on_disk.
    set (O := oracles_for e o) in *. set (Od := default_oracles e) in *. set (tr := translit e (cf_normalization c)) in *.
    destruct (fst (table_prepare O Od tr (load_columns e (w_disk w) o q))) as [[[fo qu]|]|] eqn:E; try discriminate.
    destruct (table_prepare_wf O Od (e_text e) _ (load_columns e (w_disk w) o q) fo qu R1 R2 E) as [_ Wq].
    apply table_limit in E. cbn in E. rewrite Hl in E. cbn [prepared fst snd open_all open_output out_name] in *. rewrite world_eta in *. cbv zeta in *.
    set (qo := table_options (load_columns e (w_disk w) o q)) in *.
    assert (Eh : table_header (load_columns e (w_disk w) o q) = None) by (unfold table_header; cbn; rewrite Hh; reflexivity). rewrite Eh in *.
    set (cmd := mkSelect qu qo false false None (option_map (e_nf e) None)) in *. set (fc := mkFreq qu qo false 0 0 false None (translit e None)).
    cbn [csv_header se_header cmd] in H. unfold process_all in H.
    rewrite (select_agrees O Od _ _ _ cmd fo Wq E) in H by (split; [constructor|reflexivity]).
    destruct (whole_read select_state (rows_body O Od (e_text e) (e_lossy e) (e_hash e) cmd fo)
      (fun s => csv_text (e_numeric e) QNecessary (csv_delim tsv) (sel_rows s)) (fun s => csv_text (e_numeric e) QNecessary (csv_delim tsv) (sel_rows s))
      (e_gz_enc e) (e_gz_dec e) _ _ false names w w1 (rows_cases O Od (e_text e) (e_lossy e) (e_hash e) fo cmd) H) as (recs & s' & Hr & Hf & Ew).
    destruct (rows_fold _ _ _ _ _ _ _ _ _ _ Hf) as [Hs Es]. rewrite sel_fold in Es.
    set (chosen := filter (picked O Od fo) recs) in *. set (rss := map (sel_rec O (e_text e) cmd) chosen) in *.
    assert (Ep := pass_filter (e_hash e) cmd (concat rss) [] eq_refl eq_refl). cbn [sel_seen sel_rows app] in Es.
    destruct (sel_pass (e_hash e) cmd (concat rss) []) as [seen out]. cbn [snd] in Ep. subst out.
    set (rows := filter some_cell (concat rss)) in *.
    assert (Er : sel_rows s' = rows) by (rewrite Es; cbn [sel_rows]; apply map_id).
    set (l := sort_by (freq_cmp false) (e_freq_order e (snd (fold_left (freq_act O (e_text e) fc) chosen (0, []))))).
    assert (Hfr : frequencies false false rss l) by exact (freq_table_listed O (e_text e) (e_freq_order e) Ho fc chosen).
    assert (Hw := frequencies_width O (e_text e) fc false false chosen l Wq Hfr).
    assert (Hout : freq_output (e_lossy e) (e_freq_order e) fc (snd (fold_left (freq_act O (e_text e) fc) chosen (0, [])))
      = (map (fun x => map (e_lossy e) (fst x) ++ [dec (snd x)]) l, false)).
    { unfold freq_output. cbn [fq_header fc csv_header fq_reverse]. fold l. rewrite (freq_write_cut (e_lossy e) fc _ l 0 [] ltac:(constructor) Hw). cbn [app].
      f_equal. assert (forall i, freq_cut fc i l = l) as ->; [|reflexivity]. clear. induction l as [|x l IH]; intros i; [reflexivity|].
      cbn [freq_cut fq_num fc fq_threshold]. replace (snd x <? 0) with false by (symmetry; apply N.ltb_ge; lia). cbn. rewrite IH. reflexivity. }
    exists rows, l, (csv_text (e_numeric e) QNecessary (csv_delim tsv) rows),
      (csv_text (e_numeric e) QNecessary (csv_delim tsv) (map (fun x => map (e_lossy e) (fst x) ++ [dec (snd x)]) l)).
    split; [exact (frequencies_tally rss l Hfr)|]. split; [rewrite Ew, Er; reflexivity|]. split; [|split].
    - rewrite csv_text_numeric. apply csv_text_rows; [discriminate|discriminate|]. apply Forall_forall. intros row Hrow. apply filter_In in Hrow. destruct Hrow as [_ B]. intros ->. discriminate.
    - rewrite csv_text_numeric. apply csv_text_rows; [discriminate|discriminate|]. apply Forall_forall. intros row Hrow. apply in_map_iff in Hrow. destruct Hrow as (x & <- & _). intros X. apply app_eq_nil in X. destruct X as [_ X]. discriminate X.
    - destruct (files_collects _ _ _ _ Hr) as (recs' & E' & _ & Hfold). cbn in E'. subst recs'. unfold process_all.
      rewrite Hfold by (right; reflexivity). rewrite (tally_fold O Od (e_text e) fo E fc recs (0, []) Wq Hs). fold chosen. cbn [main_status].
      cbn [map fst snd]. rewrite Hout. reflexivity.
  Qed.
End Tally.

Lemma run_tally : forall e cfg o q tsv names w t, (forall x, Permutation (e_freq_order e x) x) ->
  regexes_compile (oracles_for e o) (o_ci o) -> regexes_compile (default_oracles e) false -> co_header q = None -> o_limit o = 0 ->
  run_writes e cfg w (listed o q tsv names) t ->
  exists rows l tf, tally rows l /\ csv_rows (if tsv then 9 else 44) rows t
    /\ csv_rows (if tsv then 9 else 44) (map (fun x => map (e_lossy e) (fst x) ++ [dec (snd x)]) l) tf
    /\ run_writes e cfg w (tallied o q tsv names) tf.
Proof.
  intros e cfg o q tsv names w t Ho R1 R2 Hh Hl (w1 & H & T). destruct (fun X => RunProofs.run_ended _ _ _ _ _ X H) as (c & Hset & He); [reflexivity|].
  destruct (execute_tally e c o q tsv names w w1 Ho R1 R2 Hh Hl He) as (rows & l & t' & tf & Ht & Ew & C1 & C2 & Ef).
  rewrite Ew in T. cbn [w_stdout] in T. apply app_inv_head in T. subst t'. exists rows, l, tf. split; [exact Ht|]. split; [exact C1|]. split; [exact C2|].
  eexists. split; [|exact (eq_refl (w_stdout (mkWorld (w_disk w) (w_stdin w) (w_stdout w ++ tf))))].
  rewrite (RunProofs.run_settings e (mkInvocation cfg (tallied o q tsv names)) w c eq_refl) by (eapply settings_same; [reflexivity|exact Hset]). exact Ef.
Qed.

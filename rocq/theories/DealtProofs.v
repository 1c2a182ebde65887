(** * Proofs about inputs dealt out to two runs *)

From Coq Require Import String ZArith Lia.
From Verif Require Import Bytes BaseProofs Winnow RecordModel TagOccModel Utf8Model ByteRecordModel ByteRecordProofs ReaderModel
  MatcherModel MatcherProofs StateParser MatcherParserModel BuilderModel PathModel FmtModel QueryModel CliModel CliProofs TableModel
  ExplodeModel CheckModel ConvertModel CsvModel OptionsModel OptionsSpec ConfigModel PrepareModel
  IoModel IoSpec WriteSpec DiskModel DirModel RuleModel
  MainModel DiskSpec RuleSpec MainSpec PipeSpec DiskProofs PipeProofs PipeInProofs FrontLoop FrontSpec FrontProofs FrontRunProofs LimitSpec LimitProofs PartsSpec PartsProofs RecordwiseProofs
  DealtSpec.
From Verif Require RunSpec RunProofs.

(** ** filter *)

Lemma dealt_filter : forall f g recs, Forall of_line recs -> (forall r, In r recs -> g r = negb (f r)) ->
  dealt (flat_map br_write (filter f recs)) (flat_map br_write (filter g recs)) (flat_map br_write recs).
Proof.
  intros f g recs H. induction H as [|r recs (x & Hx & Ew & _) H IH]; intros Hg; [constructor|].
  assert (IH' := IH (fun r Hr => Hg r (or_intror Hr))). assert (L : a_line (br_write r)) by (exists x; auto).
  cbn [filter flat_map]. rewrite (Hg r (or_introl eq_refl)). destruct (f r); cbn [negb flat_map]; constructor; assumption.
Qed.

Lemma concat_all : forall e c skip names recs w,
  io_files_loop (fun l => l) snoc (skip || cf_skip_invalid c) [] (inputs (e_gz_dec e) (w_disk w) (w_stdin w) names) = Some (IDone recs) ->
  execute e c (concat_part skip None names) w = Some (CEnded 0, mkWorld (w_disk w) (w_stdin w) (w_stdout w ++ flat_map br_write recs)).
Proof.
  intros e c skip names recs w H. destruct (files_collects _ _ _ _ H) as (recs' & E' & _ & Hf). cbn in E'. subst recs'.
  cbn [concat_part execute]. unfold concat_on_disk. cbn. rewrite world_eta. unfold process_all. rewrite Hf by (right; reflexivity).
  assert (G : forall recs s, exists s', fold_end (fun (s : concat_state) r => as_io (concat_body (default_oracles e) (e_sha e) (e_lossy e) None s r)) s recs = IDone s').
  { clear. induction recs as [|r recs IH]; intros [[s a] b]; [eexists; reflexivity|]. cbn [fold_end concat_body as_io]. apply IH. }
  destruct (G recs ([], [], [])) as (s' & E). rewrite E. apply concat_fold in E. cbn in *. rewrite E. reflexivity.
Qed.

Section Sift.
  Variable e : env.
  Variable c : config.

  Lemma execute_sifted : forall o W names w w1 w2 t1 t2, o_limit o = 0 -> o_allow o = [] -> o_deny o = [] ->
    execute e c (sifted o W false names) w = Some (CEnded 0, w1) -> w_stdout w1 = w_stdout w ++ t1 ->
    execute e c (sifted o W true names) w = Some (CEnded 0, w2) -> w_stdout w2 = w_stdout w ++ t2 ->
    exists t, execute e c (concat_part (o_skip o) None names) w = Some (CEnded 0, mkWorld (w_disk w) (w_stdin w) (w_stdout w ++ t)) /\ dealt t1 t2 t.
  Proof.
    intros o W names w w1 w2 t1 t2 Hl Ha Hd H1 T1 H2 T2. cbn [sifted execute] in H1, H2.
    set (O := oracles_for e o) in *. set (Od := default_oracles e) in *. set (tr := translit e (cf_normalization c)) in *.
    set (a1 := load_filter e (w_disk w) (o_skip o || cf_skip_invalid c) o (mkFilterOnly W None false None None) names) in *.
    set (a2 := load_filter e (w_disk w) (o_skip o || cf_skip_invalid c) o (mkFilterOnly W None true None None) names) in *.
    destruct (filter_front_done _ _ _ O Od tr a1 w w1 Hl eq_refl eq_refl eq_refl H1) as (c1 & s1 & recs & P1 & R1 & S1 & ->).
    destruct (filter_front_done _ _ _ O Od tr a2 w w2 Hl eq_refl eq_refl eq_refl H2) as (c2 & s2 & recs2 & P2 & R2 & S2 & ->).
    change (fa_skip a2) with (fa_skip a1) in R2. change (fa_names a2) with (fa_names a1) in R2. rewrite R1 in R2. injection R2 as <-.
    cbn [w_stdout] in T1, T2. apply app_inv_head in T1, T2. subst t1 t2.
    exists (flat_map br_write recs). split; [apply concat_all; exact R1|].
    apply dealt_filter; [exact (good_lines _ _ _ _ _ _ R1)|]. intros r Hr. specialize (S1 r Hr). specialize (S2 r Hr).
    specialize (P1 (fun _ => [])). specialize (P2 (fun _ => [])). unfold filter_prepare in P1, P2. change (fa_source a2) with (fa_source a1) in P2.
    destruct (source_parse Od fresh (fa_source a1)) as [[[src|]|] s0]; try discriminate. cbn [and_then] in P1, P2.
    cbn [a1 a2 load_filter fa_discard fa_keep fi_discard fi_keep parse_predicates] in P1, P2.
    change (fa_column a2) with (fa_column a1) in P2. change (fa_allow a2) with (fa_allow a1) in P2. change (fa_deny a2) with (fa_deny a1) in P2.
    assert (Eal : fa_allow a1 = []) by (cbn; rewrite Ha; reflexivity). assert (Ede : fa_deny a1 = []) by (cbn; rewrite Hd; reflexivity). rewrite Eal, Ede in P1, P2.
    cbn [filter_set_build read_filter_list] in P1, P2. change (filter_expr (fun _ => []) a2) with (filter_expr (fun _ => []) a1) in P2.
    destruct (filter_expr (fun _ => []) a1) as [x|]; [|discriminate].
    change (fa_and a2) with (fa_and a1) in P2. change (fa_or a2) with (fa_or a1) in P2. change (fa_not a2) with (fa_not a1) in P2.
    destruct (builder_run O tr s0 x _) as [[[m|]|] s3]; try discriminate. cbn [and_then] in P1, P2. injection P1 as P1 _. injection P2 as P2 _.
    revert S1 S2. rewrite <- P1, <- P2. unfold filter_select. cbn [fc_fset fc_matcher fc_ci fc_invert].
    change (fa_ci a2) with (fa_ci a1). unfold filter_set_check. cbn [fset_path fset_deny fset_allow].
    match goal with |- _ = Some ?A -> _ = Some ?B -> _ => generalize A B end. intros b1 b2.
    match goal with |- context [record_path Od false ?p ?x] => destruct (record_path Od false p x) as [vs|] end; [|intros; discriminate].
    match goal with |- context [rm_is_match O ?i m ?x] => destruct (rm_is_match O i m x) as [b|] end; [|intros; discriminate].
    intros A B. injection A as <-. injection B as <-. reflexivity.
  Qed.
End Sift.

Lemma run_sifted : forall e cfg o W names w t1 t2, o_limit o = 0 -> o_allow o = [] -> o_deny o = [] ->
  run_writes e cfg w (sifted o W false names) t1 -> run_writes e cfg w (sifted o W true names) t2 ->
  exists t, run_writes e cfg w (concat_part (o_skip o) None names) t /\ dealt t1 t2 t.
Proof.
  intros e cfg o W names w t1 t2 Hl Ha Hd (w1 & H1 & T1) (w2 & H2 & T2).
  destruct (fun X => RunProofs.run_ended _ _ _ _ _ X H1) as (c & Hset & H1'); [reflexivity|].
  rewrite (RunProofs.run_settings e (mkInvocation cfg (sifted o W true names)) w c eq_refl) in H2 by (eapply settings_same; [reflexivity|exact Hset]).
  destruct (execute_sifted e c o W names w w1 w2 t1 t2 Hl Ha Hd H1' T1 H2 T2) as (t & H & D). exists t. split; [|exact D].
  eexists. split; [|exact (eq_refl (w_stdout (mkWorld (w_disk w) (w_stdin w) (w_stdout w ++ t))))]. rewrite (RunProofs.run_settings e (mkInvocation cfg (concat_part (o_skip o) None names)) w c eq_refl) by (eapply settings_same; [reflexivity|exact Hset]).
  exact H.
Qed.

(** ** slice *)

Lemma slice_done : forall e c skip a b names recs w,
  io_files_loop (fun l => l) snoc (skip || cf_skip_invalid c) [] (inputs (e_gz_dec e) (w_disk w) (w_stdin w) names) = Some (IDone recs) ->
  execute e c (slice_of skip false false None a b 0 names) w
  = Some (CEnded 0, mkWorld (w_disk w) (w_stdin w) (w_stdout w ++ flat_map br_write (window a (slice_end a b 0) recs))).
Proof.
  intros e c skip0 a b names recs w H. destruct (files_collects _ _ _ _ H) as (recs' & E' & _ & Hf). cbn in E'. subst recs'.
  cbn [slice_of execute o_skip]. change (mkFileOpts skip0 0 false 0 [] [] None None None [] [] []) with (slice_opts skip0).
  set (O := oracles_for e (slice_opts skip0)). set (Od := default_oracles e). set (tr := translit e (cf_normalization c)).
  unfold slice_on_disk. assert (SR := fun d => slice_ready e skip0 tr d). fold O Od in SR. rewrite SR. cbn [fst prepared]. set (fo := mkOpts _ None false 0).
  change (wb_run wb_new [CGzip false; CAppend false]) with (Some wb_new). cbv iota zeta.
  cbn [open_all open_output builder_output out_name app]. rewrite world_eta. unfold process_all. rewrite Hf by (right; exact on_skip_none).
  destruct (slice_fold_0 O Od a fo (slice_selects O Od) eq_refl recs (slice_end a b 0)) as (st & -> & Eout).
  destruct (_ <=? _); cbn; rewrite Eout; reflexivity.
Qed.

Lemma window_two : forall a b c recs, a <= b -> b <= c -> window a c recs = window a b recs ++ window b c recs.
Proof.
  intros a b c recs Hab Hbc. unfold window. replace (N.to_nat (c - a)) with (N.to_nat (b - a) + N.to_nat (c - b))%nat by lia.
  rewrite <- (firstn_skipn (N.to_nat (b - a)) (firstn (N.to_nat (b - a) + N.to_nat (c - b)) (skipn (N.to_nat a) recs))).
  rewrite firstn_min, Nat.min_l by lia. f_equal. rewrite skipn_firstn_comm. replace (_ + _ - _)%nat with (N.to_nat (c - b)) by lia. f_equal.
  rewrite skipn_skipn_add. f_equal. lia.
Qed.

Lemma run_cut : forall e cfg skip a b c names w t, 0 < b -> b <= usize_max -> a <= b -> c = 0 \/ b <= c ->
  run_writes e cfg w (concat_part skip None names) t ->
  exists t1 t2, run_writes e cfg w (slice_of skip false false None a b 0 names) t1 /\ run_writes e cfg w (slice_of skip false false None b c 0 names) t2
    /\ run_writes e cfg w (slice_of skip false false None a c 0 names) (t1 ++ t2).
Proof.
  intros e cfg skip a b c names w t Hb Hm Hab Hc (w1 & H & T). destruct (fun X => RunProofs.run_ended _ _ _ _ _ X H) as (cf & Hset & He); [reflexivity|].
  cbn [in_command concat_part execute] in He. destruct (concat_front_done _ _ _ _ _ _ _ _ _ _ He) as (recs & Hr & _).
  assert (S : forall x y, run_writes e cfg w (slice_of skip false false None x y 0 names) (flat_map br_write (window x (slice_end x y 0) recs))).
  { intros x y. eexists. split; [|exact (eq_refl (w_stdout (mkWorld (w_disk w) (w_stdin w) (w_stdout w ++ flat_map br_write (window x (slice_end x y 0) recs)))))]. rewrite (RunProofs.run_settings e (mkInvocation cfg (slice_of skip false false None x y 0 names)) w cf eq_refl) by (eapply settings_same; [reflexivity|exact Hset]).
    apply slice_done. exact Hr. }
  eexists. eexists. split; [apply S|]. split; [apply S|]. rewrite <- flat_map_app.
  enough (window a (slice_end a b 0) recs ++ window b (slice_end b c 0) recs = window a (slice_end a c 0) recs) as -> by apply S.
  symmetry. rewrite !slice_end_open. replace (b =? 0) with false by (symmetry; apply N.eqb_neq; lia). apply window_two; [exact Hab|].
  destruct (N.eqb_spec c 0); lia.
Qed.

(** everything *)
Lemma run_uncut : forall e cfg skip names w t, N.of_nat (length t) <= usize_max -> run_writes e cfg w (concat_part skip None names) t ->
  run_writes e cfg w (slice_of skip false false None 0 0 0 names) t.
Proof.
  intros e cfg skip names w t Hl (w1 & H & T). destruct (fun X => RunProofs.run_ended _ _ _ _ _ X H) as (cf & Hset & He); [reflexivity|].
  cbn [in_command concat_part execute] in He. destruct (concat_front_done _ _ _ _ _ _ _ _ _ _ He) as (recs & Hr & ->).
  cbn [w_stdout] in T. apply app_inv_head in T. subst t. eexists. split.
  - rewrite (RunProofs.run_settings e (mkInvocation cfg (slice_of skip false false None 0 0 0 names)) w cf eq_refl) by (eapply settings_same; [reflexivity|exact Hset]).
    apply slice_done. exact Hr.
  - cbn [w_stdout]. f_equal. f_equal. rewrite slice_end_open. cbn [N.eqb]. rewrite window_all. apply firstn_all2.
    assert (length recs <= length (flat_map br_write recs))%nat.
    { assert (L := good_lines _ _ _ _ _ _ Hr). clear - L. induction L as [|r recs (x & _ & E & _) _ IH]; [reflexivity|]. cbn [flat_map length]. rewrite app_length, E, app_length. cbn. lia. }
    lia.
Qed.

Lemma run_writes_same : forall e cfg w k t t', run_writes e cfg w k t -> run_writes e cfg w k t' -> t = t'.
Proof.
  intros e cfg w k t t' (w1 & H & T) (w2 & H' & T'). rewrite H in H'. injection H' as <-. rewrite T in T'. apply app_inv_head in T'. exact T'.
Qed.

Lemma run_cuts : forall e cfg skip names w t, run_writes e cfg w (concat_part skip None names) t -> forall cuts a, in_order a cuts ->
  exists ts, Forall2 (fun p u => run_writes e cfg w (slice_of skip false false None (fst p) (snd p) 0 names) u) (cut_at a cuts) ts
    /\ run_writes e cfg w (slice_of skip false false None a 0 0 names) (concat ts).
Proof.
  intros e cfg skip names w t H. induction cuts as [|b cuts IH]; intros a Ho.
    clear Ho. assert (S : exists u, run_writes e cfg w (slice_of skip false false None a 0 0 names) u).
    { destruct H as (w1 & H & T). destruct (fun X => RunProofs.run_ended _ _ _ _ _ X H) as (cf & Hset & He); [reflexivity|].
      cbn [in_command concat_part execute] in He. destruct (concat_front_done _ _ _ _ _ _ _ _ _ _ He) as (recs & Hr & _).
      eexists. eexists. split; [rewrite (RunProofs.run_settings e (mkInvocation cfg (slice_of skip false false None a 0 0 names)) w cf eq_refl) by (eapply settings_same; [reflexivity|exact Hset]); apply slice_done; exact Hr|reflexivity]. }
    destruct S as (u & S). exists [u]. cbn. rewrite app_nil_r. split; [constructor; [exact S|constructor]|exact S].
  - destruct Ho as (Hab & Hb & Hm & Ho). destruct (IH b Ho) as (ts & F & S).
    destruct (run_cut e cfg skip a b 0 names w t Hb Hm Hab (or_introl eq_refl) H) as (t1 & t2 & S1 & S2 & S3).
    assert (E := run_writes_same _ _ _ _ _ _ S S2). exists (t1 :: ts). cbn. rewrite E. split; [constructor; assumption|exact S3].
Qed.

Lemma run_cuts_all : forall e cfg skip names w t cuts, in_order 0 cuts -> N.of_nat (length t) <= usize_max ->
  run_writes e cfg w (concat_part skip None names) t ->
  exists ts, Forall2 (fun p u => run_writes e cfg w (slice_of skip false false None (fst p) (snd p) 0 names) u) (cut_at 0 cuts) ts /\ concat ts = t.
Proof.
  intros e cfg skip names w t cuts Ho Hl H. destruct (run_cuts e cfg skip names w t H cuts 0 Ho) as (ts & F & S). exists ts. split; [exact F|].
  exact (run_writes_same _ _ _ _ _ _ S (run_uncut e cfg skip names w t Hl H)).
Qed.

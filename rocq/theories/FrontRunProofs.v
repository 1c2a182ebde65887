(** * Proofs about one command in front of another: filter, concat, and the whole program *)

From Coq Require Import String ZArith Lia.
From Verif Require Import Bytes BaseProofs Winnow RecordModel TagOccModel Utf8Model ByteRecordModel ByteRecordProofs ReaderModel
  MatcherModel MatcherProofs MatcherExtraProofs StateParser MatcherParserModel BuilderModel PathModel QuerySpec FmtModel QueryModel CliModel CliProofs TableModel
  ExplodeModel CheckModel ConvertModel CsvModel OptionsModel OptionsSpec ConfigModel PrepareModel PrepareSpec PrepareProofs GrammarStateProofs
  IoModel IoSpec WriteSpec DiskModel DirModel RuleModel
  MainModel DiskSpec RuleSpec MainSpec PipeSpec DiskProofs PipeProofs PipeInProofs FrontLoop FrontSpec FrontProofs.
From Verif Require DirSpec RunSpec RunProofs BuilderProofs.


(** ** The nesting levels *)

Section Levels.
  Variable O : oracles.
  Variable tr : bytes -> bytes.

  Lemma balanced_stays : forall s t, calm s -> balanced O t -> snd (field_matcher_new O s t) = s.
  Proof.
    intros s t Hs [H|(P & n & H & Hn)]; apply harmless_stays; auto; [left; exact H|]. right. exists P, n. auto.
  Qed.

  Lemma fold_stays : forall op l m s, calm s -> (forall t, In t l -> balanced O (tr t)) -> snd (builder_fold O tr op l m s) = s.
  Proof.
    intros op. induction l as [|t l IH]; intros m s Hs H; [reflexivity|]. cbn [builder_fold].
    pose proof (balanced_stays s (tr t) Hs (H t (or_introl eq_refl))) as E. destruct (field_matcher_new O s (tr t)) as [[[m'|]|] s']; cbn in E |- *; subst s';
      try reflexivity. apply IH; [exact Hs|]. intros x Hx. apply H. right. exact Hx.
  Qed.

  Lemma run_stays : forall s e ands ors nots, calm s -> (forall t, t = e \/ In t (ands ++ ors ++ nots) -> balanced O (tr t)) ->
    snd (builder_run O tr s e [CallAnd ands; CallOr ors; CallNot nots]) = s.
  Proof.
    intros s e ands ors nots Hs H. unfold builder_run, builder_new.
    pose proof (balanced_stays s (tr e) Hs (H e (or_introl eq_refl))) as E0.
    destruct (field_matcher_new O s (tr e)) as [[[m0|]|] s0]; cbn in E0 |- *; subst s0; try reflexivity.
    assert (HA : forall t, In t ands -> balanced O (tr t)) by (intros t Ht; apply H; right; apply in_or_app; auto).
    assert (HO : forall t, In t ors -> balanced O (tr t)) by (intros t Ht; apply H; right; apply in_or_app; right; apply in_or_app; auto).
    assert (HN : forall t, In t nots -> balanced O (tr t)) by (intros t Ht; apply H; right; apply in_or_app; right; apply in_or_app; auto).
    pose proof (fold_stays fm_and_assign ands m0 s Hs HA) as E1.
    destruct (builder_fold O tr fm_and_assign ands m0 s) as [[[m1|]|] s1]; cbn in E1 |- *; subst s1; try reflexivity.
    pose proof (fold_stays fm_or_assign ors m1 s Hs HO) as E2.
    destruct (builder_fold O tr fm_or_assign ors m1 s) as [[[m2|]|] s2]; cbn in E2 |- *; subst s2; try reflexivity.
    pose proof (fold_stays (fun a b => fm_and_assign a (fm_not b)) nots m2 s Hs HN) as E3.
    destruct (builder_fold O tr _ nots m2 s) as [[[m3|]|] s3]; cbn in E3 |- *; subst s3; reflexivity.
  Qed.
End Levels.

(** ** Settings *)

Lemma settings_same : forall e cfg k k' w w' c, w_disk w' = w_disk w ->
  RunSpec.settings e (mkInvocation cfg k) w c -> RunSpec.settings e (mkInvocation cfg k') w' c.
Proof.
  intros e cfg k k' w w' c Ew H. destruct H as [n t c H1 H2 H3 H4|n H1 H2|H1|n t H1 H2 H3].
  - eapply RunSpec.se_file; [exact H1|rewrite Ew; exact H2|exact H3|exact H4].
  - eapply RunSpec.se_missing; [exact H1|rewrite Ew; exact H2].
  - eapply RunSpec.se_nowhere. exact H1.
  - eapply RunSpec.se_illegible; [exact H1|rewrite Ew; exact H2|exact H3].
Qed.

(** ** What filter and concat leave on stdout *)

Definition bare_filter (o : file_opts) (W : bytes) (names : list bytes) (e : env) (d : disk) (skip : bool) : filter_args :=
  mkFilterArgs skip 0 false (o_ci o) None None None (map (load_table e d) (o_allow o)) (map (load_table e d) (o_deny o))
    (o_column o) (o_source o) (o_and o) (o_or o) (o_not o) W names.

Definition chosen (O Od : oracles) (c : filter_cmd) (r : byte_record) : bool :=
  match filter_select O Od c (br_record r) with Some b => b | None => false end.

Lemma filter_fold : forall O Od c recs n a b s', fc_limit c = 0 -> fc_keep c = [] -> fc_discard c = [] ->
  fold_end (fun s r => as_io (filter_body O Od c s r)) (n, a, b) recs = IDone s' ->
  (forall r, In r recs -> filter_select O Od c (br_record r) = Some (chosen O Od c r))
  /\ snd (fst s') = a ++ flat_map br_write (filter (chosen O Od c) recs).
Proof.
  intros O Od c recs n a b s' Hl Hk Hd. revert n a b. induction recs as [|r recs IH]; intros n a b H.
  - injection H as <-. split; [intros r []|]. cbn. rewrite app_nil_r. reflexivity.
  - cbn [fold_end] in H. unfold filter_body at 1, guarded in H.
    destruct (filter_select O Od c (br_record r)) as [[|]|] eqn:E; [| |discriminate].
    + rewrite Hl in H. change (limit_reached 0 (n + 1)) with false in H. cbn [as_io] in H.
      rewrite (discard_nil _ r Hd), (keep_nil _ r Hk) in H. destruct (IH _ _ _ H) as (H1 & H2).
      assert (Ec : chosen O Od c r = true) by (unfold chosen; rewrite E; reflexivity). split.
      * intros x [<-|Hx]; [rewrite Ec; exact E|exact (H1 x Hx)].
      * rewrite H2. cbn [filter]. rewrite Ec. cbn [flat_map]. rewrite app_assoc. reflexivity.
    + cbn [as_io] in H. destruct (IH _ _ _ H) as (H1 & H2).
      assert (Ec : chosen O Od c r = false) by (unfold chosen; rewrite E; reflexivity). split.
      * intros x [<-|Hx]; [rewrite Ec; exact E|exact (H1 x Hx)].
      * rewrite H2. cbn [filter]. rewrite Ec. reflexivity.
Qed.

Lemma concat_fold : forall O sha lossy recs seen a b s',
  fold_end (fun s r => as_io (concat_body O sha lossy None s r)) (seen, a, b) recs = IDone s' -> snd (fst s') = a ++ flat_map br_write recs.
Proof.
  intros O sha lossy. induction recs as [|r recs IH]; intros seen a b s' H; [injection H as <-; cbn; rewrite app_nil_r; reflexivity|].
  cbn [fold_end concat_body as_io] in H. rewrite (IH _ _ _ _ H). cbn [flat_map]. rewrite app_assoc. reflexivity.
Qed.

Lemma world_eta : forall w, with_disk w (w_disk w) = w.
Proof. intros []. reflexivity. Qed.

Lemma filter_front_done : forall gz_enc gz_dec writable O Od tr a w w1,
  fa_limit a = 0 -> fa_keep a = None -> fa_discard a = None -> fa_expr_file a = None ->
  filter_on_disk gz_enc gz_dec writable O Od tr a false false None None w = Some (CEnded 0, w1) ->
  exists c s' recs, (forall content, filter_prepare O Od tr content a = (Some (Some c), s'))
    /\ io_files_loop (fun l => l) snoc (fa_skip a) [] (inputs gz_dec (w_disk w) (w_stdin w) (fa_names a)) = Some (IDone recs)
    /\ (forall r, In r recs -> filter_select O Od c (br_record r) = Some (chosen O Od c r))
    /\ w1 = mkWorld (w_disk w) (w_stdin w) (w_stdout w ++ flat_map br_write (filter (chosen O Od c) recs)).
Proof.
  intros gz_enc gz_dec writable O Od tr a w w1 Hl Hk Hd Hx H. unfold filter_on_disk in H.
  destruct (filter_first Od a) as [[[]|]|]; try discriminate. cbn [prepared] in H.
  change (wb_run wb_new [CAppend false; CGzip false]) with (Some wb_new) in H. cbv iota zeta in H.
  cbn [open_all open_output builder_output out_name app] in H. rewrite world_eta in H. unfold expr_there in H. rewrite Hx in H.
  assert (Ep : forall c1 c2, filter_prepare O Od tr c1 a = filter_prepare O Od tr c2 a).
  { intros c1 c2. unfold filter_prepare, filter_expr. rewrite Hx. reflexivity. }
  destruct (filter_prepare O Od tr (content_of (w_disk w)) a) as [[[c|]|] s'] eqn:E; try discriminate.
  cbn [fst prepared] in H. cbn [filter_names andb] in H. unfold process_all in H.
  assert (Hc : fc_limit c = 0 /\ fc_keep c = [] /\ fc_discard c = []).
  { unfold filter_prepare in E. destruct (source_parse Od fresh (fa_source a)) as [[[src|]|] s0]; try discriminate. cbn [and_then] in E.
    rewrite Hk, Hd in E. cbn [parse_predicates] in E. destruct (filter_set_build _ _ _ _); [|discriminate]. destruct (filter_expr _ a); [|discriminate].
    destruct (builder_run _ _ _ _ _) as [[[m|]|] s1]; try discriminate. cbn [and_then] in E. injection E as <- _. cbn. auto. }
  destruct Hc as (Hc1 & Hc2 & Hc3).
  set (body := fun s r => as_io (filter_body O Od c s r)) in *.
  set (files := inputs gz_dec (w_disk w) (w_stdin w) (fa_names a)) in *.
  assert (Hb : forall s r, body s r = IPanicked \/ exists s', body s r = IDone s').
  { intros [[n x] y] r. unfold body, filter_body, guarded. rewrite Hc1. destruct (filter_select O Od c (br_record r)) as [[|]|]; cbn; eauto. }
  change (io_files_loop (fun s => s) body (fa_skip a) (0, [], []) files) with (io_files_loop (fun s => s) body (fa_skip a) (0, [], []) files) in H.
  destruct (io_files_loop (fun s : filter_state => s) body (fa_skip a) (0, [], []) files) as [x|] eqn:El; [|discriminate].
  assert (Hx0 : main_status x = Some 0).
  { destruct x as [s|s|s er|]; cbn [main_status] in *; try reflexivity; [|discriminate]. destruct er as [|[]| |]; try discriminate; reflexivity. }
  destruct (files_through (fa_skip a) body Hb files (0, [], []) x) as (s1 & -> & Hc); [intros n k; apply inputs_kind|exact El|exact Hx0|].
  destruct (Hc []) as (recs & Hr). destruct (files_collects _ _ _ _ Hr) as (recs' & E' & _ & Hf). cbn in E'. subst recs'.
  rewrite (Hf _ (fun s => s) body (0, [], [])) in El by (right; reflexivity). injection El as El.
  destruct (filter_fold O Od c recs 0 [] [] s1 Hc1 Hc2 Hc3 El) as (H1 & H2).
  exists c, s', recs. split; [intros c0; rewrite <- E; apply Ep|]. split; [exact Hr|]. split; [exact H1|].
  cbn [main_status] in H. injection H as <-. cbn. rewrite H2. reflexivity.
Qed.

Lemma concat_front_done : forall gz_enc gz_dec writable O sha lossy skip names w w1,
  concat_on_disk gz_enc gz_dec writable O sha lossy false None None None skip names w = Some (CEnded 0, w1) ->
  exists recs, io_files_loop (fun l => l) snoc skip [] (inputs gz_dec (w_disk w) (w_stdin w) names) = Some (IDone recs)
    /\ w1 = mkWorld (w_disk w) (w_stdin w) (w_stdout w ++ flat_map br_write recs).
Proof.
  intros gz_enc gz_dec writable O sha lossy skip names w w1 H. unfold concat_on_disk in H. cbn in H. rewrite world_eta in H. unfold process_all in H.
  set (body := fun s r => as_io (concat_body O sha lossy None s r)) in *.
  set (files := inputs gz_dec (w_disk w) (w_stdin w) names) in *.
  assert (Hb : forall s r, body s r = IPanicked \/ exists s', body s r = IDone s').
  { intros [[n x] y] r. right. eexists. reflexivity. }
  destruct (io_files_loop (fun s : concat_state => s) body skip ([], [], []) files) as [x|] eqn:El; [|discriminate].
  assert (Hx0 : main_status x = Some 0).
  { destruct x as [s|s|s er|]; cbn [main_status] in *; try reflexivity; [|discriminate]. destruct er as [|[]| |]; try discriminate; reflexivity. }
  destruct (files_through skip body Hb files ([], [], []) x) as (s1 & -> & Hc); [intros n k; apply inputs_kind|exact El|exact Hx0|].
  destruct (Hc []) as (recs & Hr). destruct (files_collects _ _ _ _ Hr) as (recs' & E' & _ & Hf). cbn in E'. subst recs'.
  rewrite (Hf _ (fun s => s) body ([], [], [])) in El by (right; reflexivity). injection El as El.
  exists recs. split; [exact Hr|]. cbn [main_status] in H. injection H as <-. cbn. rewrite (concat_fold _ _ _ _ _ _ _ _ El). reflexivity.
Qed.

(** ** The options that choose records *)

Lemma bare_selects : forall O Od fs ci limit r, fset_allow fs = None -> fset_deny fs = None -> fset_path fs = ppn_path ->
  opts_select O Od (mkOpts fs None ci limit) r = Some true /\ opts_select_print O Od (mkOpts fs None ci limit) r = Some true.
Proof.
  intros O Od [al de p] ci limit r Ha Hd Hp. cbn in Ha, Hd, Hp. subst.
  assert (E : exists vs, record_path Od false ppn_path r = Some vs).
  { unfold record_path. enough (exists l, filter_p (path_field Od false ppn_path) r = Some l) as [l ->] by (eexists; reflexivity).
    induction r as [|f r [l IH]]; [exists []; reflexivity|]. cbn [filter_p].
    assert (exists b, path_field Od false ppn_path f = Some b) as [b ->].
    { eexists; reflexivity. }
    rewrite IH. eexists; reflexivity. }
  destruct E as (vs & E). unfold opts_select, opts_select_print, filter_set_check. cbn [fo_fset fo_matcher fset_path fset_allow fset_deny].
  rewrite E. auto.
Qed.

Section Where.
  Variable e : env.
  Variable o : file_opts.
  Variable W : bytes.
  Hypothesis HW : o_where o = Some W.
  Variable d : disk.
  Variable tr : bytes -> bytes.
  Let O := oracles_for e o.
  Let Od := default_oracles e.
  Variables (skip : bool) (names : list bytes) (c : filter_cmd) (s' : levels) (content : bytes -> bytes).
  Hypothesis Hc : filter_prepare O Od tr content (bare_filter o W names e d skip) = (Some (Some c), s').
  Variable recs : list byte_record.
  Hypothesis Hr : forall r, In r recs -> filter_select O Od c (br_record r) = Some (chosen O Od c r).

  Lemma where_accepted : exists fs m s0, c = mkFilter fs m (o_ci o) false [] [] 0
    /\ opts_prepare O Od tr (load_opts e d o) = (Some (Some (mkOpts fs (Some m) (o_ci o) (o_limit o))), s')
    /\ source_parse Od fresh (o_source o) = (Some (Some s0), snd (source_parse Od fresh (o_source o)))
    /\ builder_run O tr (snd (source_parse Od fresh (o_source o))) W [CallAnd (o_and o); CallOr (o_or o); CallNot (o_not o)] = (Some (Some m), s').
  Proof.
    unfold filter_prepare, filter_expr, bare_filter in Hc. unfold opts_prepare, load_opts.
    cbn [fa_source fa_discard fa_keep fa_column fa_allow fa_deny fa_expr_file fa_filter fa_and fa_or fa_not fa_ci fa_invert fa_limit] in Hc.
    cbn [oa_source oa_column oa_allow oa_deny oa_where oa_and oa_or oa_not oa_ci oa_limit].
    destruct (source_parse Od fresh (o_source o)) as [[[src|]|] s0]; try discriminate. cbn [and_then parse_predicates snd] in *.
    destruct (filter_set_build src (o_column o) (map (load_table e d) (o_allow o)) (map (load_table e d) (o_deny o))) as [fs|]; [|discriminate].
    unfold filter_opts_matcher. rewrite HW.
    destruct (builder_run O tr s0 W [CallAnd (o_and o); CallOr (o_or o); CallNot (o_not o)]) as [[[m|]|] s1]; try discriminate.
    cbn [and_then] in *. injection Hc as <- <-. exists fs, m, src. repeat split.
  Qed.

  Lemma bare_accepted : exists fs, opts_prepare O Od tr (load_opts e d (bare o)) = (Some (Some (mkOpts fs None (o_ci o) (o_limit o))), fresh)
    /\ fset_allow fs = None /\ fset_deny fs = None /\ fset_path fs = ppn_path.
  Proof. eexists. split; [reflexivity|]. repeat split. Qed.

  Hypothesis Hre : regexes_compile O (o_ci o).

  Lemma where_passing : exists fo fo0,
    opts_prepare O Od tr (load_opts e d o) = (Some (Some fo), s')
    /\ opts_prepare O Od tr (load_opts e d (bare o)) = (Some (Some fo0), fresh)
    /\ passing recs (chosen O Od c) O Od fo0 fo.
  Proof.
    destruct where_accepted as (fs & m & s0 & Ec & E & _ & Eb). destruct bare_accepted as (fs0 & E0 & B1 & B2 & B3).
    eexists _, _. split; [exact E|]. split; [exact E0|]. split; [reflexivity|]. split; [reflexivity|]. split.
    - intros r Hin. specialize (Hr r Hin). destruct (bare_selects O Od fs0 (o_ci o) (o_limit o) (br_record r) B1 B2 B3) as [-> _].
      destruct (chosen O Od c r); rewrite Ec in Hr; unfold filter_select in Hr; unfold opts_select; cbn [fc_fset fc_ci fc_matcher fc_invert fo_fset fo_matcher fo_ci] in *;
        destruct (filter_set_check Od fs (br_record r)) as [[|]|]; try discriminate; try exact Hr;
        destruct (rm_is_match O (o_ci o) m (br_record r)); try discriminate; exact Hr.
    - intros r Hin. specialize (Hr r Hin). destruct (bare_selects O Od fs0 (o_ci o) (o_limit o) (br_record r) B1 B2 B3) as [_ ->].
      assert (exists y, rm_is_match O (o_ci o) m (br_record r) = Some y) as (y & Ey).
      { destruct (run_reads O tr _ _ _ _ _ _ _ Eb) as (M & _ & [Hm _]). destruct Hre as [R1 R2].
        destruct (fm_decides O (o_ci o) m (br_record r) (fm_checked_wf O (o_ci o) m R1 R2 Hm)) as (y & Ey & _). exists y. exact Ey. }
      destruct (chosen O Od c r); rewrite Ec in Hr; unfold filter_select in Hr; unfold opts_select_print; cbn [fc_fset fc_ci fc_matcher fc_invert fo_fset fo_matcher fo_ci] in *;
        rewrite Ey in *; destruct (filter_set_check Od fs (br_record r)) as [[|]|]; try discriminate;
        destruct y; try discriminate; reflexivity.
  Qed.

  Lemma where_levels : (o_source o = None \/ exists V, source_values Od true (o_source o) V) ->
    (forall t, o_where o = Some t \/ In t (o_and o ++ o_or o ++ o_not o) -> balanced O (tr t)) -> s' = fresh.
  Proof.
    intros Hs Hb. destruct where_accepted as (fs & m & s0 & _ & _ & _ & Eb).
    assert (Ef : snd (source_parse Od fresh (o_source o)) = fresh).
    { destruct Hs as [->|(V & Hs)]; [reflexivity|]. destruct (source_accepted Od (o_source o) V fresh Hs eq_refl) as (x & -> & _). reflexivity. }
    rewrite Ef in Eb. pose proof (run_stays O tr fresh W (o_and o) (o_or o) (o_not o) (conj eq_refl eq_refl)) as X. rewrite Eb in X. apply X.
    intros t [->|Ht]; apply Hb; [left; exact HW|right; exact Ht].
  Qed.
End Where.

(** ** Filter in front of a command *)

Lemma execute_where : forall e c cfg k o W w w1 t,
  regexes_compile (oracles_for e o) (o_ci o) -> opts_of k = Some o -> o_where o = Some W -> (forall o f append gzip output tee names, k <> KFilter o f append gzip output tee names) ->
  (forall o discard keep l gzip output names, k <> KExplode o discard keep l gzip output names) -> levelled e k ->
  (forall o gzip append output start end_ length names, k = KSlice o gzip append output start end_ length names ->
     length = 0 \/ o_skip o || cf_skip_invalid c = false) ->
  (forall n, may_change e (mkInvocation cfg k) n -> ~ (In n (input_names k) \/ In n (o_allow o) \/ In n (o_deny o))) ->
  execute e c (filter_of o W (input_names k)) w = Some (CEnded 0, w1) -> w_stdout w1 = w_stdout w ++ t ->
  frel (w_stdin w) (execute e c (after_filter k) (mkWorld (w_disk w) t (w_stdout w))) (execute e c k w).
Proof.
  intros e c cfg k o W w w1 t Hre Ho HW Hkf Hke Hl Hs Hc H Ht.
  set (O := oracles_for e o) in *. set (Od := default_oracles e) in *. set (tr := translit e (cf_normalization c)) in *.
  set (skip := o_skip o || cf_skip_invalid c) in *. set (names := input_names k) in *.
  destruct (filter_front_done (e_gz_enc e) (e_gz_dec e) (e_writable e) O Od tr (bare_filter o W names e (w_disk w) skip) w w1
    eq_refl eq_refl eq_refl eq_refl H) as (fc & s' & recs & Hp & Hr & Hsel & ->).
  cbn [fa_skip fa_names bare_filter] in Hr. cbn [w_stdout] in Ht. apply app_inv_head in Ht. subst t.
  set (sel := chosen O Od fc) in *. set (v := mkWorld (w_disk w) (flat_map br_write (filter sel recs)) (w_stdout w)).
  assert (Hv : fronted names (w_stdin w) (w_disk w) recs sel v w).
  { split; [reflexivity|]. split; [destruct w; reflexivity|]. intros n _. reflexivity. }
  destruct (where_passing e o W HW (w_disk w) tr skip names fc s' (content_of (w_disk w)) (Hp _) recs Hsel Hre) as (fo & fo0 & E & E0 & Hpa).
  fold O Od in E, E0, Hpa.
  assert (HP : preparing recs sel O Od tr (load_opts e (w_disk w) (bare o)) (load_opts e (w_disk w) o)).
  { unfold preparing. rewrite E, E0. exact Hpa. }
  assert (Hlev : (o_source o = None \/ exists V, source_values Od true (o_source o) V) ->
    (forall t, o_where o = Some t \/ In t (o_and o ++ o_or o ++ o_not o) -> balanced O (tr t)) -> s' = fresh).
  { eapply where_levels; [exact HW|apply (Hp (content_of (w_disk w)))|exact Hsel]. }
  assert (Hout : forall n, In n (output_names k) -> ~ (In n names \/ In n (o_allow o) \/ In n (o_deny o))).
  { intros n X. apply Hc. exact (mc_output e (mkInvocation cfg k) n X). }
  assert (Hsp : forall out, (forall n, In n (DiskSpec.named out) -> In n (output_names k)) -> spares names out).
  { intros out X n -> Y. apply (Hout n); [apply X; left; reflexivity|left; exact Y]. }
  assert (Hlists : forall out append, (forall n, In n (DiskSpec.named out) -> In n (output_names k)) ->
    load_opts e (after_open e out append (w_disk w)) o = load_opts e (w_disk w) o).
  { intros out append X. apply RunProofs.opened_lists. intros n -> Y. apply (Hout n); [apply X; left; reflexivity|right; exact Y]. }
  assert (Hb : forall out append, load_opts e (after_open e out append (w_disk w)) (bare o) = load_opts e (w_disk w) (bare o)) by reflexivity.
  assert (HT : forall q, levelled e k -> (s' = fresh) -> preparing_table recs sel O Od tr (load_columns e (w_disk w) (bare o) q) (load_columns e (w_disk w) o q)).
  { intros q _ ->. split; [reflexivity|]. split; [reflexivity|]. unfold table_prepare, load_columns. cbn [ta_opts ta_query]. rewrite E, E0.
    cbn [and_then]. destruct (query_new O fresh (tr (co_query q))) as [[[x|]|] s2]; cbn; auto. }
  unfold after_filter. rewrite Ho. unfold sel, names in *.
  destruct k; cbn [opts_of] in Ho; try discriminate; injection Ho as ->; cbn [with_opts with_inputs execute input_names output_names o_skip bare levelled] in *;
    change (oracles_for e (bare o)) with O; fold O Od tr skip; change (w_disk v) with (w_disk w); change (o_skip (bare o) || cf_skip_invalid c) with skip.
  - destruct Hl as [Hl1 Hl2]. assert (Ef : s' = fresh) by (apply Hlev; [exact Hl1|intros t; apply Hl2]). rewrite Hb, Hlists by auto.
    unfold check_files_on_disk. change (w_disk v) with (w_disk w). unfold disk_rules at 2. change (e_oracles e strsim_default) with Od. rewrite E, Ef.
    unfold disk_rules at 1. change (e_oracles e strsim_default) with Od. rewrite E0.
    destruct (fst (rules_prepare _ _ _ _ _ _ _ _ _ _ _ _ _)) as [rules'|]; [|exact I].
    exact (check_front (e_gz_enc e) (e_gz_dec e) (e_writable e) names0 (w_stdin w) (w_disk w) skip recs Hr _ O Od v w Hv tr (e_lossy e) _ _ HP _ _ _ _ _ (Hsp _ (fun n x => x))).
  - rewrite Hb, Hlists by auto.
    exact (count_front (e_gz_enc e) (e_gz_dec e) (e_writable e) names0 (w_stdin w) (w_disk w) skip recs Hr _ O Od v w Hv tr _ _ HP _ _ _ (Hsp _ (fun n x => x))).
  - exact (describe_front (e_gz_enc e) (e_gz_dec e) (e_writable e) names0 (w_stdin w) (w_disk w) skip recs Hr _ O Od v w Hv tr _ _ HP _ _ _ _ _ _ _).
  - destruct (Hke _ _ _ _ _ _ _ eq_refl).
  - destruct (Hkf _ _ _ _ _ _ _ eq_refl).
  - destruct Hl as [Hl1 Hl2]. assert (Ef : s' = fresh) by (apply Hlev; [exact Hl1|intros t; apply Hl2]).
    exact (freq_front (e_gz_enc e) (e_gz_dec e) (e_writable e) names0 (w_stdin w) (w_disk w) skip recs Hr _ O Od v w Hv tr (e_lossy e) _ _ (HT _ (conj Hl1 Hl2) Ef) _ _ _ _ _ _ _ _ _ _ (Hsp _ (fun n x => x))).
  - exact (hash_front (e_gz_enc e) (e_gz_dec e) (e_writable e) names0 (w_stdin w) (w_disk w) skip recs Hr _ O Od v w Hv tr (e_lossy e) (e_sha e) _ _ HP _ _ _ _ (Hsp _ (fun n x => x))).
  - refine (partition_front (e_gz_enc e) (e_gz_dec e) (e_writable e) names0 (w_stdin w) (w_disk w) skip recs Hr _ O Od v w Hv tr (e_lossy e) _ _ HP _ _ _ _ _ _ _). intros n x Hn X. apply (Hc n); [|left; exact Hn].
    exact (mc_value e (mkInvocation cfg _) o p gzip outdir template _ x n eq_refl X).
  - exact (print_front (e_gz_enc e) (e_gz_dec e) (e_writable e) names0 (w_stdin w) (w_disk w) skip recs Hr _ O Od v w Hv tr _ _ HP _ _ (Hsp _ (fun n x => x))).
  - exact (sample_front (e_gz_enc e) (e_gz_dec e) (e_writable e) names0 (w_stdin w) (w_disk w) skip recs Hr _ O Od v w Hv tr _ _ HP _ _ _ _ (Hsp _ (fun n x => x))).
  - destruct Hl as [Hl1 Hl2]. assert (Ef : s' = fresh) by (apply Hlev; [exact Hl1|intros t; apply Hl2]).
    exact (select_front (e_gz_enc e) (e_gz_dec e) (e_writable e) names0 (w_stdin w) (w_disk w) skip recs Hr _ O Od v w Hv tr (e_lossy e) _ _ (HT _ (conj Hl1 Hl2) Ef) _ _ _ _ _ _ _ _ _ _ (Hsp _ (fun n x => x))).
  - refine (slice_front (e_gz_enc e) (e_gz_dec e) (e_writable e) names0 (w_stdin w) (w_disk w) skip recs Hr _ O Od v w Hv tr _ _ HP _ _ _ _ _ _ (Hsp _ (fun n x => x)) _). destruct (Hs _ _ _ _ _ _ _ _ eq_refl) as [X|X]; [right|left]; exact X.
  - refine (split_front (e_gz_enc e) (e_gz_dec e) (e_writable e) names0 (w_stdin w) (w_disk w) skip recs Hr _ O Od v w Hv tr _ _ HP _ _ _ _ _ _). intros n x Hn X. apply (Hc n); [|left; exact Hn].
    exact (mc_chunk e (mkInvocation cfg _) o gzip outdir template size _ x n eq_refl X).
Qed.

Lemma run_where : forall e cfg k o W w w1 t x w2,
  regexes_compile (oracles_for e o) (o_ci o) -> opts_of k = Some o -> o_where o = Some W ->
  (forall o f append gzip output tee names, k <> KFilter o f append gzip output tee names) ->
  (forall o discard keep l gzip output names, k <> KExplode o discard keep l gzip output names) -> levelled e k -> counts_records e cfg w k ->
  (forall n, may_change e (mkInvocation cfg k) n -> ~ (In n (input_names k) \/ In n (o_allow o) \/ In n (o_deny o))) ->
  run e (mkInvocation cfg (filter_of o W (input_names k))) w = Some (CEnded 0, w1) -> w_stdout w1 = w_stdout w ++ t ->
  run e (mkInvocation cfg (after_filter k)) (mkWorld (w_disk w) t (w_stdout w)) = Some (x, w2) ->
  run e (mkInvocation cfg k) w = Some (x, fed (w_stdin w) w2).
Proof.
  intros e cfg k o W w w1 t x w2 Hre Ho HW Hkf Hke Hl Hs Hc H Ht H2.
  destruct (fun X => RunProofs.run_ended _ _ _ _ _ X H) as (c & Hset & He); [reflexivity|].
  assert (Hk : RunProofs.is_config k = false) by (destruct k; try reflexivity; discriminate).
  assert (Hk' : RunProofs.is_config (after_filter k) = false) by (destruct k; try reflexivity; discriminate).
  rewrite (RunProofs.run_settings e (mkInvocation cfg k) w c Hk) by (eapply settings_same; [reflexivity|exact Hset]).
  rewrite (RunProofs.run_settings e (mkInvocation cfg (after_filter k)) _ c Hk') in H2 by (eapply settings_same; [|exact Hset]; reflexivity).
  cbn [in_command] in *.
  assert (Hs' : forall o gzip append output start end_ length names, k = KSlice o gzip append output start end_ length names ->
     length = 0 \/ o_skip o || cf_skip_invalid c = false).
  { intros o' gzip append output start end_ length names Ek. destruct (Hs _ _ _ _ _ _ _ _ Ek) as [X|[X Y]]; [left; exact X|right].
    rewrite X, (Y c); [reflexivity|]. eapply settings_same; [reflexivity|exact Hset]. }
  pose proof (execute_where e c cfg k o W w w1 t Hre Ho HW Hkf Hke Hl Hs' Hc He Ht) as X. rewrite H2 in X.
  destruct (execute e c k w) as [[y v]|]; [|contradiction]. destruct X as [-> ->]. reflexivity.
Qed.

(** ** Concat in front of a command *)

Lemma execute_concat : forall e c cfg k w w1 t, RunProofs.is_config k = false -> (forall output names, k <> KInvalid output names) -> expression_free k ->
  (forall o gzip append output start end_ length names, k = KSlice o gzip append output start end_ length names ->
     length = 0 \/ o_skip o || cf_skip_invalid c = false) ->
  (forall n, may_change e (mkInvocation cfg k) n -> ~ In n (input_names k)) ->
  execute e c (concat_of (skip_flag k) (input_names k)) w = Some (CEnded 0, w1) -> w_stdout w1 = w_stdout w ++ t ->
  frel (w_stdin w) (execute e c (with_inputs [lit "-"] k) (mkWorld (w_disk w) t (w_stdout w))) (execute e c k w).
Proof.
  intros e c cfg k w w1 t Hk Hki Hx Hs Hc H Ht.
  set (Od := default_oracles e) in *. set (tr := translit e (cf_normalization c)) in *. set (names := input_names k) in *.
  cbn [concat_of execute] in H. apply concat_front_done in H. destruct H as (recs & Hr & ->).
  cbn [w_stdout] in Ht. apply app_inv_head in Ht. subst t. set (v := mkWorld (w_disk w) (flat_map br_write recs) (w_stdout w)).
  assert (Hv : fronted names (w_stdin w) (w_disk w) recs (fun _ => true) v w).
  { split; [|split]; [|destruct w; reflexivity|intros n _; reflexivity].
    enough (filter (fun _ => true) recs = recs) as -> by reflexivity. clear. induction recs; cbn; congruence. }
  assert (Hsp : forall out, (forall n, In n (DiskSpec.named out) -> In n (output_names k)) -> spares names out).
  { intros out X n -> Y. apply (Hc n); [apply (mc_output e (mkInvocation cfg k)); apply X; left; reflexivity|exact Y]. }
  assert (Hall : forall r : byte_record, (fun _ : byte_record => true) r = true) by reflexivity.
  unfold names in *.
  destruct k; try discriminate; cbn [with_inputs execute input_names output_names skip_flag opts_of] in *;
    fold Od tr; change (w_disk v) with (w_disk w).
  - unfold check_files_on_disk. change (w_disk v) with (w_disk w).
    destruct (disk_rules _ _ _ _ _ _ _ _ _ _ _ _ _ _ _ _) as [rules'|]; [|exact I].
    exact (check_front (e_gz_enc e) (e_gz_dec e) (e_writable e) _ (w_stdin w) (w_disk w) _ recs Hr (fun _ => true) (oracles_for e o) Od v w Hv tr (e_lossy e) _ _ (preparing_all recs (fun _ => true) (oracles_for e o) Od tr Hall _) _ _ _ _ _ (Hsp _ (fun n x => x))).
  - exact (concat_front (e_gz_enc e) (e_gz_dec e) (e_writable e) _ (w_stdin w) (w_disk w) _ recs Hr (fun _ => true) Od v w Hv (e_lossy e) (e_sha e) Hall _ _ _ _ (Hsp _ (fun n x => in_or_app _ _ _ (or_introl x))) (Hsp _ (fun n x => in_or_app _ _ _ (or_intror x)))).
  - exact (convert_front (e_gz_enc e) (e_gz_dec e) (e_writable e) _ (w_stdin w) (w_disk w) _ recs Hr (fun _ => true) v w Hv (e_lossy e) Hall _ _ _ _ (Hsp _ (fun n x => x))).
  - exact (count_front (e_gz_enc e) (e_gz_dec e) (e_writable e) _ (w_stdin w) (w_disk w) _ recs Hr (fun _ => true) (oracles_for e o) Od v w Hv tr _ _ (preparing_all recs (fun _ => true) (oracles_for e o) Od tr Hall _) _ _ _ (Hsp _ (fun n x => x))).
  - exact (describe_front (e_gz_enc e) (e_gz_dec e) (e_writable e) _ (w_stdin w) (w_disk w) _ recs Hr (fun _ => true) (oracles_for e o) Od v w Hv tr _ _ (preparing_all recs (fun _ => true) (oracles_for e o) Od tr Hall _) _ _ _ _ _ _ _).
  - exact (explode_front (e_gz_enc e) (e_gz_dec e) (e_writable e) _ (w_stdin w) (w_disk w) _ recs Hr (fun _ => true) (oracles_for e o) Od v w Hv tr Hall _ _ _ _ _ _ (Hsp _ (fun n x => x))).
  - refine (filter_front (e_gz_enc e) (e_gz_dec e) (e_writable e) _ (w_stdin w) (w_disk w) _ recs Hr (fun _ => true) (oracles_for e o) Od v w Hv tr Hall (load_filter e (w_disk w) (o_skip o || cf_skip_invalid c) o f []) _ _ _ _ eq_refl (Hsp _ (fun n x => in_or_app _ _ _ (or_introl x))) (Hsp _ (fun n x => in_or_app _ _ _ (or_intror x))) _).
    exact (Hx _ _ _ _ _ _ _ eq_refl).
  - exact (freq_front (e_gz_enc e) (e_gz_dec e) (e_writable e) _ (w_stdin w) (w_disk w) _ recs Hr (fun _ => true) (oracles_for e o) Od v w Hv tr (e_lossy e) _ _ (preparing_table_all recs (fun _ => true) (oracles_for e o) Od tr Hall _) _ _ _ _ _ _ _ _ _ _ (Hsp _ (fun n x => x))).
  - exact (hash_front (e_gz_enc e) (e_gz_dec e) (e_writable e) _ (w_stdin w) (w_disk w) _ recs Hr (fun _ => true) (oracles_for e o) Od v w Hv tr (e_lossy e) (e_sha e) _ _ (preparing_all recs (fun _ => true) (oracles_for e o) Od tr Hall _) _ _ _ _ (Hsp _ (fun n x => x))).
  - destruct (Hki _ _ eq_refl).
  - refine (partition_front (e_gz_enc e) (e_gz_dec e) (e_writable e) _ (w_stdin w) (w_disk w) _ recs Hr (fun _ => true) (oracles_for e o) Od v w Hv tr (e_lossy e) _ _ (preparing_all recs (fun _ => true) (oracles_for e o) Od tr Hall _) _ _ _ _ _ _ _). intros n x Hn X. apply (Hc n); [|exact Hn].
    exact (mc_value e (mkInvocation cfg _) o p gzip outdir template _ x n eq_refl X).
  - exact (print_front (e_gz_enc e) (e_gz_dec e) (e_writable e) _ (w_stdin w) (w_disk w) _ recs Hr (fun _ => true) (oracles_for e o) Od v w Hv tr _ _ (preparing_all recs (fun _ => true) (oracles_for e o) Od tr Hall _) _ _ (Hsp _ (fun n x => x))).
  - exact (sample_front (e_gz_enc e) (e_gz_dec e) (e_writable e) _ (w_stdin w) (w_disk w) _ recs Hr (fun _ => true) (oracles_for e o) Od v w Hv tr _ _ (preparing_all recs (fun _ => true) (oracles_for e o) Od tr Hall _) _ _ _ _ (Hsp _ (fun n x => x))).
  - exact (select_front (e_gz_enc e) (e_gz_dec e) (e_writable e) _ (w_stdin w) (w_disk w) _ recs Hr (fun _ => true) (oracles_for e o) Od v w Hv tr (e_lossy e) _ _ (preparing_table_all recs (fun _ => true) (oracles_for e o) Od tr Hall _) _ _ _ _ _ _ _ _ _ _ (Hsp _ (fun n x => x))).
  - refine (slice_front (e_gz_enc e) (e_gz_dec e) (e_writable e) _ (w_stdin w) (w_disk w) _ recs Hr (fun _ => true) (oracles_for e o) Od v w Hv tr _ _ (preparing_all recs (fun _ => true) (oracles_for e o) Od tr Hall _) _ _ _ _ _ _ (Hsp _ (fun n x => x)) _). destruct (Hs _ _ _ _ _ _ _ _ eq_refl) as [X|X]; [right|left]; exact X.
  - refine (split_front (e_gz_enc e) (e_gz_dec e) (e_writable e) _ (w_stdin w) (w_disk w) _ recs Hr (fun _ => true) (oracles_for e o) Od v w Hv tr _ _ (preparing_all recs (fun _ => true) (oracles_for e o) Od tr Hall _) _ _ _ _ _ _). intros n x Hn X. apply (Hc n); [|exact Hn].
    exact (mc_chunk e (mkInvocation cfg _) o gzip outdir template size _ x n eq_refl X).
Qed.

Lemma run_concat : forall e cfg k w w1 t x w2, RunProofs.is_config k = false -> (forall output names, k <> KInvalid output names) -> expression_free k ->
  counts_records e cfg w k -> (forall n, may_change e (mkInvocation cfg k) n -> ~ In n (input_names k)) ->
  run e (mkInvocation cfg (concat_of (skip_flag k) (input_names k))) w = Some (CEnded 0, w1) -> w_stdout w1 = w_stdout w ++ t ->
  run e (mkInvocation cfg (with_inputs [lit "-"] k)) (mkWorld (w_disk w) t (w_stdout w)) = Some (x, w2) ->
  run e (mkInvocation cfg k) w = Some (x, fed (w_stdin w) w2).
Proof.
  intros e cfg k w w1 t x w2 Hk Hki Hx Hs Hc H Ht H2.
  destruct (fun X => RunProofs.run_ended _ _ _ _ _ X H) as (c & Hset & He); [reflexivity|].
  assert (Hk' : RunProofs.is_config (with_inputs [lit "-"] k) = false) by (destruct k; try reflexivity; discriminate).
  rewrite (RunProofs.run_settings e (mkInvocation cfg k) w c Hk) by (eapply settings_same; [reflexivity|exact Hset]).
  rewrite (RunProofs.run_settings e (mkInvocation cfg (with_inputs [lit "-"] k)) _ c Hk') in H2 by (eapply settings_same; [|exact Hset]; reflexivity).
  cbn [in_command] in *.
  assert (Hs' : forall o gzip append output start end_ length names, k = KSlice o gzip append output start end_ length names ->
     length = 0 \/ o_skip o || cf_skip_invalid c = false).
  { intros o' gzip append output start end_ length names Ek. destruct (Hs _ _ _ _ _ _ _ _ Ek) as [X|[X Y]]; [left; exact X|right].
    rewrite X, (Y c); [reflexivity|]. eapply settings_same; [reflexivity|exact Hset]. }
  pose proof (execute_concat e c cfg k w w1 t Hk Hki Hx Hs' Hc He Ht) as X. rewrite H2 in X.
  destruct (execute e c k w) as [[y v]|]; [|contradiction]. destruct X as [-> ->]. reflexivity.
Qed.

Lemma run_concat_front : forall e cfg k w w1 t x w2,
  (forall a, k <> KConfig a) -> (forall output names, k <> KInvalid output names) -> expression_free k -> counts_records e cfg w k ->
  (forall n, may_change e (mkInvocation cfg k) n -> ~ In n (input_names k)) ->
  run e (mkInvocation cfg (concat_of (skip_flag k) (input_names k))) w = Some (CEnded 0, w1) -> w_stdout w1 = w_stdout w ++ t ->
  run e (mkInvocation cfg (with_inputs [lit "-"] k)) (mkWorld (w_disk w) t (w_stdout w)) = Some (x, w2) ->
  run e (mkInvocation cfg k) w = Some (x, fed (w_stdin w) w2).
Proof.
  intros e cfg k w w1 t x w2 Hk. apply run_concat. destruct k; try reflexivity. destruct (Hk a eq_refl).
Qed.

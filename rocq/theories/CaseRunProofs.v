(** * Proofs about filter --ignore-case *)

From Coq Require Import String ZArith Lia.
From Verif Require Import Bytes BaseProofs Winnow RecordModel TagOccModel Utf8Model ByteRecordModel ByteRecordProofs ReaderModel
  MatcherModel MatcherProofs StateParser MatcherParserModel BuilderModel PathModel FmtModel QueryModel CliModel CliProofs TableModel
  ExplodeModel CheckModel ConvertModel CsvModel OptionsModel OptionsSpec ConfigModel PrepareModel
  IoModel IoSpec WriteSpec DiskModel DirModel RuleModel
  MainModel DiskSpec RuleSpec MainSpec PipeSpec DiskProofs PipeProofs PipeInProofs FrontLoop FrontSpec FrontProofs FrontRunProofs LimitSpec LimitProofs PartsSpec PartsProofs RecordwiseProofs
  DealtSpec DealtProofs CaseSpec CaseProofs.
From Verif Require RunSpec RunProofs.

Lemma dealt_more : forall f g recs, Forall of_line recs -> (forall r, In r recs -> f r = true -> g r = true) ->
  exists t', dealt (flat_map br_write (filter f recs)) t' (flat_map br_write (filter g recs)).
Proof.
  intros f g recs H. induction H as [|r recs (x & Hx & Ew & _) H IH]; intros Hg; [exists []; constructor|].
  destruct (IH (fun r Hr => Hg r (or_intror Hr))) as (t' & D). assert (L : a_line (br_write r)) by (exists x; auto).
  assert (G := Hg r (or_introl eq_refl)). cbn [filter]. destruct (f r).
  - rewrite G by reflexivity. exists t'. cbn [flat_map]. constructor; assumption.
  - destruct (g r); [exists (br_write r ++ t'); cbn [flat_map]; constructor; assumption|exists t'; exact D].
Qed.

(** Two runs of filter with the same expression, of which the sides of the answers are known *)
Lemma execute_moves : forall e c o o' W invert names w w1 w2 t1 t2 m up, o_limit o = 0 -> o_source o = None ->
  o_skip o' = o_skip o -> o_limit o' = o_limit o -> o_allow o' = o_allow o -> o_deny o' = o_deny o -> o_column o' = o_column o -> o_source o' = o_source o ->
  o_and o' = o_and o -> o_or o' = o_or o -> o_not o' = o_not o ->
  fst (builder_run (oracles_for e o) (translit e (cf_normalization c)) fresh W [CallAnd (o_and o); CallOr (o_or o); CallNot (o_not o)]) = Some (Some m) ->
  fst (builder_run (oracles_for e o') (translit e (cf_normalization c)) fresh W [CallAnd (o_and o); CallOr (o_or o); CallNot (o_not o)]) = Some (Some m) ->
  (forall r, both up (rm_is_match (oracles_for e o) (o_ci o) m r) (rm_is_match (oracles_for e o') (o_ci o') m r)) ->
  execute e c (sifted o W invert names) w = Some (CEnded 0, w1) -> w_stdout w1 = w_stdout w ++ t1 ->
  execute e c (sifted o' W invert names) w = Some (CEnded 0, w2) -> w_stdout w2 = w_stdout w ++ t2 ->
  exists t', if xorb up invert then dealt t1 t' t2 else dealt t2 t' t1.
Proof.
  intros e c o o' W invert names w w1 w2 t1 t2 m up Hl Hs Ek El Ea Ed Ec Es E1 E2 E3 Hb Hb' Hm H1 T1 H2 T2. cbn [sifted execute] in H1, H2. rewrite Ek in H2.
  set (O := oracles_for e o) in *. set (O' := oracles_for e o') in *. set (Od := default_oracles e) in *. set (tr := translit e (cf_normalization c)) in *.
  set (a1 := load_filter e (w_disk w) (o_skip o || cf_skip_invalid c) o (mkFilterOnly W None invert None None) names) in *.
  set (a2 := load_filter e (w_disk w) (o_skip o || cf_skip_invalid c) o' (mkFilterOnly W None invert None None) names) in *.
  destruct (filter_front_done _ _ _ O Od tr a1 w w1 Hl eq_refl eq_refl eq_refl H1) as (c1 & s1 & recs & P1 & R1 & S1 & ->).
  destruct (filter_front_done _ _ _ O' Od tr a2 w w2 (eq_trans El Hl) eq_refl eq_refl eq_refl H2) as (c2 & s2 & recs2 & P2 & R2 & S2 & ->).
  change (fa_skip a2) with (fa_skip a1) in R2. change (fa_names a2) with (fa_names a1) in R2. rewrite R1 in R2. injection R2 as <-.
  cbn [w_stdout] in T1, T2. apply app_inv_head in T1, T2. subst t1 t2.
  assert (Hc : forall r, In r recs -> moved (xorb up invert) (chosen O Od c1 r) (chosen O' Od c2 r)).
  { intros r Hr. specialize (S1 r Hr). specialize (S2 r Hr).
    specialize (P1 (fun _ => [])). specialize (P2 (fun _ => [])). unfold filter_prepare in P1, P2.
    assert (Es1 : fa_source a1 = None) by exact Hs. assert (Es2 : fa_source a2 = None) by exact (eq_trans Es Hs). rewrite Es1 in P1. rewrite Es2 in P2.
    cbn [source_parse and_then] in P1, P2.
    cbn [a1 a2 load_filter fa_discard fa_keep fi_discard fi_keep parse_predicates] in P1, P2.
    assert (X1 : fa_column a2 = fa_column a1) by exact Ec. assert (X2 : fa_allow a2 = fa_allow a1) by (cbn; rewrite Ea; reflexivity).
    assert (X3 : fa_deny a2 = fa_deny a1) by (cbn; rewrite Ed; reflexivity). rewrite X1, X2, X3 in P2.
    destruct (filter_set_build _ _ _ _) as [fs|]; [|discriminate].
    change (filter_expr (fun _ => []) a1) with (Some W) in P1. change (filter_expr (fun _ => []) a2) with (Some W) in P2. cbv iota in P1, P2.
    change (fa_and a1) with (o_and o) in P1. change (fa_or a1) with (o_or o) in P1. change (fa_not a1) with (o_not o) in P1.
    change (fa_and a2) with (o_and o') in P2. change (fa_or a2) with (o_or o') in P2. change (fa_not a2) with (o_not o') in P2. rewrite E1, E2, E3 in P2.
    destruct (builder_run O tr fresh W _) as [res s3]. destruct (builder_run O' tr fresh W _) as [res' s3']. cbn [fst] in Hb, Hb'. subst res res'.
    cbn [and_then] in P1, P2. injection P1 as P1 _. injection P2 as P2 _.
    revert S1 S2. rewrite <- P1, <- P2. unfold filter_select. cbn [fc_fset fc_matcher fc_ci fc_invert].
    change (fa_ci a1) with (o_ci o). change (fa_ci a2) with (o_ci o'). change (fa_invert a1) with invert. change (fa_invert a2) with invert.
    match goal with |- _ = Some ?A -> _ = Some ?B -> _ => generalize A B end. intros b1 b2.
    destruct (filter_set_check Od fs (br_record r)) as [[]|]; [|intros A B; injection A as <-; injection B as <-; apply moved_refl|intros; discriminate].
    destruct (Hm (br_record r)) as (b & b' & -> & -> & M). intros A B. injection A as <-. injection B as <-.
    destruct invert; [|rewrite Bool.xorb_false_r; exact M]. rewrite Bool.xorb_true_r. apply moved_negb. exact M. }
  assert (L := good_lines _ _ _ _ _ _ R1). destruct (xorb up invert); apply dealt_more; assumption.
Qed.

Lemma run_ignoring : forall e cfg o W invert names w c m up t1 t2, o_ci o = false -> o_limit o = 0 -> o_source o = None ->
  lower_of_parts (oracles_for e o) ->
  RunSpec.settings e (mkInvocation cfg (sifted o W invert names)) w c ->
  fst (builder_run (oracles_for e o) (translit e (cf_normalization c)) fresh W [CallAnd (o_and o); CallOr (o_or o); CallNot (o_not o)]) = Some (Some m) ->
  field_moves singleton_moves up m ->
  run_writes e cfg w (sifted o W invert names) t1 -> run_writes e cfg w (sifted (ignoring o) W invert names) t2 ->
  exists t', if xorb up invert then dealt t1 t' t2 else dealt t2 t' t1.
Proof.
  intros e cfg o W invert names w c m up t1 t2 Hci Hl Hs Hlow Hset Hb Hm (w1 & H1 & T1) (w2 & H2 & T2).
  rewrite (RunProofs.run_settings e (mkInvocation cfg (sifted o W invert names)) w c eq_refl Hset) in H1.
  rewrite (RunProofs.run_settings e (mkInvocation cfg (sifted (ignoring o) W invert names)) w c eq_refl) in H2 by (eapply settings_same; [reflexivity|exact Hset]).
  refine (execute_moves e c o (ignoring o) W invert names w w1 w2 t1 t2 m up Hl Hs eq_refl eq_refl eq_refl eq_refl eq_refl eq_refl eq_refl eq_refl eq_refl Hb Hb _ H1 T1 H2 T2).
  intros r. rewrite Hci. exact (case_side (oracles_for e o) Hlow up m r Hm).
Qed.

(** ** What is parsed does not depend on what is similar *)

Section Same.
  Variable lower : bytes -> bytes.
  Variables similar similar' : bool -> bytes -> bytes -> bool.
  Variables re_ok : bool -> bytes -> bool.
  Variable reset_ok : bool -> list bytes -> bool.
  Variable re : bool -> bytes -> bytes -> bool.
  Let O1 := mkOracles lower similar re_ok reset_ok re.
  Let O2 := mkOracles lower similar' re_ok reset_ok re.

  Lemma subfield_same : parse_subfield_matcher O1 = parse_subfield_matcher O2.
  Proof. reflexivity. Qed.

  Lemma braced_same : s_braced O1 = s_braced O2.
  Proof. unfold s_braced. rewrite subfield_same. reflexivity. Qed.

  Lemma bracket_same : parse_f_bracket O1 = parse_f_bracket O2.
  Proof. unfold parse_f_bracket. rewrite braced_same. reflexivity. Qed.

  Lemma card_same : parse_f_card O1 = parse_f_card O2.
  Proof. unfold parse_f_card. rewrite braced_same. reflexivity. Qed.

  Lemma dot_same : parse_f_dot O1 = parse_f_dot O2.
  Proof. reflexivity. Qed.

  Lemma one_same : f_singleton O1 = f_singleton O2.
  Proof. unfold f_singleton, parse_f_singleton. rewrite bracket_same, dot_same. reflexivity. Qed.

  Lemma composite_same : forall g t, f_composite O1 g t = f_composite O2 g t.
  Proof. intros g t. unfold f_composite, f_or, f_xor, f_and, f_atoms. rewrite card_same, one_same. reflexivity. Qed.

  Lemma gn_same : forall n, field_gn O1 n = field_gn O2 n.
  Proof.
    induction n as [|n IH]; [reflexivity|]. cbn [field_gn]. rewrite IH. destruct (field_gn O2 n) as [g t].
    unfold f_group_body, f_not_body. rewrite composite_same, card_same, one_same, bracket_same. reflexivity.
  Qed.

  Lemma field_same : forall s i, parse_field_matcher O1 s i = parse_field_matcher O2 s i.
  Proof.
    intros s i. unfold parse_field_matcher. rewrite gn_same. destruct (field_gn O2 _) as [g t]. rewrite composite_same, card_same, one_same. reflexivity.
  Qed.

  Lemma new_same : forall s i, field_matcher_new O1 s i = field_matcher_new O2 s i.
  Proof. intros s i. unfold field_matcher_new, sparse_all. rewrite (field_same s i). reflexivity. Qed.

  Variable tr : bytes -> bytes.

  Lemma fold_same : forall op l m s, builder_fold O1 tr op l m s = builder_fold O2 tr op l m s.
  Proof.
    induction l as [|x l IH]; intros m s; [reflexivity|]. cbn [builder_fold]. rewrite new_same. unfold and_then.
    destruct (field_matcher_new O2 s (tr x)) as [[[m'|]|] s']; [apply IH|reflexivity|reflexivity].
  Qed.

  Lemma calls_same : forall cs m s, builder_calls O1 tr cs m s = builder_calls O2 tr cs m s.
  Proof.
    induction cs as [|c cs IH]; intros m s; [reflexivity|]. cbn [builder_calls]. replace (builder_step O1 tr c m s) with (builder_step O2 tr c m s).
    - unfold and_then. destruct (builder_step O2 tr c m s) as [[[m'|]|] s']; [apply IH|reflexivity|reflexivity].
    - destruct c; cbn [builder_step]; symmetry; apply fold_same.
  Qed.

  Lemma builder_same : forall s W cs, builder_run O1 tr s W cs = builder_run O2 tr s W cs.
  Proof.
    intros s W cs. unfold builder_run, builder_new. rewrite new_same. unfold and_then. destruct (field_matcher_new O2 s (tr W)) as [[[m|]|] s']; [apply calls_same|reflexivity|reflexivity].
  Qed.
End Same.

Lemma stricter_same : forall O O' tr s W cs, no_stricter O O' -> builder_run O' tr s W cs = builder_run O tr s W cs.
Proof.
  intros [l s r rs re] [l' s' r' rs' re'] tr st W cs (E1 & E2 & E3 & E4 & _). cbn [o_lower o_re_ok o_reset_ok o_re] in *. subst. apply builder_same.
Qed.

Lemma run_threshold : forall e cfg o n W invert names w c m up t1 t2, by_degree e -> n <= o_threshold o -> o_limit o = 0 -> o_source o = None ->
  RunSpec.settings e (mkInvocation cfg (sifted o W invert names)) w c ->
  fst (builder_run (oracles_for e o) (translit e (cf_normalization c)) fresh W [CallAnd (o_and o); CallOr (o_or o); CallNot (o_not o)]) = Some (Some m) ->
  field_moves (similar_moves (oracles_for e o) (o_ci o)) up m ->
  run_writes e cfg w (sifted o W invert names) t1 -> run_writes e cfg w (sifted (at_threshold n o) W invert names) t2 ->
  exists t', if xorb up invert then dealt t1 t' t2 else dealt t2 t' t1.
Proof.
  intros e cfg o n W invert names w c m up t1 t2 Hd Hn Hl Hs Hset Hb Hm (w1 & H1 & T1) (w2 & H2 & T2).
  rewrite (RunProofs.run_settings e (mkInvocation cfg (sifted o W invert names)) w c eq_refl Hset) in H1.
  rewrite (RunProofs.run_settings e (mkInvocation cfg (sifted (at_threshold n o) W invert names)) w c eq_refl) in H2 by (eapply settings_same; [reflexivity|exact Hset]).
  assert (N : no_stricter (oracles_for e o) (oracles_for e (at_threshold n o))) by (apply Hd; exact Hn).
  refine (execute_moves e c o (at_threshold n o) W invert names w w1 w2 t1 t2 m up Hl Hs eq_refl eq_refl eq_refl eq_refl eq_refl eq_refl eq_refl eq_refl eq_refl Hb _ _ H1 T1 H2 T2).
  - rewrite (stricter_same _ _ _ _ _ _ N). exact Hb.
  - intros r. exact (similar_side _ _ _ N up m r Hm).
Qed.

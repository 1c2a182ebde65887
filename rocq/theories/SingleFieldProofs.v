(** * Proofs about the field matchers of one kind *)

From Coq Require Import String.
From Verif Require Import Bytes Winnow RecordModel RecordSpec StrParserModel TagOccModel TagOccSpec
  TagOccProofs StrSpec BaseProofs StrProofs MatcherModel StateParser StateParserProofs MatcherParserModel
  MatcherSpec MatcherProofs MatcherExtraProofs GrammarSpec GrammarLeafProofs GrammarSingletonProofs
  GrammarCondProofs GrammarExprProofs GrammarSubProofs GrammarFieldLeafProofs GrammarFieldProofs
  GrammarSoundProofs GrammarClaimProofs SingleModel SingleSpec SingleProofs.
From Verif Require MatcherParserProofs.

Section SingleField.
  Variable O : oracles.

  (** ** texts are accepted *)
  Lemma quant_lead : forall w0 tq q tt T r, lead w0 tq -> quant_text false tq q -> tag_matcher_text tt T ->
    exists q', opt (ws parse_quantifier) (w0 ++ tq ++ tt ++ r) = Some (q', tt ++ r) /\ quant_default q' = q.
  Proof.
    intros w0 tq q tt T r [W0 H0] Hq HT. destruct (tag_quant_ok tq q tt T r Hq HT) as (q' & E & Hd).
    exists q'. split; [|exact Hd]. rewrite <- E.
    destruct Hq as [|w W _|w W _]; [rewrite (H0 eq_refl); reflexivity|..];
      unfold opt, ws; rewrite (skip_ws_blanks w0) by exact W0; reflexivity.
  Qed.

  Lemma exists_lead : forall w i, blanks w -> parse_f_exists (w ++ i) = parse_f_exists i.
  Proof.
    intros w i W. unfold parse_f_exists, terminated, ws. rewrite (skip_ws_blanks w) by exact W. reflexivity.
  Qed.

  Lemma exists_field_text : forall t P, single_field_text O true FsExists t P ->
    exists m, parse_f_exists t = Some (m, []) /\ means (field_holds O) (FMSingleton m) P.
  Proof.
    intros t P H. remember FsExists as k eqn:Ek. destruct H as [w0 tt T to S w W0 HT HS W| | | |]; try discriminate.
    rewrite exists_lead by exact W0. destruct (f_exists_ok O tt T to S w [] HT HS W) as (m & E & Hm).
    rewrite app_nil_r in E. exists m. auto.
  Qed.

  Lemma card_lead : forall s w i m r s', blanks w -> parse_f_card O s i = (POk m r, s') ->
    exists m', parse_f_card O s (w ++ i) = (POk m' r, s')
      /\ forall ci fs, field_holds O m' ci fs <-> field_holds O m ci fs.
  Proof.
    intros s w i m r s' W E. unfold parse_f_card, staken in *.
    assert (Es : forall A (p : sparser A), spreceded (slift (ws (ch 35))) p s (w ++ i)
                 = spreceded (slift (ws (ch 35))) p s i).
    { intros A p. unfold spreceded, sbind, slift, ws. rewrite (skip_ws_blanks w) by exact W. reflexivity. }
    rewrite Es. clear Es. destruct (spreceded _ _ s i) as [[[[[[t o] sm] op] v] r1| |] s1]; try discriminate.
    injection E as <- <- <-. eexists. split; [reflexivity|]. intros ci fs. destruct sm; reflexivity.
  Qed.

  Lemma card_field_text : forall t P s, single_field_text O true FsCount t P -> lv_sub s = 0 ->
    exists m, parse_f_card O s t = (POk m [], s) /\ means (field_holds O) m P.
  Proof.
    intros t P s H Hs. remember FsCount as k eqn:Ek.
    destruct H as [| | |w0 w1 tt T w2 to S w3 top op w4 tn n W0 W1 HT W2 HS W3 Hop W4 Hn
                  |w0 w1 tt T w2 to S w3 t P w5 top op w4 tn n W0 W1 HT W2 HS W3 Ht W5 Hop W4 Hn]; try discriminate.
    - destruct (f_card_ok O w1 tt T w2 to S w3 top op w4 tn n [] s W1 HT W2 HS W3 Hop W4 Hn follow_nil)
        as (m & E & Hm). rewrite app_nil_r in E.
      destruct (card_lead s w0 _ m [] s W0 E) as (m' & E' & Hm'). exists m'. split; [exact E'|].
      intros ci fs. rewrite Hm'. apply Hm.
    - destruct (f_card_braced_ok O w1 tt T w2 to S w3 t P w5 top op w4 tn n [] s W1 HT W2 HS W3 Ht W5 Hop W4 Hn
                  follow_nil Hs) as (m & E & Hm). rewrite app_nil_r in E.
      destruct (card_lead s w0 _ m [] s W0 E) as (m' & E' & Hm'). exists m'. split; [exact E'|].
      intros ci fs. rewrite Hm'. apply Hm.
  Qed.

  Lemma dot_text : forall w0 tq q tt T to S k t P, lead w0 tq -> quant_text false tq q ->
    tag_matcher_text tt T -> occ_matcher_text to S -> single_text O k t P ->
    exists m, parse_f_dot O (w0 ++ tq ++ tt ++ to ++ lit "." ++ t) = Some (m, [])
      /\ means (field_holds O) (FMSingleton m)
           (fun ci fs => quantified q (fun f => P ci (f_subfields f)) (fun f => In f fs /\ tagged T S f)).
  Proof.
    intros w0 tq q tt T to S k t P HL Hq HT HS Ht. change (lit "." ++ t) with (46 :: t).
    destruct (quant_lead w0 tq q tt T (to ++ 46 :: t) HL Hq HT) as (q' & Eq & Hq').
    destruct (tag_occ_ok tt T to S ([] ++ 46 :: t) HT HS) as (m & o & Em & Eo & Hm).
    { apply occ_stop_blanks; [constructor|cbn; tauto]. }
    cbn [app] in Em, Eo. destruct (single_parsed O k t P Ht) as (sm & Es & _ & HP).
    eexists. split.
    - unfold parse_f_dot. rewrite Eq, Em, Eo, ch_ok, Es. reflexivity.
    - apply subfields_means; [exact Hq'|exact Hm|]. intros ci sfs. apply HP.
  Qed.

  Lemma bracket_text : forall w0 tq q tt T to S w t P w1 s, lead w0 tq -> quant_text false tq q ->
    tag_matcher_text tt T -> occ_matcher_text to S -> blanks w -> braced_text O true t P -> blanks w1 -> lv_sub s = 0 ->
    parse_f_dot O (w0 ++ tq ++ tt ++ to ++ w ++ t ++ w1) = None
    /\ exists m, parse_f_bracket O s (w0 ++ tq ++ tt ++ to ++ w ++ t ++ w1) = (POk m [], s)
      /\ means (field_holds O) (FMSingleton m)
           (fun ci fs => quantified q (fun f => P ci (f_subfields f)) (fun f => In f fs /\ tagged T S f)).
  Proof.
    intros w0 tq q tt T to S w t P w1 s HL Hq HT HS W Ht W1 Hs.
    destruct (quant_lead w0 tq q tt T (to ++ w ++ t ++ w1) HL Hq HT) as (q' & Eq & Hq').
    destruct (braced_start O t P Ht) as (t' & Et).
    destruct (tag_occ_ok tt T to S (w ++ t ++ w1) HT HS) as (m & o & Em & Eo & Hm).
    { rewrite Et. apply occ_stop_blanks; [exact W|cbn; tauto]. }
    destruct (braced_ok O w t P w1 s W Ht Hs) as (sm & Eb & HP). rewrite skip_all in Eb by exact W1.
    split.
    - unfold parse_f_dot. rewrite Eq, Em, Eo. destruct w as [|c w]; [rewrite Et; reflexivity|].
      inversion W as [|x y HB _]; subst. unfold blank in HB. cbn in HB.
      repeat (destruct HB as [<-|HB]; [reflexivity|]). contradiction.
    - eexists. split.
      + unfold parse_f_bracket, staken, smap. unfold sbind, slift. rewrite Eq, Em, Eo, Eb. reflexivity.
      + apply subfields_means; assumption.
  Qed.

  Lemma no_exists : forall w0 tq q tt T to S w c r, lead w0 tq -> quant_text false tq q ->
    tag_matcher_text tt T -> occ_matcher_text to S -> blanks w -> In c (lit ".{") ->
    parse_f_exists (w0 ++ tq ++ tt ++ to ++ w ++ c :: r) = None.
  Proof.
    intros w0 tq q tt T to S w c r [W0 _] Hq HT HS W Hc. rewrite exists_lead by exact W0.
    eapply f_exists_none; eassumption.
  Qed.

  Lemma subfields_field_text : forall t P s, single_field_text O true FsSubfields t P -> lv_sub s = 0 ->
    parse_f_exists t = None
    /\ exists m, salt (slift (parse_f_dot O)) (parse_f_bracket O) s t = (POk m [], s)
         /\ means (field_holds O) (FMSingleton m) P.
  Proof.
    intros t P s H Hs. remember FsSubfields as k eqn:Ek.
    destruct H as [|w0 tq q tt T to S j t P HL Hq HT HS Ht|w0 tq q tt T to S w t P w1 HL Hq HT HS W Ht W1| |];
      try discriminate.
    - split.
      { change (lit "." ++ t) with ([] ++ 46 :: t). eapply no_exists; try eassumption; [constructor|cbn; tauto]. }
      destruct (dot_text w0 tq q tt T to S j t P HL Hq HT HS Ht) as (m & E & Hm). exists m. split; [|exact Hm].
      unfold salt, slift. rewrite E. reflexivity.
    - destruct (bracket_text w0 tq q tt T to S w t P w1 s HL Hq HT HS W Ht W1 Hs) as (E0 & m & E & Hm). split.
      { destruct (braced_start O t P Ht) as (t' & ->). cbn [app].
        eapply no_exists; try eassumption. cbn; tauto. }
      exists m. split; [|exact Hm]. unfold salt, slift. rewrite E0. exact E.
  Qed.

  (** ** only texts are accepted *)
  Lemma quant_lead_inv : forall i q r1, opt (ws parse_quantifier) i = Some (q, r1) ->
    exists w0 tq, lead w0 tq /\ quant_text false tq (quant_default q) /\ i = w0 ++ tq ++ r1.
  Proof.
    intros i q r1 H.
    assert (G : (q = None /\ r1 = i) \/ exists x, q = Some x).
    { unfold opt in H. destruct (ws parse_quantifier i) as [[x r]|]; injection H as <- <-; eauto. }
    assert (E := H). apply (opt_ws_quant_inv false) in E as [[-> ->]|(w0 & tq & W0 & Hq & -> & Hn)].
    - exists [], []. split; [split; [constructor|reflexivity]|]. split; [apply quant_none|reflexivity].
    - destruct tq as [|c tq].
      + destruct G as [[-> G]|[x ->]].
        * exists [], []. split; [split; [constructor|reflexivity]|]. split; [apply quant_none|]. symmetry. exact G.
        * exfalso. cbn [app] in H. unfold opt, ws in H. rewrite (skip_ws_blanks w0) in H by exact W0.
          rewrite (skip_ws_nonblank r1) in H by exact Hn.
          destruct (parse_quantifier r1) as [[y r]|] eqn:E; [|discriminate]. injection H as -> H.
          apply quantifier_inv in E as [[E _]|[E _]]; rewrite E in H;
            destruct (skip_ws_split r) as (w & _ & Ew); rewrite H in Ew;
            apply (f_equal (@length byte)) in Ew;
            rewrite !app_length in Ew; cbn in Ew; lia.
      + exists w0, (c :: tq). split; [split; [exact W0|discriminate]|]. auto.
  Qed.

  Lemma exists_field_sound : forall t m, parse_f_exists t = Some (m, []) ->
    exists P, single_field_text O false FsExists t P /\ means (field_holds O) (FMSingleton m) P.
  Proof.
    intros i m H. unfold parse_f_exists, terminated, ws in H.
    destruct (skip_ws_split i) as (w0 & W0 & E0). destruct (skip_ws i) as [|c i'] eqn:Es; [discriminate|].
    destruct (parse_tag_matcher (c :: i')) as [[t r1]|] eqn:E1; [|discriminate].
    destruct (parse_occ_matcher r1) as [[o r2]|] eqn:E2; [|discriminate].
    destruct (ch 63 (skip_ws r2)) as [[x r3]|] eqn:E3; [|discriminate]. injection H as <- ->.
    apply ch_inv in E3 as [E3 _]. destruct (skip_ws_split r2) as (w & W & Er). rewrite E3 in Er.
    destruct (tag_occ_read _ _ _ _ _ E1 E2) as (tt & T & to & S & Et & HT & HS & Hm & _).
    rewrite E0, Et, Er. change [63] with (lit "?"). eexists. split; [apply sf_exists; eassumption|].
    intros ci fs. unfold field_holds. cbn [fm_holds fs_holds].
    split; intros (f & Hf & Ht); exists f; (split; [exact Hf|apply Hm; exact Ht]).
  Qed.

  Lemma dot_sound : forall t m, parse_f_dot O t = Some (m, []) ->
    exists P, single_field_text O false FsSubfields t P /\ means (field_holds O) (FMSingleton m) P.
  Proof.
    intros i m H. unfold parse_f_dot in H.
    destruct (opt (ws parse_quantifier) i) as [[q r1]|] eqn:E1; [|discriminate].
    destruct (parse_tag_matcher r1) as [[t r2]|] eqn:E2; [|discriminate].
    destruct (parse_occ_matcher r2) as [[o r3]|] eqn:E3; [|discriminate].
    destruct (ch 46 r3) as [[x r4]|] eqn:E4; [|discriminate].
    destruct (parse_singleton O r4) as [[sm r5]|] eqn:E5; [|discriminate]. injection H as <- ->.
    destruct (quant_lead_inv _ _ _ E1) as (w0 & tq & HL & Hq & ->).
    destruct (tag_occ_read _ _ _ _ _ E2 E3) as (tt & T & to & S & -> & HT & HS & Hm & _).
    apply ch_inv in E4 as [-> _]. apply singleton_parser in E5.
    assert (E6 : parse_all (parser_of O (sort_of sm)) r4 = Some sm) by (unfold parse_all; rewrite E5; reflexivity).
    destruct (single_sound O _ _ _ E6) as (P & Ht & HP & _). change (46 :: r4) with (lit "." ++ r4).
    eexists. split; [eapply sf_dot; eassumption|].
    apply (subfields_means O q); [reflexivity|exact Hm|]. intros ci sfs. apply HP.
  Qed.

  Lemma bracket_sound : forall s t m s', parse_f_bracket O s t = (POk m [], s') ->
    exists P, single_field_text O false FsSubfields t P /\ means (field_holds O) (FMSingleton m) P.
  Proof.
    intros s i a s' E. unfold parse_f_bracket, staken in E.
    destruct (sbind _ _ s i) as [[x r1| |] s1] eqn:F; try discriminate.
    destruct x as [[[q t] o] m]. injection E as <- -> <-.
    unfold sbind at 1, slift at 1 in F. destruct (opt (ws parse_quantifier) i) as [[q' r2]|] eqn:E1; [|discriminate].
    unfold sbind at 1, slift at 1 in F. destruct (parse_tag_matcher r2) as [[t' r3]|] eqn:E2; [|discriminate].
    unfold sbind at 1, slift at 1 in F. destruct (parse_occ_matcher r3) as [[o' r4]|] eqn:E3; [|discriminate].
    unfold smap in F. destruct (s_braced O s r4) as [[m' r5| |] s2] eqn:E4; try discriminate.
    injection F as <- <- <- <- -> <-.
    destruct (quant_lead_inv _ _ _ E1) as (w0 & tq & HL & Hq & ->).
    destruct (tag_occ_read _ _ _ _ _ E2 E3) as (tt & T & to & S & -> & HT & HS & Hm & _).
    destruct (braced_reads O _ _ _ _ _ E4) as (w1 & tb & w2 & W1 & W2 & -> & Hb).
    destruct (braces_loose O m' tb Hb) as (P & Ht & HP). rewrite app_nil_r.
    eexists. split; [eapply sf_braced; eassumption|]. apply subfields_means; [reflexivity|exact Hm|exact HP].
  Qed.

  Lemma subfields_field_sound : forall s t m s',
    salt (slift (parse_f_dot O)) (parse_f_bracket O) s t = (POk m [], s') ->
    exists P, single_field_text O false FsSubfields t P /\ means (field_holds O) (FMSingleton m) P.
  Proof.
    intros s t m s' H. unfold salt, slift in H. destruct (parse_f_dot O t) as [[m1 r1]|] eqn:E.
    - injection H as -> -> _. apply dot_sound. exact E.
    - eapply bracket_sound. exact H.
  Qed.

  Lemma card_field_sound : forall s t m s', parse_f_card O s t = (POk m [], s') ->
    exists P, single_field_text O false FsCount t P /\ means (field_holds O) m P.
  Proof.
    intros s t m s' H.
    assert (Hc : exists t o sm op v raw, m = FMCard t o sm op v raw).
    { unfold parse_f_card, staken in H. destruct (spreceded _ _ s t) as [[[[[[a b] c] d] e] r1| |] s1]; try discriminate.
      injection H as <- _ _. repeat eexists. }
    apply f_card_inv in H as (w0 & c & W0 & -> & Hf). cbn [app]. rewrite app_nil_r.
    destruct Hf as [ | | | |
      |w1 tm o tt T w2 to S w3 top op w4 tn n v W1 (HT & HS & Hm & _) W2 W3 Ho W4 Hn V
      |w1 tm o tt T w2 to S w3 t m w5 top op w4 tn n v W1 (HT & HS & Hm & _) W2 W3 Ht W5 Ho W4 Hn V];
      try (destruct Hc as (? & ? & ? & ? & ? & ? & Hc); discriminate Hc).
    - eexists. split; [apply sf_card; eassumption|].
      intros ci fs. unfold field_holds. cbn [fm_holds condition_holds].
      split; intros (k & Hk & Hh); exists k; (split; [|exact Hh]); revert Hk; apply counts_eq; intros f;
        rewrite Hm; tauto.
    - destruct (braces_loose O m t Ht) as (P & Hb & HP).
      eexists. split; [apply sf_card_braced; eassumption|].
      intros ci fs. unfold field_holds. cbn [fm_holds condition_holds].
      split; intros (k & Hk & Hh); exists k; (split; [|exact Hh]); revert Hk; apply counts_eq; intros f;
        rewrite Hm; specialize (HP ci (f_subfields f)); unfold sub_holds in HP; rewrite HP; reflexivity.
  Qed.

  (** ** in terms of evaluation *)
  (** the constructors, with the matcher as a [field_matcher] *)
  Definition field_news : list (field_sort * (levels -> bytes -> option (option field_matcher) * levels)) :=
    [(FsExists, fun s t => (Some (option_map FMSingleton (f_exists_new t)), s));
     (FsSubfields, fun s t => let '(x, s') := f_subfields_new O s t in (option_map (option_map FMSingleton) x, s'));
     (FsCount, f_card_new O)].

  Lemma ready_evaluates : forall ci m P, re_ready O ci -> MatcherParserProofs.fm_checked O m ->
    means (field_holds O) m P -> evaluates O ci m P.
  Proof.
    intros ci m P [H1 H2] Hc Hm. apply means_evaluates; [|exact Hm]. apply fm_checked_wf; assumption.
  Qed.

  Lemma f_exists_checked : forall t m r, parse_f_exists t = Some (m, r) ->
    MatcherParserProofs.fm_checked O (FMSingleton m).
  Proof. intros t m r E. apply (MatcherParserProofs.f_exists_checked O) in E as [E _]. exact E. Qed.

  Lemma f_subfields_checked : forall s t m r s',
    salt (slift (parse_f_dot O)) (parse_f_bracket O) s t = (POk m r, s') ->
    MatcherParserProofs.fm_checked O (FMSingleton m).
  Proof.
    intros s t m r s' E. unfold salt, slift in E. destruct (parse_f_dot O t) as [[m1 r1]|] eqn:F.
    - injection E as -> -> _. apply (MatcherParserProofs.f_dot_checked O) in F as [F _]. exact F.
    - pose proof (MatcherParserProofs.f_bracket_ok O (Datatypes.S (length t)) s t ltac:(lia)) as G. rewrite E in G.
      apply G.
  Qed.

  Lemma f_card_checked : forall s t m r s', parse_f_card O s t = (POk m r, s') ->
    MatcherParserProofs.fm_checked O m.
  Proof.
    intros s t m r s' E.
    pose proof (MatcherParserProofs.f_card_ok O (Datatypes.S (length t)) s t ltac:(lia)) as G. rewrite E in G.
    apply G.
  Qed.

  Lemma field_new_complete : forall k new t P s, In (k, new) field_news ->
    single_field_text O true k t P -> lv_sub s = 0 ->
    exists m, new s t = (Some (Some m), s) /\ forall ci, re_ready O ci -> evaluates O ci m P.
  Proof.
    intros k new t P s Hn H Hs. unfold field_news in Hn. cbn [In] in Hn.
    destruct Hn as [Hn|[Hn|[Hn|[]]]]; injection Hn as <- <-.
    - destruct (exists_field_text t P H) as (m & E & Hm). exists (FMSingleton m). split.
      + unfold f_exists_new, parse_all. rewrite E. reflexivity.
      + intros ci Hr. apply ready_evaluates; try assumption. eapply f_exists_checked. exact E.
    - destruct (subfields_field_text t P s H Hs) as (_ & m & E & Hm). exists (FMSingleton m). split.
      + unfold f_subfields_new, sparse_all. rewrite E. reflexivity.
      + intros ci Hr. apply ready_evaluates; try assumption. eapply f_subfields_checked. exact E.
    - destruct (card_field_text t P s H Hs) as (m & E & Hm). exists m. split.
      + unfold f_card_new, sparse_all. rewrite E. reflexivity.
      + intros ci Hr. apply ready_evaluates; try assumption. eapply f_card_checked. exact E.
  Qed.

  Lemma sparse_all_some : forall A (p : sparser A) s t a s', sparse_all p s t = (Some (Some a), s') ->
    p s t = (POk a [], s').
  Proof.
    intros A p s t a s' H. unfold sparse_all in H. destruct (p s t) as [[b [|c r]| |] s1]; congruence.
  Qed.

  Lemma field_new_sound : forall k new t s m s', In (k, new) field_news -> new s t = (Some (Some m), s') ->
    exists P, single_field_text O false k t P /\ forall ci, re_ready O ci -> evaluates O ci m P.
  Proof.
    intros k new t s m s' Hn E. unfold field_news in Hn. cbn [In] in Hn.
    destruct Hn as [Hn|[Hn|[Hn|[]]]]; injection Hn as <- <-.
    - destruct (f_exists_new t) as [m1|] eqn:F; [|discriminate]. injection E as <- <-.
      unfold f_exists_new in F. apply parse_all_inv in F.
      destruct (exists_field_sound t m1 F) as (P & H & Hm). exists P. split; [exact H|].
      intros ci Hr. apply ready_evaluates; try assumption. eapply f_exists_checked. exact F.
    - destruct (f_subfields_new O s t) as [x s1] eqn:F. destruct x as [[m1|]|]; try discriminate.
      injection E as <- <-. apply sparse_all_some in F.
      destruct (subfields_field_sound s t m1 s1 F) as (P & H & Hm). exists P. split; [exact H|].
      intros ci Hr. apply ready_evaluates; try assumption. eapply f_subfields_checked. exact F.
    - apply sparse_all_some in E. destruct (card_field_sound s t m s' E) as (P & H & Hm). exists P.
      split; [exact H|]. intros ci Hr. apply ready_evaluates; try assumption. eapply f_card_checked. exact E.
  Qed.

  (** SingletonMatcher: ExistsMatcher, else SubfieldsMatcher *)
  Lemma f_singleton_complete : forall k t P s, In k [FsExists; FsSubfields] ->
    single_field_text O true k t P -> lv_sub s = 0 ->
    exists m, f_singleton_new O s t = (Some (Some m), s)
      /\ forall ci, re_ready O ci -> evaluates O ci (FMSingleton m) P.
  Proof.
    intros k t P s Hk H Hs. unfold f_singleton_new, sparse_all, parse_f_singleton, salt at 1, slift at 1.
    destruct Hk as [<-|[<-|[]]].
    - destruct (exists_field_text t P H) as (m & E & Hm). exists m. rewrite E. split; [reflexivity|].
      intros ci Hr. apply ready_evaluates; try assumption. eapply f_exists_checked. exact E.
    - destruct (subfields_field_text t P s H Hs) as (E0 & m & E & Hm). exists m. rewrite E0, E.
      split; [reflexivity|].
      intros ci Hr. apply ready_evaluates; try assumption. eapply f_subfields_checked. exact E.
  Qed.

  Lemma f_singleton_sound : forall t s m s', f_singleton_new O s t = (Some (Some m), s') ->
    exists k P, In k [FsExists; FsSubfields] /\ single_field_text O false k t P
      /\ forall ci, re_ready O ci -> evaluates O ci (FMSingleton m) P.
  Proof.
    intros t s m s' H. apply sparse_all_some in H. unfold parse_f_singleton, salt at 1, slift at 1 in H.
    destruct (parse_f_exists t) as [[m1 r1]|] eqn:E.
    - injection H as -> -> _. destruct (exists_field_sound t m E) as (P & Ht & Hm).
      exists FsExists, P. split; [cbn; tauto|]. split; [exact Ht|].
      intros ci Hr. apply ready_evaluates; try assumption. eapply f_exists_checked. exact E.
    - destruct (subfields_field_sound s t m s' H) as (P & Ht & Hm).
      exists FsSubfields, P. split; [cbn; tauto|]. split; [exact Ht|].
      intros ci Hr. apply ready_evaluates; try assumption. eapply f_subfields_checked. exact H.
  Qed.
End SingleField.

(** * Printed subfield matchers are read again *)

From Coq Require Import String.
From Verif Require Import Bytes Winnow RecordModel RecordSpec BaseProofs Utf8Model Utf8Spec
  TagOccModel TagOccSpec TagOccProofs StrParserModel StrSpec StrProofs MatcherModel StateParser
  MatcherParserModel MatcherSpec MatcherProofs MatcherParserProofs MatcherExtraProofs GrammarSpec GrammarExprProofs
  GrammarLeafProofs GrammarSingletonProofs GrammarCondProofs GrammarSubProofs GrammarFieldLeafProofs GrammarFieldProofs
  GrammarSoundProofs DisplaySpec DisplayProofs DisplayMatcherProofs SingleProofs.

Section SubPrinting.
  Variable O : oracles.

  Lemma after_blanks : forall k t w, blanks_after k t w -> blanks w.
  Proof. intros k t w H. destruct H; [constructor|assumption..]. Qed.

  Lemma slt_display : forall k t m, slt O k t m ->
    exists v1 t' v2, blanks v1 /\ blanks v2 /\ sm_display m = v1 ++ t' ++ v2 /\ slt O k t' m.
  Proof.
    intros k t m H. assert (H0 := H). destruct H as [t P sg Ht Hx Hm Ed|t P sg v1 v2 Ht Hx Hm V1 B Ed].
    - exists [], t, []. split; [constructor|]. split; [constructor|]. rewrite app_nil_r. split; [exact Ed|exact H0].
    - exists v1, t, v2. split; [exact V1|]. split; [eapply after_blanks; exact B|]. split; [exact Ed|exact H0].
  Qed.
  Lemma slt_leaf : forall k t m b, slt O k t m -> m <> SMGroup b /\ m <> SMNot b.
  Proof. intros k t m b H. destruct H; split; discriminate. Qed.

  Definition s_formed := formed (slt O) SMGroup SMNot SMComposite sm_sh.
  Definition s_stands := stands (slt O) SMGroup SMNot SMComposite.

  Lemma s_shown : forall m, s_formed m -> s_stands m -> sm_tame m ->
    exists k v1 c v2 P, alone k = true /\ shape_of sm_sh k m /\ blanks v1 /\ blanks v2
      /\ sm_display m = v1 ++ c ++ v2 /\ sub_text O true k c P (sm_units m) /\ means (sub_holds O) m P.
  Proof.
    intros m Hf Hs Ht.
    destruct (formed_shown (sub_holds O) sm_display (slt O) SMGroup SMNot SMComposite
      (sub_leaf O) (fun n => 1 + 8 * n) N.add sm_sh sm_tame sm_units) with (a := m) as (_ & H & _); try assumption.
    - exact slt_display.
    - reflexivity.
    - reflexivity.
    - reflexivity.
    - intros a b c. apply N.add_assoc.
    - apply slt_leaf_ok.
    - apply slt_shape.
    - exact slt_leaf.
    - intros a. repeat split. intros H. exact H.
    - intros a. repeat split. intros H. exact H.
    - exact sm_C_shape.
    - apply sub_group_means.
    - apply sub_not_means.
    - intros l op r ci x. reflexivity.
    - apply sub_settled.
    - exact (H Hs).
  Qed.

  Lemma s_composite_shape : forall a, is_atom (sm_sh a) = false -> exists l op r, a = SMComposite l op r.
  Proof. intros [s|m|m|l op r] H; try discriminate. exists l, op, r. reflexivity. Qed.

  Lemma sm_G_shape : forall a, is_atom (sm_sh (SMGroup a)) = true /\ sm_units (SMGroup a) = 1 + 8 * sm_units a
    /\ (sm_tame (SMGroup a) -> sm_tame a).
  Proof. intros a. repeat split. intros H. exact H. Qed.

  Lemma sm_and_eq : forall a b, sm_and a b =
    SMComposite (grouped SMGroup (is_or (sm_sh a) || is_xor (sm_sh a)) a) BAnd
                (grouped SMGroup (is_or (sm_sh b) || is_xor (sm_sh b)) b).
  Proof. intros a b. unfold sm_and. rewrite !sm_group_or_xor_eq. reflexivity. Qed.
  Lemma sm_xor_eq : forall a b, sm_xor a b =
    SMComposite (grouped SMGroup (is_or (sm_sh a)) a) BXor (grouped SMGroup (is_or (sm_sh b)) b).
  Proof. intros a b. unfold sm_xor. rewrite !sm_group_or_eq. reflexivity. Qed.

  Lemma s_built_formed : forall m, sm_built O m -> s_formed m /\ s_stands m.
  Proof.
    intros m H. induction H as [s e m s' H|a b Ha [Fa _] Hb [Fb _]|a b Ha [Fa _] Hb [Fb _]|a b Ha [Fa _] Hb [Fb _]
      |a b Ha [Fa _] Hb [Fb _]|a b Ha [Fa _] Hb [Fb _]|a b Ha [Fa _] Hb [Fb _]|a Ha [Fa Sa]].
    - destruct (sub_new_reads O s e m s' H) as (k & w1 & t & w2 & Hk & W1 & W2 & _ & Ht).
      destruct (tx_formed (slt O) SMGroup SMNot SMComposite (fun n => 1 + 8 * n) sm_sh sm_tame sm_units sm_G_shape
        sm_and sm_xor sm_or sm_and_eq sm_xor_eq (fun _ _ => eq_refl) s_composite_shape k t m Ht) as (F & St & _).
      split; [exact F|apply St; exact Hk].
    - split; [apply (and_formed _ _ _ _ (fun n => 1 + 8 * n) _ _ _ sm_G_shape _ sm_and_eq s_composite_shape); assumption|].
      apply (and_stands _ _ _ _ _ _ sm_and_eq).
    - change (sm_and_assign a b) with (sm_and a b).
      split; [apply (and_formed _ _ _ _ (fun n => 1 + 8 * n) _ _ _ sm_G_shape _ sm_and_eq s_composite_shape); assumption|].
      apply (and_stands _ _ _ _ _ _ sm_and_eq).
    - split; [apply formed_op; try exact I; assumption|]. right. right. right. eexists _, _, _. reflexivity.
    - split; [apply formed_op; try exact I; assumption|]. right. right. right. eexists _, _, _. reflexivity.
    - split; [apply (xor_formed _ _ _ _ (fun n => 1 + 8 * n) _ _ _ sm_G_shape _ sm_xor_eq s_composite_shape); assumption|].
      apply (xor_stands _ _ _ _ _ _ sm_xor_eq).
    - change (sm_xor_assign a b) with (sm_xor a b).
      split; [apply (xor_formed _ _ _ _ (fun n => 1 + 8 * n) _ _ _ sm_G_shape _ sm_xor_eq s_composite_shape); assumption|].
      apply (xor_stands _ _ _ _ _ _ sm_xor_eq).
    - assert (Grp : s_formed (SMNot (SMGroup a)) /\ s_stands (SMNot (SMGroup a))).
      { split; [|right; right; left; eexists; reflexivity]. apply formed_not.
        - right. left. exists a. reflexivity.
        - apply formed_group; assumption. }
      destruct a as [sg|a|a|l op r]; cbn [sm_not]; try exact Grp.
      + destruct sg; try exact Grp.
        split; [|right; right; left; eexists; reflexivity]. apply formed_not; [|exact Fa]. left.
        inversion Fa as [k t a Hk Hl E|a St F E|a St F E|l op r F1 F2 H1 H2 E]; subst.
        exists k, t. split; [exact Hk|]. split; [|exact Hl].
        inversion Hl; subst; [reflexivity|discriminate].
      + split; [|right; right; left; eexists; reflexivity]. apply formed_not; [|exact Fa].
        right. left. exists a. reflexivity.
      + split; [|right; right; left; eexists; reflexivity]. apply formed_not; [|exact Fa].
        right. right. exists a. reflexivity.
  Qed.

  (** ** blanks at the ends *)
  Definition ends_plain (t : bytes) : Prop := exists x c, t = x ++ [c] /\ ~ blank c.

  Lemma plain_app : forall x t, ends_plain t -> ends_plain (x ++ t).
  Proof. intros x t (y & c & -> & H). exists (x ++ y), c. rewrite app_assoc. auto. Qed.

  Lemma plain_rest : forall t x r, ends_plain t -> t = x ++ r -> skip_ws r = [] -> r = [].
  Proof.
    intros t x r (y & c & -> & Hc) E H. destruct (skip_ws_split r) as (w & W & Er). rewrite H, app_nil_r in Er.
    subst w. destruct r as [|d r]; [reflexivity|]. exfalso. apply Hc.
    destruct (exists_last (l := d :: r)) as (r' & d' & Ed); [discriminate|]. rewrite Ed, app_assoc in E.
    apply app_inj_tail in E as [_ ->]. unfold blanks in W. rewrite Forall_forall in W. apply W.
    rewrite Ed. apply in_or_app. right. left. reflexivity.
  Qed.

  Lemma exists_plain : forall t P, exists_text t P -> ends_plain t.
  Proof. intros t P [tc C Hc]. exists tc, 63. split; [reflexivity|]. notblank. Qed.

  Lemma not_plain : forall m, s_formed m -> (exists a, m = SMGroup a \/ m = SMNot a) ->
    ends_plain (sm_display m) /\ nonblank (sm_display m).
  Proof.
    intros m H. induction H as [k t a Hk Hl|a Hst H IH|a Hn H IH|l op r F1 F2 H1 IH1 H2 IH2]; intros (b & [E|E]);
      try discriminate; try (destruct (slt_leaf k t a b Hl); contradiction).
    - split; [|apply nonblank_cons; notblank]. cbn [sm_display]. rewrite app_assoc.
      exists (lit "(" ++ sm_display a), 41. split; [reflexivity|notblank].
    - split; [|apply nonblank_cons; notblank]. cbn [sm_display]. apply plain_app.
      destruct Hn as [(k & t & K1 & K2 & Hl)|[(x & ->)|(x & ->)]].
      + destruct Hl as [t P sg Ht Hx Hm Ed|t P sg v1 v2 Ht Hx Hm V1 B Ed]; [|discriminate].
        cbn [sm_display]. rewrite Ed. eapply exists_plain. exact Ht.
      + apply IH. exists x. auto.
      + apply IH. exists x. auto.
  Qed.

  (** ** chains of operands *)
  Definition leads {A} (p : sparser A) : Prop := forall s w x, blanks w -> p s (w ++ x) = p s x.

  Lemma leads_sws : forall A (p : sparser A), leads (sws p).
  Proof. intros A p s w x W. unfold sws. rewrite skip_ws_blanks by exact W. reflexivity. Qed.
  Lemma leads_smap : forall A B (f : A -> B) p, leads p -> leads (smap f p).
  Proof. intros A B f p H s w x W. unfold smap. rewrite H by exact W. reflexivity. Qed.
  Lemma leads_bind : forall A B (p : sparser A) (k : A -> sparser B), leads p -> leads (sbind p k).
  Proof. intros A B p k H s w x W. unfold sbind. rewrite H by exact W. reflexivity. Qed.
  Lemma leads_salt : forall A (p q : sparser A), leads p -> leads q -> leads (salt p q).
  Proof.
    intros A p q H1 H2 s w x W. unfold salt. rewrite H1 by exact W. destruct (p s x) as [[a r| |] s1]; try reflexivity.
    apply H2. exact W.
  Qed.
  Lemma leads_composite : forall g t, leads (sub_composite O g t).
  Proof.
    intros g t. unfold sub_composite, sub_or, sub_xor, sub_and, s_operands.
    repeat apply leads_salt; apply leads_smap, leads_bind, leads_sws.
  Qed.

  Definition rests {A} (p : sparser A) : Prop := forall s i a r s', p s i = (POk a r, s') -> nonblank r.

  Lemma rests_sws : forall A (p : sparser A), rests (sws p).
  Proof.
    intros A p s i a r s' H. unfold sws in H. destruct (p s (skip_ws i)) as [[b q| |] s1]; try discriminate.
    injection H as _ <- _. apply nonblank_skip.
  Qed.
  Lemma rests_smap : forall A B (f : A -> B) p, rests p -> rests (smap f p).
  Proof.
    intros A B f p Hp s i a r s' H. unfold smap in H. destruct (p s i) as [[b q| |] s1] eqn:E; try discriminate.
    injection H as _ <- _. eapply Hp. exact E.
  Qed.
  Lemma rests_salt : forall A (p q : sparser A), rests p -> rests q -> rests (salt p q).
  Proof.
    intros A p q Hp Hq s i a r s' H. unfold salt in H. destruct (p s i) as [[b x| |] s1] eqn:E; try discriminate.
    - injection H as _ <- _. eapply Hp. exact E.
    - eapply Hq. exact H.
  Qed.
  Lemma rests_repeat0 : forall A (p : sparser A) n s i l r s', rests p -> nonblank i ->
    srepeat0_fuel n p s i = (POk l r, s') -> nonblank r.
  Proof.
    intros A p n. induction n as [|n IH]; intros s i l r s' Hp Hi H; cbn [srepeat0_fuel] in H; [discriminate|].
    destruct (p s i) as [[a q| |] s1] eqn:E; try discriminate.
    - destruct (Nat.eqb (length q) (length i)); [discriminate|].
      destruct (srepeat0_fuel n p s1 q) as [[l1 q1| |] s2] eqn:F; try discriminate.
      injection H as _ <- _. apply (IH s1 q l1 q1 s2); [exact Hp|eapply Hp; exact E|exact F].
    - injection H as _ <- _. exact Hi.
  Qed.
  Lemma rests_repeat1 : forall A (p : sparser A), rests p -> rests (srepeat1 p).
  Proof.
    intros A p Hp s i l r s' H. unfold srepeat1, sbind, smap in H.
    destruct (p s i) as [[a q| |] s1] eqn:E; try discriminate.
    destruct (srepeat0_fuel (S (length q)) p s1 q) as [[l1 q1| |] s2] eqn:F; try discriminate.
    injection H as _ <- _. apply (rests_repeat0 A p (S (length q)) s1 q l1 q1 s2); [exact Hp|eapply Hp; exact E|exact F].
  Qed.
  Lemma rests_bind : forall A B (p : sparser A) (k : A -> sparser B), (forall a, rests (k a)) -> rests (sbind p k).
  Proof.
    intros A B p k Hk s i a r s' H. unfold sbind in H. destruct (p s i) as [[b q| |] s1] eqn:E; try discriminate.
    eapply Hk. exact H.
  Qed.
  Lemma rests_operands : forall A (p : sparser A) q, rests p -> rests (s_operands p q).
  Proof.
    intros A p q Hp. unfold s_operands. apply rests_bind. intros a. apply rests_smap. apply rests_repeat1.
    unfold spreceded. apply rests_bind. intros _. exact Hp.
  Qed.
  Lemma rests_composite : forall g t, rests (sub_composite O g t).
  Proof.
    intros g t. unfold sub_composite, sub_or, sub_xor, sub_and.
    repeat apply rests_salt; apply rests_smap, rests_operands, rests_sws.
  Qed.

  Lemma nonblank_nil : forall r, nonblank r -> skip_ws r = [] -> r = [].
  Proof. intros r H E. rewrite <- (skip_ws_nonblank r H). exact E. Qed.

  (** ** a printed matcher is read *)
  Lemma no_op_blanks : forall w, blanks w -> no_op w.
  Proof.
    intros w W. unfold no_op, no_and, no_xor, no_or. rewrite (skip_all w W). repeat split; reflexivity.
  Qed.

  Lemma sub_display_reads : forall m s, sm_built O m -> sm_tame m -> sm_units m < 32 -> lv_sub s = 0 ->
    exists m', subfield_matcher_new O s (sm_display m) = (Some (Some m'), s)
      /\ forall ci sfs, sm_holds O ci m' sfs <-> sm_holds O ci m sfs.
  Proof.
    intros m s Hb Ht Hu Hs. destruct (s_built_formed m Hb) as [F St].
    assert (Hok : sub_join_ok (8 * sm_units m) s) by (unfold sub_join_ok; lia).
    assert (Rs : forall s', lv_field s' = lv_field s -> lv_fmt s' = lv_fmt s -> sub_reset s' = s).
    { intros s' E1 E2. unfold sub_reset. rewrite E1, E2, <- Hs. destruct s. reflexivity. }
    assert (End : forall P m', means (sub_holds O) m P -> means (sub_holds O) m' P ->
      forall ci sfs, sm_holds O ci m' sfs <-> sm_holds O ci m sfs).
    { intros P m' H1 H2 ci sfs. specialize (H1 ci sfs). specialize (H2 ci sfs). unfold sub_holds in *.
      rewrite H1, H2. reflexivity. }
    assert (Bracketed : (exists a, m = SMGroup a \/ m = SMNot a) ->
      exists m', subfield_matcher_new O s (sm_display m) = (Some (Some m'), s)
        /\ forall ci sfs, sm_holds O ci m' sfs <-> sm_holds O ci m sfs).
    { intros Hg. destruct (not_plain m F Hg) as [Hp Hn].
      destruct (s_shown _ F St Ht) as (k & v1 & c & v2 & P & Hk & Hsh & V1 & V2 & ET & HE & Hm).
      assert (v1 = []) as ->.
      { destruct v1 as [|d v1]; [reflexivity|]. exfalso. apply (Hn d (v1 ++ c ++ v2) ET). inversion V1; assumption. }
      cbn [app] in ET.
      destruct (subfield_accepts O k c P (sm_units m) v2 s Hk HE (follow_blanks v2 V2) (no_op_blanks v2 V2))
        as (m' & r' & E & Hm' & Hr); [lia|].
      unfold subfield_matcher_new, sparse_all. rewrite ET, E.
      rewrite (skip_all v2 V2) in Hr.
      destruct (subfield_reads O _ _ _ _ _ E) as (k' & w1 & e & w2 & _ & _ & _ & Ei & _).
      rewrite (plain_rest (sm_display m) (w1 ++ e ++ w2) r'); [|exact Hp| |exact Hr].
      - rewrite (Rs s eq_refl eq_refl). exists m'. split; [reflexivity|]. apply (End P); assumption.
      - rewrite ET, Ei, <- !app_assoc. reflexivity. }
    assert (Nb : (exists a, m = SMGroup a \/ m = SMNot a) \/ ~ (exists a, m = SMGroup a \/ m = SMNot a)).
    { destruct m as [sg|a|a|l op r]; [right|left; exists a; auto|left; exists a; auto|right];
        intros (a & [X|X]); discriminate X. }
    destruct Nb as [Hg|Nb]; [exact (Bracketed Hg)|]. clear Bracketed.
    unfold subfield_matcher_new, sparse_all, parse_subfield_matcher.
    set (T := sm_display m) in *. set (f := S (length T)).
    destruct (sub_gn O f) as [g nt] eqn:Eg.
    assert (E1 : g = fst (sub_gn O f)) by (rewrite Eg; reflexivity).
    assert (E2 : nt = snd (sub_gn O f)) by (rewrite Eg; reflexivity).
    destruct m as [sg|a|a|l op r].
    - (* a single condition *)
      inversion F as [k t a Hk Hl E|a St' F' E|a St' F' E|l op r F1 F2 H1 H2 E]; subst a.
      assert (Hsingle : exists P v1 v2, blanks v1 /\ blanks v2 /\ T = v1 ++ t ++ v2
        /\ single_text O (sort_of sg) T P /\ sing_means O sg P /\ sub_leaf O k t P 0 /\ alone k = true).
      { inversion Hl as [t0 P sg0 Ht0 Hx Hm Ed|t0 P sg0 v1 v2 Ht0 Hx Hm V1 B Ed]; subst t0 sg0;
          change T with (singleton_display sg).
        - exists P, [], []. split; [constructor|]. split; [constructor|]. rewrite app_nil_r. split; [exact Ed|].
          rewrite Ed. apply sort_exists in Hx. rewrite Hx.
          split; [apply single_exists; exact Ht0|]. split; [exact Hm|].
          split; [apply sub_leaf_exists; exact Ht0|reflexivity].
        - exists P, v1, v2. split; [exact V1|]. split; [eapply after_blanks; exact B|]. split; [exact Ed|].
          rewrite Ed. split; [apply single_cond; assumption|]. split; [exact Hm|].
          split; [apply sub_leaf_cond; eexists; exact Ht0|reflexivity]. }
      destruct Hsingle as (P & v1 & v2 & V1 & V2 & ET & HS & Hm & HL & Ha).
      destruct (single_parsed O _ _ _ HS) as (m2 & Ep & _ & Hm2).
      assert (Hw : @steps sub_join_ok sub_step _ (8 * 0) (salt (sub_composite O g nt) (sub_singleton O)) (t ++ v2)
                     (yields (sub_holds O) P v2)).
      { rewrite E1, E2. apply (whole_steps O f k); [apply claim_all|exact Ha|apply expr_leaf; assumption| | | |].
        - unfold f. rewrite ET, !app_length. lia.
        - apply follow_blanks. exact V2.
        - apply no_op_blanks. exact V2.
        - intros _. apply (singleton_steps O k); [exact HL|]. apply follow_blanks. exact V2. }
      destruct (Hw s Hok) as (x & s' & Ex & (a & r' & -> & Hma & Hr) & (_ & _ & L1 & L2)).
      rewrite (skip_all v2 V2) in Hr. unfold salt at 1. 
      replace (sub_composite O g nt s T) with (sub_composite O g nt s (t ++ v2))
        by (rewrite ET; symmetry; apply leads_composite; exact V1).
      unfold salt in Ex. destruct (sub_composite O g nt s (t ++ v2)) as [[a1 r1| |] s1] eqn:Ec; try discriminate.
      + injection Ex as -> -> ->. rewrite (nonblank_nil r'); [|eapply rests_composite; exact Ec|exact Hr].
        rewrite (Rs s' L1 L2). exists a. split; [reflexivity|]. apply (End P); assumption.
      + unfold salt, sub_singleton, slift, pmap in *. rewrite Ep. 
        destruct (parse_singleton O (t ++ v2)) as [[m1 r1]|]; [|discriminate]. injection Ex as _ _ ->.
        rewrite (Rs s' L1 L2). exists (SMSingleton m2). split; [reflexivity|]. apply (End P); assumption.
    - exfalso. apply Nb. exists a. auto.
    - exfalso. apply Nb. exists a. auto.
    - (* two operands *)
      destruct (s_shown _ F St Ht) as (k & v1 & c & v2 & P & Hk & Hsh & V1 & V2 & ET & HE & Hm).
      change (sm_display (SMComposite l op r)) with T in ET.
      assert (Ka : is_atom k = false).
      { unfold shape_of in Hsh. destruct (is_atom k); [|reflexivity]. cbn [sm_sh] in Hsh.
        destruct op, (sm_sh l); discriminate. }
      assert (Hw : @steps sub_join_ok sub_step _ (8 * sm_units (SMComposite l op r))
                     (salt (sub_composite O g nt) (fun s _ => (PErr, s))) (c ++ v2) (yields (sub_holds O) P v2)).
      { rewrite E1, E2. apply (whole_steps O f k); [apply claim_all|exact Hk|exact HE| | | |].
        - unfold f. rewrite ET, !app_length. lia.
        - apply follow_blanks. exact V2.
        - apply no_op_blanks. exact V2.
        - intros X. congruence. }
      destruct (Hw s Hok) as (x & s' & Ex & (a & r' & -> & Hma & Hr) & (_ & _ & L1 & L2)).
      rewrite (skip_all v2 V2) in Hr. unfold salt at 1. 
      replace (sub_composite O g nt s T) with (sub_composite O g nt s (c ++ v2))
        by (rewrite ET; symmetry; apply leads_composite; exact V1).
      unfold salt in Ex. destruct (sub_composite O g nt s (c ++ v2)) as [[a1 r1| |] s1] eqn:Ec; try discriminate.
      injection Ex as -> -> ->. rewrite (nonblank_nil r'); [|eapply rests_composite; exact Ec|exact Hr].
      rewrite (Rs s' L1 L2). exists a. split; [reflexivity|]. apply (End P); assumption.
  Qed.

  (** ** in terms of evaluation *)
  Lemma sub_new_checked : forall s e m s', subfield_matcher_new O s e = (Some (Some m), s') -> sm_checked O m.
  Proof.
    intros s e m s' E. destruct (subfield_matcher_new_total O s e) as (r & Er & H).
    rewrite E in Er. injection Er as <-. apply H. reflexivity.
  Qed.
  Lemma sub_built_checked : forall m, sm_built O m -> sm_checked O m.
  Proof.
    intros m H. induction H as [s e m s' E|a b _ Ha _ Hb|a b _ Ha _ Hb|a b _ Ha _ Hb|a b _ Ha _ Hb
      |a b _ Ha _ Hb|a b _ Ha _ Hb|a _ Ha].
    - eapply sub_new_checked. exact E.
    - apply (sm_ops_checked O a b); assumption.
    - apply (sm_ops_checked O a b); assumption.
    - apply (sm_ops_checked O a b); assumption.
    - apply (sm_ops_checked O a b); assumption.
    - apply (sm_ops_checked O a b); assumption.
    - apply (sm_ops_checked O a b); assumption.
    - apply (sm_ops_checked O a a); assumption.
  Qed.

  Lemma sub_display_evaluates : forall m s,
    sm_built O m -> sm_tame m -> sm_units m < 32 -> lv_sub s = 0 ->
    exists m', subfield_matcher_new O s (sm_display m) = (Some (Some m'), s)
      /\ forall ci, (forall re, o_re_ok O false re = true -> o_re_ok O ci re = true) ->
           (forall res, Forall (fun re => o_re_ok O false re = true) res -> o_reset_ok O ci res = true) ->
           forall sfs, exists b, sm_is_match O ci m sfs = Some b /\ sm_is_match O ci m' sfs = Some b.
  Proof.
    intros m s Hb Ht Hu Hs. destruct (sub_display_reads m s Hb Ht Hu Hs) as (m' & E & Hm).
    exists m'. split; [exact E|]. intros ci H1 H2 sfs.
    assert (Wm : sm_wf O ci m) by (apply sm_checked_wf; auto; eapply sub_built_checked; exact Hb).
    assert (Wm' : sm_wf O ci m') by (apply sm_checked_wf; auto; eapply sub_new_checked; exact E).
    destruct (sm_decides O ci m sfs Wm) as (b & Eb & Ib). destruct (sm_decides O ci m' sfs Wm') as (b' & Eb' & Ib').
    exists b. split; [exact Eb|]. rewrite Eb'. f_equal.
    specialize (Hm ci sfs). destruct b, b'; try reflexivity.
    - apply Ib', Hm, Ib. reflexivity.
    - symmetry. apply Ib, Hm, Ib'. reflexivity.
  Qed.
End SubPrinting.

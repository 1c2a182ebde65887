(** * Claims about the language of matchers, in terms of evaluation *)

From Coq Require Import String.
From Verif Require Import Bytes RecordModel RecordSpec StrParserModel TagOccModel TagOccSpec StrSpec MatcherModel
  StateParser MatcherParserModel MatcherSpec MatcherProofs MatcherParserProofs MatcherExtraProofs
  GrammarSpec GrammarExprProofs GrammarFieldLeafProofs GrammarFieldProofs GrammarSoundProofs GrammarStateProofs
  DisplaySpec DisplayMatcherProofs.

Section Claims.
  Variable O : oracles.

  (** evaluation decides [P] *)
  Definition evaluates (ci : bool) (m : field_matcher) (P : meaning field) : Prop :=
    forall r, exists b, rm_is_match O ci m r = Some b /\ (b = true <-> P ci r).

  Lemma means_evaluates : forall ci m P, fm_wf O ci m -> means (field_holds O) m P -> evaluates ci m P.
  Proof.
    intros ci m P Hw Hm r. destruct (fm_decides O ci m r Hw) as (b & E & Hb).
    exists b. split; [exact E|]. rewrite Hb. apply Hm.
  Qed.

  Lemma text_accepted : forall t P n s, record_matcher_text O true t P n -> n < 256 ->
    lv_sub s = 0 -> lv_field s = 0 ->
    exists m, field_matcher_new O s t = (Some (Some m), s)
      /\ forall ci, (forall re, o_re_ok O false re = true -> o_re_ok O ci re = true) ->
           (forall res, Forall (fun re => o_re_ok O false re = true) res -> o_reset_ok O ci res = true) ->
           evaluates ci m P.
  Proof.
    intros t P n s H Hn S1 S2. destruct (field_accepts O t P n s H S1 S2 Hn) as (m & E & Hm).
    exists m. split; [exact E|]. intros ci H1 H2. apply means_evaluates; [|exact Hm].
    apply fm_checked_wf; auto. eapply field_matcher_new_checked. exact E.
  Qed.

  Lemma text_sound : forall s t m s', field_matcher_new O s t = (Some (Some m), s') ->
    exists P n, record_matcher_text O false t P n
      /\ forall ci, (forall re, o_re_ok O false re = true -> o_re_ok O ci re = true) ->
           (forall res, Forall (fun re => o_re_ok O false re = true) res -> o_reset_ok O ci res = true) ->
           evaluates ci m P.
  Proof.
    intros s t m s' E. destruct (field_sound O s t m s' E) as (P & n & Ht & Hm).
    exists P, n. split; [exact Ht|]. intros ci H1 H2. apply means_evaluates; [|exact Hm].
    apply fm_checked_wf; auto. eapply field_matcher_new_checked. exact E.
  Qed.

  Lemma unambiguous : forall t P n P' n', record_matcher_text O true t P n -> n < 256 ->
    record_matcher_text O true t P' n' -> n' < 256 -> forall ci fs, P ci fs <-> P' ci fs.
  Proof.
    intros t P n P' n' H Hn H' Hn' ci fs.
    destruct (field_accepts O t P n fresh H eq_refl eq_refl Hn) as (m & E & Hm).
    destruct (field_accepts O t P' n' fresh H' eq_refl eq_refl Hn') as (m' & E' & Hm').
    rewrite E in E'. injection E' as <-. rewrite <- (Hm ci fs). apply Hm'.
  Qed.

  Lemma parens_text : forall k t P n, record_matcher_text O true t P n ->
    record_matcher_text O true (parens k t) P (n + N.of_nat k).
  Proof.
    induction k as [|k IH]; intros t P n H; cbn [parens].
    - replace (n + N.of_nat 0) with n by lia. exact H.
    - specialize (IH t P n H). inversion IH as [kd w1 e w2 P0 n0 Hk He W1 W2 E1 E2 E3]; subst.
      replace (lit "(" ++ (w1 ++ e ++ w2) ++ lit ")") with ([] ++ (lit "(" ++ w1 ++ e ++ w2 ++ lit ")") ++ [])
        by (cbn [app]; rewrite app_nil_r, <- !app_assoc; reflexivity).
      replace (n + N.of_nat (S k)) with (N.succ (n + N.of_nat k)) by lia.
      apply (rmt_intro O true KGroup); [reflexivity| |constructor|constructor].
      apply (expr_group _ _ _ _ kd); assumption.
  Qed.

  Lemma parens_accepted : forall k t P n s, record_matcher_text O true t P n -> n + N.of_nat k < 256 ->
    lv_sub s = 0 -> lv_field s = 0 ->
    exists m, field_matcher_new O s (parens k t) = (Some (Some m), s)
      /\ forall ci, (forall re, o_re_ok O false re = true -> o_re_ok O ci re = true) ->
           (forall res, Forall (fun re => o_re_ok O false re = true) res -> o_reset_ok O ci res = true) ->
           evaluates ci m P.
  Proof. intros k t P n s H Hn. eapply text_accepted; [|exact Hn]. apply parens_text. exact H. Qed.

  (** ** printing *)
  Lemma built_checked : forall negates m, fm_built O negates m -> fm_checked O m.
  Proof.
    intros negates m H. induction H as [s e m s' E|a b _ Ha _ Hb|a b _ Ha _ Hb|a b _ Ha _ Hb|a b _ Ha _ Hb
      |a b _ Ha _ Hb|a b _ Ha _ Hb|a _ Ha _].
    - eapply field_matcher_new_checked. exact E.
    - apply (fm_ops_checked O a b); assumption.
    - apply (fm_ops_checked O a b); assumption.
    - apply (fm_ops_checked O a b); assumption.
    - apply (fm_ops_checked O a b); assumption.
    - apply (fm_ops_checked O a b); assumption.
    - apply (fm_ops_checked O a b); assumption.
    - apply (fm_ops_checked O a a); assumption.
  Qed.

  Lemma display_evaluates : forall m s,
    fm_built O (fun a => ~ detached a) m -> fm_tame m -> fm_depth m < 256 ->
    lv_sub s = 0 -> lv_field s = 0 ->
    exists m', field_matcher_new O s (fm_display m) = (Some (Some m'), s)
      /\ forall ci, (forall re, o_re_ok O false re = true -> o_re_ok O ci re = true) ->
           (forall res, Forall (fun re => o_re_ok O false re = true) res -> o_reset_ok O ci res = true) ->
           forall r, exists b, rm_is_match O ci m r = Some b /\ rm_is_match O ci m' r = Some b.
  Proof.
    intros m s Hb Ht Hd S1 S2. destruct (display_reads O m s Hb Ht Hd S1 S2) as (m' & E & Hm).
    exists m'. split; [exact E|]. intros ci H1 H2 r.
    assert (Wm : fm_wf O ci m) by (apply fm_checked_wf; auto; eapply built_checked; exact Hb).
    assert (Wm' : fm_wf O ci m') by (apply fm_checked_wf; auto; eapply field_matcher_new_checked; exact E).
    destruct (fm_decides O ci m r Wm) as (b & Eb & Ib). destruct (fm_decides O ci m' r Wm') as (b' & Eb' & Ib').
    exists b. split; [exact Eb|]. unfold rm_is_match. rewrite Eb'. f_equal.
    specialize (Hm ci r). destruct b, b'; try reflexivity.
    - apply Ib', Hm, Ib. reflexivity.
    - symmetry. apply Ib, Hm, Ib'. reflexivity.
  Qed.

  (** ** refutations *)
  Lemma leaf_exists : forall strict a b c d, In a (lit "012") -> In b digits -> In c digits ->
    In d (uppers ++ lit "@") ->
    exists P, (forall ci fs, P ci fs <-> exists f, In f fs /\ f_tag f = [a; b; c; d]
                 /\ (f_occ f = None \/ f_occ f = Some (lit "00")))
      /\ field_expr O strict KNeg ([a; b; c; d] ++ lit "?") P 0.
  Proof.
    intros strict a b c d Ha Hb Hc Hd. eexists. split.
    2:{ apply expr_leaf; [reflexivity|].
        change ([a; b; c; d] ++ lit "?") with (([a] ++ [b] ++ [c] ++ [d]) ++ [] ++ [] ++ lit "?").
        eapply (field_exists O strict).
        - apply tmt_intro; apply pos_lit; assumption.
        - apply omt_empty.
        - constructor. }
    intros ci fs. cbv beta. unfold tagged. split.
    - intros (f & Hf & (x & y & z & w & E & -> & -> & -> & ->) & Ho). exists f. auto.
    - intros (f & Hf & E & Ho). exists f. split; [exact Hf|]. split; [|exact Ho].
      exists a, b, c, d. auto.
  Qed.

  Lemma mixed_rejected : exists P,
    (forall ci fs, P ci fs <->
       (((has_tag "012A" fs /\ has_tag "013A" fs) /\ ~ has_tag "014A" fs)
        \/ (~ (has_tag "012A" fs /\ has_tag "013A" fs) /\ has_tag "014A" fs))
       \/ has_tag "015A" fs)
    /\ record_matcher_text O false (lit "012A? && 013A? ^ 014A? || 015A?") P 0
    /\ field_matcher_new O fresh (lit "012A? && 013A? ^ 014A? || 015A?") = (Some None, fresh).
  Proof.
    assert (L : forall c, In c (lit "2345") -> exists P : meaning field,
      (forall ci fs, P ci fs <-> exists f, In f fs /\ f_tag f = [48; 49; c; 65]
                 /\ (f_occ f = None \/ f_occ f = Some (lit "00")))
      /\ field_expr O false KNeg ([48; 49; c; 65] ++ lit "?") P 0).
    { intros c Hc. apply leaf_exists; [cbn; tauto|cbn; tauto| |cbn; tauto].
      cbn in Hc. cbn. tauto. }
    destruct (L 50) as (P1 & H1 & E1); [cbn; tauto|]. destruct (L 51) as (P2 & H2 & E2); [cbn; tauto|].
    destruct (L 52) as (P3 & H3 & E3); [cbn; tauto|]. destruct (L 53) as (P4 & H4 & E4); [cbn; tauto|].
    assert (W : blanks (lit " ")) by (repeat constructor).
    pose proof (expr_and (field_leaf O false) N.succ N.max false KNeg KNeg _ (lit " ") (lit " ") _ _ _ _ _
                  eq_refl eq_refl E1 E2 W W) as EA.
    pose proof (expr_xor (field_leaf O false) N.succ N.max false KAnd KNeg _ (lit " ") (lit "^") (lit " ") _ _ _ _ _
                  eq_refl eq_refl EA E3 W W xor_caret) as EX.
    pose proof (expr_or (field_leaf O false) N.succ N.max false KXorN KNeg _ (lit " ") (lit " ") _ _ _ _ _
                  eq_refl eq_refl EX E4 W W) as EO.
    eexists. split; [|split; [|vm_compute; reflexivity]].
    2:{ pose proof (rmt_intro O false KOr [] _ [] _ _ eq_refl EO (Forall_nil _) (Forall_nil _)) as R.
        exact R. }
    intros ci fs. cbv beta. rewrite (H1 ci fs), (H2 ci fs), (H3 ci fs), (H4 ci fs). reflexivity.
  Qed.

  (** an "||" of a parsed "&&"/"^" chain prints a text that is rejected *)
  Lemma print_or_rejected : exists a b,
    field_matcher_new O fresh (lit "012A? && 013A? ^ 014A?") = (Some (Some a), fresh)
    /\ field_matcher_new O fresh (lit "015A?") = (Some (Some b), fresh)
    /\ fm_built O (fun a => ~ detached a) (fm_or a b)
    /\ field_matcher_new O fresh (fm_display (fm_or a b)) = (Some None, fresh).
  Proof.
    do 2 eexists. split; [vm_compute; reflexivity|]. split; [vm_compute; reflexivity|].
    split; [|vm_compute; reflexivity].
    apply fmb_or; [eapply (fmb_new _ _ fresh (lit "012A? && 013A? ^ 014A?"))
                  |eapply (fmb_new _ _ fresh (lit "015A?"))]; vm_compute; reflexivity.
  Qed.

  Lemma print_not_rejected : exists a,
    field_matcher_new O fresh (lit "ALL 012A.a?") = (Some (Some a), fresh)
    /\ fm_tame (fm_not a) /\ fm_depth (fm_not a) = 0
    /\ field_matcher_new O fresh (fm_display (fm_not a)) = (Some None, fresh).
  Proof.
    eexists. split; [vm_compute; reflexivity|]. split; [|split; vm_compute; reflexivity].
    cbn. split; [exact I|reflexivity].
  Qed.

  (** "||" and "!" in turn, four pairs of parentheses in the printed form *)
  Lemma print_nested_rejected :
    let a := SMSingleton (SExists [97] (lit "a?")) in
    let nest m := sm_not (sm_or m a) in
    let m := nest (nest (nest (nest a))) in
    subfield_matcher_new O fresh (lit "a?") = (Some (Some a), fresh)
    /\ sm_built O m /\ sm_tame m
    /\ fst (subfield_matcher_new O fresh (sm_display m)) = Some None.
  Proof.
    intros a nest m.
    assert (Ea : subfield_matcher_new O fresh (lit "a?") = (Some (Some a), fresh)) by (vm_compute; reflexivity).
    split; [exact Ea|]. split.
    { assert (Ba : sm_built O a) by (eapply smb_new; exact Ea). unfold m, nest.
      repeat first [exact Ba|apply smb_not|apply smb_or]. }
    split; [cbn; repeat split; discriminate|]. vm_compute. reflexivity.
  Qed.
End Claims.

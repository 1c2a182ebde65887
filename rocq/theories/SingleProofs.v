(** * Proofs about the matchers of one kind *)

From Coq Require Import String.
From Verif Require Import Bytes Winnow RecordModel RecordSpec StrParserModel TagOccModel TagOccSpec
  TagOccProofs StrSpec BaseProofs StrProofs MatcherModel StateParser StateParserProofs MatcherParserModel MatcherSpec MatcherProofs MatcherParserProofs
  MatcherExtraProofs GrammarSpec GrammarLeafProofs GrammarSingletonProofs GrammarCondProofs GrammarExprProofs
  GrammarSubProofs GrammarFieldLeafProofs GrammarFieldProofs GrammarSoundProofs GrammarClaimProofs
  SingleModel SingleSpec.

Section Single.
  Variable O : oracles.

  (** the parser of each kind *)
  Definition parser_of (k : sort) : parser singleton :=
    match k with
    | SoExists => parse_exists | SoRelation => parse_relation | SoContains => parse_contains
    | SoIn => parse_in | SoRegex => parse_regex O | SoRegexSet => parse_regex_set O | SoCount => parse_card
    end.

  Lemma parser_sort : forall k i m r, parser_of k i = Some (m, r) -> sort_of m = k.
  Proof.
    intros k i m r H. destruct k; cbn [parser_of] in H.
    - apply sort_exists. eapply exists_is. exact H.
    - rewrite relation_eq in H. destruct (head true i) as [[[q l] r2]|]; [|discriminate].
      destruct (pverify _ _ r2) as [[op r3]|]; [|discriminate].
      destruct (ws parse_string r3) as [[v r4]|]; [|discriminate]. injection H as <- _. reflexivity.
    - rewrite contains_eq in H. destruct (head false i) as [[[q l] r2]|]; [|discriminate].
      destruct (ws (tok (lit "=?")) r2) as [[u r3]|]; [|discriminate].
      destruct (alt _ _ r3) as [[vs r4]|]; [|discriminate]. injection H as <- _. reflexivity.
    - rewrite in_eq in H. destruct (head false i) as [[[q l] r2]|]; [|discriminate].
      destruct (opt (ws (tok (lit "not"))) r2) as [[neg r3]|]; [|discriminate].
      destruct (ws (tok (lit "in")) r3) as [[u r4]|]; [|discriminate].
      destruct (alt _ _ r4) as [[vs r5]|]; [|discriminate]. injection H as <- _. reflexivity.
    - rewrite regex_eq in H. destruct (head false i) as [[[q l] r2]|]; [|discriminate].
      destruct (parse_re_op r2) as [[neg r3]|]; [|discriminate].
      destruct (parse_regex_string O r3) as [[re r4]|]; [|discriminate]. injection H as <- _. reflexivity.
    - rewrite regex_set_eq in H. destruct (head false i) as [[[q l] r2]|]; [|discriminate].
      destruct (parse_re_op r2) as [[neg r3]|]; [|discriminate].
      destruct (parse_list_of (parse_regex_string O) r3) as [[res r4]|]; [|discriminate].
      injection H as <- _. reflexivity.
    - unfold parse_card in H. destruct (ws (ch 35) i) as [[x r1]|]; [|discriminate].
      destruct (ws parse_codes r1) as [[l r2]|]; [|discriminate].
      destruct (pverify _ _ r2) as [[op r3]|]; [|discriminate].
      destruct (parse_usize r3) as [[n r4]|]; [|discriminate]. injection H as <- _. reflexivity.
  Qed.

  Lemma singleton_parser : forall i m r, parse_singleton O i = Some (m, r) -> parser_of (sort_of m) i = Some (m, r).
  Proof.
    intros i m r H.
    assert (G : exists k, parser_of k i = Some (m, r)).
    { unfold parse_singleton, alt in H.
      destruct (parse_relation i) eqn:E1; [exists SoRelation; cbn; congruence|].
      destruct (parse_contains i) eqn:E2; [exists SoContains; cbn; congruence|].
      destruct (parse_in i) eqn:E3; [exists SoIn; cbn; congruence|].
      destruct (parse_exists i) eqn:E4; [exists SoExists; cbn; congruence|].
      destruct (parse_card i) eqn:E5; [exists SoCount; cbn; congruence|].
      destruct (parse_regex_set O i) eqn:E6; [exists SoRegexSet; cbn; congruence|].
      exists SoRegex. exact H. }
    destruct G as [k G]. rewrite (parser_sort _ _ _ _ G). exact G.
  Qed.

  Lemma parser_checked : forall k, pok (singleton_checked O) (parser_of k).
  Proof.
    intros []; cbn [parser_of].
    - apply exists_checked.
    - apply relation_checked.
    - apply contains_checked.
    - apply in_checked.
    - apply regex_checked.
    - apply regex_set_checked.
    - apply card_checked.
  Qed.

  Lemma follow_nil : follow [].
  Proof. intros c r E. discriminate. Qed.
  Lemma follow_blanks : forall w, blanks w -> follow w.
  Proof. intros [|d w] W c r E; [discriminate|]. injection E as <- <-. inversion W; subst. left. assumption. Qed.

  Lemma skip_all : forall w, blanks w -> skip_ws w = [].
  Proof. intros w W. rewrite <- (app_nil_r w). rewrite skip_ws_blanks by exact W. reflexivity. Qed.

  (** ** texts are accepted *)
  Lemma single_parsed : forall k t P, single_text O k t P ->
    exists m, parse_singleton O t = Some (m, []) /\ sort_of m = k /\ sing_means O m P.
  Proof.
    intros k t P H. destruct H as [t P H|k w1 t w2 P H W1 B].
    - destruct (exists_accepts O t P [] H) as (m & r' & E & Hx & Hm & Hr). rewrite app_nil_r in E.
      exists m. split; [|split; [apply sort_exists; exact Hx|exact Hm]].
      assert (E2 := E). apply singleton_parser in E2. replace (sort_of m) with SoExists in E2
        by (symmetry; apply sort_exists; exact Hx). cbn [parser_of] in E2.
      destruct (exists_ok O t P [] H) as (m' & E3 & _). rewrite app_nil_r, E2 in E3. injection E3 as _ ->. exact E.
    - assert (W2 : blanks w2) by (destruct B; [constructor|assumption..]).
      destruct (sorted_accepts O k t P w2 H (follow_blanks w2 W2)) as (e & Ha & He).
      assert (Hk : k <> SoExists) by (destruct H; discriminate).
      apply (sorted_blanks O w1) in Ha; [|exact W1|exact Hk]. destruct Ha as (m & E & Hs & Hm).
      exists m. split; [|split; assumption]. rewrite E. f_equal. f_equal.
      destruct (He B) as [-> | ->]; [apply skip_all; exact W2|destruct e; reflexivity].
  Qed.

  Lemma single_accepted : forall k t P, single_text O k t P ->
    exists m, parse_all (parser_of k) t = Some m /\ sort_of m = k /\ sing_means O m P.
  Proof.
    intros k t P H. destruct (single_parsed k t P H) as (m & E & <- & Hm). apply singleton_parser in E.
    exists m. unfold parse_all. rewrite E. auto.
  Qed.

  (** ** only texts are accepted *)
  Lemma parser_reads : forall k i m r, parser_of k i = Some (m, r) ->
    read_as O i m r
    \/ exists t P, i = t ++ r /\ exists_text t P /\ is_exists m = true /\ sing_means O m P
      /\ singleton_display m = t.
  Proof.
    intros k i m r H. destruct k; cbn [parser_of] in H.
    - right. apply exists_inv. exact H.
    - left. apply relation_inv. exact H.
    - left. apply contains_inv. exact H.
    - left. apply in_inv. exact H.
    - left. apply regex_inv. exact H.
    - left. apply regex_set_inv. exact H.
    - left. apply card_inv. exact H.
  Qed.

  Lemma single_sound : forall k t m, parse_all (parser_of k) t = Some m ->
    exists P, single_text O k t P /\ sing_means O m P
      /\ exists P', single_text O k (singleton_display m) P' /\ sing_means O m P'.
  Proof.
    intros k t m H. apply parse_all_inv in H. pose proof (parser_sort _ _ _ _ H) as Hs.
    apply parser_reads in H as [(w1 & u & w2 & P & v1 & v2 & W1 & W2 & -> & Ht & B & Hx & HP & V1 & V2 & Hv & Ed)
                               |(u & P & -> & Ht & Hx & HP & Ed)].
    - rewrite Hs in *. exists P. rewrite app_nil_r. split; [apply single_cond; assumption|]. split; [exact HP|].
      exists P. split; [|exact HP]. rewrite Ed. apply single_cond; try assumption.
      destruct Hv as [-> | ->]; [exact B|apply after_none].
    - apply sort_exists in Hx. rewrite Hs in Hx. subst k. rewrite app_nil_r.
      exists P. split; [apply single_exists; exact Ht|]. split; [exact HP|].
      exists P. split; [|exact HP]. rewrite Ed. apply single_exists. exact Ht.
  Qed.

  Lemma singleton_any : forall t m, singleton_new O t = Some m <->
    parse_all (parse_singleton O) t = Some m.
  Proof. reflexivity. Qed.

  Lemma singleton_kind : forall t m, singleton_new O t = Some m -> parse_all (parser_of (sort_of m)) t = Some m.
  Proof.
    intros t m H. unfold singleton_new in H. apply parse_all_inv in H. apply singleton_parser in H.
    unfold parse_all. rewrite H. reflexivity.
  Qed.

  Lemma single_exclusive : forall k t P k' P', single_text O k t P -> single_text O k' t P' ->
    k = k' /\ forall ci sfs, P ci sfs <-> P' ci sfs.
  Proof.
    intros k t P k' P' H H'. destruct (single_parsed _ _ _ H) as (m & E & <- & Hm).
    destruct (single_parsed _ _ _ H') as (m' & E' & <- & Hm'). rewrite E in E'. injection E' as <-.
    split; [reflexivity|]. intros ci sfs. rewrite <- (Hm ci sfs). apply Hm'.
  Qed.

  (** ** in terms of evaluation *)
  Definition sub_evaluates (ci : bool) (m : singleton) (P : meaning subfield) : Prop :=
    forall sfs, exists b, singleton_is_match O ci m sfs = Some b /\ (b = true <-> P ci sfs).

  (** no regular expression fails to compile with the options given *)
  Definition re_ready (ci : bool) : Prop :=
    (forall re, o_re_ok O false re = true -> o_re_ok O ci re = true)
    /\ (forall res, Forall (fun re => o_re_ok O false re = true) res -> o_reset_ok O ci res = true).

  Lemma checked_evaluates : forall ci m P, re_ready ci -> singleton_checked O m -> sing_means O m P ->
    sub_evaluates ci m P.
  Proof.
    intros ci m P [H1 H2] Hc Hm sfs.
    assert (W : sm_wf O ci (SMSingleton m)) by (apply sm_checked_wf; assumption).
    destruct (singleton_decides O ci m sfs W) as (b & E & Hb). exists b. split; [exact E|].
    rewrite Hb. apply Hm.
  Qed.

  Definition news : list (sort * (bytes -> option singleton)) :=
    [(SoExists, exists_new); (SoRelation, relation_new); (SoContains, contains_new); (SoRegex, regex_new O);
     (SoRegexSet, regex_set_new O); (SoIn, in_new); (SoCount, card_new)].

  Lemma news_parser : forall k new, In (k, new) news -> new = parse_all (parser_of k).
  Proof.
    intros k new H. unfold news in H. cbn [In] in H.
    repeat (destruct H as [H|H]; [injection H as <- <-; reflexivity|]). contradiction.
  Qed.

  Lemma new_complete : forall k new t P, In (k, new) news -> single_text O k t P ->
    exists m, new t = Some m /\ forall ci, re_ready ci -> sub_evaluates ci m P.
  Proof.
    intros k new t P Hn H. rewrite (news_parser _ _ Hn). destruct (single_accepted k t P H) as (m & E & _ & Hm).
    exists m. split; [exact E|]. intros ci Hr. apply checked_evaluates; try assumption.
    apply parse_all_inv in E. apply parser_checked in E as [E _]. exact E.
  Qed.

  Lemma new_sound : forall k new t m, In (k, new) news -> new t = Some m ->
    exists P, single_text O k t P /\ forall ci, re_ready ci -> sub_evaluates ci m P.
  Proof.
    intros k new t m Hn E. rewrite (news_parser _ _ Hn) in E. destruct (single_sound k t m E) as (P & H & Hm & _).
    exists P. split; [exact H|]. intros ci Hr. apply checked_evaluates; try assumption.
    apply parse_all_inv in E. apply parser_checked in E as [E _]. exact E.
  Qed.

  Lemma new_display : forall k new t m, In (k, new) news -> new t = Some m ->
    exists m', new (singleton_display m) = Some m'
      /\ forall ci, re_ready ci -> forall sfs,
           singleton_is_match O ci m' sfs = singleton_is_match O ci m sfs.
  Proof.
    intros k new t m Hn E. pose proof (news_parser _ _ Hn) as En.
    assert (E0 := E). rewrite En in E0. destruct (single_sound k t m E0) as (_ & _ & _ & P & H & Hm).
    destruct (new_complete k new _ P Hn H) as (m' & E' & Hm'). exists m'. split; [exact E'|].
    intros ci Hr sfs. destruct (Hm' ci Hr sfs) as (b' & Eb' & Ib').
    assert (He : sub_evaluates ci m P).
    { apply checked_evaluates; try assumption. apply parse_all_inv in E0. apply parser_checked in E0 as [E0 _]. exact E0. }
    destruct (He sfs) as (b & Eb & Ib). rewrite Eb, Eb'. f_equal. destruct b, b'; try reflexivity.
    - apply Ib', Ib. reflexivity.
    - symmetry. apply Ib, Ib'. reflexivity.
  Qed.

  Lemma any_new : forall t m, singleton_new O t = Some m <-> exists k new, In (k, new) news /\ new t = Some m.
  Proof.
    intros t m. split.
    - intros H. apply singleton_kind in H. destruct (sort_of m);
        [exists SoExists, exists_new|exists SoRelation, relation_new|exists SoContains, contains_new|exists SoIn, in_new
        |exists SoRegex, (regex_new O)|exists SoRegexSet, (regex_set_new O)|exists SoCount, card_new];
        (split; [cbn; tauto|exact H]).
    - intros (k & new & Hn & E). pose proof (news_parser _ _ Hn) as En. rewrite En in E.
      assert (Hs : sort_of m = k) by (apply parse_all_inv in E; eapply parser_sort; exact E).
      destruct (single_sound k t m E) as (P & H & _). destruct (single_parsed k t P H) as (m' & E' & Hs' & _).
      unfold singleton_new, parse_all. rewrite E'. apply singleton_parser in E'. rewrite Hs' in E'.
      apply parse_all_inv in E. congruence.
  Qed.
End Single.

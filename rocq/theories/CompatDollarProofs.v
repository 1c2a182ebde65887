(** * What the dollar sign means with the feature "compat" *)

From Coq Require Import String Lia.
From Verif Require Import Bytes BaseProofs Winnow RecordModel RecordSpec TagOccModel TagOccSpec TagOccProofs
  Utf8Model Utf8Spec StrParserModel StrSpec StrProofs MatcherModel MatcherSpec StateParser MatcherParserModel
  PathModel QueryModel QuerySpec QueryProofs GrammarSpec GrammarExprProofs GrammarLeafProofs
  GrammarSingletonProofs GrammarCondProofs GrammarSubProofs GrammarFieldLeafProofs GrammarFieldProofs
  GrammarSoundProofs GrammarClaimProofs SingleModel SingleSpec SingleProofs SingleFieldProofs
  QueryGrammarSpec PathGrammarProofs QueryTextProofs.
From Verif Require MatcherParserProofs FmtModel.
From Verif Require Import CompatModel CompatSpec CompatProofs.

(** ** codes behind a dollar sign *)
Definition code_stop (r : bytes) : Prop := match r with [] => True | c :: _ => is_alnum c = false end.

Lemma repeat_codes : forall cs r n, Forall (fun c => In c alnums) cs -> code_stop r -> (length (cs ++ r) < n)%nat ->
  repeat0_fuel n (pmap (fun c => [c]) parse_subfield_code) (cs ++ r) = Some (map (fun c => [c]) cs, r).
Proof.
  induction cs as [|c cs IH]; intros r n H Hr Hn; (destruct n as [|n]; [cbn in Hn; lia|]); cbn [repeat0_fuel app map].
  - destruct r as [|d r]; [reflexivity|]. cbn in Hr.
    unfold pmap at 1, parse_subfield_code, one_of. rewrite Hr. reflexivity.
  - inversion H as [|x y Hc Hs]; subst. apply alnums_iff in Hc.
    unfold pmap at 1, parse_subfield_code at 1, one_of. rewrite Hc.
    destruct (Nat.eqb_spec (length (cs ++ r)) (length (c :: cs ++ r))) as [E|_]; [cbn in E; lia|].
    rewrite IH; [reflexivity|exact Hs|exact Hr|cbn in Hn; lia].
Qed.

Lemma concat_singles : forall cs : bytes, concat (map (fun c => [c]) cs) = cs.
Proof. induction cs as [|c cs IH]; [reflexivity|]. cbn. rewrite IH. reflexivity. Qed.

Lemma codes_compat_ok : forall cs C r, plain_codes cs C -> code_stop r ->
  exists l, parse_codes_compat (cs ++ r) = Some (l, r) /\ same_set l C.
Proof.
  intros cs C r [[|c cs'] Hn H|] Hr; [contradiction| |].
  - inversion H as [|x y Hc Hs]; subst. exists (c :: cs'). split; [|intros x; reflexivity].
    unfold parse_codes_compat, alt, pmap at 1, repeat1, repeat0. cbn [app]. apply alnums_iff in Hc.
    unfold pmap at 1, parse_subfield_code at 1, one_of. rewrite Hc.
    rewrite repeat_codes; [|exact Hs|exact Hr|lia]. cbn [concat app]. rewrite concat_singles. reflexivity.
  - eexists. split; [reflexivity|]. intros x. unfold alnums. cbn -[In]. reflexivity.
Qed.

Lemma alnum_nonblank : forall cs C r, plain_codes cs C -> nonblank (cs ++ r).
Proof.
  intros cs C r [[|c cs'] Hn H|]; [contradiction| |].
  - inversion H as [|x y Hc Hs]; subst. cbn [app].
    apply nonblank_cons. intros B. apply alnums_iff in Hc. unfold blank in B. cbn in B.
    repeat (destruct B as [<-|B]; [discriminate Hc|]). contradiction.
  - apply nonblank_cons. notblank.
Qed.

Lemma dollar_codes_ok : forall w1 w2 cs C r, blanks w1 -> blanks w2 -> plain_codes cs C -> code_stop r ->
  exists l, dollar_codes (w1 ++ lit "$" ++ w2 ++ cs ++ r) = Some (l, skip_ws r) /\ same_set l C.
Proof.
  intros w1 w2 cs C r W1 W2 H Hr. unfold dollar_codes, preceded. change (lit "$" ++ ?x) with (36 :: x).
  rewrite ws_ch_ok; [|exact W1|notblank].
  rewrite skip_ws_blanks_nonblank; [|exact W2|apply (alnum_nonblank cs C); exact H].
  unfold ws. rewrite skip_ws_nonblank by (apply (alnum_nonblank cs C); exact H).
  destruct (codes_compat_ok cs C r H Hr) as (l & -> & Hl). exists l. auto.
Qed.

Lemma stop_dollar : forall w r, blanks w -> occ_stop (w ++ 36 :: r).
Proof.
  intros [|d w] r W; cbn; [repeat split; (reflexivity || discriminate)|].
  inversion W as [|x y HB _]; subst. unfold blank in HB. cbn in HB.
  repeat (destruct HB as [<-|HB]; [repeat split; (reflexivity || discriminate)|]). contradiction.
Qed.

Lemma blanks_stop : forall w, blanks w -> code_stop w.
Proof.
  intros [|d w] W; [exact I|]. inversion W as [|x y HB _]; subst. unfold blank in HB. cbn in HB. cbn.
  repeat (destruct HB as [<-|HB]; [reflexivity|]). contradiction.
Qed.

Section Dollar.
  Variable O : oracles.

  (** ** paths *)
  Lemma dollar_path : forall w1 tt T to S w2 w3 cs C w4 s,
    blanks w1 -> tag_matcher_text tt T -> occ_matcher_text to S -> blanks w2 -> blanks w3 -> plain_codes cs C ->
    blanks w4 ->
    exists p, c_path_new O s (w1 ++ tt ++ to ++ w2 ++ lit "$" ++ w3 ++ cs ++ w4) = (Some (Some p), s)
      /\ forall ci r, exists vs, record_path O ci p r = Some vs
           /\ forall vs', path_values_of (fun _ f => tagged T S f) [C] ci r vs' <-> vs' = vs.
  Proof.
    intros w1 tt T to S w2 w3 cs C w4 s W1 HT HS W2 W3 HC W4.
    destruct (tag_occ_ok tt T to S (w2 ++ lit "$" ++ w3 ++ cs ++ w4) HT HS) as (m & o & Em & Eo & Hm).
    { apply stop_dollar. exact W2. }
    destruct (dollar_codes_ok w2 w3 cs C w4 W2 W3 HC (blanks_stop w4 W4)) as (l & El & Hl).
    eexists. split.
    - unfold c_path_new, sparse_all, c_parse_path, salt, slift, c_path_simple, ws.
      rewrite skip_ws_blanks_nonblank; [|exact W1|apply (tag_nonblank _ T); exact HT].
      rewrite Em, Eo. unfold alt.
      assert (En : preceded (ch 46) parse_codes (w2 ++ lit "$" ++ w3 ++ cs ++ w4) = None).
      { unfold preceded. destruct w2 as [|c w2]; [reflexivity|]. cbn [app]. rewrite ch_fail; [reflexivity|].
        intros ->. inversion W2 as [|x y HB _]; subst. revert HB. notblank. }
      rewrite En, El.
      rewrite (skip_all w4 W4). reflexivity.
    - intros ci r. match goal with |- context [record_path O ci ?q r] => set (p := q) end.
      destruct (record_path_lists O ci p r I) as (vs & H1 & H2). exists vs. split; [exact H1|].
      assert (PM : path_means O p (fun _ f => tagged T S f) [C]).
      { split.
        - intros c f. cbn. unfold addressed. cbn. rewrite <- Hm. unfold tag_occ. tauto.
        - constructor; [|constructor]. intros x. apply Hl. }
      intros vs'. split.
      + intros H. apply (path_lists_means O p _ _ ci r vs' PM) in H.
        exact (path_lists_fun O ci p r vs' H vs H2).
      + intros ->. apply (path_lists_means O p _ _ ci r vs PM). exact H2.
  Qed.

  (** ** matchers *)
  Definition opens (i : bytes) : Prop :=
    match i with [] => True | c :: _ => ~ blank c /\ c <> 40 /\ c <> 33 /\ c <> 35 end.

  Lemma opens_skip : forall i, opens i -> skip_ws i = i.
  Proof. intros [|c i] H; [reflexivity|]. apply skip_ws_nonblank, nonblank_cons, H. Qed.
  Lemma opens_none : forall i c, opens i -> In c [40; 33; 35] -> ws (ch c) i = None.
  Proof.
    intros i c H Hc. apply ws_ch_none. rewrite (opens_skip i H). intros r' ->. cbn in H.
    destruct H as (_ & H1 & H2 & H3). cbn in Hc. destruct Hc as [<-|[<-|[<-|[]]]]; contradiction.
  Qed.

  Lemma operands_alone : forall A (p : sparser A) tk s i m, p s i = (POk m [], s) -> tk s [] = (PErr, s) ->
    s_operands p tk s i = (PErr, s).
  Proof.
    intros A p tk s i m E F. unfold s_operands, sbind at 1. rewrite E. unfold smap, srepeat1, sbind at 1, spreceded, sbind.
    rewrite F. reflexivity.
  Qed.

  Lemma single_whole : forall s i m, opens i -> c_f_singleton O s i = (POk m [], s) ->
    c_parse_field_matcher O s i = (POk m [], field_reset s).
  Proof.
    intros s i m Ho E. unfold c_parse_field_matcher. cbn [c_field_gn].
    destruct (c_field_gn O (length i)) as [g0 t0]. cbv iota beta.
    set (g := c_f_group_body O g0 t0). set (t := c_f_not_body O g0 t0).
    assert (Eg : g s i = (PErr, s)).
    { unfold g, c_f_group_body, smap, sdelim, sbind, slift. rewrite opens_none; [reflexivity|exact Ho|cbn; tauto]. }
    assert (Et : t s i = (PErr, s)).
    { unfold t, c_f_not_body, smap, spreceded, sbind, slift. rewrite opens_none; [reflexivity|exact Ho|cbn; tauto]. }
    assert (Ec : c_f_card O s i = (PErr, s)).
    { unfold c_f_card, staken, spreceded, sbind, slift. rewrite opens_none; [reflexivity|exact Ho|cbn; tauto]. }
    clearbody g t.
    assert (Ea : c_f_atoms O g t s i = (POk m [], s)).
    { unfold c_f_atoms, salt. rewrite Eg, Ec, E. reflexivity. }
    assert (E1 : c_f_and O g t s i = (PErr, s)).
    { unfold c_f_and, smap. rewrite (operands_alone _ _ _ s i m); [reflexivity| |reflexivity].
      unfold sws. rewrite (opens_skip i Ho), Ea. reflexivity. }
    assert (E2 : c_f_xor O g t s i = (PErr, s)).
    { unfold c_f_xor, smap. rewrite (operands_alone _ _ _ s i m); [reflexivity| |reflexivity].
      unfold sws. rewrite (opens_skip i Ho). unfold salt. rewrite E1, Ea. reflexivity. }
    assert (E3 : c_f_or O g t s i = (PErr, s)).
    { unfold c_f_or, smap. rewrite (operands_alone _ _ _ s i m); [reflexivity| |reflexivity].
      unfold sws. rewrite (opens_skip i Ho). unfold salt. rewrite E1, E2, Ea. reflexivity. }
    unfold sws. rewrite (opens_skip i Ho). unfold salt, c_f_composite, salt. rewrite E3, E2, E1, Eg, Et, E.
    reflexivity.
  Qed.

  Lemma tag_opens : forall tq q tt T r, quant_text false tq q -> tag_matcher_text tt T -> opens (tq ++ tt ++ r).
  Proof.
    intros tq q tt T r Hq HT. destruct Hq as [|w _ _|w _ _].
    - destruct (tag_start _ _ HT) as (c & t' & -> & Hc). cbn in Hc. cbn.
      repeat (destruct Hc as [<-|Hc]; [repeat split; first [discriminate|notblank]|]). contradiction.
    - cbn. repeat split; first [discriminate|notblank].
    - cbn. repeat split; first [discriminate|notblank].
  Qed.

  Lemma no_exists_tag : forall tq q tt T m to o r, quant_text false tq q -> tag_matcher_text tt T ->
    parse_tag_matcher (tt ++ to ++ r) = Some (m, to ++ r) -> parse_occ_matcher (to ++ r) = Some (o, r) ->
    ch 63 (skip_ws r) = None -> parse_f_exists (tq ++ tt ++ to ++ r) = None.
  Proof.
    intros tq q tt T m to o r Hq HT Em Eo Hr. unfold parse_f_exists, terminated, ws. destruct Hq as [|v _ _|v _ _].
    - cbn [app]. rewrite skip_ws_nonblank by (apply (tag_nonblank _ T); exact HT). rewrite Em, Eo, Hr. reflexivity.
    - rewrite <- app_assoc. rewrite skip_ws_nonblank by (apply nonblank_cons; notblank).
      change (lit "ALL" ++ ?x) with (65 :: 76 :: 76 :: x). rewrite tag_fails; [reflexivity|].
      cbn. intuition discriminate.
    - rewrite <- app_assoc. rewrite skip_ws_nonblank by (apply nonblank_cons; notblank).
      change (lit "ANY" ++ ?x) with (65 :: 78 :: 89 :: x). rewrite tag_fails; [reflexivity|].
      cbn. intuition discriminate.
  Qed.

  Lemma dollar_matcher : forall tq q tt T to S k t P s,
    quant_text false tq q -> tag_matcher_text tt T -> occ_matcher_text to S -> single_text O k t P ->
    exists m s', c_field_matcher_new O s (tq ++ tt ++ to ++ lit "$" ++ t) = (Some (Some m), s')
      /\ forall ci, re_ready O ci -> evaluates O ci m
           (fun ci fs => quantified q (fun f => P ci (f_subfields f)) (fun f => In f fs /\ tagged T S f)).
  Proof.
    intros tq q tt T to S k t P s Hq HT HS Ht. change (lit "$" ++ t) with (36 :: t).
    destruct (tag_quant_ok tq q tt T (to ++ 36 :: t) Hq HT) as (q' & Eq & Hq').
    destruct (tag_occ_ok tt T to S ([] ++ 36 :: t) HT HS) as (m & o & Em & Eo & Hm).
    { apply stop_dollar. constructor. }
    cbn [app] in Em, Eo. destruct (single_parsed O k t P Ht) as (sm & Es & _ & HP).
    pose proof (keep_singleton O _ _ _ Es) as B. change (bare_dollar []) with false in B.
    pose proof Es as Ec. rewrite (same_singleton O t B) in Ec.
    set (i := tq ++ tt ++ to ++ 36 :: t) in *.
    set (f := FSubfields (quant_default q') m o (SMSingleton sm) (trim_end (taken i []))).
    exists (FMSingleton f), (field_reset s). split.
    - unfold c_field_matcher_new, sparse_all.
      rewrite (single_whole s i (FMSingleton f)); [reflexivity|apply (tag_opens tq q tt T); assumption|].
      unfold c_f_singleton, smap, c_parse_f_singleton, salt, slift.
      assert (E1 : parse_f_exists i = None).
      { apply (no_exists_tag tq q tt T m to o); try assumption. reflexivity. }
      rewrite E1.
      assert (E2 : c_f_dot O i = None).
      { unfold c_f_dot. fold i in Eq. rewrite Eq, Em, Eo. reflexivity. }
      rewrite E2.
      assert (E3 : c_f_bracket O s i = (PErr, s)).
      { unfold c_f_bracket, staken, sbind, slift. fold i in Eq. rewrite Eq, Em, Eo.
        unfold smap, c_braced, sdelim, sbind, slift. reflexivity. }
      rewrite E3. unfold c_f_dollar. fold i in Eq. rewrite Eq, Em, Eo, ch_ok, Ec. reflexivity.
    - intros ci Hr. apply ready_evaluates; [exact Hr| |].
      + destruct (MatcherParserProofs.singleton_parsed_checked O _ _ _ Es) as [D _]. exact D.
      + apply subfields_means; [exact Hq'|exact Hm|]. intros c sfs. apply HP.
  Qed.

  (** ** conditions between braces *)
  Lemma dollar_quant : forall (sep : bool) tq q r, quant_text sep tq q ->
    exists q', opt (ws (if sep then terminated parse_quantifier multispace1 else parse_quantifier)) (tq ++ 36 :: r)
      = Some (q', 36 :: r) /\ quant_default q' = q.
  Proof.
    intros sep tq q r H. destruct H as [|w W Hs|w W Hs].
    - exists None. split; [|reflexivity]. apply quant_none_eq. reflexivity.
    - exists (Some QAll). split; [|reflexivity]. rewrite <- app_assoc.
      apply quant_some_eq; [cbn; auto|exact W|exact Hs|apply nonblank_cons; notblank].
    - exists (Some QAny). split; [|reflexivity]. rewrite <- app_assoc.
      apply quant_some_eq; [cbn; auto|exact W|exact Hs|apply nonblank_cons; notblank].
  Qed.

  Lemma op_code_stop : forall w o, blanks w -> op_start o -> (forall c r, o = c :: r -> is_alnum c = false) ->
    code_stop (w ++ o).
  Proof.
    intros [|d w] o W (c & o' & -> & _) H; [exact (H c o' eq_refl)|].
    exact (blanks_stop (d :: w) W).
  Qed.

  Lemma dollar_head : forall w0 cs C w1 o, blanks w0 -> plain_codes cs C -> blanks w1 -> op_start o ->
    (forall c r, o = c :: r -> is_alnum c = false) ->
    exists l, alt (ws parse_codes) dollar_codes (36 :: w0 ++ cs ++ w1 ++ o) = Some (l, o) /\ same_set l C.
  Proof.
    intros w0 cs C w1 o W0 H W1 Ho Hn. unfold alt.
    assert (E : ws parse_codes (36 :: w0 ++ cs ++ w1 ++ o) = None) by reflexivity. rewrite E.
    destruct (dollar_codes_ok [] w0 cs C (w1 ++ o) (Forall_nil _) W0 H (op_code_stop w1 o W1 Ho Hn)) as (l & D & Hl).
    cbn [app] in D. change (lit "$" ++ ?x) with (36 :: x) in D. rewrite D. exists l. split; [|exact Hl].
    rewrite skip_ws_blanks_nonblank; [reflexivity|exact W1|apply op_start_nonblank; exact Ho].
  Qed.

  Lemma str_op_plain : forall top op r, In (top, op) str_ops -> forall c r', top ++ r = c :: r' -> is_alnum c = false.
  Proof.
    intros top op r H c r' E. unfold str_ops in H. cbn [In] in H.
    repeat (destruct H as [H|H]; [injection H as <- <-; injection E as <- _; reflexivity|]). contradiction.
  Qed.

  Lemma dollar_single : forall t P r, dollar_text O t P ->
    exists m, c_singleton O (t ++ r) = Some (m, skip_ws r) /\ MatcherParserProofs.singleton_checked O m /\ sing_means O m P.
  Proof.
    intros t P r [tq q w0 cs C w1 top op w2 ts v Hq W0 Hc W1 Hop W2 Hs|tq q w0 cs C w1 w2 tn V Hq W0 Hc W1 W2 Hn];
      rewrite <- !app_assoc; change (lit "$" ++ ?x) with (36 :: x).
    - pose proof (op_start_str top op (w2 ++ ts ++ r) Hop) as Ho.
      destruct (dollar_quant true tq q (w0 ++ cs ++ w1 ++ top ++ w2 ++ ts ++ r) Hq) as (q' & Eq & <-).
      destruct (str_op_ok top op (w2 ++ ts ++ r) Hop) as [Eo Ha].
      destruct (dollar_head w0 cs C w1 _ W0 Hc W1 Ho (str_op_plain top op _ Hop)) as (l & El & Hl).
      eexists. split; [|split].
      + unfold c_singleton, alt at 1, c_relation. rewrite Eq.
        rewrite El.
        unfold pverify, ws at 1. rewrite skip_ws_nonblank by (apply op_start_nonblank; exact Ho). rewrite Eo, Ha.
        unfold ws. rewrite skip_ws_idem. destruct (string_nonblank ts v Hs) as [N1 N2].
        rewrite skip_ws_blanks_nonblank; [|exact W2|apply nonblank_app; assumption].
        rewrite (proj2 (string_iff (ts ++ r) v r)) by (exists ts; auto). reflexivity.
      + exact Ha.
      + intros ci sfs. cbn [singleton_holds]. apply quantified_eq; [|reflexivity].
        intros s. apply coded_iff. exact Hl.
    - assert (Ho : op_start (lit "=?" ++ w2 ++ tn ++ r)) by (eexists _, _; split; [reflexivity|cbn; tauto]).
      assert (Hp : forall c r', lit "=?" ++ w2 ++ tn ++ r = c :: r' -> is_alnum c = false)
        by (intros c r' E; injection E as <- _; reflexivity).
      destruct (dollar_head w0 cs C w1 _ W0 Hc W1 Ho Hp) as (l & El & Hl).
      set (x := w0 ++ cs ++ w1 ++ lit "=?" ++ w2 ++ tn ++ r) in *.
      destruct (dollar_quant false tq q x Hq) as (q' & Eq & <-).
      assert (Ev : exists vs, alt (parse_list_of parse_string) (pmap (fun v => [v]) (ws parse_string))
                     (skip_ws (w2 ++ tn ++ r)) = Some (vs, skip_ws r) /\ forall v, In v vs <-> V v).
      { rewrite skip_ws_blanks by exact W2. unfold alt, pmap. destruct Hn as [tn v Ht|tn vs Ht].
        - destruct (string_nonblank tn v Ht) as [N1 N2].
          rewrite skip_ws_nonblank by (apply nonblank_app; assumption).
          rew0 (list_no_string parse_string [] tn v r (Forall_nil _) Ht).
          rew0 (ws_string_ok [] tn v r (Forall_nil _) Ht). exists [v]. split; [reflexivity|].
          intros y. cbn. intuition congruence.
        - destruct Ht as [w3 ts vs tc' w4 W3 Hts Htc W4].
          set (tl := lit "[" ++ w3 ++ ts ++ tc' ++ w4 ++ lit "]").
          assert (Ht : list_text tl vs) by (constructor; assumption).
          rewrite skip_ws_nonblank by (apply nonblank_cons; notblank).
          rew0 (list_of_ok parse_string (fun _ => True) strings_iff tl vs [] r Ht);
            [|apply Forall_forall; auto|constructor].
          exists vs. split; [reflexivity|]. intros v. reflexivity. }
      destruct Ev as (vs & Ev & HV).
      assert (Er : c_relation (tq ++ 36 :: x) = None).
      { assert (Eb : forall q0, opt (ws (terminated parse_quantifier multispace1)) (tq ++ 36 :: x) = Some (q0, 36 :: x)
                 -> c_relation (tq ++ 36 :: x) = None).
        { intros q0 E. unfold c_relation. rewrite E, El. reflexivity. }
        clear - Hq Eb O. destruct Hq as [|w W _|w W _].
        - apply (Eb None). reflexivity.
        - destruct w as [|c w]; [reflexivity|].
          destruct (dollar_quant true (lit "ALL" ++ c :: w) QAll x) as (q0 & E & _);
            [constructor; [exact W|discriminate]|]. exact (Eb q0 E).
        - destruct w as [|c w]; [reflexivity|].
          destruct (dollar_quant true (lit "ANY" ++ c :: w) QAny x) as (q0 & E & _);
            [constructor; [exact W|discriminate]|]. exact (Eb q0 E). }
      eexists. split; [|split].
      + unfold c_singleton, alt at 1. rewrite Er. unfold alt at 1, c_contains. rewrite Eq, El.
        rew0 (ws_tok_ok (lit "=?") [] (w2 ++ tn ++ r) (Forall_nil _));
          [|discriminate|apply nonblank_cons; notblank].
        rewrite Ev. reflexivity.
      + exact I.
      + intros ci sfs. cbn [singleton_holds]. apply quantified_eq; [intros s; apply coded_iff; exact Hl|].
        intros s. split; intros (v & H1 & H2); exists v; rewrite HV in *; auto.
  Qed.

  Lemma operands_stop : forall A (p : sparser A) tk s i m r, p s i = (POk m r, s) -> tk s r = (PErr, s) ->
    s_operands p tk s i = (PErr, s).
  Proof.
    intros A p tk s i m r E F. unfold s_operands, sbind at 1. rewrite E.
    unfold smap, srepeat1, sbind at 1, spreceded, sbind. rewrite F. reflexivity.
  Qed.

  Lemma sub_whole : forall s i m r, opens i -> skip_ws r = r -> (r = [] \/ exists r', r = 125 :: r') ->
    c_singleton O i = Some (m, r) ->
    c_parse_subfield_matcher O s i = (POk (SMSingleton m) r, sub_reset s).
  Proof.
    intros s i m r Ho Hr Hb E. unfold c_parse_subfield_matcher. cbn [c_sub_gn].
    destruct (c_sub_gn O (length i)) as [g0 t0]. cbv iota beta.
    set (g := c_sub_group_body O g0 t0). set (t := sub_not_body g0 t0).
    assert (Eg : g s i = (PErr, s)).
    { unfold g, c_sub_group_body, smap, sdelim, sbind, slift. rewrite opens_none; [reflexivity|exact Ho|cbn; tauto]. }
    assert (Et : t s i = (PErr, s)).
    { unfold t, sub_not_body, smap, spreceded, sbind, slift. rewrite opens_none; [reflexivity|exact Ho|cbn; tauto]. }
    clearbody g t.
    assert (Ea : c_sub_singleton O s i = (POk (SMSingleton m) r, s)).
    { unfold c_sub_singleton, slift, pmap. rewrite E. reflexivity. }
    assert (E1 : c_sub_and O g t s i = (PErr, s)).
    { unfold c_sub_and, smap. rewrite (operands_stop _ _ _ s i (SMSingleton m) r); [reflexivity| |].
      - unfold sws. rewrite (opens_skip i Ho). unfold salt. rewrite Eg, Ea, Hr. reflexivity.
      - destruct Hb as [->|[r' ->]]; reflexivity. }
    assert (E2 : c_sub_xor O g t s i = (PErr, s)).
    { unfold c_sub_xor, smap. rewrite (operands_stop _ _ _ s i (SMSingleton m) r); [reflexivity| |].
      - unfold sws. rewrite (opens_skip i Ho). unfold salt. rewrite E1, Eg, Ea, Hr. reflexivity.
      - destruct Hb as [->|[r' ->]]; reflexivity. }
    assert (E3 : c_sub_or O g t s i = (PErr, s)).
    { unfold c_sub_or, smap. rewrite (operands_stop _ _ _ s i (SMSingleton m) r); [reflexivity| |].
      - unfold sws. rewrite (opens_skip i Ho). unfold salt. rewrite E1, E2, Eg, Ea, Hr. reflexivity.
      - destruct Hb as [->|[r' ->]]; reflexivity. }
    unfold salt, c_sub_composite, salt. rewrite E3, E2, E1, Ea. reflexivity.
  Qed.

  Lemma dollar_opens : forall t P r, dollar_text O t P -> opens (t ++ r).
  Proof.
    assert (G : forall sep tq q r, quant_text sep tq q -> opens (tq ++ 36 :: r)).
    { intros sep tq q r H. destruct H as [|w _ _|w _ _]; cbn; repeat split; first [discriminate|notblank]. }
    intros t P r [tq q w0 cs C w1 top op w2 ts v Hq W0 Hc W1 Hop W2 Hs|tq q w0 cs C w1 w2 tn V Hq W0 Hc W1 W2 Hn];
      rewrite <- app_assoc; change (lit "$" ++ ?x) with (36 :: x); cbn [app]; eapply G; exact Hq.
  Qed.

  Lemma dollar_subfield : forall t w P s, dollar_text O t P -> blanks w ->
    exists m s', c_subfield_matcher_new O s (t ++ w) = (Some (Some (SMSingleton m)), s')
      /\ forall ci, re_ready O ci -> sub_evaluates O ci m P.
  Proof.
    intros t w P s H W. destruct (dollar_single t P w H) as (m & E & Hc & Hm).
    assert (En : skip_ws w = []).
    { rewrite <- (app_nil_r w). rewrite skip_ws_blanks by exact W. reflexivity. }
    rewrite En in E. exists m, (sub_reset s). split.
    - unfold c_subfield_matcher_new, sparse_all. rewrite (sub_whole s (t ++ w) m []); [reflexivity| | | |exact E].
      + apply (dollar_opens t P). exact H.
      + reflexivity.
      + left. reflexivity.
    - intros ci Hr. apply checked_evaluates; assumption.
  Qed.

  Lemma dollar_braced : forall tq q tt T to S w0 t w2 P s,
    quant_text false tq q -> tag_matcher_text tt T -> occ_matcher_text to S -> blanks w0 ->
    dollar_text O t P -> blanks w2 -> lv_sub s = 0 ->
    exists m s', c_field_matcher_new O s (tq ++ tt ++ to ++ w0 ++ lit "{" ++ t ++ w2 ++ lit "}") = (Some (Some m), s')
      /\ forall ci, re_ready O ci -> evaluates O ci m
           (fun ci fs => quantified q (fun f => P ci (f_subfields f)) (fun f => In f fs /\ tagged T S f)).
  Proof.
    intros tq q tt T to S w0 t w2 P s Hq HT HS W0 Ht W2 Hs.
    change (lit "{" ++ ?x) with (123 :: x). set (y := w0 ++ 123 :: t ++ w2 ++ lit "}").
    destruct (tag_quant_ok tq q tt T (to ++ y) Hq HT) as (q' & Eq & Hq').
    destruct (tag_occ_ok tt T to S y HT HS) as (m & o & Em & Eo & Hm).
    { apply occ_stop_blanks; [exact W0|cbn; tauto]. }
    destruct (dollar_single t P (w2 ++ [125]) Ht) as (sm & Es & Hc & HP).
    rewrite skip_ws_blanks_nonblank in Es; [|exact W2|apply nonblank_cons; notblank].
    set (i := tq ++ tt ++ to ++ y) in *.
    assert (Er : sub_reset s = s) by (destruct s as [a b c]; cbn in Hs |- *; subst; reflexivity).
    assert (Ef : exists raw, c_f_singleton O s i = (POk (FMSingleton (FSubfields (quant_default q') m o (SMSingleton sm) raw)) [], s)).
    { eexists. unfold c_f_singleton, smap, c_parse_f_singleton, salt, slift.
      assert (E1 : parse_f_exists i = None).
      { apply (no_exists_tag tq q tt T m to o); try assumption. unfold y.
        rewrite skip_ws_blanks_nonblank; [|exact W0|apply nonblank_cons; notblank]. reflexivity. }
      rewrite E1.
      assert (E2 : c_f_dot O i = None).
      { unfold c_f_dot. rewrite Eq, Em, Eo. unfold y. destruct w0 as [|c w0]; [reflexivity|]. cbn [app].
        rewrite ch_fail; [reflexivity|]. intros ->. inversion W0 as [|x1 x2 B _]; subst. revert B. notblank. }
      rewrite E2. unfold c_f_bracket, staken, sbind, slift. rewrite Eq, Em, Eo.
      unfold smap, c_braced, sdelim, sbind, slift, y. rewrite ws_ch_ok; [|exact W0|notblank].
      change (lit "}") with [125].
      rewrite opens_skip by (apply (dollar_opens t P); exact Ht).
      rewrite (sub_whole s _ sm [125]); [|apply (dollar_opens t P); exact Ht|reflexivity|right; exists []; reflexivity|exact Es].
      rewrite Er. reflexivity. }
    destruct Ef as [raw Ef]. eexists _, _. split.
    - unfold c_field_matcher_new, sparse_all.
      rewrite (single_whole s i _ (tag_opens tq q tt T _ Hq HT) Ef). reflexivity.
    - intros ci Hr. apply ready_evaluates; [exact Hr|exact Hc|].
      apply subfields_means; [exact Hq'|exact Hm|]. intros c sfs. apply HP.
  Qed.
End Dollar.

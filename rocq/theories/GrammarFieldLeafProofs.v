(** * Grammar: the single conditions on fields *)

From Coq Require Import String.
From Verif Require Import Bytes Winnow RecordModel RecordSpec BaseProofs Utf8Model Utf8Spec
  TagOccModel TagOccSpec TagOccProofs StrParserModel StrSpec StrProofs MatcherModel StateParser
  MatcherParserModel MatcherSpec GrammarSpec GrammarExprProofs GrammarLeafProofs GrammarSingletonProofs
  GrammarCondProofs GrammarSubProofs.

(** ** tags and occurrences *)
Lemma tag_start : forall t T, tag_matcher_text t T -> exists c t', t = c :: t' /\ In c (lit "012.[").
Proof.
  intros t T [t0 t1 t2 t3 P0 P1 P2 P3 H0 _ _ _]. destruct H0 as [c Hc| |u P Hu].
  - exists c. eexists. split; [reflexivity|]. cbn in *. tauto.
  - eexists _, _. split; [reflexivity|]. cbn. tauto.
  - eexists _, _. split; [reflexivity|]. cbn. tauto.
Qed.

Lemma tag_nonblank : forall t T r, tag_matcher_text t T -> nonblank (t ++ r).
Proof.
  intros t T r H. destruct (tag_start _ _ H) as (c & t' & -> & Hc). apply nonblank_cons.
  cbn in Hc. repeat (destruct Hc as [<-|Hc]; [notblank|]). contradiction.
Qed.

Lemma tag_fails : forall c i, ~ In c (lit "012.[") -> parse_tag_matcher (c :: i) = None.
Proof.
  intros c i Hc. destruct (parse_tag_matcher (c :: i)) as [[m r]|] eqn:E; [|reflexivity].
  apply parse_tag_matcher_inv in E as (E & P & HP & _). destruct (tag_start _ _ HP) as (d & t & Et & Hd).
  rewrite Et in E. injection E as -> _. contradiction.
Qed.

Lemma occ_start : forall t S, occ_matcher_text t S -> t = [] \/ exists t', t = 47 :: t'.
Proof.
  intros t S H. destruct H; [left; reflexivity|right; eexists; reflexivity..].
Qed.

Lemma occ_ok : forall t S r, occ_matcher_text t S -> occ_stop r ->
  exists m, parse_occ_matcher (t ++ r) = Some (m, r) /\ forall o, om_is_match m o = true <-> S o.
Proof.
  intros t S r H Hr. destruct (occ_matcher_complete t S H) as (m & Hm & HS). exists m.
  split; [|exact HS]. apply parse_all_inv in Hm. apply parse_occ_matcher_inv in Hm as [Hv [E|[-> E]]];
    rewrite app_nil_r in E; subst t.
  - apply parse_occ_matcher_display; assumption.
  - apply parse_occ_matcher_zero. exact Hr.
Qed.

Lemma occ_stop_blanks : forall w c r, blanks w -> In c (lit "?.{=!><") -> occ_stop (w ++ c :: r).
Proof.
  intros [|d w] c r W Hc; cbn.
  - cbn in Hc. repeat (destruct Hc as [<-|Hc]; [repeat split; (reflexivity || discriminate)|]). contradiction.
  - inversion W as [|x y HB _]; subst. unfold blank in HB. cbn in HB.
    repeat (destruct HB as [<-|HB]; [repeat split; (reflexivity || discriminate)|]). contradiction.
Qed.

Lemma tag_occ_ok : forall tt T to S r, tag_matcher_text tt T -> occ_matcher_text to S -> occ_stop r ->
  exists m o, parse_tag_matcher (tt ++ to ++ r) = Some (m, to ++ r)
    /\ parse_occ_matcher (to ++ r) = Some (o, r) /\ forall f, tag_occ m o f <-> tagged T S f.
Proof.
  intros tt T to S r HT HS Hr. destruct (parse_tag_matcher_ok tt T (to ++ r) HT) as (m & Em & _ & Hm).
  destruct (occ_ok to S r HS Hr) as (o & Eo & Ho). exists m, o. split; [exact Em|]. split; [exact Eo|].
  intros f. unfold tag_occ, tagged. rewrite Hm, Ho. reflexivity.
Qed.

(** blanks around the occurrence *)
Lemma ws_occ_ok : forall w2 to S w3 r, blanks w2 -> occ_matcher_text to S -> blanks w3 ->
  nonblank r -> occ_stop r -> occ_stop (w3 ++ r) ->
  exists o, ws parse_occ_matcher (w2 ++ to ++ w3 ++ r) = Some (o, r)
    /\ forall x, om_is_match o x = true <-> S x.
Proof.
  intros w2 to S w3 r W2 HS W3 Hn Hr Hr'. unfold ws. rewrite (skip_ws_blanks w2 _ W2).
  destruct (occ_start _ _ HS) as [->|(t' & Et)].
  - cbn [app]. rewrite skip_ws_blanks_nonblank by assumption.
    destruct (occ_ok [] S r HS Hr) as (o & Eo & Ho). cbn [app] in Eo. rewrite Eo. exists o.
    rewrite skip_ws_nonblank by exact Hn. auto.
  - rewrite skip_ws_nonblank; [|rewrite Et; apply nonblank_cons; notblank].
    destruct (occ_ok to S (w3 ++ r) HS Hr') as (o & -> & Ho). exists o.
    rewrite skip_ws_blanks_nonblank by assumption. auto.
Qed.

(** ** quantifier *)
Lemma tag_no_quant : forall tt T r, tag_matcher_text tt T -> parse_quantifier (tt ++ r) = None.
Proof.
  intros tt T r H. destruct (tag_start _ _ H) as (c & t' & -> & Hc).
  cbn in Hc. repeat (destruct Hc as [<-|Hc]; [reflexivity|]). contradiction.
Qed.

Lemma tag_quant_ok : forall tq q tt T r, quant_text false tq q -> tag_matcher_text tt T ->
  exists q', opt (ws parse_quantifier) (tq ++ tt ++ r) = Some (q', tt ++ r) /\ quant_default q' = q.
Proof.
  intros tq q tt T r Hq HT. pose proof (tag_nonblank tt T r HT) as Hn. destruct Hq as [|w W _|w W _].
  - exists None. split; [|reflexivity]. cbn [app]. apply (quant_none_eq false).
    rewrite skip_ws_nonblank by exact Hn. apply (tag_no_quant tt T). exact HT.
  - exists (Some QAll). split; [|reflexivity]. rewrite <- app_assoc.
    apply (quant_some_eq false); [cbn; tauto|exact W|discriminate|exact Hn].
  - exists (Some QAny). split; [|reflexivity]. rewrite <- app_assoc.
    apply (quant_some_eq false); [cbn; tauto|exact W|discriminate|exact Hn].
Qed.

Lemma tight_quant_text : forall tq q, tight_quant tq q -> quant_text false tq q.
Proof.
  intros tq q [| |]; [apply quant_none|..].
  - apply (quant_all false []); [constructor|discriminate].
  - apply (quant_any false []); [constructor|discriminate].
Qed.

Lemma tight_quant_ok : forall tq q tt T r, tight_quant tq q -> tag_matcher_text tt T ->
  exists q', opt parse_quantifier (tq ++ tt ++ r) = Some (q', tt ++ r) /\ quant_default q' = q.
Proof.
  intros tq q tt T r Hq HT. destruct Hq as [| |].
  - exists None. cbn [app]. unfold opt. rewrite (tag_no_quant tt T) by exact HT. auto.
  - exists (Some QAll). auto.
  - exists (Some QAny). auto.
Qed.

Section Fields.
  Variable O : oracles.

  Definition field_holds (m : field_matcher) : meaning field := fun ci fs => fm_holds O ci m fs.

  (** ** the existence of a field *)
  Lemma f_exists_ok : forall tt T to S w r,
    tag_matcher_text tt T -> occ_matcher_text to S -> blanks w ->
    exists m, parse_f_exists ((tt ++ to ++ w ++ lit "?") ++ r) = Some (m, r)
      /\ means field_holds (FMSingleton m) (fun _ fs => exists f, In f fs /\ tagged T S f).
  Proof.
    intros tt T to S w r HT HS W. rewrite <- !app_assoc. change (lit "?" ++ r) with (63 :: r).
    destruct (tag_occ_ok tt T to S (w ++ 63 :: r) HT HS) as (m & o & Em & Eo & Hm).
    { apply occ_stop_blanks; [exact W|cbn; tauto]. }
    exists (FExists m o). split.
    - unfold parse_f_exists, terminated, ws. rewrite skip_ws_nonblank by (apply (tag_nonblank _ T); exact HT).
      rewrite Em, Eo. rewrite skip_to_token; [|exact W|notblank]. rewrite ch_ok. reflexivity.
    - intros ci fs. unfold field_holds. cbn [fm_holds fs_holds].
      split; intros (f & Hf & Ht); exists f; (split; [exact Hf|apply Hm; exact Ht]).
  Qed.

  Lemma f_exists_none : forall tq q tt T to S w c r, quant_text false tq q ->
    tag_matcher_text tt T -> occ_matcher_text to S -> blanks w -> In c (lit ".{") ->
    parse_f_exists (tq ++ tt ++ to ++ w ++ c :: r) = None.
  Proof.
    intros tq q tt T to S w c r Hq HT HS W Hc. unfold parse_f_exists, terminated, ws.
    destruct Hq as [|v _ _|v _ _].
    - cbn [app]. rewrite skip_ws_nonblank by (apply (tag_nonblank _ T); exact HT).
      destruct (tag_occ_ok tt T to S (w ++ c :: r) HT HS) as (m & o & Em & Eo & _).
      { apply occ_stop_blanks; [exact W|cbn in *; tauto]. }
      rewrite Em, Eo. cbn in Hc. destruct Hc as [<-|[<-|[]]];
        (rewrite skip_to_token; [|exact W|notblank]); reflexivity.
    - rewrite <- app_assoc. rewrite skip_ws_nonblank by (apply nonblank_cons; notblank).
      change (lit "ALL" ++ ?x) with (65 :: 76 :: 76 :: x). rewrite tag_fails; [reflexivity|].
      cbn. intuition discriminate.
    - rewrite <- app_assoc. rewrite skip_ws_nonblank by (apply nonblank_cons; notblank).
      change (lit "ANY" ++ ?x) with (65 :: 78 :: 89 :: x). rewrite tag_fails; [reflexivity|].
      cbn. intuition discriminate.
  Qed.

  (** meaning of a quantified condition on the subfields *)
  Lemma subfields_means : forall q' q m o T S sm P raw, quant_default q' = q ->
    (forall f, tag_occ m o f <-> tagged T S f) -> means (sub_holds O) sm P ->
    means field_holds (FMSingleton (FSubfields (quant_default q') m o sm raw))
      (fun ci fs => quantified q (fun f => P ci (f_subfields f)) (fun f => In f fs /\ tagged T S f)).
  Proof.
    intros q' q m o T S sm P raw <- Hm HP ci fs. unfold field_holds. cbn [fm_holds fs_holds].
    apply quantified_eq.
    - intros f. rewrite Hm. reflexivity.
    - intros f. apply HP.
  Qed.

  (** ** the dot form *)
  Lemma f_dot_ok : forall b tq q tt T to S i P r, quant_text false tq q ->
    tag_matcher_text tt T -> occ_matcher_text to S -> accepts O b i P r ->
    exists m r', parse_f_dot O (tq ++ tt ++ to ++ lit "." ++ i) = Some (m, r')
      /\ means field_holds (FMSingleton m)
           (fun ci fs => quantified q (fun f => P ci (f_subfields f)) (fun f => In f fs /\ tagged T S f))
      /\ skip_ws r' = skip_ws r.
  Proof.
    intros b tq q tt T to S i P r Hq HT HS (s & r' & Es & _ & Hs & Hr).
    change (lit "." ++ i) with (46 :: i).
    destruct (tag_quant_ok tq q tt T (to ++ 46 :: i) Hq HT) as (q' & Eq & Hq').
    destruct (tag_occ_ok tt T to S ([] ++ 46 :: i) HT HS) as (m & o & Em & Eo & Hm).
    { apply occ_stop_blanks; [constructor|cbn; tauto]. }
    cbn [app] in Em, Eo. eexists _, r'. split; [|split; [|exact Hr]].
    - unfold parse_f_dot. rewrite Eq, Em, Eo, ch_ok, Es. reflexivity.
    - apply subfields_means; [exact Hq'|exact Hm|]. intros ci sfs. apply Hs.
  Qed.

  (** the dot form fails: no dot here, or nothing readable after it *)
  Lemma f_dot_none : forall tq q tt T to S w c i, quant_text false tq q ->
    tag_matcher_text tt T -> occ_matcher_text to S -> blanks w -> In c (lit ".{?") ->
    (w = [] -> c = 46 -> parse_singleton O i = None) ->
    parse_f_dot O (tq ++ tt ++ to ++ w ++ c :: i) = None.
  Proof.
    intros tq q tt T to S w c i Hq HT HS W Hc Hi.
    destruct (tag_quant_ok tq q tt T (to ++ w ++ c :: i) Hq HT) as (q' & Eq & Hq').
    destruct (tag_occ_ok tt T to S (w ++ c :: i) HT HS) as (m & o & Em & Eo & _).
    { apply occ_stop_blanks; [exact W|cbn in *; tauto]. }
    unfold parse_f_dot. rewrite Eq, Em, Eo. destruct w as [|d w].
    - cbn [app]. destruct (N.eq_dec c 46) as [->|Hne].
      + rewrite ch_ok, Hi by reflexivity. reflexivity.
      + rewrite ch_fail by exact Hne. reflexivity.
    - cbn [app]. rewrite ch_fail; [reflexivity|]. intros ->. inversion W as [|x y HB _]; subst. revert HB. notblank.
  Qed.

  (** ** the loose form *)
  Lemma f_loose_ok : forall tq q tt T to S w1 w2 t P r, tight_quant tq q ->
    tag_matcher_text tt T -> occ_matcher_text to S -> blanks w1 -> blanks w2 -> exists_text t P ->
    exists m, f_exists ((tq ++ tt ++ to ++ w1 ++ lit "." ++ w2 ++ t) ++ r) = Some (m, r)
      /\ means field_holds m
           (fun ci fs => quantified q (fun f => P ci (f_subfields f)) (fun f => In f fs /\ tagged T S f)).
  Proof.
    intros tq q tt T to S w1 w2 t P r Hq HT HS W1 W2 Ht. rewrite <- !app_assoc.
    change (lit "." ++ ?x) with (46 :: x).
    unfold f_exists, alt, pmap.
    rewrite (f_exists_none tq q tt T to S w1 46);
      [|apply tight_quant_text; exact Hq|exact HT|exact HS|exact W1|cbn; tauto].
    destruct (tight_quant_ok tq q tt T (to ++ w1 ++ 46 :: w2 ++ t ++ r) Hq HT) as (q' & Eq & Hq').
    destruct (tag_occ_ok tt T to S (w1 ++ 46 :: w2 ++ t ++ r) HT HS) as (m & o & Em & Eo & Hm).
    { apply occ_stop_blanks; [exact W1|cbn in *; tauto]. }
    destruct (exists_ok O t P r Ht) as (s & Es & Hs & _).
    destruct (exists_start t P Ht) as (N1 & N2 & _).
    rewrite Eq, Em, Eo. rewrite ws_ch_ok; [|exact W1|notblank].
    rewrite skip_ws_blanks_nonblank; [|exact W2|apply nonblank_app; assumption].
    rewrite Es. eexists. split; [reflexivity|].
    apply subfields_means; [exact Hq'|exact Hm|]. intros ci sfs. apply Hs.
  Qed.

  (** ** braces *)
  Lemma braced_ok : forall w t P r s, blanks w -> braced_text O true t P -> lv_sub s = 0 ->
    exists m, s_braced O s (w ++ t ++ r) = (POk m (skip_ws r), s) /\ means (sub_holds O) m P.
  Proof.
    intros w t P r s W Ht Hs. destruct Ht as [k w1 e w2 P n Ha He Hn W1 W2].
    specialize (Hn eq_refl). rewrite <- !app_assoc.
    change (lit "{" ++ ?x) with (123 :: x). change (lit "}" ++ r) with (125 :: r).
    destruct (close_follow w2 125 r W2 ltac:(cbn; tauto)) as [F1 F2].
    destruct (subfield_accepts O k e P n (w2 ++ 125 :: r) s Ha He F1 F2) as (m & r' & E & Hm & Hr); [lia|].
    exists m. split; [|exact Hm].
    assert (Ne : e <> [] /\ nonblank e).
    { apply (expr_start (sub_leaf O) (fun n => 1 + 8 * n) N.add (sub_leaf_start' O) _ _ _ _ He). }
    unfold s_braced, sdelim. unfold sbind at 1, slift at 1.
    rewrite ws_ch_ok; [|exact W|notblank].
    rewrite skip_ws_blanks_nonblank; [|exact W1|apply nonblank_app; apply Ne].
    unfold sbind at 1. rewrite E. unfold sbind, slift, ws. rewrite Hr.
    rewrite skip_to_token; [|exact W2|notblank]. rewrite ch_ok. unfold sret, sub_reset.
    destruct s as [a b c]. cbn in Hs. subst a. reflexivity.
  Qed.

  Lemma braced_fails : forall w c r s, blanks w -> ~ blank c -> c <> 123 ->
    s_braced O s (w ++ c :: r) = (PErr, s).
  Proof.
    intros w c r s W Hb Hc. unfold s_braced, sdelim. unfold sbind at 1, slift.
    rewrite ws_ch_none; [reflexivity|]. rewrite skip_to_token by assumption.
    intros r' E. injection E as E _. contradiction.
  Qed.

  Lemma braced_start : forall t P, braced_text O true t P -> exists t', t = 123 :: t'.
  Proof. intros t P [k w1 e w2 P' n _ _ _ _ _]. eexists. reflexivity. Qed.

  Lemma f_bracket_ok : forall tq q tt T to S w t P r s, quant_text false tq q ->
    tag_matcher_text tt T -> occ_matcher_text to S -> blanks w -> braced_text O true t P -> lv_sub s = 0 ->
    exists m, parse_f_bracket O s ((tq ++ tt ++ to ++ w ++ t) ++ r) = (POk m (skip_ws r), s)
      /\ means field_holds (FMSingleton m)
           (fun ci fs => quantified q (fun f => P ci (f_subfields f)) (fun f => In f fs /\ tagged T S f)).
  Proof.
    intros tq q tt T to S w t P r s Hq HT HS W Ht Hs. rewrite <- !app_assoc.
    destruct (tag_quant_ok tq q tt T (to ++ w ++ t ++ r) Hq HT) as (q' & Eq & Hq').
    destruct (tag_occ_ok tt T to S (w ++ t ++ r) HT HS) as (m & o & Em & Eo & Hm).
    { destruct (braced_start t P Ht) as (t' & ->). apply occ_stop_blanks; [exact W|cbn; tauto]. }
    destruct (braced_ok w t P r s W Ht Hs) as (sm & Eb & HP).
    eexists. split.
    - unfold parse_f_bracket, staken, smap. unfold sbind, slift. rewrite Eq, Em, Eo, Eb. reflexivity.
    - apply subfields_means; assumption.
  Qed.

  Lemma f_bracket_fails : forall tq q tt T to S w c i s, quant_text false tq q ->
    tag_matcher_text tt T -> occ_matcher_text to S -> blanks w -> In c (lit ".?") ->
    parse_f_bracket O s (tq ++ tt ++ to ++ w ++ c :: i) = (PErr, s).
  Proof.
    intros tq q tt T to S w c i s Hq HT HS W Hc.
    destruct (tag_quant_ok tq q tt T (to ++ w ++ c :: i) Hq HT) as (q' & Eq & Hq').
    destruct (tag_occ_ok tt T to S (w ++ c :: i) HT HS) as (m & o & Em & Eo & _).
    { apply occ_stop_blanks; [exact W|cbn in *; tauto]. }
    unfold parse_f_bracket, staken, smap. unfold sbind, slift. rewrite Eq, Em, Eo.
    rewrite braced_fails; [reflexivity|exact W|..]; cbn in Hc; destruct Hc as [<-|[<-|[]]];
      first [notblank|discriminate].
  Qed.

  (** ** cardinality *)
  Lemma card_tail : forall w1 tt T w2 to S w3 x r s, blanks w1 ->
    tag_matcher_text tt T -> blanks w2 -> occ_matcher_text to S -> blanks w3 ->
    nonblank (x ++ r) -> occ_stop (x ++ r) -> occ_stop (w3 ++ x ++ r) ->
    exists m o, (forall f, tag_occ m o f <-> tagged T S f) /\
      forall (k : tag_matcher -> occ_matcher -> sparser (tag_matcher * occ_matcher * option subfield_matcher * rel_op * N)),
      spreceded (slift (ws (ch 35)))
        (sbind (slift (ws parse_tag_matcher)) (fun t => sbind (slift (ws parse_occ_matcher)) (fun o => k t o)))
        s (lit "#" ++ w1 ++ tt ++ w2 ++ to ++ w3 ++ x ++ r) = k m o s (x ++ r).
  Proof.
    intros w1 tt T w2 to S w3 x r s W1 HT W2 HS W3 Hn H1 H2.
    destruct (parse_tag_matcher_ok tt T (w2 ++ to ++ w3 ++ x ++ r) HT) as (m & Em & _ & Hm).
    destruct (ws_occ_ok [] to S w3 (x ++ r) (Forall_nil _) HS W3 Hn H1 H2) as (o & Eo & Ho).
    exists m, o. split.
    { intros f. unfold tag_occ, tagged. rewrite Hm, Ho. reflexivity. }
    intros k. unfold spreceded. unfold sbind at 1, slift at 1.
    change (lit "#" ++ ?y) with ([] ++ 35 :: y). rewrite ws_ch_ok; [|constructor|notblank].
    rewrite skip_ws_blanks_nonblank; [|exact W1|apply (tag_nonblank _ T); exact HT].
    unfold sbind at 1, slift at 1. unfold ws at 1.
    rewrite skip_ws_nonblank by (apply (tag_nonblank _ T); exact HT). rewrite Em.
    unfold sbind, slift.
    assert (E : ws parse_occ_matcher (skip_ws (w2 ++ to ++ w3 ++ x ++ r)) = Some (o, x ++ r)).
    { rewrite <- Eo. cbn [app]. unfold ws. rewrite skip_ws_idem, (skip_ws_blanks w2) by exact W2. reflexivity. }
    rewrite E. reflexivity.
  Qed.

  Lemma num_op_first : forall top op, In (top, op) num_ops -> exists c t', top = c :: t' /\ In c (lit "=!><").
  Proof.
    intros top op H. unfold num_ops in H. cbn [In] in H.
    repeat (destruct H as [H|H]; [injection H as <- <-; eexists _, _; split; [reflexivity|cbn; tauto]|]).
    contradiction.
  Qed.

  Lemma f_card_ok : forall w1 tt T w2 to S w3 top op w4 tn n r s,
    blanks w1 -> tag_matcher_text tt T -> blanks w2 -> occ_matcher_text to S -> blanks w3 ->
    In (top, op) num_ops -> blanks w4 -> number_text tn n -> follow r ->
    exists m, parse_f_card O s ((lit "#" ++ w1 ++ tt ++ w2 ++ to ++ w3 ++ top ++ w4 ++ tn) ++ r) = (POk m r, s)
      /\ means field_holds m (fun _ fs => exists k, counts (tagged T S) fs k /\ count_holds op k n).
  Proof.
    intros w1 tt T w2 to S w3 top op w4 tn n r s W1 HT W2 HS W3 Hop W4 Hn Fr.
    destruct (num_op_start top op Hop) as [N1 N2].
    destruct (op_number_ok [] top op w4 tn n r (Forall_nil _) Hop W4 Hn Fr) as (r3 & E3 & E4). cbn [app] in E3.
    destruct (num_op_first top op Hop) as (c & t' & Et & Hc).
    destruct (card_tail w1 tt T w2 to S w3 (top ++ w4 ++ tn) r s W1 HT W2 HS W3) as (m & o & Hm & E).
    { rewrite <- app_assoc. apply nonblank_app; assumption. }
    { rewrite Et. apply (occ_stop_blanks []); [constructor|cbn in *; tauto]. }
    { rewrite Et. apply occ_stop_blanks; [exact W3|cbn in *; tauto]. }
    exists (FMCard m o None op n (taken ((lit "#" ++ w1 ++ tt ++ w2 ++ to ++ w3 ++ top ++ w4 ++ tn) ++ r) r)).
    split.
    - unfold parse_f_card, staken. rewrite <- !app_assoc. rewrite <- !app_assoc in E. rewrite E.
      unfold sbind at 1. unfold sopt.
      pose proof (braced_fails [] c (t' ++ w4 ++ tn ++ r) s (Forall_nil _)) as F. cbn [app] in F.
      assert (E5 : top ++ w4 ++ tn ++ r = c :: t' ++ w4 ++ tn ++ r) by (rewrite Et; reflexivity).
      rewrite E5, F, <- E5.
      + unfold sbind, smap, slift. rewrite E3, E4. reflexivity.
      + cbn in Hc. repeat (destruct Hc as [<-|Hc]; [notblank|]). contradiction.
      + cbn in Hc. repeat (destruct Hc as [<-|Hc]; [discriminate|]). contradiction.
    - intros ci fs. unfold field_holds. cbn [fm_holds condition_holds].
      split; intros (k & Hk & Hh); exists k; (split; [|exact Hh]); revert Hk; apply counts_eq; intros f;
        rewrite Hm; tauto.
  Qed.

  Lemma f_card_braced_ok : forall w1 tt T w2 to S w3 t P w5 top op w4 tn n r s,
    blanks w1 -> tag_matcher_text tt T -> blanks w2 -> occ_matcher_text to S -> blanks w3 ->
    braced_text O true t P -> blanks w5 ->
    In (top, op) num_ops -> blanks w4 -> number_text tn n -> follow r -> lv_sub s = 0 ->
    exists m, parse_f_card O s
        ((lit "#" ++ w1 ++ tt ++ w2 ++ to ++ w3 ++ t ++ w5 ++ top ++ w4 ++ tn) ++ r) = (POk m r, s)
      /\ means field_holds m (fun ci fs => exists k,
           counts (fun f => tagged T S f /\ P ci (f_subfields f)) fs k /\ count_holds op k n).
  Proof.
    intros w1 tt T w2 to S w3 t P w5 top op w4 tn n r s W1 HT W2 HS W3 Ht W5 Hop W4 Hn Fr Hs.
    destruct (num_op_start top op Hop) as [N1 N2].
    destruct (op_number_ok [] top op w4 tn n r (Forall_nil _) Hop W4 Hn Fr) as (r3 & E3 & E4). cbn [app] in E3.
    destruct (braced_start t P Ht) as (t' & Et).
    destruct (card_tail w1 tt T w2 to S w3 (t ++ w5 ++ top ++ w4 ++ tn) r s W1 HT W2 HS W3) as (m & o & Hm & E).
    { rewrite Et. apply nonblank_cons. notblank. }
    { rewrite Et. apply (occ_stop_blanks []); [constructor|cbn in *; tauto]. }
    { rewrite Et. apply occ_stop_blanks; [exact W3|cbn in *; tauto]. }
    destruct (braced_ok [] t P (w5 ++ top ++ w4 ++ tn ++ r) s (Forall_nil _) Ht Hs) as (sm & Eb & HP).
    cbn [app] in Eb. rewrite skip_ws_blanks_nonblank in Eb; [|exact W5|apply nonblank_app; assumption].
    eexists. split.
    - unfold parse_f_card, staken. rewrite <- !app_assoc. rewrite <- !app_assoc in E. rewrite E.
      unfold sbind at 1. unfold sopt. rewrite Eb.
      unfold sbind, smap, slift. rewrite E3, E4. reflexivity.
    - intros ci fs. unfold field_holds. cbn [fm_holds condition_holds].
      split; intros (k & Hk & Hh); exists k; (split; [|exact Hh]); revert Hk; apply counts_eq; intros f;
        rewrite Hm; specialize (HP ci (f_subfields f)); unfold sub_holds in HP; rewrite HP; reflexivity.
  Qed.

  Lemma f_card_fails : forall s c i, ~ blank c -> c <> 35 -> parse_f_card O s (c :: i) = (PErr, s).
  Proof.
    intros s c i Hb Hc. unfold parse_f_card, staken, spreceded. unfold sbind at 1, slift.
    rewrite ws_ch_none; [reflexivity|]. rewrite skip_ws_nonblank by (apply nonblank_cons; exact Hb).
    intros r' E. injection E as E _. contradiction.
  Qed.

  (** nothing but a tag or a quantifier can begin one of the other forms *)
  Definition odd_start (c : byte) : Prop := In c (lit "(!#").
  Lemma odd_tag : forall c i, odd_start c -> parse_tag_matcher (c :: i) = None.
  Proof.
    intros c i Hc. apply tag_fails. unfold odd_start in Hc. cbn in *.
    intros F. destruct Hc as [<-|[<-|[<-|[]]]]; repeat (destruct F as [F|F]; [discriminate F|]); exact F.
  Qed.
  Lemma odd_blank : forall c i, odd_start c -> skip_ws (c :: i) = c :: i.
  Proof.
    intros c i Hc. apply skip_ws_nonblank, nonblank_cons. unfold odd_start in Hc. cbn in Hc.
    destruct Hc as [<-|[<-|[<-|[]]]]; notblank.
  Qed.
  Lemma odd_quant : forall c i, odd_start c -> parse_quantifier (c :: i) = None.
  Proof.
    intros c i Hc. unfold odd_start in Hc. cbn in Hc. destruct Hc as [<-|[<-|[<-|[]]]]; reflexivity.
  Qed.
  Lemma odd_f_exists : forall c i, odd_start c -> parse_f_exists (c :: i) = None.
  Proof.
    intros c i Hc. unfold parse_f_exists, terminated, ws. rewrite odd_blank, odd_tag by exact Hc. reflexivity.
  Qed.
  Lemma odd_bracket : forall c i s, odd_start c -> parse_f_bracket O s (c :: i) = (PErr, s).
  Proof.
    intros c i s Hc. unfold parse_f_bracket, staken, smap. unfold sbind, slift.
    rewrite (quant_none_eq false) by (rewrite odd_blank, odd_quant by exact Hc; reflexivity).
    rewrite odd_tag by exact Hc. reflexivity.
  Qed.
  Lemma odd_singleton : forall c i s, odd_start c -> f_singleton O s (c :: i) = (PErr, s).
  Proof.
    intros c i s Hc. unfold f_singleton, smap, parse_f_singleton, salt, slift.
    rewrite odd_f_exists by exact Hc. unfold parse_f_dot.
    rewrite (quant_none_eq false) by (rewrite odd_blank, odd_quant by exact Hc; reflexivity).
    rewrite odd_tag by exact Hc. rewrite odd_bracket by exact Hc. reflexivity.
  Qed.
  Lemma odd_exists : forall c i s, odd_start c -> slift f_exists s (c :: i) = (PErr, s).
  Proof.
    intros c i s Hc. unfold slift, f_exists, alt, pmap, opt. rewrite odd_f_exists, odd_quant by exact Hc.
    rewrite odd_tag by exact Hc. reflexivity.
  Qed.
End Fields.

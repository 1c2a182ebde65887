(** * Grammar of paths *)

From Coq Require Import String.
From Verif Require Import Bytes Winnow RecordModel RecordSpec BaseProofs Utf8Model Utf8Spec
  TagOccModel TagOccSpec TagOccProofs StrParserModel StrSpec StrProofs MatcherModel StateParser
  MatcherParserModel MatcherSpec GrammarSpec GrammarExprProofs GrammarLeafProofs GrammarSingletonProofs
  GrammarCondProofs GrammarSubProofs GrammarFieldLeafProofs GrammarFieldProofs GrammarSoundProofs
  PathModel FmtModel QueryModel QuerySpec QueryGrammarSpec.

Ltac lens := repeat match goal with
  | H : context [length (?a ++ ?b)] |- _ => rewrite (app_length a b) in H
  | H : context [length (?c :: ?b)] |- _ => change (length (c :: b)) with (S (length b)) in H
  | H : context [length (lit ?x)] |- _ => let n := eval compute in (length (lit x)) in change (length (lit x)) with n in H
  | |- context [length (?a ++ ?b)] => rewrite (app_length a b)
  | |- context [length (?c :: ?b)] => change (length (c :: b)) with (S (length b))
  | |- context [length (lit ?x)] => let n := eval compute in (length (lit x)) in change (length (lit x)) with n
  end; lia.

Lemma ws_ch_here : forall c r, ~ blank c -> ws (ch c) (c :: r) = Some (c, skip_ws r).
Proof. intros c r H. apply (ws_ch_ok c []); [constructor|exact H]. Qed.

(** ** groups of codes *)
Definition no_comma (r : bytes) : Prop := forall r', skip_ws r <> 44 :: r'.

Lemma groups_start : forall t Cs, groups_text t Cs ->
  exists tc C t', codes_text tc C /\ t = tc ++ t'.
Proof.
  intros t Cs [t0 C H|t0 C w1 w2 ts Cs0 H W1 W2 Hs]; [exists t0, C, []|exists t0, C; eexists]; split; eauto.
  symmetry. apply app_nil_r.
Qed.

Lemma groups_nonblank : forall t Cs, groups_text t Cs -> t <> [] /\ nonblank t.
Proof.
  intros t Cs H. destruct (groups_start t Cs H) as (tc & C & t' & Hc & ->).
  destruct (codes_nonblank tc C Hc) as [N1 N2]. split; [|apply nonblank_app; assumption].
  destruct tc; [contradiction|discriminate].
Qed.

Lemma codes_fail : forall c r, ~ In c alnums -> c <> 91 -> c <> 42 -> parse_codes (c :: r) = None.
Proof.
  intros c r H1 H2 H3. destruct (parse_codes (c :: r)) as [[l r']|] eqn:E; [|reflexivity].
  apply codes_inv in E as (t & C & E & Ht & _). apply codes_start in Ht as (d & t' & -> & _ & Hd).
  injection E as -> _. destruct Hd as [Hd|[Hd|Hd]]; contradiction.
Qed.

Lemma sep_rest_stop : forall A (p : parser A) n r, no_comma r -> sep_rest_fuel (S n) p (ws (ch 44)) r = Some ([], r).
Proof. intros A p n r H. cbn [sep_rest_fuel]. rewrite ws_ch_none by exact H. reflexivity. Qed.

Lemma groups_rest : forall t Cs, groups_text t Cs -> forall w1 w2 r n, blanks w1 -> blanks w2 -> no_comma r ->
  (length (w1 ++ lit "," ++ w2 ++ t ++ r) < n)%nat ->
  exists l, sep_rest_fuel n parse_codes (ws (ch 44)) (w1 ++ lit "," ++ w2 ++ t ++ r) = Some (l, r)
    /\ Forall2 same_set l Cs.
Proof.
  intros t Cs H. induction H as [t C H|t C v1 v2 ts Cs H V1 V2 Hs IH]; intros w1 w2 r n W1 W2 Hr Hn.
  - destruct n as [|n]; [lia|]. cbn [sep_rest_fuel]. change (lit "," ++ ?x) with (44 :: x).
    rewrite ws_ch_ok; [|exact W1|notblank]. destruct (codes_nonblank t C H) as [N1 N2].
    rewrite skip_ws_blanks_nonblank; [|exact W2|apply nonblank_app; assumption].
    destruct (codes_ok t C r H) as (l & E & Hl).
    destruct (Nat.eqb_spec (length (t ++ r)) (length (w1 ++ 44 :: w2 ++ t ++ r))) as [Hb|Hb]; [lens|].
    rewrite E. destruct n as [|n]; [lens|].
    rewrite sep_rest_stop by exact Hr. exists [l]. auto.
  - destruct n as [|n]; [lia|]. cbn [sep_rest_fuel]. change (lit "," ++ w2 ++ ?x) with (44 :: w2 ++ x).
    rewrite ws_ch_ok; [|exact W1|notblank]. destruct (codes_nonblank t C H) as [N1 N2].
    rewrite <- app_assoc.
    rewrite skip_ws_blanks_nonblank; [|exact W2|apply nonblank_app; assumption].
    destruct (codes_ok t C ((v1 ++ lit "," ++ v2 ++ ts) ++ r) H) as (l & E & Hl).
    match goal with |- context [Nat.eqb ?a ?b] => destruct (Nat.eqb_spec a b) as [Hb|Hb]; [lens|] end.
    rewrite E. rewrite <- !app_assoc.
    destruct (IH v1 v2 r n V1 V2 Hr) as (l' & E' & Hl').
    { lens. }
    rewrite E'. exists (l :: l'). auto.
Qed.

Lemma groups_ok : forall t Cs r, groups_text t Cs -> no_comma r ->
  exists l, separated1 parse_codes (ws (ch 44)) (t ++ r) = Some (l, r) /\ Forall2 same_set l Cs.
Proof.
  intros t Cs r H Hr. unfold separated1. destruct H as [t C H|t C w1 w2 ts Cs H W1 W2 Hs].
  - destruct (codes_ok t C r H) as (l & -> & Hl). rewrite sep_rest_stop by exact Hr. exists [l]. auto.
  - destruct (codes_ok t C ((w1 ++ lit "," ++ w2 ++ ts) ++ r) H) as (l & E & Hl).
    rewrite <- app_assoc, E. rewrite <- !app_assoc.
    destruct (groups_rest ts Cs Hs w1 w2 r (S (length (w1 ++ lit "," ++ w2 ++ ts ++ r))) W1 W2 Hr) as (l' & E' & Hl');
      [lia|].
    rewrite E'. exists (l :: l'). auto.
Qed.

Lemma groups_none : forall c r, ~ In c alnums -> c <> 91 -> c <> 42 ->
  separated1 parse_codes (ws (ch 44)) (c :: r) = None.
Proof. intros c r H1 H2 H3. unfold separated1. rewrite codes_fail by assumption. reflexivity. Qed.

Lemma not_alnum : forall c, is_alnum c = false -> ~ In c alnums.
Proof. intros c H HI. apply alnums_iff in HI. congruence. Qed.

Lemma columns_ok : forall t Cs r, columns_text t Cs -> no_comma r ->
  exists l r', parse_path_codes (t ++ r) = Some (l, r') /\ skip_ws r' = skip_ws r /\ Forall2 same_set l Cs.
Proof.
  intros t Cs r H Hr. unfold parse_path_codes, alt. destruct H as [t Cs H|w1 t w2 Cs W1 H W2].
  - destruct (groups_ok t Cs r H Hr) as (l & -> & Hl). eauto.
  - rewrite <- !app_assoc. change (lit "(" ++ ?x) with (40 :: x). change (lit ")" ++ ?x) with (41 :: x).
    rewrite groups_none; [|apply not_alnum; reflexivity|discriminate|discriminate].
    unfold delimited. rewrite ws_ch_here by notblank.
    destruct (groups_nonblank t Cs H) as [N1 N2].
    rewrite skip_ws_blanks_nonblank; [|exact W1|apply nonblank_app; assumption].
    destruct (groups_ok t Cs (w2 ++ 41 :: r) H) as (l & -> & Hl).
    { intros r'. rewrite skip_to_token; [|exact W2|notblank]. discriminate. }
    rewrite ws_ch_ok; [|exact W2|notblank]. eexists _, _. split; [reflexivity|]. split; [apply skip_ws_idem|exact Hl].
Qed.

Lemma columns_nonblank : forall t Cs, columns_text t Cs -> t <> [] /\ nonblank t.
Proof.
  intros t Cs [t' Cs' H|w1 t' w2 Cs' W1 H W2]; [apply (groups_nonblank _ _ H)|].
  split; [discriminate|apply nonblank_cons; notblank].
Qed.

Lemma Forall2_len : forall A B (R : A -> B -> Prop) l k, Forall2 R l k -> length l = length k.
Proof. induction 1; cbn; congruence. Qed.

(** *** every list of groups is read from a text *)
Lemma sep_groups_inv : forall n i l r, sep_rest_fuel n parse_codes (ws (ch 44)) i = Some (l, r) ->
  forall t0 C0, codes_text t0 C0 ->
  exists ts Cs, t0 ++ i = ts ++ r /\ groups_text ts (C0 :: Cs) /\ Forall2 same_set l Cs.
Proof.
  induction n as [|n IH]; intros i l r H t0 C0 H0; [discriminate|]. cbn [sep_rest_fuel] in H.
  destruct (ws (ch 44) i) as [[x r1]|] eqn:E1.
  - destruct (Nat.eqb (length r1) (length i)); [discriminate|].
    destruct (parse_codes r1) as [[c r2]|] eqn:E2.
    + destruct (sep_rest_fuel n parse_codes (ws (ch 44)) r2) as [[l' r3]|] eqn:E3; [|discriminate].
      injection H as <- <-. apply ws_ch_inv in E1 as (w1 & w2 & W1 & W2 & -> & _).
      apply codes_inv in E2 as (tc & C & -> & Hc & Hs).
      destruct (IH _ _ _ E3 tc C Hc) as (ts & Cs & E & Ht & Hl).
      exists (t0 ++ w1 ++ lit "," ++ w2 ++ ts), (C :: Cs). split; [|split].
      * rewrite <- !app_assoc. rewrite <- E. reflexivity.
      * apply groups_more; assumption.
      * constructor; assumption.
    + injection H as <- <-. exists t0, []. split; [reflexivity|]. split; [apply groups_one; exact H0|constructor].
  - injection H as <- <-. exists t0, []. split; [reflexivity|]. split; [apply groups_one; exact H0|constructor].
Qed.

Lemma groups_inv : forall i l r, separated1 parse_codes (ws (ch 44)) i = Some (l, r) ->
  exists t Cs, i = t ++ r /\ groups_text t Cs /\ Forall2 same_set l Cs.
Proof.
  intros i l r H. unfold separated1 in H. destruct (parse_codes i) as [[c r1]|] eqn:E1; [|discriminate].
  destruct (sep_rest_fuel (S (length r1)) parse_codes (ws (ch 44)) r1) as [[l' r2]|] eqn:E2; [|discriminate].
  injection H as <- <-. apply codes_inv in E1 as (tc & C & -> & Hc & Hs).
  destruct (sep_groups_inv _ _ _ _ E2 tc C Hc) as (ts & Cs & E & Ht & Hl).
  exists ts, (C :: Cs). split; [exact E|]. split; [exact Ht|]. constructor; assumption.
Qed.

Lemma columns_inv : forall i l r, parse_path_codes i = Some (l, r) ->
  exists w1 t w2 Cs, blanks w1 /\ blanks w2 /\ i = w1 ++ t ++ w2 ++ r /\ columns_text t Cs /\ Forall2 same_set l Cs.
Proof.
  intros i l r H. unfold parse_path_codes, alt in H.
  destruct (separated1 parse_codes (ws (ch 44)) i) as [[l1 r1]|] eqn:E1.
  - injection H as <- <-. apply groups_inv in E1 as (t & Cs & -> & Ht & Hl).
    exists [], t, [], Cs. repeat split; try constructor; assumption.
  - unfold delimited in H. destruct (ws (ch 40) i) as [[x r1]|] eqn:E2; [|discriminate].
    destruct (separated1 parse_codes (ws (ch 44)) r1) as [[l2 r2]|] eqn:E3; [|discriminate].
    destruct (ws (ch 41) r2) as [[y r3]|] eqn:E4; [|discriminate]. injection H as <- <-.
    apply ws_ch_inv in E2 as (w1 & w2 & W1 & W2 & -> & _). apply groups_inv in E3 as (t & Cs & -> & Ht & Hl).
    apply ws_ch_inv in E4 as (w3 & w4 & W3 & W4 & -> & _).
    exists w1, (lit "(" ++ w2 ++ t ++ w3 ++ lit ")"), w4, Cs.
    split; [exact W1|]. split; [exact W4|]. split; [rewrite <- !app_assoc; reflexivity|].
    split; [apply columns_parens; assumption|exact Hl].
Qed.

Section Paths.
  Variable O : oracles.

  Definition guard_means (m : option subfield_matcher) (P : meaning subfield) : Prop :=
    forall ci f, condition_holds O ci m f <-> P ci (f_subfields f).

  Lemma guard_skip : forall w tg g P r, blanks w -> guard_text O true tg g P ->
    skip_ws (w ++ tg ++ 125 :: r) = tg ++ 125 :: r /\ forall r', tg ++ 125 :: r <> 44 :: r'.
  Proof.
    intros w tg g P r W H. destruct H as [|k v1 e v2 P' n _ _ _ _ _].
    - split; [apply skip_to_token; [exact W|notblank]|discriminate].
    - split; [|discriminate]. rewrite <- !app_assoc. apply skip_to_token; [exact W|notblank].
  Qed.

  Lemma condition_ok : forall w tg g P r s, blanks w -> guard_text O true tg g P ->
    (g = true -> lv_sub s = 0) ->
    exists m i, parse_condition O s (w ++ tg ++ 125 :: r) = (POk m i, s)
      /\ skip_ws i = 125 :: r /\ guard_means m P.
  Proof.
    intros w tg g P r s W H Hs. unfold parse_condition, sopt, spreceded. unfold sbind, slift.
    destruct H as [|k w1 e w2 P n Ha He Hn W1 W2].
    - cbn [app]. rewrite ws_ch_none.
      + exists None. eexists. split; [reflexivity|]. split; [apply skip_to_token; [exact W|notblank]|].
        intros ci f. reflexivity.
      + intros r'. rewrite skip_to_token; [discriminate|exact W|notblank].
    - specialize (Hs eq_refl). specialize (Hn eq_refl). rewrite <- !app_assoc. change (lit "|" ++ ?x) with (124 :: x).
      rewrite ws_ch_ok; [|exact W|notblank].
      assert (Ne : e <> [] /\ nonblank e).
      { apply (expr_start (sub_leaf O) (fun n => 1 + 8 * n) N.add (sub_leaf_start' O) _ _ _ _ He). }
      rewrite skip_ws_blanks_nonblank; [|exact W1|apply nonblank_app; apply Ne].
      destruct (close_follow w2 125 r W2 ltac:(cbn; tauto)) as [F1 F2].
      destruct (subfield_accepts O k e P n (w2 ++ 125 :: r) s Ha He F1 F2) as (m & r' & E & Hm & Hr); [lia|].
      rewrite E. exists (Some m), r'. split; [|split].
      + f_equal. unfold sub_reset. destruct s as [a b c]. cbn in Hs. subst a. reflexivity.
      + rewrite Hr. apply skip_to_token; [exact W2|notblank].
      + intros ci f. exact (Hm ci (f_subfields f)).
  Qed.

  Lemma condition_read : forall s i m r s', parse_condition O s i = (POk m r, s') ->
    exists w tg g P w', blanks w /\ blanks w' /\ i = w ++ tg ++ w' ++ r /\ guard_text O false tg g P
      /\ guard_means m P /\ (g = false -> w = [] /\ tg = [] /\ w' = []).
  Proof.
    intros s i m r s' E. unfold parse_condition, sopt, spreceded in E. unfold sbind, slift in E.
    assert (None_case : forall r, exists w tg g P w', blanks w /\ blanks w' /\ r = w ++ tg ++ w' ++ r
      /\ guard_text O false tg g P /\ guard_means None P /\ (g = false -> w = [] /\ tg = [] /\ w' = [])).
    { intros r0. exists [], [], false, (fun _ _ => True), [].
      split; [constructor|]. split; [constructor|]. split; [reflexivity|]. split; [constructor|].
      split; [intros ci f; reflexivity|auto]. }
    destruct (ws (ch 124) i) as [[x r1]|] eqn:E1.
    - destruct (parse_subfield_matcher O s r1) as [[b r2| |] s2] eqn:E2; try discriminate.
      + injection E as <- <- <-. apply ws_ch_inv in E1 as (w1 & w2 & W1 & W2 & -> & _).
        apply subfield_reads in E2 as (k & w3 & c & w4 & Hk & W3 & W4 & -> & He).
        destruct (stx_loose O _ _ _ He) as (P & n & HE & Hm).
        exists w1, (lit "|" ++ (w2 ++ w3) ++ c ++ w4), true, P, [].
        split; [exact W1|]. split; [constructor|]. split; [rewrite <- !app_assoc; reflexivity|].
        split; [|split; [intros ci f; exact (Hm ci (f_subfields f))|discriminate]].
        apply (guard_some O false k (w2 ++ w3) c w4 P n); try assumption; [discriminate|].
        apply blanks_app; assumption.
      + injection E as <- <- <-. apply None_case.
    - injection E as <- <- <-. apply None_case.
  Qed.

  (** ** the parser of paths *)
  Definition path_means (p : path) (F : address) (Cs : list (byte -> Prop)) : Prop :=
    (forall ci f, addressed O ci (p_tag p) (p_occ p) (p_sub p) f <-> F ci f) /\ Forall2 same_set (p_codes p) Cs.

  Lemma simple_fails : forall w1 tt T to S w2 r, blanks w1 -> tag_matcher_text tt T -> occ_matcher_text to S ->
    blanks w2 -> parse_path_simple (w1 ++ tt ++ to ++ w2 ++ 123 :: r) = None.
  Proof.
    intros w1 tt T to S w2 r W1 HT HS W2. unfold parse_path_simple, ws.
    rewrite skip_ws_blanks_nonblank; [|exact W1|apply (tag_nonblank _ T); exact HT].
    destruct (tag_occ_ok tt T to S (w2 ++ 123 :: r) HT HS) as (m & o & Em & Eo & _).
    { apply occ_stop_blanks; [exact W2|cbn; tauto]. }
    rewrite Em, Eo. unfold preceded. destruct w2 as [|c w2]; [reflexivity|].
    cbn [app]. rewrite ch_fail; [reflexivity|]. intros ->. inversion W2 as [|x y HB _]; subst. revert HB. notblank.
  Qed.

  Lemma curly_ok : forall w1 tt T to S w2 w3 tc Cs w4 tg g P w5 r s,
    blanks w1 -> tag_matcher_text tt T -> occ_matcher_text to S -> blanks w2 -> blanks w3 ->
    columns_text tc Cs -> blanks w4 -> guard_text O true tg g P -> blanks w5 -> (g = true -> lv_sub s = 0) ->
    exists p, parse_path O s
        ((w1 ++ tt ++ to ++ w2 ++ lit "{" ++ w3 ++ tc ++ w4 ++ tg ++ lit "}" ++ w5) ++ r) = (POk p (skip_ws r), s)
      /\ path_means p (guarded T S P) Cs.
  Proof.
    intros w1 tt T to S w2 w3 tc Cs w4 tg g P w5 r s W1 HT HS W2 W3 HC W4 HG W5 Hs.
    unfold parse_path, salt. unfold slift at 1. rewrite <- !app_assoc. change (lit "{" ++ ?x) with (123 :: x).
      change (lit "}" ++ ?x) with (125 :: x).
      rewrite (simple_fails w1 tt T to S w2) by assumption.
      unfold parse_path_curly, staken, sws. set (i0 := w1 ++ tt ++ _).
      unfold i0 at 1. rewrite skip_ws_blanks_nonblank; [|exact W1|apply (tag_nonblank _ T); exact HT].
      destruct (tag_occ_ok tt T to S (w2 ++ 123 :: w3 ++ tc ++ w4 ++ tg ++ 125 :: w5 ++ r) HT HS)
        as (m & o & Em & Eo & Hm).
      { apply occ_stop_blanks; [exact W2|cbn; tauto]. }
      unfold sdelim. unfold sbind at 1, slift at 1. rewrite Em. unfold sbind at 1, slift at 1. rewrite Eo.
      unfold sbind at 1, slift at 1. rewrite ws_ch_ok; [|exact W2|notblank].
      destruct (columns_nonblank tc Cs HC) as [N1 N2].
      rewrite skip_ws_blanks_nonblank; [|exact W3|apply nonblank_app; assumption].
      pose proof (guard_skip w4 tg g P (w5 ++ r) W4 HG) as [SG SC].
      assert (NC : no_comma (w4 ++ tg ++ 125 :: w5 ++ r)) by (intros r'; rewrite SG; apply SC).
      destruct (columns_ok tc Cs (w4 ++ tg ++ 125 :: w5 ++ r) HC NC) as (l & r' & E & Er & Hl).
      unfold sbind at 1. unfold sbind at 1, slift at 1. rewrite E.
      rewrite SG in Er. destruct (skip_ws_split r') as (v & V & Ev). rewrite Er in Ev.
      destruct (condition_ok v tg g P (w5 ++ r) s V HG Hs) as (cm & i & Ec & Ei & Hc).
      unfold smap at 1. rewrite Ev, Ec. unfold sbind, slift, ws, sret. rewrite Ei, ch_ok.
      rewrite !skip_ws_idem, skip_ws_blanks by exact W5.
      eexists. split; [reflexivity|]. split; [|exact Hl].
      intros ci f. unfold addressed, guarded. cbn [p_tag p_occ p_sub]. rewrite (Hm f), (Hc ci f). reflexivity.
  Qed.

  Lemma path_ok : forall t F Cs r s, path_text O true t F Cs -> lv_sub s = 0 ->
    exists p, parse_path O s (t ++ r) = (POk p (skip_ws r), s) /\ path_means p F Cs.
  Proof.
    intros t F Cs r s H Hs. destruct H as
      [w1 tt T to S tc C w2 W1 HT HS HC W2|w1 tt T to S w2 w3 tc Cs w4 tg g P w5 W1 HT HS W2 W3 HC W4 HG W5].
    - unfold parse_path, salt. unfold slift, parse_path_simple, ws. rewrite <- !app_assoc.
      rewrite skip_ws_blanks_nonblank; [|exact W1|apply (tag_nonblank _ T); exact HT].
      change (lit "." ++ ?x) with (46 :: x).
      destruct (tag_occ_ok tt T to S ([] ++ 46 :: tc ++ w2 ++ r) HT HS) as (m & o & Em & Eo & Hm).
      { apply occ_stop_blanks; [constructor|cbn; tauto]. }
      cbn [app] in Em, Eo. rewrite Em, Eo. unfold preceded. rewrite ch_ok.
      destruct (codes_ok tc C (w2 ++ r) HC) as (l & -> & Hl). rewrite skip_ws_blanks by exact W2.
      eexists. split; [reflexivity|]. split; [|repeat constructor; exact (proj1 (Hl x)) || exact (proj2 (Hl x))].
      intros ci f. unfold addressed. cbn [p_tag p_occ p_sub condition_holds]. rewrite (Hm f). tauto.
    - apply curly_ok with (g := g); auto.
  Qed.

  Lemma simple_read : forall i p r, parse_path_simple i = Some (p, r) ->
    exists t F Cs, i = t ++ r /\ path_text O false t F Cs /\ path_means p F Cs.
  Proof.
    intros i p r H. unfold parse_path_simple, ws in H.
    destruct (skip_ws_split i) as (w1 & W1 & E1).
    destruct (parse_tag_matcher (skip_ws i)) as [[t r1]|] eqn:E2; [|discriminate].
    destruct (parse_occ_matcher r1) as [[o r2]|] eqn:E3; [|discriminate]. unfold preceded in H.
    destruct (ch 46 r2) as [[x r3]|] eqn:E4; [|discriminate].
    destruct (parse_codes r3) as [[c r4]|] eqn:E5; [|discriminate]. injection H as <- <-.
    destruct (tag_occ_read _ _ _ _ _ E2 E3) as (tt & T & to & S & E & HT & HS & Hm & _).
    apply ch_inv in E4 as [-> _]. apply codes_inv in E5 as (tc & C & -> & Hc & Hl).
    destruct (skip_ws_split r4) as (w2 & W2 & E6). rewrite E in E1.
    exists (w1 ++ tt ++ to ++ lit "." ++ tc ++ w2), (fun _ f => tagged T S f), [C].
    split; [|split; [apply path_dot; assumption|split]].
    - rewrite E1. rewrite E6 at 1. rewrite <- !app_assoc. reflexivity.
    - intros ci f. unfold addressed. cbn [p_tag p_occ p_sub condition_holds]. rewrite (Hm f). tauto.
    - constructor; [exact Hl|constructor].
  Qed.

  Lemma curly_read : forall s i p r s', parse_path_curly O s i = (POk p r, s') ->
    exists t F Cs, i = t ++ r /\ path_text O false t F Cs /\ path_means p F Cs.
  Proof.
    intros s i p r s' H. unfold parse_path_curly, staken, sws in H.
    destruct (skip_ws_split i) as (w1 & W1 & E1). unfold sdelim in H.
    unfold sbind at 1, slift at 1 in H.
    destruct (parse_tag_matcher (skip_ws i)) as [[t r1]|] eqn:E2; [|discriminate].
    unfold sbind at 1, slift at 1 in H.
    destruct (parse_occ_matcher r1) as [[o r2]|] eqn:E3; [|discriminate].
    unfold sbind at 1, slift at 1 in H.
    destruct (ws (ch 123) r2) as [[x r3]|] eqn:E4; [|discriminate].
    unfold sbind at 1 in H. unfold sbind at 1, slift at 1 in H.
    destruct (parse_path_codes r3) as [[c r4]|] eqn:E5; [|discriminate].
    unfold smap at 1 in H.
    destruct (parse_condition O s r4) as [[m r5| |] s5] eqn:E6; try discriminate.
    unfold sbind, slift, sret in H.
    destruct (ws (ch 125) r5) as [[y r6]|] eqn:E7; [|discriminate]. injection H as <- <- _.
    destruct (tag_occ_read _ _ _ _ _ E2 E3) as (tt & T & to & S & E & HT & HS & Hm & _).
    apply ws_ch_inv in E4 as (w2 & w3 & W2 & W3 & -> & _).
    apply columns_inv in E5 as (w4 & tc & w5 & Cs & W4 & W5 & -> & HC & Hl).
    apply condition_read in E6 as (w6 & tg & g & P & w7 & W6 & W7 & -> & HG & HP & Hg).
    apply ws_ch_inv in E7 as (w8 & w9 & W8 & W9 & -> & _).
    destruct (skip_ws_split r6) as (w10 & W10 & E8). rewrite E in E1.
    assert (G : exists w tg' w', blanks w /\ blanks w' /\ guard_text O false tg' g P
              /\ w ++ tg' = (w5 ++ w6) ++ tg ++ w7 ++ w8).
    { destruct HG as [|k v1 e v2 P n Ha He Hn V1 V2].
      - destruct (Hg eq_refl) as (-> & _ & ->). exists ((w5 ++ []) ++ [] ++ w8), [], [].
        cbn [app]. rewrite !app_nil_r. split; [apply blanks_app; assumption|]. split; [constructor|].
        split; [constructor|reflexivity].
      - exists (w5 ++ w6), (lit "|" ++ v1 ++ e ++ (v2 ++ w7 ++ w8)), [].
        split; [apply blanks_app; assumption|]. split; [constructor|].
        split; [apply (guard_some O false k v1 e (v2 ++ w7 ++ w8) P n); try assumption;
                apply blanks_app; [assumption|apply blanks_app; assumption]|].
        rewrite <- !app_assoc. reflexivity. }
    destruct G as (wa & tg' & _ & WA & _ & HG' & EG).
    assert (EX : forall x, wa ++ tg' ++ x = w5 ++ w6 ++ tg ++ w7 ++ w8 ++ x).
    { intros z. rewrite (app_assoc wa), EG, <- !app_assoc. reflexivity. }
    exists (w1 ++ tt ++ to ++ w2 ++ lit "{" ++ (w3 ++ w4) ++ tc ++ wa ++ tg' ++ lit "}" ++ (w9 ++ w10)),
      (guarded T S P), Cs.
    split; [|split; [|split]].
    - rewrite E1. rewrite E8 at 1. rewrite <- !app_assoc. rewrite EX. reflexivity.
    - apply (path_braces O false) with (g := g); try assumption; apply blanks_app; assumption.
    - intros ci f. unfold addressed, guarded. cbn [p_tag p_occ p_sub]. rewrite (Hm f), (HP ci f). reflexivity.
    - exact Hl.
  Qed.

  Lemma path_read : forall s i p r s', parse_path O s i = (POk p r, s') ->
    exists t F Cs, i = t ++ r /\ path_text O false t F Cs /\ path_means p F Cs.
  Proof.
    intros s i p r s' H. unfold parse_path, salt in H. unfold slift at 1 in H.
    destruct (parse_path_simple i) as [[p1 r1]|] eqn:E.
    - injection H as -> -> _. apply simple_read. exact E.
    - apply (curly_read _ _ _ _ _ H).
  Qed.
End Paths.

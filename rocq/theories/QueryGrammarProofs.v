(** * Grammar of formats and queries *)

From Coq Require Import String.
From Verif Require Import Bytes Winnow RecordModel RecordSpec BaseProofs Utf8Model Utf8Spec
  TagOccModel TagOccSpec TagOccProofs StrParserModel StrSpec StrProofs MatcherModel StateParser
  MatcherParserModel MatcherSpec GrammarSpec GrammarExprProofs GrammarLeafProofs GrammarSingletonProofs
  GrammarCondProofs GrammarSubProofs GrammarFieldLeafProofs GrammarFieldProofs GrammarSoundProofs
  PathModel FmtModel QueryModel QuerySpec QueryProofs QueryGrammarSpec PathGrammarProofs FmtGrammarProofs
  FmtReadProofs.

Section Formats.
  Variable O : oracles.
  Variable T : text_fns.
  Notation ex := (frag_expr T).

  Definition format_means (f : format) (F : address) (R : fmeaning) : Prop :=
    frag_wf (fmt_fragments f)
    /\ (forall ci x, addressed O ci (fmt_tag f) (fmt_occ f) (fmt_sub f) x <-> F ci x)
    /\ forall strip x out, frag_text T strip x (fmt_fragments f) out <-> R strip x out.

  Lemma format_ok : forall k g t F R n r s, format_text O T true k g t F R n ->
    (g = true -> lv_sub s = 0) -> lv_fmt s + n < 32 ->
    exists f, parse_format O s (t ++ r) = (POk f (skip_ws r), s) /\ format_means f F R.
  Proof.
    intros k g t F R n r s H Hs Hn.
    destruct H as [k tt TT to S w1 w2 e R n w3 tg g P w4 HT HS W1 W2 He W3 HG W4].
    unfold parse_format, staken. rewrite <- !app_assoc. change (lit "{" ++ ?x) with (123 :: x).
    change (lit "}" ++ ?x) with (125 :: x). set (i0 := tt ++ _). unfold i0 at 1.
    destruct (tag_occ_ok tt TT to S (w1 ++ 123 :: w2 ++ e ++ w3 ++ tg ++ 125 :: w4 ++ r) HT HS)
      as (m & o & Em & Eo & Hm).
    { apply occ_stop_blanks; [exact W1|cbn; tauto]. }
    unfold sdelim. unfold sbind at 1, slift at 1. rewrite Em. unfold sbind at 1, slift at 1. rewrite Eo.
    unfold sbind at 1, slift at 1. rewrite ws_ch_ok; [|exact W1|notblank].
    destruct (frag_start T k e R n He) as (N1 & N2 & _).
    rewrite skip_ws_blanks_nonblank; [|exact W2|apply nonblank_app; assumption].
    destruct (guard_skip O w3 tg g P (w4 ++ r) W3 HG) as [SG _].
    assert (Fr : fstop (w3 ++ tg ++ 125 :: w4 ++ r) /\ no_then (w3 ++ tg ++ 125 :: w4 ++ r)
                 /\ no_both (w3 ++ tg ++ 125 :: w4 ++ r)).
    { unfold fstop, no_then, no_both, stop. rewrite SG.
      destruct HG; (split; [eexists _, _; split; [reflexivity|cbn; tauto]|split; reflexivity]). }
    destruct Fr as (F1 & F2 & F3).
    destruct (parse_fragments_ok T k e R n [] (w3 ++ tg ++ 125 :: w4 ++ r) s He F1 F2 F3 ltac:(constructor) Hn)
      as (fr & Ef & Hf). cbn [app] in Ef.
    unfold sbind at 1. unfold sbind at 1. rewrite Ef. rewrite SG. unfold smap at 1.
    destruct (condition_ok O [] tg g P (w4 ++ r) s ltac:(constructor) HG Hs) as (cm & i & Ec & Ei & Hc).
    cbn [app] in Ec. rewrite Ec. unfold sbind, slift, ws, sret. rewrite Ei, ch_ok.
    rewrite skip_ws_blanks by exact W4.
    eexists. split; [reflexivity|]. destruct Hf as (Wf & _ & If). split; [exact Wf|]. split; [|exact If].
    intros ci f. unfold addressed, guarded. cbn [fmt_tag fmt_occ fmt_sub]. rewrite (Hm f), (Hc ci f). reflexivity.
  Qed.

  Lemma guard_absorb : forall a b tg g P, blanks a -> blanks b -> guard_text O false tg g P ->
    exists w tg', blanks w /\ guard_text O false tg' g P /\ forall x, w ++ tg' ++ x = a ++ tg ++ b ++ x.
  Proof.
    intros a b tg g P A B H. destruct H as [|k v1 e v2 P n Ha He Hn V1 V2].
    - exists (a ++ b), []. split; [apply blanks_app; assumption|]. split; [constructor|].
      intros x. rewrite <- app_assoc. reflexivity.
    - exists a, (lit "|" ++ v1 ++ e ++ (v2 ++ b)). split; [exact A|].
      split; [apply (guard_some O false k v1 e (v2 ++ b) P n); try assumption; apply blanks_app; assumption|].
      intros x. rewrite <- !app_assoc. reflexivity.
  Qed.

  Lemma format_read : forall s i f r s', parse_format O s i = (POk f r, s') ->
    exists k g t F R n, i = t ++ r /\ format_text O T false k g t F R n /\ format_means f F R.
  Proof.
    intros s i f r s' H. unfold parse_format, staken in H. unfold sdelim in H.
    unfold sbind at 1, slift at 1 in H.
    destruct (parse_tag_matcher i) as [[t r1]|] eqn:E2; [|discriminate].
    unfold sbind at 1, slift at 1 in H.
    destruct (parse_occ_matcher r1) as [[o r2]|] eqn:E3; [|discriminate].
    unfold sbind at 1, slift at 1 in H.
    destruct (ws (ch 123) r2) as [[x r3]|] eqn:E4; [|discriminate].
    unfold sbind at 1 in H. unfold sbind at 1 in H.
    destruct (parse_fragments s r3) as [[fr r4| |] s4] eqn:E5; try discriminate.
    unfold smap at 1 in H.
    destruct (parse_condition O s4 r4) as [[m r5| |] s5] eqn:E6; try discriminate.
    unfold sbind, slift, sret in H.
    destruct (ws (ch 125) r5) as [[y r6]|] eqn:E7; [|discriminate]. injection H as <- <- _.
    destruct (tag_occ_read _ _ _ _ _ E2 E3) as (tt & TT & to & S & E & HT & HS & Hm & _).
    apply ws_ch_inv in E4 as (w1 & w2 & W1 & W2 & -> & _).
    destruct (parse_fragments_reads T _ _ _ _ _ E5) as (w3 & e & w4 & k & R & n & W3 & W4 & -> & _ & He & Hf).
    apply condition_read in E6 as (w6 & tg & g & P & w7 & W6 & W7 & -> & HG & HP & Hg).
    apply ws_ch_inv in E7 as (w8 & w9 & W8 & W9 & -> & _).
    destruct (guard_absorb (w4 ++ w6) (w7 ++ w8) tg g P ltac:(apply blanks_app; assumption)
                ltac:(apply blanks_app; assumption) HG) as (wa & tg' & WA & HG' & EX).
    exists k, g, (tt ++ to ++ w1 ++ lit "{" ++ (w2 ++ w3) ++ e ++ wa ++ tg' ++ lit "}" ++ w9), (guarded TT S P), R, n.
    split; [|split; [|split; [|split]]].
    - rewrite E. rewrite <- !app_assoc. rewrite EX. rewrite <- !app_assoc. reflexivity.
    - apply (format_intro O T false); try assumption; apply blanks_app; assumption.
    - apply Hf.
    - intros ci f. unfold addressed, guarded. cbn [fmt_tag fmt_occ fmt_sub]. rewrite (Hm f), (HP ci f). reflexivity.
    - apply Hf.
  Qed.

  (** ** formats and paths *)
  Lemma code_frag : forall t R n, ex FkCode t R n -> exists C, codes_text t C.
  Proof.
    intros t R n H. remember FkCode as k eqn:Ek.
    destruct H as [tm m w1 tp pre tc C tb bound ts suf Hm W1 Hw Hp Hc Hb Hs HA
                   |k w1 tm m w2 e R n w3 w4 tb bound Hk H Hm W1 W2 Hw HA W3 W4 Hb Hw4| |]; try discriminate.
    - destruct tm; [|discriminate]. destruct tp; [|discriminate]. destruct tb; [|discriminate].
      destruct ts; [|discriminate]. rewrite (Hw eq_refl). cbn [app]. rewrite app_nil_r. eauto.
    - destruct k, tm, tb; discriminate.
  Qed.

  Lemma plain_columns : forall k t R n, is_plain k = true -> ex k t R n -> exists C, columns_text t [C].
  Proof.
    intros k t R n Hk H. destruct k; try discriminate.
    - apply code_frag in H as (C & HC). exists C. apply columns_plain, groups_one. exact HC.
    - remember FkCodes as k eqn:Ek.
      destruct H as [tm m w1 tp pre tc C tb bound ts suf Hm W1 Hw Hp Hc Hb Hs HA
                   |k w1 tm m w2 e R n w3 w4 tb bound Hk' H Hm W1 W2 Hw HA W3 W4 Hb Hw4| |]; try discriminate.
      + destruct tm, tp, tb, ts; discriminate.
      + destruct k, tm, tb; try discriminate. apply code_frag in H as (C & HC).
        rewrite (Hw eq_refl), (Hw4 eq_refl). cbn [app]. rewrite app_nil_r. exists C.
        apply columns_parens; try assumption. apply groups_one. exact HC.
  Qed.

  (** characters after the codes of a format that is no path *)
  Definition odd (r : bytes) : Prop := exists c r', skip_ws r = c :: r' /\ In c (lit "<.""'").
  Notation groups := (separated1 parse_codes (ws (ch 44))).

  Lemma odd_no_comma : forall r, odd r -> no_comma r.
  Proof.
    intros r (c & r' & E & Hc) r''. rewrite E. cbn in Hc.
    repeat (destruct Hc as [<-|Hc]; [discriminate|]). contradiction.
  Qed.
  Lemma odd_token : forall w c r, blanks w -> In c (lit "<.""'") -> odd (w ++ c :: r).
  Proof.
    intros w c r W Hc. exists c, r. split; [|exact Hc]. apply skip_to_token; [exact W|]. cbn in Hc.
    repeat (destruct Hc as [<-|Hc]; [notblank|]). contradiction.
  Qed.

  Lemma groups_stop : forall c r, ~ In c alnums -> c <> 91 -> c <> 42 -> groups (c :: r) = None.
  Proof. intros c r H1 H2 H3. apply groups_none; assumption. Qed.

  Lemma quote_not : forall q, q = 39 \/ q = 34 -> ~ In q alnums /\ q <> 91 /\ q <> 42 /\ q <> 40.
  Proof.
    intros q H. split; [apply not_alnum; destruct H as [-> | ->]; reflexivity|].
    destruct H as [-> | ->]; repeat split; discriminate.
  Qed.

  Lemma groups_frag : forall k t R n, ex k t R n -> forall rest, no_comma rest ->
    (k = FkCode -> exists l, groups (t ++ rest) = Some (l, rest))
    /\ (k <> FkCode -> groups (t ++ rest) = None \/ exists l r', groups (t ++ rest) = Some (l, r') /\ odd r').
  Proof.
    intros k t R n H.
    induction H as [tm m w1 tp pre tc C tb bound ts suf Hm W1 Hw Hp Hc Hb Hs HA
                   |k w1 tm m w2 e R n w3 w4 tb bound Hk H IH Hm W1 W2 Hw HA W3 W4 Hb Hw4
                   |k1 k2 t1 w1 w2 t2 R1 R2 n1 n2 K1 K2 H1 IH1 H2 IH2 W1 W2
                   |k1 k2 t1 w1 w2 t2 R1 R2 n1 n2 K1 H1 IH1 H2 IH2 W1 W2]; intros rest Hrest.
    - rewrite <- !app_assoc. split.
      + intros E. destruct tm; [|discriminate]. destruct tp; [|discriminate]. destruct tb; [|discriminate].
        destruct ts; [|discriminate]. rewrite (Hw eq_refl). cbn [app].
        destruct (groups_ok tc [C] rest (groups_one _ _ Hc) Hrest) as (l & El & _). eauto.
      + intros E. destruct (modifier_start tm m Hm) as [->|(t' & ->)].
        2:{ left. cbn [app]. apply groups_stop; [apply not_alnum; reflexivity|discriminate..]. }
        rewrite (Hw eq_refl). cbn [app]. destruct Hp as [|t v w Ht W].
        2:{ left. destruct (string_start t v Ht) as (q & t' & -> & Hq). cbn [app].
            destruct (quote_not q Hq) as (Q1 & Q2 & Q3 & _). apply groups_stop; assumption. }
        right. cbn [app].
        assert (Od : odd (tb ++ ts ++ rest)).
        { destruct Hb as [| |tn nb Hn]; [|apply (odd_token []); [constructor|cbn; tauto]..].
          cbn [app]. destruct Hs as [|w t v W Ht]; [contradiction E; reflexivity|].
          rewrite <- app_assoc. destruct (string_start t v Ht) as (q & t' & -> & Hq). cbn [app].
          apply odd_token; [exact W|]. destruct Hq as [-> | ->]; cbn; tauto. }
        destruct (groups_ok tc [C] (tb ++ ts ++ rest) (groups_one _ _ Hc) (odd_no_comma _ Od)) as (l & El & _).
        eauto.
    - split; [destruct k, tm, tb; discriminate|]. intros _. left.
      change (lit "(" ++ ?x) with (40 :: x). cbn [app].
      apply groups_stop; [apply not_alnum; reflexivity|discriminate..].
    - split; [discriminate|]. intros _. rewrite <- !app_assoc. change (lit "<$>" ++ ?x) with (60 :: 36 :: 62 :: x).
      assert (Od : odd (w1 ++ 60 :: 36 :: 62 :: w2 ++ t2 ++ rest)) by (apply odd_token; [exact W1|cbn; tauto]).
      destruct (IH1 _ (odd_no_comma _ Od)) as [I1 I2].
      assert (D : k1 = FkCode \/ k1 <> FkCode) by (destruct k1; auto; right; discriminate).
      destruct D as [D|D]; [|apply I2; exact D]. right. destruct (I1 D) as (l & El). eauto.
    - split; [discriminate|]. intros _. rewrite <- !app_assoc. change (lit "<*>" ++ ?x) with (60 :: 42 :: 62 :: x).
      assert (Od : odd (w1 ++ 60 :: 42 :: 62 :: w2 ++ t2 ++ rest)) by (apply odd_token; [exact W1|cbn; tauto]).
      destruct (IH1 _ (odd_no_comma _ Od)) as [I1 I2].
      assert (D : k1 = FkCode \/ k1 <> FkCode) by (destruct k1; auto; right; discriminate).
      destruct D as [D|D]; [|apply I2; exact D]. right. destruct (I1 D) as (l & El). eauto.
  Qed.

  Lemma columns_frag : forall k t R n, ex k t R n -> is_plain k = false -> forall rest, no_comma rest ->
    parse_path_codes (t ++ rest) = None \/ exists l r', parse_path_codes (t ++ rest) = Some (l, r') /\ odd r'.
  Proof.
    intros k t R n H.
    assert (Pl : forall k t R n rest, ex k t R n -> is_plain k = true -> odd rest ->
      exists l r', parse_path_codes (t ++ rest) = Some (l, r') /\ odd r').
    { clear. intros k t R n rest H Hk Od. destruct (plain_columns k t R n Hk H) as (C & HC).
      destruct (columns_ok t [C] rest HC (odd_no_comma _ Od)) as (l & r' & E & Er & _).
      exists l, r'. split; [exact E|]. unfold odd. rewrite Er. exact Od. }
    induction H as [tm m w1 tp pre tc C tb bound ts suf Hm W1 Hw Hp Hc Hb Hs HA
                   |k w1 tm m w2 e R n w3 w4 tb bound Hk H IH Hm W1 W2 Hw HA W3 W4 Hb Hw4
                   |k1 k2 t1 w1 w2 t2 R1 R2 n1 n2 K1 K2 H1 IH1 H2 IH2 W1 W2
                   |k1 k2 t1 w1 w2 t2 R1 R2 n1 n2 K1 H1 IH1 H2 IH2 W1 W2]; intros Hpl rest Hrest.
    - pose proof (frag_value T _ _ _ _ _ _ _ _ _ _ _ Hm W1 Hw Hp Hc Hb Hs HA) as He.
      destruct (groups_frag _ _ _ _ He rest Hrest) as [_ G].
      destruct G as [G|(l & r' & G & Od)].
      + intros E. rewrite E in Hpl. discriminate.
      + left. unfold parse_path_codes, alt. rewrite G. unfold delimited, preceded.
        destruct (frag_start T _ _ _ _ He) as (N1 & N2 & N3 & _).
        rewrite ws_ch_none; [reflexivity|]. intros i'. rewrite skip_ws_nonblank by (apply nonblank_app; assumption).
        apply N3; destruct tm, tp, tb, ts; reflexivity.
      + right. exists l, r'. split; [|exact Od]. unfold parse_path_codes, alt. rewrite G. reflexivity.
    - unfold parse_path_codes, alt. rewrite <- !app_assoc. change (lit "(" ++ ?x) with (40 :: x).
      rewrite groups_stop; [|apply not_alnum; reflexivity|discriminate..].
      unfold delimited, preceded. rewrite ws_ch_here by notblank. change (lit ")" ++ ?x) with (41 :: x).
      destruct (frag_start T k e R n H) as (N1 & N2 & _).
      assert (Nb : nonblank (tm ++ w2 ++ e ++ w3 ++ 41 :: w4 ++ tb ++ rest)).
      { destruct (modifier_start tm m Hm) as [->|(t' & ->)]; [|apply nonblank_cons; notblank].
        rewrite (Hw eq_refl). cbn [app]. apply nonblank_app; assumption. }
      rewrite skip_ws_blanks_nonblank; [|exact W1|exact Nb].
      destruct (modifier_start tm m Hm) as [->|(t' & ->)].
      2:{ left. cbn [app]. rewrite groups_stop; [reflexivity|apply not_alnum; reflexivity|discriminate..]. }
      rewrite (Hw eq_refl). cbn [app].
      assert (NC : no_comma (w3 ++ 41 :: w4 ++ tb ++ rest)).
      { intros r'. rewrite skip_to_token; [discriminate|exact W3|notblank]. }
      destruct (groups_frag k e R n H _ NC) as [G1 G2].
      assert (D : k = FkCode \/ k <> FkCode) by (destruct k; auto; right; discriminate).
      destruct D as [D|D].
      + destruct (G1 D) as (l & ->). right. unfold ws. rewrite skip_to_token; [|exact W3|notblank].
        rewrite ch_ok. exists l, (skip_ws (w4 ++ tb ++ rest)). split; [reflexivity|]. subst k.
        unfold odd. rewrite skip_ws_idem. change (odd (w4 ++ tb ++ rest)).
        destruct Hb as [| |tn nb Hn]; [discriminate|apply odd_token; [exact W4|cbn; tauto]..].
      + left. destruct (G2 D) as [->|(l & r' & -> & Od)]; [reflexivity|].
        rewrite ws_ch_none; [reflexivity|]. destruct Od as (c & r'' & E & Hc). intros i'. rewrite E.
        cbn in Hc. repeat (destruct Hc as [<-|Hc]; [discriminate|]). contradiction.
    - rewrite <- !app_assoc. change (lit "<$>" ++ ?x) with (60 :: 36 :: 62 :: x).
      assert (Od : odd (w1 ++ 60 :: 36 :: 62 :: w2 ++ t2 ++ rest)) by (apply odd_token; [exact W1|cbn; tauto]).
      destruct (is_plain k1) eqn:P1; [right; eapply Pl; eassumption|]. apply (IH1 eq_refl). apply odd_no_comma, Od.
    - rewrite <- !app_assoc. change (lit "<*>" ++ ?x) with (60 :: 42 :: 62 :: x).
      assert (Od : odd (w1 ++ 60 :: 42 :: 62 :: w2 ++ t2 ++ rest)) by (apply odd_token; [exact W1|cbn; tauto]).
      destruct (is_plain k1) eqn:P1; [right; eapply Pl; eassumption|]. apply (IH1 eq_refl). apply odd_no_comma, Od.
  Qed.

  (** a format that is more than a path is not read as a path *)
  Lemma path_rejects : forall k g t F R n r s, format_text O T true k g t F R n -> is_plain k = false ->
    parse_path O s (t ++ r) = (PErr, s).
  Proof.
    intros k g t F R n r s H Hk.
    destruct H as [k tt TT to S w1 w2 e R n w3 tg g P w4 HT HS W1 W2 He W3 HG W4].
    unfold parse_path, salt. unfold slift at 1. rewrite <- !app_assoc. change (lit "{" ++ ?x) with (123 :: x).
    change (lit "}" ++ ?x) with (125 :: x).
    pose proof (simple_fails [] tt TT to S w1 (w2 ++ e ++ w3 ++ tg ++ 125 :: w4 ++ r) ltac:(constructor) HT HS W1) as SF.
    cbn [app] in SF. rewrite SF.
    unfold parse_path_curly, staken, sws. rewrite skip_ws_nonblank by (apply (tag_nonblank _ TT); exact HT).
    destruct (tag_occ_ok tt TT to S (w1 ++ 123 :: w2 ++ e ++ w3 ++ tg ++ 125 :: w4 ++ r) HT HS)
      as (m & o & Em & Eo & Hm).
    { apply occ_stop_blanks; [exact W1|cbn; tauto]. }
    unfold sdelim. unfold sbind at 1, slift at 1. rewrite Em. unfold sbind at 1, slift at 1. rewrite Eo.
    unfold sbind at 1, slift at 1. rewrite ws_ch_ok; [|exact W1|notblank].
    destruct (frag_start T k e R n He) as (N1 & N2 & _).
    rewrite skip_ws_blanks_nonblank; [|exact W2|apply nonblank_app; assumption].
    destruct (guard_skip O w3 tg g P (w4 ++ r) W3 HG) as [SG SC].
    assert (NC : no_comma (w3 ++ tg ++ 125 :: w4 ++ r)) by (intros r'; rewrite SG; apply SC).
    unfold sbind at 1. unfold sbind at 1, slift at 1.
    destruct (columns_frag k e R n He Hk _ NC) as [->|(l & r' & -> & c & r'' & E & Hc)]; [reflexivity|].
    unfold smap at 1. unfold parse_condition, sopt, spreceded. unfold sbind at 1, slift at 1.
    rewrite ws_ch_none.
    - unfold sbind, slift. rewrite ws_ch_none; [reflexivity|]. intros i'. rewrite E. cbn in Hc.
      repeat (destruct Hc as [<-|Hc]; [discriminate|]). contradiction.
    - intros i'. rewrite E. cbn in Hc. repeat (destruct Hc as [<-|Hc]; [discriminate|]). contradiction.
  Qed.

  (** a format that is a path is read as a path *)
  Lemma path_accepts : forall k t F R n r s, format_text O T false k false t F R n -> is_plain k = true ->
    exists p, parse_path O s (t ++ r) = (POk p (skip_ws r), s).
  Proof.
    intros k t F R n r s H Hk. remember false as g eqn:Eg in H at 2.
    destruct H as [k tt TT to S w1 w2 e R n w3 tg g P w4 HT HS W1 W2 He W3 HG W4].
    destruct (plain_columns k e R n Hk He) as (C & HC).
    destruct HG as [|]; [|discriminate].
    destruct (curly_ok O [] tt TT to S w1 w2 e [C] w3 [] false (fun _ _ => True) w4 r s) as (p & E & _);
      try assumption; try constructor; [discriminate|]. exists p. exact E.
  Qed.
End Formats.

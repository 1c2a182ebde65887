(** * Grammar of queries; meanings of the texts *)

From Coq Require Import String.
From Verif Require Import Bytes Winnow RecordModel RecordSpec BaseProofs Utf8Model Utf8Spec
  TagOccModel TagOccSpec TagOccProofs StrParserModel StrSpec StrProofs MatcherModel StateParser
  MatcherParserModel MatcherSpec GrammarSpec GrammarExprProofs GrammarLeafProofs GrammarSingletonProofs
  GrammarCondProofs GrammarSubProofs GrammarFieldLeafProofs GrammarFieldProofs GrammarSoundProofs
  PathModel FmtModel QueryModel QuerySpec QueryProofs QueryExtraProofs QueryGrammarSpec PathGrammarProofs
  FmtGrammarProofs FmtReadProofs QueryGrammarProofs.

Lemma Forall2_iff : forall A B (R S : A -> B -> Prop) l k, (forall a b, R a b <-> S a b) ->
  Forall2 R l k <-> Forall2 S l k.
Proof. intros A B R S l k H. split; apply Forall2_impl; intros a b; apply H. Qed.

Section Queries.
  Variable O : oracles.
  Variable T : text_fns.

  (** ** meanings *)
  Lemma same_values : forall l C f vs, same_set l C ->
    values_of l f vs <-> picks (fun s => C (sf_code s)) sf_value (f_subfields f) vs.
  Proof. intros l C f vs H. apply picks_iff. intros x. apply H. Qed.

  Lemma path_lists_means : forall p F Cs ci r vs, path_means O p F Cs ->
    path_lists O ci p r vs <-> path_values_of F Cs ci r vs.
  Proof.
    intros p F Cs ci r vs [H1 H2]. unfold path_lists, path_values_of.
    assert (E : forall s : subfield, (exists codes, In codes (p_codes p) /\ In (sf_code s) codes)
              <-> exists C, In C Cs /\ C (sf_code s)).
    { intros s. clear H1. induction H2 as [|l C ls Cs Hl H2 IH].
      - split; intros (x & [] & _).
      - split; intros (x & [<-|Hx] & Hc).
        + exists C. split; [left; reflexivity|apply Hl; exact Hc].
        + destruct (proj1 IH) as (y & Hy & Hc'); [eauto|]. exists y. split; [right; exact Hy|exact Hc'].
        + exists l. split; [left; reflexivity|apply Hl; exact Hc].
        + destruct (proj2 IH) as (y & Hy & Hc'); [eauto|]. exists y. split; [right; exact Hy|exact Hc']. }
    split; intros (fs & vss & A1 & A2 & ->); exists fs, vss; (split; [|split; [|reflexivity]]).
    - eapply picks_weaken; [|exact A1]. intros f. apply H1.
    - eapply Forall2_impl; [|exact A2]. intros f vs. apply (proj1 (picks_iff _ _ _ _ _ _ _ E)).
    - eapply picks_weaken; [|exact A1]. intros f. symmetry. apply H1.
    - eapply Forall2_impl; [|exact A2]. intros f vs. apply (proj2 (picks_iff _ _ _ _ _ _ _ E)).
  Qed.

  Lemma format_lists_means : forall fm F R strip ci r outs, format_means O T fm F R ->
    format_lists O ci T strip fm r outs <-> format_outputs F R strip ci r outs.
  Proof.
    intros fm F R strip ci r outs (_ & H1 & H2). unfold format_lists, format_outputs.
    split; intros (fs & ts & A1 & A2 & A3); exists fs, ts; (split; [|split; [|exact A3]]).
    - eapply picks_weaken; [|exact A1]. intros f. apply H1.
    - eapply Forall2_impl; [|exact A2]. intros f t. apply H2.
    - eapply picks_weaken; [|exact A1]. intros f. symmetry. apply H1.
    - eapply Forall2_impl; [|exact A2]. intros f t. apply H2.
  Qed.

  Definition qf_means (q : qfragment) (cM : nat * qmeaning) : Prop :=
    columns q = fst cM /\ forall qo r rows, rows_of O T qo q r rows <-> snd cM qo r rows.

  Lemma columns_means : forall qo f ls Cs cols, Forall2 same_set ls Cs ->
    Forall2 (column_entries qo f) ls cols <-> Forall2 (entries qo f) Cs cols.
  Proof.
    intros qo f ls Cs cols H.
    assert (E : forall l C es, same_set l C -> column_entries qo f l es <-> entries qo f C es).
    { intros l C es Hl. unfold column_entries, entries.
      split; intros (vs & A & B); exists vs; (split; [|exact B]); apply (same_values l C f vs Hl); exact A. }
    revert cols. induction H as [|l C ls Cs Hl H IH]; intros cols.
    - split; intros A; inversion A; constructor.
    - split; intros A; inversion A; subst; constructor; try (apply IH; assumption); apply (E l C); assumption.
  Qed.

  Lemma path_rows_means : forall p F Cs, path_means O p F Cs -> qf_means (QPath p) (length Cs, path_rows F Cs).
  Proof.
    intros p F Cs [H1 H2]. pose proof (Forall2_len _ _ _ _ _ H2) as HL. split; [exact HL|].
    intros qo r rows. cbn [rows_of snd]. unfold path_rows, field_rows.
    split; intros (fs & rss & A1 & A2 & ->); exists fs, rss; (split; [|split; [|rewrite HL; reflexivity]]).
    - eapply picks_weaken; [|exact A1]. intros f. apply H1.
    - eapply Forall2_impl; [|exact A2]. intros f rs (cols & B & ->). exists cols. split; [|reflexivity].
      apply (columns_means qo f (p_codes p) Cs cols H2). exact B.
    - eapply picks_weaken; [|exact A1]. intros f. symmetry. apply H1.
    - eapply Forall2_impl; [|exact A2]. intros f rs (cols & B & ->). exists cols. split; [|reflexivity].
      apply (columns_means qo f (p_codes p) Cs cols H2). exact B.
  Qed.

  Lemma format_rows_means : forall fm F R, format_means O T fm F R ->
    qf_means (QFormat fm) (1%nat, fun qo r rows => exists outs, format_outputs F R false (qo_case_ignore qo) r outs
           /\ rows = map (fun t => [t]) (or_empty outs)).
  Proof.
    intros fm F R H. split; [reflexivity|]. intros qo r rows. cbn [rows_of snd].
    split; intros (outs & A & ->); exists outs; (split; [|reflexivity]);
      apply (format_lists_means fm F R _ _ _ _ H); exact A.
  Qed.

  Lemma query_means : forall qs Ms qo r ts, Forall2 qf_means qs Ms ->
    Forall2 (fun fr t => final_rows O T qo fr r t) qs ts <->
    Forall2 (fun cM t => exists rows0, snd cM qo r rows0
                          /\ if qo_merge qo then merged qo (fst cM) rows0 t else t = rows0) Ms ts.
  Proof.
    intros qs Ms qo r ts H.
    assert (E : forall q cM t, qf_means q cM -> final_rows O T qo q r t <-> exists rows0, snd cM qo r rows0
                          /\ if qo_merge qo then merged qo (fst cM) rows0 t else t = rows0).
    { intros q cM t [H1 H2]. unfold final_rows. rewrite H1.
      split; intros (rows0 & A & B); exists rows0; (split; [apply H2; exact A|exact B]). }
    revert ts. induction H as [|q cM qs Ms Hq H IH]; intros ts.
    - split; intros A; inversion A; constructor.
    - split; intros A; inversion A; subst; constructor; try (apply IH; assumption); apply (E q cM); assumption.
  Qed.

  (** ** fragments *)
  Lemma quote_no_path : forall q t s, q = 39 \/ q = 34 -> parse_path O s (q :: t) = (PErr, s).
  Proof.
    intros q t s Hq. assert (Hn : ~ In q (lit "012.[")) by (destruct Hq as [-> | ->]; cbn; intuition discriminate).
    assert (Nb : nonblank (q :: t)) by (apply nonblank_cons; destruct Hq as [-> | ->]; notblank).
    unfold parse_path, salt, slift, parse_path_simple, ws. rewrite skip_ws_nonblank by exact Nb.
    rewrite tag_fails by exact Hn. unfold parse_path_curly, staken, sws, sbind, slift.
    rewrite skip_ws_nonblank by exact Nb. rewrite tag_fails by exact Hn. reflexivity.
  Qed.

  Lemma tag_no_string : forall t P r, tag_matcher_text t P -> parse_string (t ++ r) = None.
  Proof.
    intros t P r H. destruct (tag_start _ _ H) as (c & t' & -> & Hc). cbn [app]. cbn in Hc.
    apply string_none; repeat (destruct Hc as [<-|Hc]; [discriminate|]); contradiction.
  Qed.

  Lemma qfragment_ok : forall t c M n r s, fragment_text O T true t c M n -> lv_sub s = 0 -> lv_fmt s + n < 32 ->
    exists q r', parse_qfragment O s (t ++ r) = (POk q r', s) /\ qf_means q (c, M)
      /\ skip_ws r' = skip_ws r /\ (length r' <= length r)%nat.
  Proof.
    intros t c M n r s H Hs Hn. destruct H as [t F Cs H|t v H|k g t F R n H Hk].
    - destruct (path_ok O t F Cs r s H Hs) as (p & E & Hp). exists (QPath p), (skip_ws r).
      unfold parse_qfragment, salt, smap. rewrite E, skip_ws_idem.
      split; [reflexivity|]. split; [apply path_rows_means; exact Hp|]. auto using skip_ws_length.
    - exists (QLiteral v), r. unfold parse_qfragment, salt, smap, slift, pmap.
      destruct (string_start t v H) as (q & t' & Et & Hq).
      replace (parse_path O s (t ++ r)) with (@PErr path, s)
        by (rewrite Et; symmetry; apply quote_no_path; exact Hq).
      rewrite (proj2 (string_iff _ v r)); [|eauto]. split; [reflexivity|]. split; [|auto].
      split; [reflexivity|]. intros qo r0 rows. reflexivity.
    - destruct Hk as [Hk|[F0 _]]; [|discriminate].
      destruct (format_ok O T k g t F R n r s H (fun _ => Hs) Hn) as (f & E & Hf). exists (QFormat f), (skip_ws r).
      unfold parse_qfragment, salt, smap, slift, pmap. rewrite (path_rejects O T k g t F R n r s H Hk), E, skip_ws_idem.
      replace (parse_string (t ++ r)) with (@None (bytes * bytes)).
      + split; [reflexivity|]. split; [apply format_rows_means; exact Hf|]. auto using skip_ws_length.
      + symmetry. destruct H as [k tt TT to S w1 w2 e R n w3 tg g P w4 HT HS W1 W2 He W3 HG W4].
        rewrite <- app_assoc. apply (tag_no_string _ TT). exact HT.
  Qed.

  Lemma qfragment_read : forall s i q r s', parse_qfragment O s i = (POk q r, s') ->
    exists t c M n, i = t ++ r /\ fragment_text O T false t c M n /\ qf_means q (c, M).
  Proof.
    intros s i q r s' H. unfold parse_qfragment, salt, smap, slift, pmap in H.
    destruct (parse_path O s i) as [[p r1| |] s1] eqn:E1; try discriminate.
    - injection H as <- <- _. destruct (path_read O _ _ _ _ _ E1) as (t & F & Cs & -> & Ht & Hp).
      exists t, (length Cs), (path_rows F Cs), 0. split; [reflexivity|]. split; [apply fragment_path; exact Ht|].
      apply path_rows_means. exact Hp.
    - destruct (parse_string i) as [[v r2]|] eqn:E2.
      + injection H as <- <- _. apply string_iff in E2 as (t & -> & Ht).
        exists t, 1%nat, (fun _ _ rows => rows = [[v]]), 0. split; [reflexivity|].
        split; [apply fragment_literal; exact Ht|]. split; [reflexivity|]. intros qo r0 rows. reflexivity.
      + destruct (parse_format O s1 i) as [[f r3| |] s3] eqn:E3; try discriminate. injection H as <- <- _.
        destruct (format_read O T _ _ _ _ _ E3) as (k & g & t & F & R & n & -> & Ht & Hf).
        eexists t, 1%nat, _, n. split; [reflexivity|]. split; [|apply format_rows_means; exact Hf].
        apply (fragment_format O T false k g); [exact Ht|]. destruct (is_plain k) eqn:Hk; [|left; reflexivity].
        right. split; [reflexivity|]. destruct g; [reflexivity|exfalso].
        destruct (path_accepts O T k t F R n r3 s Ht Hk) as (p & E). rewrite E in E1. discriminate.
  Qed.

  (** the text of a fragment without the blanks before it *)
  Lemma fragment_trim : forall strict t c M n, fragment_text O T strict t c M n ->
    exists w t', t = w ++ t' /\ blanks w /\ t' <> [] /\ nonblank t' /\ fragment_text O T strict t' c M n.
  Proof.
    intros strict t c M n H. destruct H as [t F Cs H|t v H|k g t F R n H Hk].
    - assert (G : exists w t', t = w ++ t' /\ blanks w /\ t' <> [] /\ nonblank t' /\ path_text O strict t' F Cs).
      { destruct H as [w1 tt TT to S tc C w2 W1 HT HS HC W2
                      |w1 tt TT to S w2 w3 tc Cs w4 tg g P w5 W1 HT HS W2 W3 HC W4 HG W5].
        - exists w1, ([] ++ tt ++ to ++ lit "." ++ tc ++ w2). split; [reflexivity|]. split; [exact W1|].
          split; [destruct (tag_start _ _ HT) as (d & t' & -> & _); discriminate|].
          split; [cbn [app]; apply (tag_nonblank _ TT); exact HT|]. apply path_dot; try assumption. constructor.
        - exists w1, ([] ++ tt ++ to ++ w2 ++ lit "{" ++ w3 ++ tc ++ w4 ++ tg ++ lit "}" ++ w5).
          split; [reflexivity|]. split; [exact W1|].
          split; [destruct (tag_start _ _ HT) as (d & t' & -> & _); discriminate|].
          split; [cbn [app]; apply (tag_nonblank _ TT); exact HT|].
          apply (path_braces O strict) with (g := g); try assumption. constructor. }
      destruct G as (w & t' & E & W & N1 & N2 & Ht). exists w, t'. do 4 (split; [assumption|]).
      apply fragment_path. exact Ht.
    - destruct (string_nonblank t v H) as [N1 N2]. exists [], t. split; [reflexivity|]. split; [constructor|].
      split; [exact N1|]. split; [exact N2|]. apply fragment_literal. exact H.
    - exists [], t. split; [reflexivity|]. split; [constructor|].
      pose proof H as H0. destruct H0 as [k tt TT to S w1 w2 e R n w3 tg g P w4 HT HS W1 W2 He W3 HG W4].
      split; [destruct (tag_start _ _ HT) as (d & t' & -> & _); discriminate|].
      split; [apply (tag_nonblank _ TT); exact HT|]. apply (fragment_format O T strict k g); assumption.
  Qed.

  (** ** queries *)
  Lemma rest_ok : forall ts Ms m, query_text O T true ts Ms m -> forall r w i fuel s,
    no_comma r -> blanks w -> skip_ws i = 44 :: w ++ ts ++ r -> (length i < fuel)%nat ->
    lv_sub s = 0 -> lv_fmt s + m < 32 ->
    exists l r', ssep_rest_fuel fuel (parse_qfragment O) (ws (ch 44)) s i = (POk l r', s)
      /\ Forall2 qf_means l Ms /\ skip_ws r' = skip_ws r /\ (length r' <= length r)%nat.
  Proof.
    intros ts Ms m H.
    assert (Sep : forall i w t r, blanks w -> t <> [] -> nonblank t -> skip_ws i = 44 :: w ++ t ++ r ->
      ws (ch 44) i = Some (44, t ++ r) /\ Nat.eqb (length (t ++ r)) (length i) = false
      /\ (length (t ++ r) < length i)%nat).
    { clear. intros i w t r W N1 N2 E. unfold ws. rewrite E, ch_ok.
      rewrite skip_ws_blanks_nonblank; [|exact W|apply nonblank_app; assumption]. split; [reflexivity|].
      destruct (skip_ws_split i) as (v & V & Ev). rewrite E in Ev. rewrite Ev. split; [apply Nat.eqb_neq|]; lens. }
    induction H as [t c M n H|t c M n w1 w2 ts Ms m H W1 W2 Hs IH]; intros r w i fuel s Hr W Ei Hf Ls Lf.
    - destruct (fragment_trim _ _ _ _ _ H) as (v & t' & -> & V & N1 & N2 & Ht).
      destruct fuel as [|fuel]; [lia|]. cbn [ssep_rest_fuel].
      assert (E1 : skip_ws i = 44 :: (w ++ v) ++ t' ++ r) by (rewrite Ei, <- !app_assoc; reflexivity).
      destruct (Sep i (w ++ v) t' r ltac:(apply blanks_app; assumption) N1 N2 E1) as (-> & -> & Hl).
      destruct (qfragment_ok t' c M n r s Ht Ls Lf) as (q & r' & -> & Hq & Hr' & Hlen).
      destruct fuel as [|fuel].
      { exfalso. lia. }
      cbn [ssep_rest_fuel]. rewrite ws_ch_none by (intros x; rewrite Hr'; apply Hr).
      exists [q], r'. auto.
    - destruct (fragment_trim _ _ _ _ _ H) as (v & t' & -> & V & N1 & N2 & Ht).
      destruct fuel as [|fuel]; [lia|]. cbn [ssep_rest_fuel].
      assert (E1 : skip_ws i = 44 :: (w ++ v) ++ t' ++ w1 ++ 44 :: w2 ++ ts ++ r).
      { rewrite Ei, <- !app_assoc. reflexivity. }
      destruct (Sep i (w ++ v) t' _ ltac:(apply blanks_app; assumption) N1 N2 E1) as (-> & -> & Hl).
      destruct (qfragment_ok t' c M n (w1 ++ 44 :: w2 ++ ts ++ r) s Ht Ls ltac:(lia)) as (q & r' & -> & Hq & Hr' & Hlen).
      destruct (IH r w2 r' fuel s Hr W2) as (l & r'' & -> & Hl' & Hr'' & Hlen').
      + rewrite Hr'. apply skip_to_token; [exact W1|notblank].
      + rewrite app_length in Hl. lia.
      + exact Ls.
      + lia.
      + exists (q :: l), r''. auto.
  Qed.

  Lemma query_ok : forall t Ms n s, query_text O T true t Ms n -> lv_sub s = 0 -> lv_fmt s + n < 32 ->
    exists q, query_new O s t = (Some (Some q), s) /\ Forall2 qf_means (q_fragments q) Ms.
  Proof.
    intros t Ms n s H Ls Lf.
    assert (G : exists l, sseparated1 (parse_qfragment O) (ws (ch 44)) s t = (POk l [], s) /\ Forall2 qf_means l Ms).
    { unfold sseparated1, sbind, smap. destruct H as [t c M n H|t c M n w1 w2 ts Ms m H W1 W2 Hs].
      - destruct (qfragment_ok t c M n [] s H Ls Lf) as (q & r' & E & Hq & _ & Hlen).
        rewrite app_nil_r in E. rewrite E. destruct r'; [|cbn in Hlen; lia]. exists [q]. split; [reflexivity|auto].
      - destruct (qfragment_ok t c M n (w1 ++ 44 :: w2 ++ ts) s H Ls ltac:(lia)) as (q & r' & E & Hq & Hr' & Hlen).
        change (lit "," ++ w2 ++ ts) with (44 :: w2 ++ ts). rewrite E.
        destruct (rest_ok ts Ms m Hs [] w2 r' (S (length r')) s) as (l & r'' & E' & Hl & _ & Hlen').
        + intros r0. discriminate.
        + exact W2.
        + rewrite Hr', app_nil_r. apply skip_to_token; [exact W1|notblank].
        + lia.
        + exact Ls.
        + lia.
        + rewrite E'. destruct r''; [|cbn in Hlen'; lia]. exists (q :: l). split; [reflexivity|auto]. }
    destruct G as (l & E & Hl). unfold query_new, sparse_all, parse_query, staken. rewrite E.
    eexists. split; [reflexivity|exact Hl].
  Qed.

  Lemma rest_read : forall fuel s i l r s', ssep_rest_fuel fuel (parse_qfragment O) (ws (ch 44)) s i = (POk l r, s') ->
    (l = [] /\ r = i) \/ exists w1 w2 ts Ms m, blanks w1 /\ blanks w2 /\ i = w1 ++ 44 :: w2 ++ ts ++ r
        /\ query_text O T false ts Ms m /\ Forall2 qf_means l Ms.
  Proof.
    induction fuel as [|fuel IH]; intros s i l r s' E; [discriminate|]. cbn [ssep_rest_fuel] in E.
    destruct (ws (ch 44) i) as [[y r1]|] eqn:E1.
    2:{ injection E as <- <- _. left. auto. }
    destruct (Nat.eqb (length r1) (length i)); [discriminate|].
    destruct (parse_qfragment O s r1) as [[a r2| |] s2] eqn:E2; try discriminate.
    2:{ injection E as <- <- _. left. auto. }
    destruct (ssep_rest_fuel fuel (parse_qfragment O) (ws (ch 44)) s2 r2) as [[l' r3| |] s3] eqn:E3; try discriminate.
    injection E as <- <- _. right.
    apply ws_ch_inv in E1 as (w1 & w2 & W1 & W2 & -> & _).
    destruct (qfragment_read _ _ _ _ _ E2) as (t & c & M & n & -> & Ht & Hq).
    apply IH in E3 as [[-> <-]|(v1 & v2 & ts & Ms & m & V1 & V2 & -> & HC & Hl)].
    - exists w1, w2, t, [(c, M)], n. do 2 (split; [assumption|]). split; [reflexivity|].
      split; [apply query_one; exact Ht|auto].
    - exists w1, w2, (t ++ v1 ++ lit "," ++ v2 ++ ts), ((c, M) :: Ms), (N.max n m).
      do 2 (split; [assumption|]). split; [rewrite <- !app_assoc; reflexivity|].
      split; [apply query_more; assumption|auto].
  Qed.

  Lemma query_read : forall s t q s', query_new O s t = (Some (Some q), s') ->
    exists Ms n, query_text O T false t Ms n /\ Forall2 qf_means (q_fragments q) Ms.
  Proof.
    intros s t q s' H. unfold query_new, sparse_all, parse_query, staken in H.
    unfold sseparated1, sbind, smap in H.
    destruct (parse_qfragment O s t) as [[a r1| |] s1] eqn:E1; try discriminate.
    destruct (ssep_rest_fuel (S (length r1)) (parse_qfragment O) (ws (ch 44)) s1 r1) as [[l r2| |] s2] eqn:E2;
      try discriminate.
    destruct r2; [|discriminate]. injection H as <- _. cbn [q_fragments].
    destruct (qfragment_read _ _ _ _ _ E1) as (t' & c & M & n & -> & Ht & Hq).
    apply rest_read in E2 as [[-> <-]|(v1 & v2 & ts & Ms & m & V1 & V2 & -> & HC & Hl)].
    - rewrite app_nil_r. exists [(c, M)], n. split; [apply query_one; exact Ht|auto].
    - exists ((c, M) :: Ms), (N.max n m). split; [|auto]. rewrite app_nil_r.
      apply (query_more O T false t' c M n v1 v2 ts Ms m); assumption.
  Qed.

  (** ** the claims *)
  Lemma path_answers : forall p F Cs s t s' ci r, path_means O p F Cs -> regexes_compile O ci ->
    path_new O s t = (Some (Some p), s') ->
    exists vs, record_path O ci p r = Some vs /\ forall vs', path_values_of F Cs ci r vs' <-> vs' = vs.
  Proof.
    intros p F Cs s t s' ci r Hp HR E. destruct (path_exact O ci s t p s' HR E r) as (vs & A1 & _ & A2).
    exists vs. split; [exact A1|]. intros vs'. rewrite <- (A2 vs'). symmetry. apply path_lists_means. exact Hp.
  Qed.

  Lemma path_complete : forall t F Cs s, path_text O true t F Cs -> lv_sub s = 0 ->
    exists p, path_new O s t = (Some (Some p), s)
      /\ forall ci r, regexes_compile O ci ->
           exists vs, record_path O ci p r = Some vs /\ forall vs', path_values_of F Cs ci r vs' <-> vs' = vs.
  Proof.
    intros t F Cs s H Hs. destruct (path_ok O t F Cs [] s H Hs) as (p & E & Hp). rewrite app_nil_r in E.
    exists p. assert (E' : path_new O s t = (Some (Some p), s)).
    { unfold path_new, sparse_all. rewrite E. reflexivity. }
    split; [exact E'|]. intros ci r HR. eapply path_answers; eassumption.
  Qed.

  Lemma path_sound : forall s t p s', path_new O s t = (Some (Some p), s') ->
    exists F Cs, path_text O false t F Cs
      /\ forall ci r, regexes_compile O ci ->
           exists vs, record_path O ci p r = Some vs /\ forall vs', path_values_of F Cs ci r vs' <-> vs' = vs.
  Proof.
    intros s t p s' E. pose proof E as E0. unfold path_new, sparse_all in E0.
    destruct (parse_path O s t) as [[a [|]| |] s1] eqn:E1; try discriminate. injection E0 as -> _.
    destruct (path_read O _ _ _ _ _ E1) as (t' & F & Cs & Et & Ht & Hp). rewrite app_nil_r in Et. subst t'.
    exists F, Cs. split; [exact Ht|]. intros ci r HR. eapply path_answers; eassumption.
  Qed.

  Lemma format_answers : forall f F R s t s' strip ci r, format_means O T f F R -> regexes_compile O ci ->
    format_new O s t = (Some (Some f), s') ->
    exists outs, record_format O T strip ci f r = Some outs
      /\ forall outs', format_outputs F R strip ci r outs' <-> outs' = outs.
  Proof.
    intros f F R s t s' strip ci r Hf HR E. destruct (format_exact O T strip ci s t f s' HR E r) as (vs & A1 & A2).
    exists vs. split; [exact A1|]. intros vs'. rewrite <- (A2 vs'). symmetry. apply format_lists_means. exact Hf.
  Qed.

  Lemma format_complete : forall k g t F R n s, format_text O T true k g t F R n ->
    lv_sub s = 0 -> lv_fmt s + n < 32 ->
    exists f, format_new O s t = (Some (Some f), s)
      /\ forall strip ci r, regexes_compile O ci ->
           exists outs, record_format O T strip ci f r = Some outs
             /\ forall outs', format_outputs F R strip ci r outs' <-> outs' = outs.
  Proof.
    intros k g t F R n s H Hs Hn. destruct (format_ok O T k g t F R n [] s H (fun _ => Hs) Hn) as (f & E & Hf).
    rewrite app_nil_r in E. exists f. assert (E' : format_new O s t = (Some (Some f), s)).
    { unfold format_new, sparse_all. rewrite E. reflexivity. }
    split; [exact E'|]. intros strip ci r HR. eapply format_answers; eassumption.
  Qed.

  Lemma format_sound : forall s t f s', format_new O s t = (Some (Some f), s') ->
    exists k g F R n, format_text O T false k g t F R n
      /\ forall strip ci r, regexes_compile O ci ->
           exists outs, record_format O T strip ci f r = Some outs
             /\ forall outs', format_outputs F R strip ci r outs' <-> outs' = outs.
  Proof.
    intros s t f s' E. pose proof E as E0. unfold format_new, sparse_all in E0.
    destruct (parse_format O s t) as [[a [|]| |] s1] eqn:E1; try discriminate. injection E0 as -> _.
    destruct (format_read O T _ _ _ _ _ E1) as (k & g & t' & F & R & n & Et & Ht & Hf). rewrite app_nil_r in Et. subst t'.
    exists k, g, F, R, n. split; [exact Ht|]. intros strip ci r HR. eapply format_answers; eassumption.
  Qed.

  Lemma query_answers : forall q Ms s t s' qo r, Forall2 qf_means (q_fragments q) Ms ->
    regexes_compile O (qo_case_ignore qo) -> query_new O s t = (Some (Some q), s') ->
    exists rows, record_query O T qo q r = Some rows /\ forall rows', query_rows Ms qo r rows' <-> rows' = rows.
  Proof.
    intros q Ms s t s' qo r Hq HR E. destruct (query_product O T qo s t q s' HR E r) as (ts & A1 & A2).
    exists (lex_product ts). split; [exact A2|]. intros rows'. split.
    - intros (ts' & B & ->). f_equal. apply (query_means _ _ qo r ts' Hq) in B.
      eapply Forall2_det; [|exact B|exact A1]. intros x a b. apply final_rows_fun.
    - intros ->. exists ts. split; [|reflexivity]. apply (query_means _ _ qo r ts Hq). exact A1.
  Qed.

  Lemma query_complete : forall t Ms n s, query_text O T true t Ms n -> lv_sub s = 0 -> lv_fmt s + n < 32 ->
    exists q, query_new O s t = (Some (Some q), s)
      /\ forall qo r, regexes_compile O (qo_case_ignore qo) ->
           exists rows, record_query O T qo q r = Some rows
             /\ forall rows', query_rows Ms qo r rows' <-> rows' = rows.
  Proof.
    intros t Ms n s H Hs Hn. destruct (query_ok t Ms n s H Hs Hn) as (q & E & Hq).
    exists q. split; [exact E|]. intros qo r HR. eapply query_answers; eassumption.
  Qed.

  Lemma query_sound : forall s t q s', query_new O s t = (Some (Some q), s') ->
    exists Ms n, query_text O T false t Ms n
      /\ forall qo r, regexes_compile O (qo_case_ignore qo) ->
           exists rows, record_query O T qo q r = Some rows
             /\ forall rows', query_rows Ms qo r rows' <-> rows' = rows.
  Proof.
    intros s t q s' E. destruct (query_read _ _ _ _ E) as (Ms & n & Ht & Hq).
    exists Ms, n. split; [exact Ht|]. intros qo r HR. eapply query_answers; eassumption.
  Qed.
End Queries.

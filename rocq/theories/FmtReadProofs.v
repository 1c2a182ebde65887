(** * Grammar of formats: what the parser of fragments reads belongs to the language *)

From Coq Require Import String.
From Verif Require Import Bytes Winnow RecordModel RecordSpec BaseProofs Utf8Model Utf8Spec
  TagOccModel TagOccSpec TagOccProofs StrParserModel StrSpec StrProofs MatcherModel StateParser
  MatcherParserModel MatcherSpec GrammarSpec GrammarExprProofs GrammarLeafProofs GrammarSingletonProofs
  GrammarCondProofs GrammarSubProofs GrammarFieldLeafProofs GrammarFieldProofs GrammarSoundProofs
  PathModel FmtModel QueryModel QuerySpec QueryProofs QueryGrammarSpec PathGrammarProofs FmtGrammarProofs.

Section Reads.
  Variable T : text_fns.
  Notation ex := (frag_expr T).
  Notation fmeans := (frag_means T).
  Notation fm := (fm T).

  (** a text that begins with "?" begins with a modifier *)
  Lemma frag_question : forall k t R n, ex k t R n -> begins (lit "?") t ->
    exists c t', t = 63 :: c :: t' /\ In c modifier_letters.
  Proof.
    intros k t R n H.
    induction H as [tm m w1 tp pre tc C tb bound ts suf Hm W1 Hw Hp Hc Hb Hs HA
                   |k w1 tm m w2 e R n w3 w4 tb bound Hk H IH Hm W1 W2 Hw HA W3 W4 Hb Hw4
                   |k1 k2 t1 w1 w2 t2 R1 R2 n1 n2 K1 K2 H1 IH1 H2 IH2 W1 W2
                   |k1 k2 t1 w1 w2 t2 R1 R2 n1 n2 K1 H1 IH1 H2 IH2 W1 W2]; intros (c & t' & E & Hc').
    - cbn in Hc'. destruct Hc' as [<-|[]]. destruct Hm as [|l m Hne Hl Hm].
      + exfalso. rewrite (Hw eq_refl) in E. cbn [app] in E. rewrite app_assoc in E.
        destruct (prefix_start tp pre tc C Hp Hc) as (c0 & t0 & E0 & B0 & N40 & N63).
        rewrite E0 in E. injection E as E _. contradiction.
      + destruct l as [|c l]; [contradiction|]. inversion Hl; subst. eexists c, _. split; [reflexivity|assumption].
    - cbn in Hc'. destruct Hc' as [<-|[]]. discriminate.
    - destruct (frag_start T _ _ _ _ H1) as (N1 & _). destruct t1 as [|c1 t1]; [contradiction|].
      cbn in E. injection E as -> _. destruct IH1 as (d & t'' & E & Hd); [exists c, t1; auto|].
      injection E as -> ->. eexists d, _. split; [reflexivity|exact Hd].
    - destruct (frag_start T _ _ _ _ H1) as (N1 & _). destruct t1 as [|c1 t1]; [contradiction|].
      cbn in E. injection E as -> _. destruct IH1 as (d & t'' & E & Hd); [exists c, t1; auto|].
      injection E as -> ->. eexists d, _. split; [reflexivity|exact Hd].
  Qed.

  (** what is read, between blanks *)
  Definition reads (p : sparser fragments) (K : fkind -> Prop) : Prop :=
    forall s i fr r s', p s i = (POk fr r, s') ->
      exists w t w' k R n, blanks w /\ blanks w' /\ i = w ++ t ++ w' ++ r /\ K k /\ ex k t R n /\ fmeans k fr R.

  Lemma reads_weaken : forall p (K K' : fkind -> Prop), (forall k, K k -> K' k) -> reads p K -> reads p K'.
  Proof.
    intros p K K' HK H s i fr r s' E. destruct (H s i fr r s' E) as (w & t & w' & k & R & n & A1 & A2 & A3 & A4 & A5).
    exists w, t, w', k, R, n. do 3 (split; [assumption|]). auto.
  Qed.
  Lemma reads_alt : forall p q K, reads p K -> reads q K -> reads (salt p q) K.
  Proof.
    intros p q K Hp Hq s i fr r s' E. unfold salt in E.
    destruct (p s i) as [[a r1| |] s1] eqn:E1; try discriminate.
    - injection E as -> -> _. apply (Hp _ _ _ _ _ E1).
    - apply (Hq _ _ _ _ _ E).
  Qed.
  Lemma reads_sws : forall p K, reads p K -> reads (sws p) K.
  Proof.
    intros p K H s i fr r s' E. unfold sws in E.
    destruct (p s (skip_ws i)) as [[a r1| |] s1] eqn:E1; try discriminate. injection E as -> <- _.
    destruct (H _ _ _ _ _ E1) as (w & t & w' & k & R & n & W & W' & Ei & HK & He).
    destruct (skip_ws_split i) as (u & U & Eu). destruct (skip_ws_split r1) as (v & V & Ev).
    exists (u ++ w), t, (w' ++ v), k, R, n. split; [apply blanks_app; assumption|]. split; [apply blanks_app; assumption|].
    split; [|auto]. rewrite Eu, Ei. rewrite Ev at 1. rewrite <- !app_assoc. reflexivity.
  Qed.

  Lemma value_reads : reads (slift parse_value) (fun k => is_item k = true /\ is_group k = false).
  Proof.
    intros s i fr r s' E. unfold slift in E. destruct (parse_value i) as [[a r0]|] eqn:E0; [|discriminate].
    injection E as -> -> _. unfold parse_value in E0. unfold ws at 1 in E0.
    destruct (parse_modifier (skip_ws i)) as [[m r1]|] eqn:E1; [|discriminate].
    destruct (opt (ws parse_string) (skip_ws r1)) as [[pre r2]|] eqn:E2; [|discriminate].
    destruct (parse_codes r2) as [[codes r3]|] eqn:E3; [|discriminate].
    destruct (parse_bound 1 r3) as [[bound r4]|] eqn:E4; [|discriminate].
    destruct (opt (ws parse_string) r4) as [[suf r5]|] eqn:E5; [|discriminate]. injection E0 as <- <-.
    destruct (skip_ws_split i) as (w & W & Ew). destruct (skip_ws_split r1) as (w1 & W1 & Ew1).
    apply modifier_inv in E1 as (tm & Em & Hm & HL & HQ).
    apply codes_inv in E3 as (tc & C & -> & Hc & Hl). apply bound_inv in E4 as (tb & -> & Hb).
    assert (Hp : exists tp, skip_ws r1 = tp ++ tc ++ tb ++ r4 /\ prefix_text tp (opt_text pre)).
    { unfold opt, ws in E2. rewrite skip_ws_idem in E2.
      destruct (parse_string (skip_ws r1)) as [[v r6]|] eqn:E6.
      - injection E2 as <- E2. apply string_iff in E6 as (t & -> & Ht).
        destruct (skip_ws_split r6) as (v' & V & Ev). rewrite E2 in Ev. exists (t ++ v').
        split; [rewrite Ev, <- app_assoc; reflexivity|]. cbn [opt_text]. apply prefix_some; assumption.
      - injection E2 as <- E2. exists []. split; [exact E2|constructor]. }
    destruct Hp as (tp & Etp & Hp).
    assert (Hs : exists ts w', blanks w' /\ r4 = ts ++ w' ++ r5 /\ suffix_text ts (opt_text suf)).
    { unfold opt, ws in E5. destruct (skip_ws_split r4) as (v & V & Ev).
      destruct (parse_string (skip_ws r4)) as [[x r6]|] eqn:E6.
      - injection E5 as <- E5. apply string_iff in E6 as (t & Et & Ht).
        destruct (skip_ws_split r6) as (v' & V' & Ev'). exists (v ++ t), v'. split; [exact V'|].
        split; [rewrite Ev, Et, Ev', E5, <- !app_assoc; reflexivity|]. apply suffix_some; assumption.
      - injection E5 as <- E5. exists [], []. split; [constructor|]. split; [exact E5|constructor]. }
    destruct Hs as (ts & w' & W' & -> & Hs).
    destruct (prefix_start tp _ tc C Hp Hc) as (c0 & t0 & E0 & B0 & N40 & N63).
    (* blanks before the value if there is no modifier *)
    assert (Hcase : exists u v, blanks u /\ blanks v /\ (tm = [] -> v = []) /\ w ++ tm ++ w1 = u ++ tm ++ v
                      /\ (tm <> [] -> v = w1)).
    { destruct tm as [|c tm].
      - exists (w ++ w1), []. split; [apply blanks_app; assumption|]. split; [constructor|]. split; [auto|].
        split; [cbn; rewrite app_nil_r; reflexivity|]. contradiction.
      - exists w, w1. repeat split; auto. discriminate. }
    destruct Hcase as (u & v & U & V & Hv & EV & Hv').
    exists u, (tm ++ v ++ tp ++ tc ++ tb ++ ts), w',
      (match tm, tp, tb, ts with [], [], [], [] => FkCode | _, _, _, _ => FkValue end),
      (values_meaning T C (opt_text pre) (opt_text suf) bound (modifier_default m)), 0.
    split; [exact U|]. split; [exact W'|]. split; [|split; [|split]].
    - rewrite Ew, Em, Ew1, Etp.
      transitivity ((w ++ tm ++ w1) ++ tp ++ tc ++ tb ++ ts ++ w' ++ r5); [rewrite <- !app_assoc; reflexivity|].
      rewrite EV, <- !app_assoc. reflexivity.
    - destruct tm, tp, tb, ts; split; reflexivity.
    - apply frag_value; try assumption. split.
      + intros _ (d & t' & E & Hd). cbn in Hd. destruct Hd as [<-|[]]. rewrite E0 in E. injection E as E _. contradiction.
      + intros Hne Hvn. specialize (HL Hne). rewrite (Hv' Hne) in Hvn. rewrite Ew1, Hvn, Etp in HL. cbn [app] in HL.
        intros (d & t' & E & Hd). apply HL. rewrite app_assoc, E. exists d. eexists. split; [reflexivity|exact Hd].
    - apply value_means; try reflexivity; [|exact Hl]. destruct tm, tp, tb, ts; reflexivity.
  Qed.

  (** *** chains *)
  Section ChainReads.
    Variable p : sparser fragments.
    Variable x : bytes.
    Variable K : fkind -> Prop.
    Hypothesis p_reads : reads p K.
    Definition part (t : bytes) (R : fmeaning) (n : N) : Prop := exists k, K k /\ ex k t R n.

    Lemma rest_reads : forall fuel s i l r s', ssep_rest_fuel fuel p (ws (tok x)) s i = (POk l r, s') ->
      (l = [] /\ r = i) \/ exists w1 w2 ts w' Rs m, blanks w1 /\ blanks w2 /\ blanks w'
        /\ i = w1 ++ x ++ w2 ++ ts ++ w' ++ r /\ chn x part ts Rs m /\ Forall2 fm l Rs.
    Proof.
      induction fuel as [|fuel IH]; intros s i l r s' E; [discriminate|]. cbn [ssep_rest_fuel] in E.
      destruct (ws (tok x) i) as [[y r1]|] eqn:E1.
      2:{ injection E as <- <- _. left. auto. }
      destruct (Nat.eqb (length r1) (length i)); [discriminate|].
      destruct (p s r1) as [[a r2| |] s2] eqn:E2; try discriminate.
      2:{ injection E as <- <- _. left. auto. }
      destruct (ssep_rest_fuel fuel p (ws (tok x)) s2 r2) as [[l' r3| |] s3] eqn:E3; try discriminate.
      injection E as <- <- _. right.
      apply ws_tok_inv in E1 as (w1 & w2 & W1 & W2 & -> & _).
      destruct (p_reads _ _ _ _ _ E2) as (w3 & t & w4 & k & R & n & W3 & W4 & -> & HK & He & Hm).
      apply IH in E3 as [[-> <-]|(v1 & v2 & ts & w' & Rs & m & V1 & V2 & W' & -> & HC & Hl)].
      - exists w1, (w2 ++ w3), t, w4, [R], n. split; [exact W1|]. split; [apply blanks_app; assumption|].
        split; [exact W4|]. split; [rewrite <- !app_assoc; reflexivity|].
        split; [apply chn_one; exists k; auto|]. constructor; [eapply fmeans_fm; exact Hm|constructor].
      - exists w1, (w2 ++ w3), (t ++ (w4 ++ v1) ++ x ++ v2 ++ ts), w', (R :: Rs), (N.max n m).
        split; [exact W1|]. split; [apply blanks_app; assumption|]. split; [exact W'|].
        split; [rewrite <- !app_assoc; reflexivity|].
        split; [|constructor; [eapply fmeans_fm; exact Hm|exact Hl]].
        apply chn_more; [exists k; auto|apply blanks_app; assumption|exact V2|exact HC].
    Qed.

    Lemma chain_reads : forall s i l r s', sseparated2 p (ws (tok x)) s i = (POk l r, s') ->
      exists w t w' Rs n, blanks w /\ blanks w' /\ i = w ++ t ++ w' ++ r /\ chn x part t Rs n
        /\ Forall2 fm l Rs /\ (2 <= length Rs)%nat.
    Proof.
      intros s i l r s' E. unfold sseparated2, sseparated1, sbind in E.
      destruct (p s i) as [[a r1| |] s1] eqn:E1; try discriminate. unfold smap in E.
      destruct (ssep_rest_fuel (S (length r1)) p (ws (tok x)) s1 r1) as [[l' r2| |] s2] eqn:E2; try discriminate.
      destruct l' as [|b l']; [discriminate|]. injection E as <- <- _.
      destruct (p_reads _ _ _ _ _ E1) as (w & t & w' & k & R & n & W & W' & -> & HK & He & Hm).
      apply rest_reads in E2 as [[F _]|(v1 & v2 & ts & v' & Rs & m & V1 & V2 & V' & -> & HC & Hl)]; [discriminate|].
      exists w, (t ++ (w' ++ v1) ++ x ++ v2 ++ ts), v', (R :: Rs), (N.max n m).
      split; [exact W|]. split; [exact V'|]. split; [rewrite <- !app_assoc; reflexivity|].
      split; [apply chn_more; [exists k; auto|apply blanks_app; assumption|exact V2|exact HC]|].
      split; [constructor; [eapply fmeans_fm; exact Hm|exact Hl]|]. apply Forall2_len in Hl. cbn in *. lia.
    Qed.
  End ChainReads.

  Lemma chain_then : forall t Rs n, chn (lit "<$>") (part (fun k => is_item k = true)) t Rs n ->
    exists k, k <> FkBoth /\ ex k t (fold_meaning then_meaning Rs) n /\ ((2 <= length Rs)%nat -> k = FkThen).
  Proof.
    intros t Rs n H. induction H as [t R n (k & Hk & H)|t R n w1 w2 ts Rs m (k & Hk & H) W1 W2 HC (k2 & K2 & H2 & _)].
    - exists k. split; [destruct k; discriminate|]. split; [exact H|cbn; lia].
    - exists FkThen. split; [discriminate|]. split; [|reflexivity].
      replace (fold_meaning then_meaning (R :: Rs)) with (then_meaning R (fold_meaning then_meaning Rs))
        by (destruct HC; reflexivity).
      apply (frag_then T k k2); assumption.
  Qed.

  Lemma chain_both : forall t Rs n, chn (lit "<*>") (part (fun k => k <> FkBoth)) t Rs n ->
    exists k, ex k t (fold_meaning both_meaning Rs) n /\ ((2 <= length Rs)%nat -> k = FkBoth).
  Proof.
    intros t Rs n H. induction H as [t R n (k & Hk & H)|t R n w1 w2 ts Rs m (k & Hk & H) W1 W2 HC (k2 & H2 & _)].
    - exists k. split; [exact H|cbn; lia].
    - exists FkBoth. split; [|reflexivity].
      replace (fold_meaning both_meaning (R :: Rs)) with (both_meaning R (fold_meaning both_meaning Rs))
        by (destruct HC; reflexivity).
      apply (frag_both T k k2); assumption.
  Qed.

  Section KnotReads.
    Variable grp : sparser fragments.
    Hypothesis grp_reads : reads grp (fun k => is_group k = true).

    Lemma item_reads : reads (salt grp (slift parse_value)) (fun k => is_item k = true).
    Proof.
      apply reads_alt; [apply reads_weaken with (2 := grp_reads)|apply reads_weaken with (2 := value_reads)].
      - intros []; discriminate || reflexivity.
      - intros k [H _]. exact H.
    Qed.

    Lemma then_reads : reads (fmt_and_then grp) (fun k => k = FkThen).
    Proof.
      intros s i fr r s' E. unfold fmt_and_then, smap in E.
      destruct (sseparated2 _ _ s i) as [[l r1| |] s1] eqn:E1; try discriminate. injection E as <- <- _.
      apply (chain_reads _ _ _ item_reads) in E1 as (w & t & w' & Rs & n & W & W' & -> & HC & Hl & H2).
      destruct (chain_then t Rs n HC) as (k & _ & He & Hk). rewrite (Hk H2) in He.
      exists w, t, w', FkThen, (fold_meaning then_meaning Rs), n. split; [exact W|]. split; [exact W'|].
      split; [reflexivity|]. split; [reflexivity|]. split; [exact He|].
      apply then_means; [exact Hl| |reflexivity]. destruct Rs; [cbn in H2; lia|discriminate].
    Qed.

    Lemma operand_reads : reads (salt (fmt_and_then grp) (salt grp (slift parse_value))) (fun k => k <> FkBoth).
    Proof.
      apply reads_alt; [apply reads_weaken with (2 := then_reads)|apply reads_weaken with (2 := item_reads)].
      - intros k ->. discriminate.
      - intros []; discriminate.
    Qed.

    Lemma both_reads : reads (fmt_list_cons grp) (fun k => k = FkBoth).
    Proof.
      intros s i fr r s' E. unfold fmt_list_cons, smap in E.
      destruct (sseparated2 _ _ s i) as [[l r1| |] s1] eqn:E1; try discriminate. injection E as <- <- _.
      apply (chain_reads _ _ _ operand_reads) in E1 as (w & t & w' & Rs & n & W & W' & -> & HC & Hl & H2).
      destruct (chain_both t Rs n HC) as (k & He & Hk). rewrite (Hk H2) in He.
      exists w, t, w', FkBoth, (fold_meaning both_meaning Rs), n. split; [exact W|]. split; [exact W'|].
      split; [reflexivity|]. split; [reflexivity|]. split; [exact He|].
      apply both_means; [exact Hl| |reflexivity]. destruct Rs; [cbn in H2; lia|discriminate].
    Qed.

    Lemma list_reads : reads (fmt_list grp) (fun k => is_item k = false).
    Proof.
      apply reads_alt; [apply reads_weaken with (2 := both_reads)|apply reads_weaken with (2 := then_reads)];
        intros k ->; reflexivity.
    Qed.

    Lemma group_body_reads : reads (fmt_group_body grp) (fun k => is_group k = true).
    Proof.
      intros s i fr r s' E. unfold fmt_group_body in E.
      unfold sbind at 1, slift at 1 in E. destruct (ws (ch 40) i) as [[x r1]|] eqn:E1; [|discriminate].
      unfold sbind at 1, fmt_inc in E. destruct (32 <=? lv_fmt s + 1); [discriminate|].
      set (s1 := mkLevels (lv_sub s) (lv_field s) (lv_fmt s + 1)) in E. clearbody s1.
      unfold sbind at 1, slift at 1 in E. destruct (parse_modifier r1) as [[m r2]|] eqn:E2; [|discriminate].
      unfold sbind at 1 in E.
      destruct (salt (sws (fmt_list grp)) (sws (slift parse_value)) s1 r2) as [[f r3| |] s3] eqn:E3; try discriminate.
      unfold sbind at 1, fmt_close in E. destruct (ws (ch 41) r3) as [[y r4]|] eqn:E4; [|discriminate].
      unfold smap, slift in E. destruct (parse_bound usize_max r4) as [[bound r5]|] eqn:E5; [|discriminate].
      injection E as <- <- _.
      assert (RB : reads (salt (sws (fmt_list grp)) (sws (slift parse_value))) (fun k => is_group k = false)).
      { apply reads_alt; apply reads_sws;
          [apply reads_weaken with (2 := list_reads)|apply reads_weaken with (2 := value_reads)].
        - intros []; discriminate || reflexivity.
        - intros k [_ H]. exact H. }
      destruct (RB _ _ _ _ _ E3) as (w2 & e & w3 & k & R & n & W2 & W3 & -> & Hk & He & Hf). clear RB E3.
      apply modifier_inv in E2 as (tm & -> & Hm & HL & HQ).
      unfold ws in E1. destruct (skip_ws_split i) as (w0 & W0 & Ew0).
      destruct (ch 40 (skip_ws i)) as [[x' r6]|] eqn:E6; [|discriminate]. injection E1 as -> E1.
      apply ch_inv in E6 as [E6 _]. rewrite E6 in Ew0. destruct (skip_ws_split r6) as (w1 & W1 & Ew1).
      rewrite E1 in Ew1.
      apply ws_ch_inv in E4 as (w4 & w5 & W4 & W5 & -> & _). apply bound_inv in E5 as (tb & -> & Hb).
      destruct (frag_start T k e R n He) as (Ne & Be & _).
      assert (Hw2 : tm = [] -> w2 = []).
      { intros ->. cbn [app] in E1. destruct w2 as [|c w2]; [reflexivity|exfalso].
        pose proof (skip_ws_idem r6) as Ei. rewrite E1 in Ei. cbn [app] in Ei.
        inversion W2 as [|? ? HB _]; subst.
        assert (Hlen : (length (skip_ws (c :: w2 ++ e ++ w3 ++ w4 ++ 41%N :: w5 ++ tb ++ r5)) <=
                  length (w2 ++ e ++ w3 ++ w4 ++ 41%N :: w5 ++ tb ++ r5))%nat).
        { change (c :: ?z) with ([c] ++ z). rewrite skip_ws_blanks by (constructor; [exact HB|constructor]).
          apply skip_ws_length. }
        rewrite Ei in Hlen. cbn in Hlen. lia. }
      set (w5' := match tb with [] => [] | _ => w5 end). set (w' := match tb with [] => w5 | _ => [] end).
      assert (Etb : forall z, w5 ++ tb ++ z = w5' ++ tb ++ w' ++ z) by (intros z; unfold w5', w'; destruct tb; reflexivity).
      assert (W5' : blanks w5' /\ blanks w') by (unfold w5', w'; destruct tb; split; try assumption; constructor).
      exists w0, (lit "(" ++ w1 ++ tm ++ w2 ++ e ++ (w3 ++ w4) ++ lit ")" ++ w5' ++ tb), w',
        (match k, tm, tb with FkCode, [], [] => FkCodes | _, _, _ => FkGroup end),
        (group_meaning T (modifier_default m) R), (N.succ n).
      split; [exact W0|]. split; [apply W5'|]. split; [|split; [|split]].
      - rewrite Ew0, Ew1, Etb, <- !app_assoc. reflexivity.
      - destruct k, tm, tb; reflexivity.
      - apply frag_group with (bound := bound); try assumption; [|apply blanks_app; assumption|apply W5'|].
        + split.
          * intros E0 Hq. destruct (frag_question k e R n He Hq) as (c & t' & -> & Hc).
            specialize (HQ E0). rewrite (Hw2 E0) in HQ. cbn [app] in HQ. apply (HQ c _ eq_refl Hc).
          * intros E0 Hw. specialize (HL E0). rewrite Hw in HL. cbn [app] in HL.
            intros (d & t' & -> & Hd). apply HL. exists d. eexists. split; [reflexivity|exact Hd].
        + unfold w5'. intros ->. reflexivity.
      - destruct Hf as (Wf & Sf & If). split; [|split].
        + cbn [frag_wf]. split; [|exact Wf]. destruct f; try exact I. cbn in Sf. congruence.
        + destruct k, tm, tb; reflexivity.
        + intros strip g out. unfold group_meaning. split.
          * intros F. clear - If F. inversion F; subst. eexists. split; [apply If; eassumption|assumption].
          * intros (v & Hv & Hmod). eapply ft_group; [apply If; exact Hv|exact Hmod].
    Qed.

    Lemma fragments_body_reads : reads (fmt_fragments_body grp) (fun _ => True).
    Proof.
      apply reads_alt; [|apply reads_alt]; apply reads_sws;
        [apply reads_weaken with (2 := list_reads)|apply reads_weaken with (2 := grp_reads)
        |apply reads_weaken with (2 := value_reads)]; auto.
    Qed.
  End KnotReads.

  Lemma group_reads : forall f, reads (fmt_group f) (fun k => is_group k = true).
  Proof.
    induction f as [|f IH].
    - intros s i fr r s' E. discriminate.
    - apply group_body_reads. exact IH.
  Qed.

  Lemma parse_fragments_reads : reads parse_fragments (fun _ => True).
  Proof.
    intros s i fr r s' E. unfold parse_fragments in E. eapply fragments_body_reads; [apply group_reads|exact E].
  Qed.
End Reads.

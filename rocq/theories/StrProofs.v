(** * Quoted strings *)

From Coq Require Import String.
From Verif Require Import Bytes Winnow Utf8Model StrParserModel StrSpec BaseProofs.

Lemma is_mspace_blank : forall c, is_mspace c = true <-> blank c.
Proof.
  intros c. unfold is_mspace, blank. rewrite !orb_true_iff, !N.eqb_eq. cbn. intuition.
Qed.

Definition is_quote (q : byte) : Prop := q = 39 \/ q = 34.

Section Quoted.
  Variable q : byte.
  Hypothesis Hq : is_quote q.

  Lemma parse_escaped_char_inv : forall i c r,
    parse_escaped_char q i = Some (c, r) ->
    exists d, i = 92 :: d :: r /\ escape_of q d c.
  Proof.
    intros i c r H. unfold parse_escaped_char, preceded in H.
    destruct (ch 92 i) as [[x r1]|] eqn:E; [|discriminate]. apply ch_inv in E as [-> _].
    destruct r1 as [|d r2]; [discriminate H|].
    unfold alt, pvalue, pmap, ch, one_of in H.
    repeat match type of H with
    | context [N.eqb ?a d] => destruct (N.eqb_spec a d); cbn iota beta in H
    end; try discriminate H; injection H as <- <-; subst d; eexists; (split; [reflexivity|]);
      unfold escape_of; cbn; tauto.
  Qed.

  Lemma parse_escaped_char_ok : forall d c r, escape_of q d c ->
    parse_escaped_char q (92 :: d :: r) = Some (c, r).
  Proof.
    intros d c r H. unfold escape_of in H. cbn in H.
    repeat destruct H as [H|H]; try contradiction; injection H as <- <-; try reflexivity.
    destruct Hq as [->| ->]; reflexivity.
  Qed.

  Lemma parse_escaped_char_blank : forall d r, blank d -> parse_escaped_char q (92 :: d :: r) = None.
  Proof.
    intros d r H. unfold blank in H. cbn in H. destruct Hq as [->| ->];
      repeat destruct H as [<-|H]; try contradiction; reflexivity.
  Qed.

  Lemma fragment_inv : forall i v r,
    parse_quoted_fragment q i = Some (v, r) ->
    exists w, i = w ++ r /\ w <> [] /\ (forall w' t, quoted q w' t ->
      (exists z, r = w' ++ q :: z) -> quoted q (w ++ w') (v ++ t)).
  Proof.
    intros i v r H. unfold parse_quoted_fragment, alt in H.
    destruct (parse_literal q i) as [[a r1]|] eqn:E1.
    { injection H as -> ->. unfold parse_literal, take_till1, take_while1 in E1.
      destruct (span _ i) as [b r2] eqn:S. apply span_inv in S as (-> & Ha & _).
      destruct b as [|x b]; [discriminate|]. injection E1 as <- <-.
      exists (x :: b). split; [reflexivity|]. split; [discriminate|]. intros w' t Ht _.
      revert Ha. generalize (x :: b). intros l Ha. induction Ha as [|y l Hy Ha IH]; cbn; [exact Ht|].
      rewrite negb_true_iff, orb_false_iff, !N.eqb_neq in Hy. constructor; tauto. }
    destruct (pmap (fun c => [c]) (parse_escaped_char q) i) as [[a r1]|] eqn:E2.
    { injection H as -> ->. unfold pmap in E2.
      destruct (parse_escaped_char q i) as [[c r2]|] eqn:E; [|discriminate]. injection E2 as <- <-.
      apply parse_escaped_char_inv in E as (d & -> & Hd).
      exists [92; d]. split; [reflexivity|]. split; [discriminate|]. intros w' t Ht _.
      cbn. apply quoted_escape; assumption. }
    unfold pvalue, pmap, preceded in H.
    destruct (ch 92 i) as [[x r1]|] eqn:E; [|discriminate]. apply ch_inv in E as [-> _].
    unfold multispace1, take_while1 in H. destruct (span is_mspace r1) as [b r2] eqn:S.
    apply span_inv in S as (-> & Hb & Hr). destruct b as [|y b]; [discriminate|].
    injection H as <- <-. exists (92 :: y :: b). split; [reflexivity|]. split; [discriminate|].
    intros w' t Ht (z & Hz). cbn [app]. change (92 :: y :: b ++ w') with (92 :: (y :: b) ++ w').
    apply quoted_continue; [discriminate| | |exact Ht].
    - eapply Forall_impl; [|exact Hb]. intros c. apply is_mspace_blank.
    - intros c w'' -> Hc. subst r2. cbn in Hr. apply is_mspace_blank in Hc. congruence.
  Qed.

  Lemma fragments_inv : forall n i l r z,
    repeat0_fuel n (parse_quoted_fragment q) i = Some (l, r) -> r = q :: z ->
    exists w, i = w ++ r /\ quoted q w (concat l).
  Proof.
    induction n as [|n IH]; intros i l r z H Hr; cbn in H; [discriminate|].
    destruct (parse_quoted_fragment q i) as [[v r1]|] eqn:E.
    - destruct (Nat.eqb (length r1) (length i)); [discriminate|].
      destruct (repeat0_fuel n (parse_quoted_fragment q) r1) as [[l' r']|] eqn:F; [|discriminate].
      injection H as <- <-. destruct (IH _ _ _ _ F Hr) as (w' & -> & Hw').
      apply fragment_inv in E as (w & -> & _ & Hw).
      exists (w ++ w'). split; [rewrite app_assoc; reflexivity|]. cbn [concat].
      apply Hw; [exact Hw'|]. subst r'. exists z. reflexivity.
    - injection H as <- <-. exists []. split; [reflexivity|constructor].
  Qed.

  Lemma quoted_string_inv : forall i t r,
    parse_quoted_string q i = Some (t, r) ->
    exists w, i = q :: w ++ q :: r /\ quoted q w t.
  Proof.
    intros i t r H. unfold parse_quoted_string, delimited in H.
    destruct (ch q i) as [[x r1]|] eqn:E; [|discriminate]. apply ch_inv in E as [-> _].
    unfold pmap at 1 in H.
    destruct (repeat0 (parse_quoted_fragment q) r1) as [[l r2]|] eqn:F; [|discriminate].
    destruct (ch q r2) as [[y r3]|] eqn:E; [|discriminate]. apply ch_inv in E as [-> _].
    injection H as <- <-. unfold repeat0 in F.
    destruct (fragments_inv _ _ _ _ _ F eq_refl) as (w & -> & Hw). exists w. auto.
  Qed.

  Lemma quoted_plain_run : forall a w t, Forall (fun c => negb ((c =? q) || (c =? 92)) = true) a ->
    quoted q (a ++ w) t -> exists t', t = a ++ t' /\ quoted q w t'.
  Proof.
    intros a w t Ha. revert t. induction Ha as [|c a Hc Ha IH]; intros t H.
    - exists t. auto.
    - rewrite negb_true_iff, orb_false_iff, !N.eqb_neq in Hc.
      cbn [app] in H. inversion H as [|c' w' t' _ _ H' E1 E2| |]; subst; try tauto.
      destruct (IH _ H') as (t'' & -> & Ht). exists t''. auto.
  Qed.

  Lemma fragment_quote_none : forall r, parse_quoted_fragment q (q :: r) = None.
  Proof.
    intros r. destruct Hq as [->| ->]; reflexivity.
  Qed.

  Lemma fragments_ok : forall k w t r n, (length w <= k)%nat -> quoted q w t ->
    (length (w ++ q :: r) < n)%nat ->
    exists l, repeat0_fuel n (parse_quoted_fragment q) (w ++ q :: r) = Some (l, q :: r)
              /\ concat l = t.
  Proof.
    induction k as [|k IH]; intros w t r n Hk Hw Hn; (destruct n as [|n]; [lia|]).
    { destruct w; [|cbn in Hk; lia]. inversion Hw; subst. cbn [app repeat0_fuel].
      rewrite fragment_quote_none. exists []. auto. }
    destruct Hw as [|c w t Hc1 Hc2 Hw|d c w t Hd Hw|sp w t Hsp Hb Hnb Hw].
    - cbn [app repeat0_fuel]. rewrite fragment_quote_none. exists []. auto.
    - (* a literal run *)
      destruct (span (fun c => negb ((c =? q) || (c =? 92))) (w ++ q :: r)) as [a rest] eqn:S.
      assert (Hlit : parse_literal q (c :: w ++ q :: r) = Some (c :: a, rest)).
      { unfold parse_literal, take_till1, take_while1. cbn [span].
        apply N.eqb_neq in Hc1, Hc2. rewrite Hc1, Hc2. cbn [orb negb]. rewrite S. reflexivity. }
      apply span_inv in S as (Hsplit & Ha & Hrest).
      assert (exists w', w = a ++ w' /\ rest = w' ++ q :: r) as (w' & -> & ->).
      { clear - Hsplit Ha Hq. revert w Hsplit. induction Ha as [|x a Hx Ha IH]; intros w H.
        - exists w. split; [reflexivity|]. symmetry. exact H.
        - destruct w as [|y w]; cbn [app] in H; injection H as -> H.
          + rewrite N.eqb_refl in Hx. discriminate.
          + destruct (IH _ H) as (w' & -> & ->). exists w'. auto. }
      destruct (quoted_plain_run _ _ _ Ha Hw) as (t' & -> & Ht').
      destruct (IH w' t' r n) as (l & Hl & Hlc).
      + cbn in Hk. rewrite app_length in Hk. lia.
      + exact Ht'.
      + cbn [app length] in Hn. rewrite !app_length in Hn. rewrite app_length. lia.
      + exists ((c :: a) :: l). split; [|cbn; rewrite Hlc; reflexivity].
        cbn [app repeat0_fuel]. unfold parse_quoted_fragment at 1. unfold alt. rewrite Hlit.
        destruct (Nat.eqb_spec (length (w' ++ q :: r)) (length (c :: (a ++ w') ++ q :: r))) as [E|_].
        { cbn [length] in E. rewrite !app_length in E. lia. }
        rewrite Hl. reflexivity.
    - destruct (IH w t r n) as (l & Hl & Hlc); [cbn in Hk; lia|exact Hw|cbn [app length] in Hn; lia|].
      exists ([c] :: l). split; [|cbn; rewrite Hlc; reflexivity].
      cbn [app repeat0_fuel]. unfold parse_quoted_fragment at 1. unfold alt.
      assert (parse_literal q (92 :: d :: w ++ q :: r) = None) as ->.
      { unfold parse_literal, take_till1, take_while1. cbn [span].
        rewrite orb_true_r. reflexivity. }
      unfold pmap at 1. rewrite parse_escaped_char_ok with (c := c) by exact Hd.
      destruct (Nat.eqb_spec (length (w ++ q :: r)) (length (92 :: d :: w ++ q :: r))) as [E|_].
      { cbn [length] in E. lia. }
      rewrite Hl. reflexivity.
    - destruct (IH w t r n) as (l & Hl & Hlc).
      { cbn in Hk. rewrite app_length in Hk. destruct sp; [congruence|cbn in Hk; lia]. }
      { exact Hw. }
      { cbn [app length] in Hn. rewrite <- app_assoc, app_length in Hn. lia. }
      exists ([] :: l). split; [|cbn; rewrite Hlc; reflexivity].
      cbn [app repeat0_fuel]. unfold parse_quoted_fragment at 1. unfold alt.
      rewrite <- app_assoc.
      assert (parse_literal q (92 :: sp ++ w ++ q :: r) = None) as ->.
      { unfold parse_literal, take_till1, take_while1. cbn [span].
        rewrite orb_true_r. reflexivity. }
      destruct sp as [|x sp]; [congruence|]. unfold pmap at 1. cbn [app].
      rewrite parse_escaped_char_blank by (inversion Hb; assumption).
      unfold pvalue, pmap, preceded, multispace1, take_while1. rewrite ch_ok.
      change (x :: sp ++ w ++ q :: r) with ((x :: sp) ++ w ++ q :: r).
      rewrite span_ok.
      + destruct (Nat.eqb_spec (length (w ++ q :: r)) (length (92 :: (x :: sp) ++ w ++ q :: r))) as [E|_].
        { cbn [length app] in E. rewrite !app_length in E. lia. }
        rewrite Hl. reflexivity.
      + eapply Forall_impl; [|exact Hb]. intros c. apply is_mspace_blank.
      + destruct w as [|c w]; cbn.
        * destruct Hq as [->| ->]; reflexivity.
        * apply not_true_is_false. rewrite is_mspace_blank. eapply Hnb. reflexivity.
  Qed.

  Lemma quoted_string_ok : forall w t r, quoted q w t ->
    parse_quoted_string q (q :: w ++ q :: r) = Some (t, r).
  Proof.
    intros w t r H. unfold parse_quoted_string, delimited. rewrite ch_ok.
    unfold pmap at 1. unfold repeat0.
    destruct (fragments_ok (length w) w t r (S (length (w ++ q :: r))) ltac:(lia) H ltac:(lia))
      as (l & -> & <-).
    rewrite ch_ok. reflexivity.
  Qed.

  Lemma quote_quoted : forall t,
    quoted q (flat_map (fun c => if (c =? q) || (c =? 92) then [92; c] else [c]) t) t.
  Proof.
    induction t as [|c t IH]; cbn [flat_map]; [constructor|].
    destruct ((c =? q) || (c =? 92)) eqn:E; cbn [app].
    - apply quoted_escape; [|exact IH]. unfold escape_of. cbn.
      rewrite orb_true_iff, !N.eqb_eq in E. destruct E as [-> | ->]; tauto.
    - rewrite orb_false_iff, !N.eqb_neq in E. apply quoted_plain; tauto.
  Qed.
End Quoted.

Lemma parse_string_iff : forall i t r,
  parse_string i = Some (t, r)
  <-> exists q w, is_quote q /\ i = q :: w ++ q :: r /\ quoted q w t /\ utf8_valid t = true.
Proof.
  intros i t r. unfold parse_string, pverify, alt. split.
  - intros H. destruct (parse_quoted_string 39 i) as [[t' r']|] eqn:E1.
    + destruct (utf8_valid t') eqn:U; [|discriminate]. injection H as -> ->.
      apply quoted_string_inv in E1 as (w & -> & Hw).
      exists 39, w. repeat split; auto. left; reflexivity.
    + destruct (parse_quoted_string 34 i) as [[t' r']|] eqn:E2; [|discriminate].
      destruct (utf8_valid t') eqn:U; [|discriminate]. injection H as -> ->.
      apply quoted_string_inv in E2 as (w & -> & Hw).
      exists 34, w. repeat split; auto. right; reflexivity.
  - intros (q & w & Hq & -> & Hw & U). destruct Hq as [->| ->].
    + rewrite (quoted_string_ok 39 (or_introl eq_refl) w t r Hw), U. reflexivity.
    + assert (parse_quoted_string 39 (34 :: w ++ 34 :: r) = None) as -> by reflexivity.
      rewrite (quoted_string_ok 34 (or_intror eq_refl) w t r Hw), U. reflexivity.
Qed.

Lemma parse_string_quote : forall q t r, is_quote q -> utf8_valid t = true ->
  parse_string (quote q t ++ r) = Some (t, r).
Proof.
  intros q t r Hq U. apply parse_string_iff. unfold quote. exists q.
  eexists. split; [exact Hq|]. split; [cbn [app]; rewrite <- app_assoc; reflexivity|].
  split; [apply quote_quoted|exact U].
Qed.

(** * How often the parser for parentheses is started at most *)

From Coq Require Import String.
From Verif Require Import Bytes Winnow TagOccModel StrParserModel MatcherModel StateParser
  BaseProofs StateParserProofs MatcherParserModel MatcherParserProofs CostSpec CostProofs.

Definition opens (i : bytes) : nat := length (filter (N.eqb 40) i).

Lemma opens_suffix : forall r i, suffix r i -> (opens r <= opens i)%nat.
Proof.
  intros r i [w ->]. unfold opens. induction w as [|x w IH]; [cbn; lia|]. cbn [app filter].
  destruct (40 =? x); cbn [length]; lia.
Qed.

(** on inputs with at most [k] opening parentheses and at most [l] bytes the
    counter grows by at most [c], and the rest is a suffix *)
Definition bounded {A} (k l : nat) (c : N) (p : sparser A) : Prop :=
  forall s i, (opens i <= k)%nat -> (length i <= l)%nat ->
  lv_fmt (snd (p s i)) <= lv_fmt s + c
  /\ match fst (p s i) with POk _ r => suffix r i | _ => True end.

Lemma bounded_more : forall A k l c d (p : sparser A), bounded k l c p -> c <= d -> bounded k l d p.
Proof. intros A k l c d p H Hd s i H1 H2. destruct (H s i H1 H2) as [H3 H4]. split; [lia|exact H4]. Qed.

Lemma bounded_lift : forall A k l (p : parser A), pok any p -> bounded k l 0 (slift p).
Proof.
  intros A k l p H s i _ _. unfold slift. cbn [fst snd]. split; [lia|].
  destruct (p i) as [[a r]|] eqn:E; [|exact I]. apply (H _ _ _ E).
Qed.
Lemma bounded_fuel : forall A k l, bounded k l 0 (@sfuel A).
Proof. intros A k l s i _ _. cbn. split; [lia|exact I]. Qed.
Lemma bounded_ret : forall A k l (a : A), bounded k l 0 (sret a).
Proof. intros A k l a s i _ _. cbn. split; [lia|apply suffix_refl]. Qed.
Lemma bounded_map : forall A B k l c (f : A -> B) p, bounded k l c p -> bounded k l c (smap f p).
Proof.
  intros A B k l c f p H s i H1 H2. destruct (H s i H1 H2) as [H3 H4]. unfold smap.
  destruct (p s i) as [[a r| |] x]; cbn in *; auto.
Qed.
Lemma bounded_bind : forall A B k l c d (p : sparser A) (q : A -> sparser B),
  bounded k l c p -> (forall a, bounded k l d (q a)) -> bounded k l (c + d) (sbind p q).
Proof.
  intros A B k l c d p q H K s i H1 H2. destruct (H s i H1 H2) as [H3 H4]. unfold sbind.
  destruct (p s i) as [[a r| |] x]; cbn in H3, H4 |- *; [|split; [lia|exact I]|split; [lia|exact I]].
  pose proof (opens_suffix _ _ H4). pose proof (suffix_length _ _ H4).
  destruct (K a x r) as [H7 H8]; [lia|lia|]. split; [lia|].
  destruct (q a x r) as [[b r'| |] y]; cbn in *; auto. eapply suffix_trans; eauto.
Qed.
Lemma bounded_alt : forall A k l c d (p q : sparser A),
  bounded k l c p -> bounded k l d q -> bounded k l (c + d) (salt p q).
Proof.
  intros A k l c d p q H K s i H1 H2. destruct (H s i H1 H2) as [H3 H4]. unfold salt.
  destruct (p s i) as [[a r| |] x]; cbn in H3, H4 |- *; [split; [lia|exact H4]| |split; [lia|exact I]].
  destruct (K x i H1 H2) as [H5 H6]. split; [lia|exact H6].
Qed.
Lemma bounded_opt : forall A k l c (p : sparser A), bounded k l c p -> bounded k l c (sopt p).
Proof.
  intros A k l c p H s i H1 H2. destruct (H s i H1 H2) as [H3 H4]. unfold sopt.
  destruct (p s i) as [[a r| |] x]; cbn in *; auto. split; [exact H3|apply suffix_refl].
Qed.
Lemma bounded_ws : forall A k l c (p : sparser A), bounded k l c p -> bounded k l c (sws p).
Proof.
  intros A k l c p H s i H1 H2. unfold sws.
  pose proof (opens_suffix _ _ (skip_ws_suffix i)). pose proof (skip_ws_length i).
  destruct (H s (skip_ws i)) as [F1 F2]; [lia|lia|].
  destruct (p s (skip_ws i)) as [[a r| |] x]; cbn in *; auto. split; [exact F1|].
  eapply suffix_trans; [apply skip_ws_suffix|]. eapply suffix_trans; [exact F2|apply skip_ws_suffix].
Qed.
Lemma bounded_taken : forall A B k l c (f : A -> bytes -> B) p, bounded k l c p -> bounded k l c (staken f p).
Proof.
  intros A B k l c f p H s i H1 H2. destruct (H s i H1 H2) as [H3 H4]. unfold staken.
  destruct (p s i) as [[a r| |] x]; cbn in *; auto.
Qed.
Lemma bounded_repeat0 : forall A k l c (p : sparser A), bounded k l c p -> forall n,
  bounded k l (N.of_nat n * c) (srepeat0_fuel n p).
Proof.
  intros A k l c p H. induction n as [|n IH]; intros s i H1 H2; [cbn; split; [lia|exact I]|].
  replace (N.of_nat (S n) * c) with (c + N.of_nat n * c) by lia.
  cbn [srepeat0_fuel]. destruct (H s i H1 H2) as [H3 H4].
  set (d := N.of_nat n * c) in *.
  destruct (p s i) as [[a r| |] x]; cbn in H3, H4.
  - destruct (Nat.eqb (length r) (length i)); [cbn; split; [nia|exact I]|].
    pose proof (opens_suffix _ _ H4). pose proof (suffix_length _ _ H4).
    destruct (IH x r) as [H7 H8]; [lia|lia|].
    destruct (srepeat0_fuel n p x r) as [[m r'| |] y]; cbn in H7, H8 |- *; (split; [nia|]); auto.
    eapply suffix_trans; eauto.
  - cbn. split; [nia|apply suffix_refl].
  - cbn. split; [nia|exact I].
Qed.
Lemma bounded_repeat1 : forall A k l c (p : sparser A), bounded k l c p ->
  bounded k l (N.of_nat (l + 2) * c) (srepeat1 p).
Proof.
  intros A k l c p H. unfold srepeat1.
  apply bounded_more with (c := c + N.of_nat (l + 1) * c); [|nia].
  apply bounded_bind; [exact H|]. intros a. apply bounded_map. intros s i H1 H2.
  destruct (bounded_repeat0 _ _ _ _ _ H (S (length i)) s i H1 H2) as [H3 H4]. split; [|exact H4]. nia.
Qed.
Lemma bounded_delim : forall A B C k l a b c (p : sparser A) (q : sparser B) (e : sparser C),
  bounded k l a p -> bounded k l b q -> bounded k l c e -> bounded k l (a + (b + (c + 0))) (sdelim p q e).
Proof.
  intros A B C k l a b c p q e Hp Hq He. unfold sdelim. apply bounded_bind; [exact Hp|]. intros _.
  apply bounded_bind; [exact Hq|]. intros x. apply bounded_bind; [exact He|]. intros _. apply bounded_ret.
Qed.
Lemma bounded_operands : forall A k l c (p : sparser A) (t : parser unit), bounded k l c p -> pok any t ->
  bounded k l (N.of_nat (l + 3) * c) (s_operands p (slift t)).
Proof.
  intros A k l c p t Hp Ht. unfold s_operands.
  apply bounded_more with (c := c + N.of_nat (l + 2) * c); [|nia].
  apply bounded_bind; [exact Hp|]. intros h. apply bounded_map. apply bounded_repeat1.
  unfold spreceded. change c with (0 + c). apply bounded_bind; [apply bounded_lift; exact Ht|]. intros _. exact Hp.
Qed.

Lemma pow3 : forall x, x ^ 3 = x * (x * x).
Proof.
  intros x. change 3 with (N.succ (N.succ (N.succ 0))). rewrite !N.pow_succ_r', N.pow_0_r, N.mul_1_r. reflexivity.
Qed.
Lemma pow4 : forall x, x ^ 4 = x * (x * (x * x)).
Proof. intros x. change 4 with (N.succ 3). rewrite N.pow_succ_r', pow3. reflexivity. Qed.

Section High.
  Variable O : oracles.

  (** the parsers below the group parser do not touch the counter *)
  Ltac quiet := repeat first
    [ assumption | apply bounded_lift | apply bounded_map | apply bounded_ws | apply bounded_taken | apply bounded_opt
    | apply (bounded_alt _ _ _ 0 0) | apply (bounded_delim _ _ _ _ _ 0 0 0)
    | apply (bounded_bind _ _ _ _ 0 0); [|intros ?] ].

  Lemma quiet_repeat1 : forall A k l (p : sparser A), bounded k l 0 p -> bounded k l 0 (srepeat1 p).
  Proof.
    intros A k l p H. eapply bounded_more; [apply bounded_repeat1; exact H|]. lia.
  Qed.
  Lemma quiet_operands : forall A k l (p : sparser A) (t : parser unit), bounded k l 0 p -> pok any t ->
    bounded k l 0 (s_operands p (slift t)).
  Proof. intros A k l p t H Ht. eapply bounded_more; [apply bounded_operands; eassumption|]. lia. Qed.

  Lemma quiet_sub_inc : forall k l, bounded k l 0 sub_inc.
  Proof.
    intros k l s i _ _. unfold sub_inc. destruct (256 <=? lv_sub s + 1); cbn; (split; [lia|]); [exact I|apply suffix_refl].
  Qed.
  Lemma quiet_field_inc : forall k l, bounded k l 0 field_inc.
  Proof.
    intros k l s i _ _. unfold field_inc. destruct (256 <=? lv_field s + 1); cbn; (split; [lia|]); [exact I|apply suffix_refl].
  Qed.
  Lemma quiet_close : forall k l, bounded k l 0 f_close.
  Proof.
    intros k l s i _ _. unfold f_close. destruct (ws (ch 41) i) as [[a r]|] eqn:E; cbn; (split; [lia|]); [|exact I].
    apply (pok_ws _ any _ (pok_ch 41) _ _ _ E).
  Qed.
  Lemma pok_sub_singleton : pok any (pmap SMSingleton (parse_singleton O)).
  Proof. eapply pok_any. apply pok_map with (P := fun _ => True). eapply pok_weaken; [apply singleton_parsed_checked|auto]. Qed.
  Lemma quiet_sub_singleton : forall k l, bounded k l 0 (sub_singleton O).
  Proof. intros k l. apply bounded_lift, pok_sub_singleton. Qed.

  Section Sub.
    Variable k l : nat.
    Variable g t : sparser subfield_matcher.
    Hypothesis Hg : bounded k l 0 g.
    Hypothesis Ht : bounded k l 0 t.
    Lemma quiet_sub_and : bounded k l 0 (sub_and O g t).
    Proof.
      pose proof (quiet_sub_singleton k l). unfold sub_and. cbv zeta. apply bounded_map, quiet_operands; [quiet|].
      apply pok_tok.
    Qed.
    Lemma quiet_sub_xor : bounded k l 0 (sub_xor O g t).
    Proof.
      pose proof (quiet_sub_singleton k l). pose proof quiet_sub_and. unfold sub_xor. cbv zeta.
      apply bounded_map, quiet_operands; [quiet|]. apply pok_alt; apply pok_tok.
    Qed.
    Lemma quiet_sub_or : bounded k l 0 (sub_or O g t).
    Proof.
      pose proof (quiet_sub_singleton k l). pose proof quiet_sub_and. pose proof quiet_sub_xor. unfold sub_or. cbv zeta.
      apply bounded_map, quiet_operands; [quiet|]. apply pok_tok.
    Qed.
    Lemma quiet_sub_composite : bounded k l 0 (sub_composite O g t).
    Proof. pose proof quiet_sub_and. pose proof quiet_sub_xor. pose proof quiet_sub_or. unfold sub_composite. quiet. Qed.
    Lemma quiet_sub_group : bounded k l 0 (sub_group_body O g t).
    Proof.
      pose proof quiet_sub_composite. pose proof (quiet_sub_inc k l). pose proof (quiet_sub_singleton k l).
      unfold sub_group_body. quiet; apply pok_ws, pok_ch.
    Qed.
    Lemma quiet_sub_not : bounded k l 0 (sub_not_body g t).
    Proof.
      unfold sub_not_body, spreceded. quiet; [apply pok_ws, pok_ch|].
      eapply pok_any. apply pok_map with (P := fun _ => True).
      eapply pok_weaken; [exact (exists_checked O)|auto].
    Qed.
  End Sub.

  Lemma quiet_sub_gn : forall k l n, bounded k l 0 (fst (sub_gn O n)) /\ bounded k l 0 (snd (sub_gn O n)).
  Proof.
    intros k l. induction n as [|n IH]; [split; apply bounded_fuel|]. cbn [sub_gn]. destruct (sub_gn O n) as [g t].
    cbn [fst snd] in *. destruct IH as [Hg Ht].
    split; [apply quiet_sub_group|apply quiet_sub_not]; assumption.
  Qed.
  Lemma quiet_subfield : forall k l, bounded k l 0 (parse_subfield_matcher O).
  Proof.
    intros k l s i H1 H2. unfold parse_subfield_matcher. destruct (sub_gn O (S (length i))) as [g t] eqn:E.
    destruct (quiet_sub_gn k l (S (length i))) as [Hg Ht]. rewrite E in Hg, Ht. cbn [fst snd] in Hg, Ht.
    assert (H : bounded k l 0 (salt (sub_composite O g t) (salt (sub_singleton O) (salt g t)))).
    { pose proof (quiet_sub_composite _ _ _ _ Hg Ht). pose proof (quiet_sub_singleton k l). quiet. }
    destruct (H s i H1 H2) as [F G].
    destruct (salt _ _ s i) as [[a r| |] x]; cbn in F, G |- *; auto.
  Qed.
  Lemma quiet_braced : forall k l, bounded k l 0 (s_braced O).
  Proof. intros k l. pose proof (quiet_subfield k l). unfold s_braced. quiet; apply pok_ws, pok_ch. Qed.
  Lemma quiet_bracket : forall k l, bounded k l 0 (parse_f_bracket O).
  Proof.
    intros k l. pose proof (quiet_braced k l). unfold parse_f_bracket. quiet.
    - apply opt_quant_pok.
    - apply pok_tag_matcher.
    - apply pok_occ_matcher.
  Qed.
  Lemma quiet_singleton : forall k l, bounded k l 0 (f_singleton O).
  Proof.
    intros k l. pose proof (quiet_bracket k l). unfold f_singleton, parse_f_singleton. quiet.
    - eapply pok_any. exact (f_exists_checked O).
    - eapply pok_any. exact (f_dot_checked O).
  Qed.
  Lemma quiet_card : forall k l, bounded k l 0 (parse_f_card O).
  Proof.
    intros k l. pose proof (quiet_braced k l). unfold parse_f_card, spreceded. quiet.
    - apply pok_ws, pok_ch.
    - apply pok_ws, pok_tag_matcher.
    - apply pok_ws, pok_occ_matcher.
    - eapply pok_any. eapply pok_verify with (P := any); [apply pok_ws, pok_rel_op|].
      intros ? _ _. exact I.
    - apply pok_usize.
  Qed.
  Lemma quiet_exists : forall k l, bounded k l 0 (slift f_exists).
  Proof. intros k l. apply bounded_lift. eapply pok_any. exact (f_exists_ok O). Qed.

  (** the bound of the parsers that try [grp] (bound [a]) and [nt] (bound [b]) *)
  Section Field.
    Variable k l : nat.
    Variable g t : sparser field_matcher.
    Variable a b : N.
    Hypothesis Hg : bounded k l a g.
    Hypothesis Ht : bounded k l b t.
    Let x := N.of_nat (l + 3).
    Lemma atoms_bounded : bounded k l (a + b) (f_atoms O g t).
    Proof.
      unfold f_atoms. replace (a + b) with (a + (0 + (0 + (b + 0)))) by lia.
      apply bounded_alt; [exact Hg|]. apply bounded_alt; [apply quiet_card|].
      apply bounded_alt; [apply quiet_singleton|]. apply bounded_alt; [exact Ht|apply quiet_exists].
    Qed.
    Lemma and_bounded : bounded k l (x * (a + b)) (f_and O g t).
    Proof. apply bounded_map, bounded_operands; [apply bounded_ws, atoms_bounded|apply pok_ws, pok_tok]. Qed.
    Lemma xor_bounded : bounded k l (x * (x * (a + b) + (a + b))) (f_xor O g t).
    Proof.
      apply bounded_map, bounded_operands; [|apply pok_alt; apply pok_tok].
      apply bounded_ws, bounded_alt; [apply and_bounded|apply atoms_bounded].
    Qed.
    Lemma or_bounded :
      bounded k l (x * (x * (a + b) + (x * (x * (a + b) + (a + b)) + (a + b)))) (f_or O g t).
    Proof.
      apply bounded_map, bounded_operands; [|apply pok_ws, pok_tok].
      apply bounded_ws, bounded_alt; [apply and_bounded|]. apply bounded_alt; [apply xor_bounded|apply atoms_bounded].
    Qed.
    Lemma composite_bounded : bounded k l (7 * x ^ 3 * (a + b)) (f_composite O g t).
    Proof.
      eapply bounded_more.
      - apply bounded_alt; [apply or_bounded|]. apply bounded_alt; [apply xor_bounded|apply and_bounded].
      - assert (1 <= x) by (unfold x; lia). rewrite (pow3 x).
        assert (x <= x * x) by nia. assert (x * x <= x * (x * x)) by nia. generalize (a + b). intros c. nia.
    Qed.
  End Field.

  (** bounds of the group parser; [x] is three more than the length of the text *)
  Definition gbound (x : N) (k : nat) : N := (10 * x ^ 4) ^ N.of_nat k.

  Lemma gbound_pos : forall x k, 1 <= x -> 1 <= gbound x k.
  Proof.
    intros x k Hx. unfold gbound. assert (x ^ 4 <> 0) by (apply N.pow_nonzero; lia).
    assert ((10 * x ^ 4) ^ N.of_nat k <> 0) by (apply N.pow_nonzero; lia). lia.
  Qed.
  Lemma gbound_S : forall x k, gbound x (S k) = 10 * x ^ 4 * gbound x k.
  Proof. intros x k. unfold gbound. rewrite Nnat.Nat2N.inj_succ, N.pow_succ_r'. reflexivity. Qed.

  Lemma all_within : forall x y c : N, 1 <= x -> y <= x -> y + 1 <= x ->
    7 * x ^ 3 * (c + y * c) + (y * c + c) <= 9 * x ^ 4 * c.
  Proof.
    intros x y c Hx Hy Hy1. rewrite (pow4 x). rewrite (pow3 x).
    assert (E : c + y * c <= x * c) by nia.
    assert (F : y * c + c <= x * (x * (x * x)) * c).
    { assert (1 <= x * (x * x)) by nia. assert (x <= x * (x * (x * x))) by nia. nia. }
    assert (G : 7 * (x * (x * x)) * (c + y * c) <= 7 * (x * (x * x)) * (x * c)) by (apply N.mul_le_mono_l; exact E).
    nia.
  Qed.

  Lemma no_open : forall i, opens i = 0%nat -> ws (ch 40) i = None.
  Proof.
    intros i H. unfold ws, ch, one_of. destruct (skip_ws i) as [|c r] eqn:E; [reflexivity|].
    destruct (40 =? c) eqn:Ec; [|reflexivity].
    pose proof (opens_suffix _ _ (skip_ws_suffix i)) as Hs. rewrite E in Hs. unfold opens in Hs at 1.
    cbn [filter] in Hs. rewrite Ec in Hs. cbn [length] in Hs. lia.
  Qed.
  Lemma one_open : forall i a r, ws (ch 40) i = Some (a, r) -> suffix r i /\ (opens r < opens i)%nat /\ (length r < length i)%nat.
  Proof.
    intros i a r H. unfold ws, ch, one_of in H. destruct (skip_ws i) as [|c q] eqn:E; [discriminate H|].
    destruct (40 =? c) eqn:Ec; [|discriminate H]. injection H as _ <-.
    pose proof (skip_ws_suffix i) as S1. rewrite E in S1.
    pose proof (skip_ws_suffix q) as S2.
    pose proof (opens_suffix _ _ S1) as O1. unfold opens in O1 at 1. cbn [filter] in O1. rewrite Ec in O1.
    cbn [length] in O1. pose proof (opens_suffix _ _ S2) as O2. unfold opens in O2 at 2.
    pose proof (suffix_length _ _ S1) as L1. pose proof (suffix_length _ _ S2). cbn [length] in L1.
    split; [|lia]. eapply suffix_trans; [exact S2|]. eapply suffix_trans; [|exact S1].
    exists [c]. reflexivity.
  Qed.
  Lemma one_not : forall i a r, ws (ch 33) i = Some (a, r) -> suffix r i /\ (length r < length i)%nat.
  Proof.
    intros i a r H. split; [apply (pok_ws _ any _ (pok_ch 33) _ _ _ H)|].
    apply (strict_ws _ _ (strict_ch 33) _ _ _ H).
  Qed.

  Variable L : nat.
  Let x := N.of_nat (L + 3).

  Lemma gn_bounded : forall n k l, (l <= L)%nat ->
    bounded k l (gbound x k) (fst (counted_gn O n))
    /\ bounded k l (N.of_nat (l + 1) * gbound x k) (snd (counted_gn O n)).
  Proof.
    assert (Hx : 1 <= x) by (unfold x; lia).
    induction n as [|n IH]; intros k l Hl.
    { split; (eapply bounded_more; [apply bounded_fuel|lia]). }
    cbn [counted_gn]. destruct (counted_gn O n) as [g t]. cbn [fst snd] in *. split.
    - intros s i H1 H2. unfold counted.
      match goal with |- context [f_group_body O g t ?q i] => set (s1 := q) end.
      assert (Hs1 : lv_fmt s1 = lv_fmt s + 1) by reflexivity.
      destruct (ws (ch 40) i) as [[a r]|] eqn:E.
      + destruct (one_open _ _ _ E) as (S1 & S2 & S3).
        destruct k as [|k]; [lia|].
        assert (B : bounded k L (0 + (7 * x ^ 3 * (gbound x k + N.of_nat (L + 1) * gbound x k)
                     + (0 + (N.of_nat (L + 1) * gbound x k + (0 + gbound x k))) + (0 + 0)))
          (fun s i => sbind field_inc (fun _ => sbind
             (salt (f_composite O g t) (salt (f_singleton O) (salt t (salt (parse_f_card O) g))))
             (fun b => sbind f_close (fun _ => sret b))) s i)).
        { destruct (IH k L (le_n L)) as [Bg Bt].
          apply bounded_bind; [apply quiet_field_inc|]. intros _. apply bounded_bind.
          - apply bounded_alt; [apply composite_bounded; assumption|].
            apply bounded_alt; [apply quiet_singleton|]. apply bounded_alt; [exact Bt|].
            apply bounded_alt; [apply quiet_card|exact Bg].
          - intros b. apply bounded_bind; [apply quiet_close|]. intros _. apply bounded_ret. }
        destruct (B s1 r) as [B1 B2]; [lia|lia|].
        assert (Q : 7 * x ^ 3 * (gbound x k + N.of_nat (L + 1) * gbound x k)
                    + (N.of_nat (L + 1) * gbound x k + gbound x k) <= 9 * x ^ 4 * gbound x k).
        { apply all_within; unfold x; lia. }
        assert (P : 1 <= x ^ 4 * gbound x k).
        { pose proof (gbound_pos x k Hx). assert (x ^ 4 <> 0) by (apply N.pow_nonzero; lia). nia. }
        rewrite gbound_S.
        assert (Ez : snd (f_group_body O g t s1 i) = snd (sbind field_inc (fun _ => sbind
             (salt (f_composite O g t) (salt (f_singleton O) (salt t (salt (parse_f_card O) g))))
             (fun b => sbind f_close (fun _ => sret b))) s1 r)
           /\ match fst (f_group_body O g t s1 i), fst (sbind field_inc (fun _ => sbind
             (salt (f_composite O g t) (salt (f_singleton O) (salt t (salt (parse_f_card O) g))))
             (fun b => sbind f_close (fun _ => sret b))) s1 r) with
              | POk _ r1, POk _ r2 => r1 = r2 | PErr, PErr => True | PFuel, PFuel => True | _, _ => False
              end).
        { unfold f_group_body, sdelim, smap, sbind, slift. rewrite E.
          destruct (field_inc s1 r) as [[u r1| |] s2]; cbn; auto.
          destruct (salt (f_composite O g t) _ s2 r1) as [[b r2| |] s3]; cbn; auto.
          destruct (f_close s3 r2) as [[u' r3| |] s4]; cbn; auto. }
        destruct Ez as [Ez1 Ez2]. rewrite Ez1. split.
        * clear - B1 Q P Hs1. rewrite Hs1 in B1. rewrite <- (N.mul_assoc 9) in Q. rewrite <- (N.mul_assoc 10).
          revert B1 Q P. generalize (x ^ 4 * gbound x k).
          generalize (7 * x ^ 3 * (gbound x k + N.of_nat (L + 1) * gbound x k)).
          generalize (N.of_nat (L + 1) * gbound x k). intros u v y B1 Q P. lia.
        * clear - Ez2 B2 S1. revert Ez2 B2.
          match goal with |- match fst ?z with _ => _ end -> match fst ?w with _ => _ end -> _ =>
            destruct (fst z) as [m r1| |], (fst w) as [m2 r2| |] end; intros Ez2 B2; try contradiction; auto.
          subst r2. eapply suffix_trans; [exact B2|exact S1].
      + unfold f_group_body, sdelim, smap, sbind, slift. rewrite E. cbn.
        pose proof (gbound_pos x k Hx). split; [lia|exact I].
    - intros s i H1 H2. unfold f_not_body, spreceded.
      set (q := salt g (salt (smap FMSingleton (parse_f_bracket O)) (salt (slift f_exists) t))).
      unfold smap, sbind, slift.
      destruct (ws (ch 33) i) as [[a r]|] eqn:E; [|cbn; split; [lia|exact I]].
      destruct (one_not _ _ _ E) as [S1 S2]. destruct l as [|l]; [lia|].
      pose proof (opens_suffix _ _ S1) as S3.
      assert (B : bounded k l (gbound x k + (0 + (0 + N.of_nat (l + 1) * gbound x k)))
                q).
      { destruct (IH k l ltac:(lia)) as [Bg Bt]. apply bounded_alt; [exact Bg|].
        apply bounded_alt; [apply bounded_map, quiet_bracket|]. apply bounded_alt; [apply quiet_exists|exact Bt]. }
      destruct (B s r) as [B1 B2]; [lia|lia|].
      replace (N.of_nat (S l + 1)) with (1 + N.of_nat (l + 1)) by lia. rewrite N.mul_add_distr_r, N.mul_1_l.
      set (c := N.of_nat (l + 1) * gbound x k) in *.
      destruct (q s r) as [[m r1| |] s2]; cbn in B1, B2 |- *; (split; [lia|]); auto.
      eapply suffix_trans; eauto.
  Qed.

  Lemma starts_bounded : forall t, (length t = L)%nat -> group_starts O t <= gbound x (S (opens t)).
  Proof.
    intros t Ht. assert (Hx : 1 <= x) by (unfold x; lia). unfold group_starts, sparse_all, counted_matcher.
    destruct (gn_bounded (S (length t)) (opens t) L (le_n L)) as [Bg Bt].
    destruct (counted_gn O (S (length t))) as [g u]. cbn [fst snd] in Bg, Bt.
    set (c := gbound x (opens t)) in *.
    assert (B : bounded (opens t) L (7 * x ^ 3 * (c + N.of_nat (L + 1) * c) + (c + (N.of_nat (L + 1) * c + (0 + 0))))
      (sws (salt (f_composite O g u) (salt g (salt u (salt (f_singleton O) (parse_f_card O))))))).
    { apply bounded_ws. apply bounded_alt; [apply composite_bounded; assumption|].
      apply bounded_alt; [exact Bg|]. apply bounded_alt; [exact Bt|].
      apply bounded_alt; [apply quiet_singleton|apply quiet_card]. }
    destruct (B fresh t) as [B1 _]; [lia|lia|].
    assert (Q : 7 * x ^ 3 * (c + N.of_nat (L + 1) * c) + (N.of_nat (L + 1) * c + c) <= 9 * x ^ 4 * c).
    { apply all_within; unfold x; lia. }
    assert (R : lv_fmt (snd (sws (salt (f_composite O g u) (salt g (salt u (salt (f_singleton O) (parse_f_card O))))) fresh t)) <= gbound x (S (opens t))).
    { rewrite gbound_S. fold c. rewrite <- (N.mul_assoc 9) in Q. rewrite <- (N.mul_assoc 10).
      revert B1 Q. change (lv_fmt fresh) with 0. generalize (x ^ 4 * c).
      generalize (7 * x ^ 3 * (c + N.of_nat (L + 1) * c)). generalize (N.of_nat (L + 1) * c).
      intros u1 v1 y B1 Q. lia. }
    destruct (sws _ fresh t) as [[m [|b r]| |] s]; exact R.
  Qed.
End High.

Lemma starts_high : forall O t, group_starts O t <= (10 * (size t + 3) ^ 4) ^ (opening t + 1).
Proof.
  intros O t. pose proof (starts_bounded O (length t) t eq_refl) as H. unfold gbound in H.
  unfold size, opening. replace (N.of_nat (length t) + 3) with (N.of_nat (length t + 3)) by lia.
  replace (N.of_nat (length (filter (N.eqb 40) t)) + 1) with (N.of_nat (S (opens t))) by (unfold opens; lia).
  exact H.
Qed.

Lemma starts_plain : forall O t, ~ In 40 t -> group_starts O t <= 10 * (size t + 3) ^ 4.
Proof.
  intros O t H. pose proof (starts_high O t) as B. replace (opening t) with 0 in B.
  - rewrite N.add_0_l, N.pow_1_r in B. exact B.
  - clear B. unfold opening. replace (filter (N.eqb 40) t) with (@nil N); [reflexivity|].
    induction t as [|c t IH]; [reflexivity|]. cbn [filter]. destruct (40 =? c) eqn:E.
    + apply N.eqb_eq in E. subst c. exfalso. apply H. left. reflexivity.
    + apply IH. intros F. apply H. right. exact F.
Qed.

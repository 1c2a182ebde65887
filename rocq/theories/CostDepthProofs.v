(** * How deep matchers are nested *)

From Coq Require Import String.
From Verif Require Import Bytes Winnow TagOccModel StrParserModel MatcherModel StateParser
  BaseProofs StateParserProofs MatcherParserModel MatcherParserProofs CostSpec CostProofs CostHighProofs.

Lemma quiet_suffix : forall A k l c (p : sparser A), bounded k l c p -> forall s i a r s',
  (opens i <= k)%nat -> (length i <= l)%nat -> p s i = (POk a r, s') -> (length r <= length i)%nat.
Proof.
  intros A k l c p H s i a r s' H1 H2 E. destruct (H s i H1 H2) as [_ F]. rewrite E in F. apply suffix_length, F.
Qed.

(** the measure of the result and the rest fit into the input *)
Definition fits {A} (h : A -> N) (p : sparser A) : Prop :=
  forall s i a r s', p s i = (POk a r, s') -> h a + 2 * size r <= 2 * size i.

Lemma fits_map : forall A B (h : A -> N) (h' : B -> N) (f : A -> B) p,
  fits h p -> (forall a, h' (f a) <= h a) -> fits h' (smap f p).
Proof.
  intros A B h h' f p H Hf s i a r s' E. unfold smap in E.
  destruct (p s i) as [[b q| |] x] eqn:Ep; try discriminate E. injection E as <- <- <-.
  specialize (H _ _ _ _ _ Ep). specialize (Hf b). lia.
Qed.
Lemma fits_alt : forall A (h : A -> N) p q, fits h p -> fits h q -> fits h (salt p q).
Proof.
  intros A h p q H K s i a r s' E. unfold salt in E. destruct (p s i) as [[b x| |] y] eqn:Ep; try discriminate E.
  - injection E as <- <- <-. exact (H _ _ _ _ _ Ep).
  - exact (K _ _ _ _ _ E).
Qed.
Lemma fits_bind : forall A B (h : A -> N) (h' : B -> N) (p : sparser A) (q : A -> sparser B),
  fits h p -> (forall a, fits (fun b => h' b - h a) (q a)) -> fits h' (sbind p q).
Proof.
  intros A B h h' p q H K s i a r s' E. unfold sbind in E.
  destruct (p s i) as [[b x| |] y] eqn:Ep; try discriminate E.
  specialize (H _ _ _ _ _ Ep). specialize (K _ _ _ _ _ _ E). cbn beta in K. lia.
Qed.
Lemma fits_ws : forall A (h : A -> N) p, fits h p -> fits h (sws p).
Proof.
  intros A h p H s i a r s' E. unfold sws in E.
  destruct (p s (skip_ws i)) as [[b x| |] y] eqn:Ep; try discriminate E. injection E as <- <- <-.
  specialize (H _ _ _ _ _ Ep). unfold size in *. pose proof (skip_ws_length i). pose proof (skip_ws_length x). lia.
Qed.
Lemma fits_ret : forall A (h : A -> N) a, h a = 0 -> fits h (sret a).
Proof. intros A h a H s i b r s' E. injection E as <- <- <-. lia. Qed.
Lemma fits_fuel : forall A (h : A -> N), fits h (@sfuel A).
Proof. intros A h s i a r s' E. discriminate E. Qed.
Lemma fits_weaken : forall A (h h' : A -> N) p, fits h p -> (forall a, h' a <= h a) -> fits h' p.
Proof. intros A h h' p H K s i a r s' E. specialize (H _ _ _ _ _ E). specialize (K a). lia. Qed.
Lemma fits_quiet : forall A (h : A -> N) p, (forall k l, bounded k l 0 p) -> (forall a, h a = 0) -> fits h p.
Proof.
  intros A h p H K s i a r s' E. rewrite K.
  pose proof (quiet_suffix _ _ _ _ _ (H (opens i) (length i)) _ _ _ _ _ (le_n _) (le_n _) E). unfold size. lia.
Qed.
Lemma fits_token : forall A (p : parser A), pok any p -> strict p -> fits (fun _ => 2) (slift p).
Proof.
  intros A p _ H s i a r s' E. unfold slift in E. destruct (p i) as [[b x]|] eqn:Ep; [|discriminate E].
  injection E as <- <- <-. specialize (H _ _ _ Ep). unfold size. lia.
Qed.

Definition sum {A} (h : A -> N) (l : list A) : N := fold_right (fun a n => h a + n) 0 l.
Lemma fits_repeat0 : forall A (h : A -> N) p, fits h p -> forall n, fits (sum h) (srepeat0_fuel n p).
Proof.
  intros A h p H. induction n as [|n IH]; intros s i a r s' E; [discriminate E|]. cbn [srepeat0_fuel] in E.
  destruct (p s i) as [[b x| |] y] eqn:Ep; try discriminate E.
  - destruct (Nat.eqb (length x) (length i)); [discriminate E|].
    destruct (srepeat0_fuel n p y x) as [[m q| |] z] eqn:Er; try discriminate E. injection E as <- <- <-.
    specialize (H _ _ _ _ _ Ep). specialize (IH _ _ _ _ _ Er). cbn [sum fold_right] in *. fold (sum h m). lia.
  - injection E as <- <- <-. cbn. lia.
Qed.
Lemma fits_repeat1 : forall A (h : A -> N) p, fits h p -> fits (sum h) (srepeat1 p).
Proof.
  intros A h p H. unfold srepeat1. apply fits_bind with (h := h); [exact H|]. intros a.
  apply fits_map with (h := sum h).
  - intros s i b r s' E. exact (fits_repeat0 _ h p H _ _ _ _ _ _ E).
  - intros l. cbn [sum fold_right]. fold (sum h l). lia.
Qed.
Lemma fits_operands : forall A (h : A -> N) (f : A -> A -> A) p (t : parser unit),
  fits h p -> pok any t -> strict t -> (forall a b, h (f a b) <= N.max (h a) (h b) + 2) ->
  fits h (smap (fold_ops f) (s_operands p (slift t))).
Proof.
  intros A h f p t H Ht1 Ht2 Hf.
  apply fits_map with (h := fun x => h (fst x) + sum (fun a => 2 + h a) (snd x)).
  - unfold s_operands. apply fits_bind with (h := h); [exact H|]. intros a.
    apply fits_map with (h := sum (fun a => 2 + h a)); [|intros l; cbn [fst snd]; lia].
    apply fits_repeat1. unfold spreceded. apply fits_bind with (h := fun _ => 2); [apply fits_token; assumption|].
    intros _. apply fits_weaken with (h := h); [exact H|]. intros b. lia.
  - intros [a l]. unfold fold_ops. cbn [fst snd]. revert a. induction l as [|b l IH]; intros a; [cbn; lia|].
    cbn [fold_left sum fold_right]. fold (sum (fun a => 2 + h a) l). specialize (IH (f a b)). specialize (Hf a b). lia.
Qed.

Lemma strict_tok : forall c t, strict (tok (c :: t)).
Proof.
  intros c t i a r E. apply tok_inv in E as ->. rewrite app_length. cbn [length]. lia.
Qed.
Lemma strict_alt : forall A (p q : parser A), strict p -> strict q -> strict (alt p q).
Proof.
  intros A p q H K i a r E. unfold alt in E. destruct (p i) as [[b x]|] eqn:Ep; [|exact (K _ _ _ E)].
  injection E as <- <-. exact (H _ _ _ Ep).
Qed.

Section Depth.
  Variable O : oracles.
  Notation hfits := (fits height).

  Lemma fits_singleton : hfits (f_singleton O).
  Proof.
    intros s i a r s' E.
    pose proof (quiet_suffix _ _ _ _ _ (quiet_singleton O (opens i) (length i)) _ _ _ _ _ (le_n _) (le_n _) E) as H.
    unfold f_singleton, smap in E. destruct (parse_f_singleton O s i) as [[b x| |] y]; try discriminate E.
    injection E as <- <- <-. unfold size. cbn [height]. lia.
  Qed.
  Lemma fits_card : hfits (parse_f_card O).
  Proof.
    intros s i a r s' E.
    pose proof (quiet_suffix _ _ _ _ _ (quiet_card O (opens i) (length i)) _ _ _ _ _ (le_n _) (le_n _) E) as H.
    unfold parse_f_card, staken in E. destruct (spreceded _ _ s i) as [[b x| |] y]; try discriminate E.
    injection E as <- <- <-. destruct b as [[[[t o] m] op] v]. unfold size. cbn [height]. lia.
  Qed.
  Lemma fits_bracket : hfits (smap FMSingleton (parse_f_bracket O)).
  Proof.
    apply fits_map with (h := fun _ => 0); [|intros a; cbn; lia].
    apply fits_quiet; [apply quiet_bracket|reflexivity].
  Qed.
  Lemma fits_exists : hfits (slift f_exists).
  Proof.
    intros s i a r s' E.
    pose proof (quiet_suffix _ _ _ _ _ (quiet_exists O (opens i) (length i)) _ _ _ _ _ (le_n _) (le_n _) E) as H.
    unfold slift in E. destruct (f_exists i) as [[b x]|] eqn:Ex; [|discriminate E]. injection E as <- <- <-.
    replace (height b) with 0; [unfold size; lia|]. unfold f_exists, alt, pmap in Ex.
    destruct (parse_f_exists i) as [[c y]|]; [injection Ex as <- <-; reflexivity|].
    destruct (opt parse_quantifier i) as [[q r1]|]; [|discriminate Ex]. cbn in Ex.
    destruct (parse_tag_matcher r1) as [[t r2]|]; [|discriminate Ex]. cbn in Ex.
    destruct (parse_occ_matcher r2) as [[o r3]|]; [|discriminate Ex]. cbn in Ex.
    destruct (ws (ch 46) r3) as [[u r4]|]; [|discriminate Ex]. cbn in Ex.
    destruct (parse_exists r4) as [[m r5]|]; [|discriminate Ex]. cbn in Ex. injection Ex as <- <-. reflexivity.
  Qed.

  Section Knot.
    Variable g t : sparser field_matcher.
    Hypothesis Hg : hfits g.
    Hypothesis Ht : hfits t.
    Lemma fits_atoms : hfits (f_atoms O g t).
    Proof.
      apply fits_alt; [exact Hg|]. apply fits_alt; [apply fits_card|]. apply fits_alt; [apply fits_singleton|].
      apply fits_alt; [exact Ht|apply fits_exists].
    Qed.
    Lemma fits_and : hfits (f_and O g t).
    Proof.
      apply fits_operands; [apply fits_ws, fits_atoms|apply pok_ws, pok_tok|apply strict_ws, strict_tok|].
      intros a b. destruct a as [| | | |? [] ?], b as [| | | |? [] ?]; cbn; lia.
    Qed.
    Lemma fits_xor : hfits (f_xor O g t).
    Proof.
      apply fits_operands;
        [apply fits_ws, fits_alt; [apply fits_and|apply fits_atoms]|apply pok_alt; apply pok_tok|apply strict_alt; apply strict_tok|].
      intros a b. destruct a as [| | | |? [] ?], b as [| | | |? [] ?]; cbn; lia.
    Qed.
    Lemma fits_or : hfits (f_or O g t).
    Proof.
      apply fits_operands;
        [|apply pok_ws, pok_tok|apply strict_ws, strict_tok|intros a b; unfold fm_or; cbn [height]; lia].
      apply fits_ws, fits_alt; [apply fits_and|]. apply fits_alt; [apply fits_xor|apply fits_atoms].
    Qed.
    Lemma fits_composite : hfits (f_composite O g t).
    Proof. apply fits_alt; [apply fits_or|]. apply fits_alt; [apply fits_xor|apply fits_and]. Qed.
    Lemma fits_group : hfits (f_group_body O g t).
    Proof.
      apply fits_map with (h := fun m => 1 + height m); [|intros a; cbn [height]; lia]. unfold sdelim.
      apply fits_bind with (h := fun _ => 2).
      - apply fits_bind with (h := fun _ => 2); [apply fits_token; [apply pok_ws, pok_ch|apply strict_ws, strict_ch]|].
        intros _. apply fits_quiet; [apply quiet_field_inc|intros []; reflexivity].
      - intros _. apply fits_bind with (h := height).
        + apply fits_alt; [apply fits_composite|]. apply fits_alt; [apply fits_singleton|].
          apply fits_alt; [exact Ht|]. apply fits_alt; [apply fits_card|exact Hg].
        + intros b. apply fits_weaken with (h := fun m => height m - height b); [|intros m; lia].
          apply fits_bind with (h := fun _ => 0).
          * apply fits_quiet; [apply quiet_close|reflexivity].
          * intros _. apply fits_ret. lia.
    Qed.
    Lemma fits_not : hfits (f_not_body O g t).
    Proof.
      apply fits_map with (h := fun m => 1 + height m); [|intros a; cbn [height]; lia]. unfold spreceded.
      apply fits_bind with (h := fun _ => 2); [apply fits_token; [apply pok_ws, pok_ch|apply strict_ws, strict_ch]|].
      intros _. apply fits_weaken with (h := height); [|intros m; lia].
      apply fits_alt; [exact Hg|]. apply fits_alt; [apply fits_bracket|]. apply fits_alt; [apply fits_exists|exact Ht].
    Qed.
  End Knot.

  Lemma fits_gn : forall n, hfits (fst (field_gn O n)) /\ hfits (snd (field_gn O n)).
  Proof.
    induction n as [|n [Hg Ht]]; [split; apply fits_fuel|]. cbn [field_gn]. destruct (field_gn O n) as [g t].
    split; [apply fits_group|apply fits_not]; assumption.
  Qed.

  Lemma height_size : forall s t m, fst (field_matcher_new O s t) = Some (Some m) -> height m <= 2 * size t.
  Proof.
    intros s t m H. unfold field_matcher_new, sparse_all, parse_field_matcher in H.
    destruct (fits_gn (S (length t))) as [Hg Hu]. destruct (field_gn O (S (length t))) as [g u].
    assert (F : hfits (sws (salt (f_composite O g u) (salt g (salt u (salt (f_singleton O) (parse_f_card O))))))).
    { apply fits_ws, fits_alt; [apply fits_composite; assumption|]. apply fits_alt; [exact Hg|].
      apply fits_alt; [exact Hu|]. apply fits_alt; [apply fits_singleton|apply fits_card]. }
    destruct (sws _ s t) as [[a [|b r]| |] x] eqn:E; cbn in H; try discriminate H. injection H as <-.
    specialize (F _ _ _ _ _ E). unfold size in F at 1. cbn [length N.of_nat] in F. lia.
  Qed.

  (** any number of negations *)
  Definition negated (n : nat) : bytes := repeat 33 n ++ lit "003@?".

  Lemma skip_negated : forall n, skip_ws (negated n) = negated n.
  Proof. intros [|n]; reflexivity. Qed.

  Lemma not_negated : forall n k s, (n < k)%nat ->
    exists m, snd (field_gn O (S k)) s (negated (S n)) = (POk m [], s) /\ height m = N.of_nat (S n).
  Proof.
    induction n as [|n IH]; intros k s Hk; (destruct k as [|k]; [lia|]).
    - cbn [field_gn]. destruct (field_gn O k) as [g0 t0]. cbn [snd]. eexists. split; reflexivity.
    - destruct (IH k s ltac:(lia)) as (m & E & H). remember (S k) as k1. cbn [field_gn].
      destruct (field_gn O k1) as [g t] eqn:Ek. cbn [snd] in E |- *. exists (FMNot m).
      split; [|cbn [height]; rewrite H; lia]. unfold f_not_body, smap, spreceded, sbind, slift.
      assert (W : ws (ch 33) (negated (S (S n))) = Some (33, negated (S n))) by reflexivity. rewrite W.
      assert (G : g s (negated (S n)) = (PErr, s)).
      { subst k1. cbn [field_gn] in Ek. destruct (field_gn O k) as [g0 t0]. injection Ek as <- _. reflexivity. }
      unfold salt. rewrite G.
      assert (B : parse_f_bracket O s (negated (S n)) = (PErr, s)) by reflexivity. rewrite B.
      assert (X : f_exists (negated (S n)) = None) by reflexivity. rewrite X, E. reflexivity.
  Qed.

  Lemma high_negated : forall n, exists m,
    fst (field_matcher_new O fresh (negated n)) = Some (Some m) /\ height m = N.of_nat n.
  Proof.
    intros [|n]; [eexists; split; reflexivity|].
    unfold field_matcher_new, sparse_all, parse_field_matcher.
    assert (Hl : (n < length (negated (S n)))%nat).
    { unfold negated. rewrite app_length, repeat_length. lia. }
    destruct (not_negated n (length (negated (S n))) fresh Hl) as (m & E & H).
    destruct (field_gn O (S (length (negated (S n))))) as [g t] eqn:Ek. cbn [snd] in E.
    exists m. split; [|exact H].
    assert (G : forall s, g s (negated (S n)) = (PErr, s)).
    { intros s. cbn [field_gn] in Ek. destruct (field_gn O (length (negated (S n)))) as [g0 t0].
      injection Ek as <- _. reflexivity. }
    assert (C : parse_f_card O fresh (negated (S n)) = (PErr, fresh)) by reflexivity.
    assert (S1 : f_singleton O fresh (negated (S n)) = (PErr, fresh)) by reflexivity.
    assert (A : f_atoms O g t fresh (negated (S n)) = (POk m [], fresh)).
    { unfold f_atoms, salt. rewrite G, C, S1, E. reflexivity. }
    assert (A' : sws (f_atoms O g t) fresh (negated (S n)) = (POk m [], fresh)).
    { unfold sws. rewrite skip_negated, A. reflexivity. }
    assert (D : f_and O g t fresh (negated (S n)) = (PErr, fresh)).
    { unfold f_and, smap, s_operands, sbind. rewrite A'. reflexivity. }
    assert (X : f_xor O g t fresh (negated (S n)) = (PErr, fresh)).
    { unfold f_xor, smap, s_operands, sbind. unfold sws at 1. rewrite skip_negated. unfold salt at 1. rewrite D, A. reflexivity. }
    assert (R : f_or O g t fresh (negated (S n)) = (PErr, fresh)).
    { unfold f_or, smap, s_operands, sbind. unfold sws at 1. rewrite skip_negated. unfold salt at 1. rewrite D.
      unfold salt at 1. rewrite X, A. reflexivity. }
    unfold sws. rewrite skip_negated. unfold salt at 1, f_composite, salt at 1. rewrite R.
    unfold salt at 1. rewrite X, D. unfold salt. rewrite G, E. reflexivity.
  Qed.
End Depth.

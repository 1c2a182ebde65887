(** * Generic facts about parsers: consumption, results, fuel *)

From Verif Require Import Bytes Winnow TagOccModel StrParserModel StateParser BaseProofs.

Definition suffix (r i : bytes) : Prop := exists w, i = w ++ r.

Lemma suffix_refl : forall i, suffix i i.
Proof. intros i. exists []. reflexivity. Qed.
Lemma suffix_trans : forall a b c, suffix a b -> suffix b c -> suffix a c.
Proof. intros a b c [w ->] [v ->]. exists (v ++ w). apply app_assoc. Qed.
Lemma suffix_length : forall r i, suffix r i -> (length r <= length i)%nat.
Proof. intros r i [w ->]. rewrite app_length. lia. Qed.
Lemma suffix_cons : forall r c i, suffix r i -> suffix r (c :: i).
Proof. intros r c i [w ->]. exists (c :: w). reflexivity. Qed.
Lemma skip_ws_suffix : forall i, suffix (skip_ws i) i.
Proof.
  intros i. unfold skip_ws. destruct (span is_mspace i) as [a r] eqn:E.
  apply span_inv in E as [-> _]. exists a. reflexivity.
Qed.
Lemma skip_ws_length : forall i, (length (skip_ws i) <= length i)%nat.
Proof. intros i. apply suffix_length, skip_ws_suffix. Qed.

(** a stateless parser consumes a prefix and its results satisfy [P] *)
Definition pok {A} (P : A -> Prop) (p : parser A) : Prop :=
  forall i a r, p i = Some (a, r) -> P a /\ suffix r i.
(** and it consumes at least one byte *)
Definition strict {A} (p : parser A) : Prop :=
  forall i a r, p i = Some (a, r) -> (length r < length i)%nat.

(** a parser with state, on inputs shorter than [n]: never out of fuel,
    consumes a prefix, and its results satisfy [P] *)
Definition sok {A} (n : nat) (P : A -> Prop) (p : sparser A) : Prop :=
  forall s i, (length i < n)%nat ->
  match p s i with
  | (POk a r, _) => P a /\ suffix r i
  | (PErr, _) => True
  | (PFuel, _) => False
  end.

Ltac dosome H :=
  match type of H with
  | match ?e with Some _ => _ | None => _ end = _ =>
      let E := fresh "E" in destruct e as [[? ?]|] eqn:E; [|discriminate H]
  end.

Lemma pok_weaken : forall A (P Q : A -> Prop) p, pok P p -> (forall a, P a -> Q a) -> pok Q p.
Proof. intros A P Q p H HPQ i a r E. destruct (H _ _ _ E). auto. Qed.
Lemma pok_one_of : forall f, pok (fun c => f c = true) (one_of f).
Proof. intros f i a r H. apply one_of_inv in H as [-> H]. split; [exact H|]. exists [a]. reflexivity. Qed.
Lemma pok_ch : forall c, pok (fun _ => True) (ch c).
Proof. intros c i a r H. apply ch_inv in H as [-> H]. split; [exact I|]. exists [c]. reflexivity. Qed.
Lemma strict_ch : forall c, strict (ch c).
Proof. intros c i a r H. apply ch_inv in H as [-> H]. cbn. lia. Qed.
Lemma strict_one_of : forall c, strict (one_of c).
Proof. intros c i a r H. apply one_of_inv in H as [-> H]. cbn. lia. Qed.
Lemma pok_tok : forall t, pok (fun _ => True) (tok t).
Proof. intros t i a r H. apply tok_inv in H as ->. split; [exact I|]. exists t. reflexivity. Qed.
Lemma pok_take_while1 : forall f, pok (fun _ => True) (take_while1 f).
Proof.
  intros f i a r H. unfold take_while1 in H. destruct (span f i) as [b r'] eqn:E.
  apply span_inv in E as [-> _]. destruct b; [discriminate|]. injection H as <- <-.
  split; [exact I|]. eexists. reflexivity.
Qed.
Lemma strict_take_while1 : forall f, strict (take_while1 f).
Proof.
  intros f i a r H. unfold take_while1 in H. destruct (span f i) as [b r'] eqn:E.
  apply span_inv in E as [-> _]. destruct b; [discriminate|]. injection H as <- <-.
  rewrite app_length. cbn. lia.
Qed.
Lemma pok_map : forall A B (P : B -> Prop) (f : A -> B) p,
  pok (fun a => P (f a)) p -> pok P (pmap f p).
Proof.
  intros A B P f p H i b r E. unfold pmap in E. dosome E. injection E as <- <-.
  apply (H _ _ _ E0).
Qed.
Lemma pok_value : forall A B (P : B -> Prop) (b : B) (p : parser A),
  P b -> pok (fun _ => True) p -> pok P (pvalue b p).
Proof.
  intros A B P b p Hb H. unfold pvalue. apply pok_map. eapply pok_weaken; [exact H|]. auto.
Qed.
Lemma pok_verify : forall A (P Q : A -> Prop) (f : A -> bool) p,
  pok P p -> (forall a, P a -> f a = true -> Q a) -> pok Q (pverify f p).
Proof.
  intros A P Q f p H HQ i a r E. unfold pverify in E. dosome E.
  destruct (f a0) eqn:F; [|discriminate]. injection E as <- <-.
  destruct (H _ _ _ E0). auto.
Qed.
Lemma pok_alt : forall A (P : A -> Prop) p q, pok P p -> pok P q -> pok P (alt p q).
Proof.
  intros A P p q Hp Hq i a r E. unfold alt in E. destruct (p i) as [[x y]|] eqn:F.
  - injection E as -> ->. eapply Hp; eauto.
  - eapply Hq; eauto.
Qed.
Lemma pok_opt : forall A (P : A -> Prop) p, pok P p ->
  pok (fun o => match o with Some a => P a | None => True end) (opt p).
Proof.
  intros A P p Hp i a r E. unfold opt in E. destruct (p i) as [[x y]|] eqn:F.
  - injection E as <- <-. eapply Hp; eauto.
  - injection E as <- <-. split; [exact I|apply suffix_refl].
Qed.
Lemma pok_ws : forall A (P : A -> Prop) p, pok P p -> pok P (ws p).
Proof.
  intros A P p Hp i a r E. unfold ws in E. dosome E. injection E as <- <-.
  destruct (Hp _ _ _ E0) as [H1 H2]. split; [exact H1|].
  eapply suffix_trans; [apply skip_ws_suffix|]. eapply suffix_trans; [exact H2|apply skip_ws_suffix].
Qed.
Lemma strict_ws : forall A (p : parser A), strict p -> strict (ws p).
Proof.
  intros A p Hp i a r E. unfold ws in E. dosome E. injection E as <- <-.
  apply Hp in E0. pose proof (skip_ws_length i). pose proof (skip_ws_length l). lia.
Qed.
Lemma pok_preceded : forall A B (P : B -> Prop) (p : parser A) q,
  pok (fun _ => True) p -> pok P q -> pok P (preceded p q).
Proof.
  intros A B P p q Hp Hq i a r E. unfold preceded in E. dosome E.
  destruct (Hp _ _ _ E0) as [_ H1]. destruct (Hq _ _ _ E) as [H2 H3].
  split; [exact H2|]. eapply suffix_trans; eauto.
Qed.
Lemma pok_terminated : forall A B (P : A -> Prop) p (q : parser B),
  pok P p -> pok (fun _ => True) q -> pok P (terminated p q).
Proof.
  intros A B P p q Hp Hq i a r E. unfold terminated in E. dosome E. dosome E. injection E as <- <-.
  destruct (Hp _ _ _ E0) as [H1 H2]. destruct (Hq _ _ _ E1) as [_ H3].
  split; [exact H1|]. eapply suffix_trans; eauto.
Qed.
Lemma pok_delimited : forall A B C (P : B -> Prop) (p : parser A) q (e : parser C),
  pok (fun _ => True) p -> pok P q -> pok (fun _ => True) e -> pok P (delimited p q e).
Proof.
  intros A B C P p q e Hp Hq He i b r E. unfold delimited in E. dosome E. dosome E. dosome E.
  injection E as <- <-.
  destruct (Hp _ _ _ E0) as [_ H1]. destruct (Hq _ _ _ E1) as [H2 H3]. destruct (He _ _ _ E2) as [_ H4].
  split; [exact H2|]. eapply suffix_trans; [exact H4|]. eapply suffix_trans; eauto.
Qed.
Lemma pok_bind : forall A B (P : A -> Prop) (Q : B -> Prop) (p : parser A) (k : A -> parser B),
  pok P p -> (forall a, P a -> pok Q (k a)) ->
  pok Q (fun i => do (a, r) <- p i; k a r).
Proof.
  intros A B P Q p k Hp Hk i b r E. dosome E. destruct (Hp _ _ _ E0) as [H1 H2].
  destruct (Hk _ H1 _ _ _ E) as [H3 H4]. split; [exact H3|]. eapply suffix_trans; eauto.
Qed.
Lemma pok_ret : forall A (P : A -> Prop) a, P a -> pok P (fun i => Some (a, i)).
Proof. intros A P a H i b r E. injection E as <- <-. split; [exact H|apply suffix_refl]. Qed.

Lemma pok_repeat0_fuel : forall A (P : A -> Prop) p, pok P p ->
  forall n, pok (Forall P) (repeat0_fuel n p).
Proof.
  intros A P p Hp. induction n as [|n IH]; intros i l r E; cbn in E; [discriminate|].
  destruct (p i) as [[a r1]|] eqn:F.
  - destruct (Nat.eqb (length r1) (length i)); [discriminate|]. dosome E. injection E as <- <-.
    destruct (Hp _ _ _ F) as [H1 H2]. destruct (IH _ _ _ E0) as [H3 H4].
    split; [constructor; assumption|]. eapply suffix_trans; eauto.
  - injection E as <- <-. split; [constructor|apply suffix_refl].
Qed.
Lemma pok_repeat0 : forall A (P : A -> Prop) p, pok P p -> pok (Forall P) (repeat0 p).
Proof. intros A P p H i. unfold repeat0. apply pok_repeat0_fuel. exact H. Qed.
Lemma pok_repeat1 : forall A (P : A -> Prop) p, pok P p -> pok (Forall P) (repeat1 p).
Proof.
  intros A P p H. unfold repeat1. eapply pok_bind; [exact H|]. intros a Ha.
  eapply pok_bind; [apply pok_repeat0; exact H|]. intros l Hl. apply pok_ret. constructor; assumption.
Qed.
Lemma pok_sep_rest_fuel : forall A B (P : A -> Prop) p (sep : parser B),
  pok P p -> pok (fun _ => True) sep ->
  forall n, pok (Forall P) (sep_rest_fuel n p sep).
Proof.
  intros A B P p sep Hp Hs. induction n as [|n IH]; intros i l r E; cbn in E; [discriminate|].
  destruct (sep i) as [[b r1]|] eqn:F.
  - destruct (Nat.eqb (length r1) (length i)); [discriminate|].
    destruct (p r1) as [[a r2]|] eqn:G.
    + dosome E. injection E as <- <-.
      destruct (Hs _ _ _ F) as [_ H0].
      destruct (Hp _ _ _ G) as [H1 H2]. destruct (IH _ _ _ E0) as [H3 H4].
      split; [constructor; assumption|].
      eapply suffix_trans; [exact H4|]. eapply suffix_trans; eauto.
    + injection E as <- <-. split; [constructor|apply suffix_refl].
  - injection E as <- <-. split; [constructor|apply suffix_refl].
Qed.
Lemma pok_separated1 : forall A B (P : A -> Prop) p (sep : parser B),
  pok P p -> pok (fun _ => True) sep ->
  pok (fun l => Forall P l /\ l <> []) (separated1 p sep).
Proof.
  intros A B P p sep Hp Hs i l r E. unfold separated1 in E. dosome E. dosome E. injection E as <- <-.
  destruct (Hp _ _ _ E0) as [H1 H2]. destruct (pok_sep_rest_fuel _ _ _ _ _ Hp Hs _ _ _ _ E1) as [H3 H4].
  split; [split; [constructor; assumption|discriminate]|]. eapply suffix_trans; eauto.
Qed.
Lemma pok_taken : forall A B (P : A -> Prop) (Q : B -> Prop) (p : parser A) (f : A -> bytes -> B),
  pok P p -> (forall a w, P a -> Q (f a w)) ->
  pok Q (fun i => do (a, r) <- p i; Some (f a (taken i r), r)).
Proof.
  intros A B P Q p f Hp Hf i b r E. dosome E. injection E as <- <-.
  destruct (Hp _ _ _ E0) as [H1 H2]. auto.
Qed.

Lemma sok_weaken : forall A n (P Q : A -> Prop) p,
  sok n P p -> (forall a, P a -> Q a) -> sok n Q p.
Proof.
  intros A n P Q p H HPQ s i Hi. specialize (H s i Hi). destruct (p s i) as [[a r| |] s']; auto.
  destruct H. auto.
Qed.
Lemma sok_lift : forall A n (P : A -> Prop) p, pok P p -> sok n P (slift p).
Proof.
  intros A n P p H s i _. unfold slift. destruct (p i) as [[a r]|] eqn:E; [|exact I].
  apply H. exact E.
Qed.
Lemma sok_fuel0 : forall A (P : A -> Prop) p, sok 0 P p.
Proof. intros A P p s i H. lia. Qed.
Lemma sok_map : forall A B n (P : B -> Prop) (f : A -> B) p,
  sok n (fun a => P (f a)) p -> sok n P (smap f p).
Proof.
  intros A B n P f p H s i Hi. specialize (H s i Hi). unfold smap.
  destruct (p s i) as [[a r| |] s']; auto.
Qed.
Lemma sok_bind : forall A B n (P : A -> Prop) (Q : B -> Prop) p (k : A -> sparser B),
  sok n P p -> (forall a, P a -> sok n Q (k a)) -> sok n Q (sbind p k).
Proof.
  intros A B n P Q p k Hp Hk s i Hi. specialize (Hp s i Hi). unfold sbind.
  destruct (p s i) as [[a r| |] s']; auto.
  destruct Hp as [H1 H2]. pose proof (suffix_length _ _ H2).
  specialize (Hk a H1 s' r ltac:(lia)). destruct (k a s' r) as [[b r'| |] s'']; auto.
  destruct Hk as [H3 H4]. split; [exact H3|]. eapply suffix_trans; eauto.
Qed.
(** after a byte was consumed the recursion bound may decrease *)
Lemma sok_bind_strict : forall A B n (Q : B -> Prop) (p : parser A) (k : A -> sparser B),
  pok (fun _ => True) p -> strict p -> (forall a, sok n Q (k a)) -> sok (S n) Q (sbind (slift p) k).
Proof.
  intros A B n Q p k Hp Hst Hk s i Hi. unfold sbind, slift.
  destruct (p i) as [[a r]|] eqn:E; [|exact I].
  destruct (Hp _ _ _ E) as [_ H2]. apply Hst in E.
  specialize (Hk a s r ltac:(lia)). destruct (k a s r) as [[b r'| |] s'']; auto.
  destruct Hk as [H3 H4]. split; [exact H3|]. eapply suffix_trans; eauto.
Qed.
Lemma sok_alt : forall A n (P : A -> Prop) p q, sok n P p -> sok n P q -> sok n P (salt p q).
Proof.
  intros A n P p q Hp Hq s i Hi. specialize (Hp s i Hi). unfold salt.
  destruct (p s i) as [[a r| |] s']; auto. apply Hq. exact Hi.
Qed.
Lemma sok_opt : forall A n (P : A -> Prop) p, sok n P p ->
  sok n (fun o => match o with Some a => P a | None => True end) (sopt p).
Proof.
  intros A n P p Hp s i Hi. specialize (Hp s i Hi). unfold sopt.
  destruct (p s i) as [[a r| |] s']; auto. split; [exact I|apply suffix_refl].
Qed.
Lemma sok_ret : forall A n (P : A -> Prop) a, P a -> sok n P (sret a).
Proof. intros A n P a H s i _. cbn. split; [exact H|apply suffix_refl]. Qed.
Lemma sok_ws : forall A n (P : A -> Prop) p, sok n P p -> sok n P (sws p).
Proof.
  intros A n P p Hp s i Hi. unfold sws. pose proof (skip_ws_length i).
  specialize (Hp s (skip_ws i) ltac:(lia)). destruct (p s (skip_ws i)) as [[a r| |] s']; auto.
  destruct Hp as [H1 H2]. split; [exact H1|].
  eapply suffix_trans; [apply skip_ws_suffix|]. eapply suffix_trans; [exact H2|apply skip_ws_suffix].
Qed.
Lemma sok_delim : forall A B C n (P : B -> Prop) (p : sparser A) q (e : sparser C),
  sok n (fun _ => True) p -> sok n P q -> sok n (fun _ => True) e -> sok n P (sdelim p q e).
Proof.
  intros A B C n P p q e Hp Hq He. unfold sdelim.
  eapply sok_bind; [exact Hp|]. intros _ _. eapply sok_bind; [exact Hq|]. intros b Hb.
  eapply sok_bind; [exact He|]. intros _ _. apply sok_ret. exact Hb.
Qed.
Lemma sok_preceded : forall A B n (P : B -> Prop) (p : sparser A) q,
  sok n (fun _ => True) p -> sok n P q -> sok n P (spreceded p q).
Proof. intros A B n P p q Hp Hq. unfold spreceded. eapply sok_bind; [exact Hp|]. auto. Qed.
Lemma sok_taken : forall A B n (P : A -> Prop) (Q : B -> Prop) (f : A -> bytes -> B) p,
  sok n P p -> (forall a w, P a -> Q (f a w)) -> sok n Q (staken f p).
Proof.
  intros A B n P Q f p Hp Hf s i Hi. specialize (Hp s i Hi). unfold staken.
  destruct (p s i) as [[a r| |] s']; auto. destruct Hp as [H1 H2]. auto.
Qed.
Lemma sok_repeat0_fuel : forall A n (P : A -> Prop) p, sok n P p ->
  forall fuel s i, (length i < n)%nat -> (length i < fuel)%nat ->
  match srepeat0_fuel fuel p s i with
  | (POk l r, _) => Forall P l /\ suffix r i
  | (PErr, _) => True
  | (PFuel, _) => False
  end.
Proof.
  intros A n P p Hp. induction fuel as [|fuel IH]; intros s i Hi Hf; [lia|].
  cbn [srepeat0_fuel]. pose proof (Hp s i Hi) as H.
  destruct (p s i) as [[a r| |] s']; auto.
  - destruct H as [H1 H2]. pose proof (suffix_length _ _ H2).
    destruct (Nat.eqb_spec (length r) (length i)); [exact I|].
    specialize (IH s' r ltac:(lia) ltac:(lia)).
    destruct (srepeat0_fuel fuel p s' r) as [[l r'| |] s'']; auto.
    destruct IH as [H3 H4]. split; [constructor; assumption|]. eapply suffix_trans; eauto.
  - split; [constructor|apply suffix_refl].
Qed.
Lemma sok_repeat1 : forall A n (P : A -> Prop) p, sok n P p -> sok n (Forall P) (srepeat1 p).
Proof.
  intros A n P p Hp. unfold srepeat1. eapply sok_bind; [exact Hp|]. intros a Ha. apply sok_map.
  intros s i Hi. pose proof (sok_repeat0_fuel _ _ _ _ Hp (S (length i)) s i Hi ltac:(lia)) as H.
  destruct (srepeat0_fuel (S (length i)) p s i) as [[l r| |] s']; auto.
  destruct H. split; [constructor; assumption|assumption].
Qed.
Lemma sok_sep_rest_fuel : forall A B n (P : A -> Prop) p (sep : parser B),
  sok n P p -> pok (fun _ => True) sep ->
  forall fuel s i, (length i < n)%nat -> (length i < fuel)%nat ->
  match ssep_rest_fuel fuel p sep s i with
  | (POk l r, _) => Forall P l /\ suffix r i
  | (PErr, _) => True
  | (PFuel, _) => False
  end.
Proof.
  intros A B n P p sep Hp Hs. induction fuel as [|fuel IH]; intros s i Hi Hf; [lia|].
  cbn [ssep_rest_fuel]. destruct (sep i) as [[b r0]|] eqn:E.
  - destruct (Hs _ _ _ E) as [_ H0]. pose proof (suffix_length _ _ H0).
    destruct (Nat.eqb_spec (length r0) (length i)); [exact I|].
    pose proof (Hp s r0 ltac:(lia)) as H1. destruct (p s r0) as [[a r| |] s']; auto.
    + destruct H1 as [H1 H2]. pose proof (suffix_length _ _ H2).
      specialize (IH s' r ltac:(lia) ltac:(lia)).
      destruct (ssep_rest_fuel fuel p sep s' r) as [[l r'| |] s'']; auto.
      destruct IH as [H5 H4]. split; [constructor; assumption|].
      eapply suffix_trans; [exact H4|]. eapply suffix_trans; eauto.
    + split; [constructor|apply suffix_refl].
  - split; [constructor|apply suffix_refl].
Qed.
Lemma sok_separated1 : forall A B n (P : A -> Prop) p (sep : parser B),
  sok n P p -> pok (fun _ => True) sep ->
  sok n (fun l => Forall P l /\ l <> []) (sseparated1 p sep).
Proof.
  intros A B n P p sep Hp Hs. unfold sseparated1. eapply sok_bind; [exact Hp|]. intros a Ha.
  apply sok_map. intros s i Hi.
  pose proof (sok_sep_rest_fuel _ _ _ _ _ _ Hp Hs (S (length i)) s i Hi ltac:(lia)) as H.
  destruct (ssep_rest_fuel (S (length i)) p sep s i) as [[l r| |] s']; auto.
  destruct H. split; [split; [constructor; assumption|discriminate]|assumption].
Qed.
Lemma sok_separated2 : forall A B n (P : A -> Prop) p (sep : parser B),
  sok n P p -> pok (fun _ => True) sep ->
  sok n (fun l => Forall P l /\ (2 <= length l)%nat) (sseparated2 p sep).
Proof.
  intros A B n P p sep Hp Hs s i Hi. pose proof (sok_separated1 _ _ _ _ _ _ Hp Hs s i Hi) as H.
  unfold sseparated2. destruct (sseparated1 p sep s i) as [[l r| |] s']; auto.
  destruct l as [|a [|b l]]; auto. destruct H as [[H1 _] H2].
  split; [split; [assumption|cbn; lia]|assumption].
Qed.

(** whole texts: a result is always produced, and it satisfies [P] *)
Lemma sparse_all_ok : forall A (P : A -> Prop) p s i,
  sok (S (length i)) P p ->
  exists r, fst (sparse_all p s i) = Some r /\ (forall a, r = Some a -> P a).
Proof.
  intros A P p s i H. specialize (H s i ltac:(lia)). unfold sparse_all.
  destruct (p s i) as [[a r| |] s']; [|exists None; split; [reflexivity|discriminate]|contradiction].
  destruct H as [H1 _]. destruct r.
  - exists (Some a). split; [reflexivity|]. intros b E. injection E as <-. exact H1.
  - exists None. split; [reflexivity|discriminate].
Qed.

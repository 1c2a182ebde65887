(** * Lemmas on byte strings and parser combinators *)

From Coq Require Import String.
From Verif Require Import Bytes Winnow.
Local Open Scope string_scope.
Local Open Scope list_scope.
Local Open Scope N_scope.

Ltac lenlia :=
  repeat (progress (cbn [app length] in *; rewrite ?app_length in *)); lia.

Lemma bytes_eqb_eq : forall a b, bytes_eqb a b = true <-> a = b.
Proof.
  induction a as [|x a IH]; destruct b as [|y b]; cbn; try (split; congruence).
  rewrite andb_true_iff, N.eqb_eq, IH. split.
  - intros [-> ->]. reflexivity.
  - intros H. injection H as -> ->. auto.
Qed.

Lemma bytes_eqb_refl : forall a, bytes_eqb a a = true.
Proof. intros a. apply bytes_eqb_eq. reflexivity. Qed.

Lemma bytes_eqb_neq : forall a b, bytes_eqb a b = false <-> a <> b.
Proof.
  intros a b. destruct (bytes_eqb a b) eqn:E.
  - apply bytes_eqb_eq in E. split; congruence.
  - split; [|congruence]. intros _ H. apply bytes_eqb_eq in H. congruence.
Qed.

Lemma bytes_eq_dec : forall a b : bytes, {a = b} + {a <> b}.
Proof. apply list_eq_dec. apply N.eq_dec. Qed.

Lemma mem_byte_In : forall x l, mem_byte x l = true <-> In x l.
Proof.
  intros x l. unfold mem_byte. rewrite existsb_exists. split.
  - intros [y [H E]]. apply N.eqb_eq in E. subst. exact H.
  - intros H. exists x. split; [exact H|apply N.eqb_refl].
Qed.

Lemma mem_byte_not_In : forall x l, mem_byte x l = false <-> ~ In x l.
Proof.
  intros x l. rewrite <- mem_byte_In. destruct (mem_byte x l); split; congruence.
Qed.

Lemma one_of_inv : forall f i c r, one_of f i = Some (c, r) -> i = c :: r /\ f c = true.
Proof.
  intros f [|x i] c r; cbn; [discriminate|].
  destruct (f x) eqn:E; [|discriminate]. intros H; injection H as -> ->. auto.
Qed.

Lemma one_of_ok : forall (f : byte -> bool) c r, f c = true -> one_of f (c :: r) = Some (c, r).
Proof. intros f c r H. cbn. rewrite H. reflexivity. Qed.

Lemma one_of_fail : forall (f : byte -> bool) c r, f c = false -> one_of f (c :: r) = None.
Proof. intros f c r H. cbn. rewrite H. reflexivity. Qed.

Lemma ch_inv : forall c i x r, ch c i = Some (x, r) -> i = c :: r /\ x = c.
Proof.
  unfold ch. intros c i x r H. apply one_of_inv in H as [-> H].
  apply N.eqb_eq in H. subst. auto.
Qed.

Lemma ch_ok : forall c r, ch c (c :: r) = Some (c, r).
Proof. intros c r. unfold ch. apply one_of_ok. apply N.eqb_refl. Qed.

Lemma ch_fail : forall c x r, x <> c -> ch c (x :: r) = None.
Proof.
  intros c x r H. unfold ch. apply one_of_fail. apply N.eqb_neq. congruence.
Qed.

Lemma tok_ok : forall s r, tok s (s ++ r) = Some (tt, r).
Proof. induction s as [|x s IH]; intros r; cbn; [reflexivity|]. rewrite N.eqb_refl. apply IH. Qed.

Lemma tok_inv : forall s i u r, tok s i = Some (u, r) -> i = s ++ r.
Proof.
  induction s as [|x s IH]; intros [|y i] u r; cbn; try congruence.
  destruct (x =? y) eqn:E; [|discriminate]. apply N.eqb_eq in E. subst.
  intros H. apply IH in H. subst. reflexivity.
Qed.

Lemma span_inv : forall f i a r,
  span f i = (a, r) ->
  i = a ++ r /\ Forall (fun c => f c = true) a
  /\ match r with [] => True | c :: _ => f c = false end.
Proof.
  intros f. induction i as [|c i IH]; cbn; intros a r H.
  - injection H as <- <-. auto.
  - destruct (f c) eqn:E.
    + destruct (span f i) as [a' r'] eqn:S. injection H as <- <-.
      destruct (IH _ _ eq_refl) as (-> & Ha & Hr). cbn. auto.
    + injection H as <- <-. cbn. auto.
Qed.

Lemma span_ok : forall (f : byte -> bool) a r,
  Forall (fun c => f c = true) a ->
  match r with [] => True | c :: _ => f c = false end ->
  span f (a ++ r) = (a, r).
Proof.
  intros f a r Ha Hr. induction Ha as [|c a Hc Ha IH]; cbn.
  - destruct r as [|c r]; cbn; [reflexivity|]. rewrite Hr. reflexivity.
  - rewrite Hc, IH. reflexivity.
Qed.

Lemma span_max_inv : forall f n i a r,
  span_max n f i = (a, r) ->
  i = a ++ r /\ Forall (fun c => f c = true) a /\ (length a <= n)%nat
  /\ ((length a < n)%nat -> match r with [] => True | c :: _ => f c = false end).
Proof.
  intros f. induction n as [|n IH]; cbn; intros i a r H.
  - injection H as <- <-. cbn. repeat split; auto; lia.
  - destruct i as [|c i].
    + injection H as <- <-. cbn. repeat split; auto; lia.
    + destruct (f c) eqn:E.
      * destruct (span_max n f i) as [a' r'] eqn:S. injection H as <- <-.
        destruct (IH _ _ _ S) as (-> & Ha & Hl & Hr). cbn.
        repeat split; auto; try lia. intros Hlt. apply Hr. lia.
      * injection H as <- <-. cbn. repeat split; auto; lia.
Qed.

Lemma span_max_ok : forall (f : byte -> bool) n a r,
  Forall (fun c => f c = true) a -> (length a <= n)%nat ->
  ((length a < n)%nat -> match r with [] => True | c :: _ => f c = false end) ->
  span_max n f (a ++ r) = (a, r).
Proof.
  intros f n a r Ha. revert n. induction Ha as [|c a Hc Ha IH]; cbn; intros n Hl Hr.
  - destruct n as [|n]; cbn; [reflexivity|].
    destruct r as [|c r]; cbn; [reflexivity|].
    rewrite Hr by lia. reflexivity.
  - destruct n as [|n]; [lia|]. cbn. rewrite Hc, IH; [reflexivity|lia|].
    intros H. apply Hr. lia.
Qed.

(** [repeat0] on the concatenation of texts *)
Lemma repeat0_fuel_ok : forall {A} (p : parser A) (w : A -> bytes) (rest : bytes) l fuel,
  (forall a l1 l2, l = l1 ++ a :: l2 ->
     p (w a ++ flat_map w l2 ++ rest) = Some (a, flat_map w l2 ++ rest) /\ w a <> []) ->
  p rest = None ->
  (length (flat_map w l ++ rest) < fuel)%nat ->
  repeat0_fuel fuel p (flat_map w l ++ rest) = Some (l, rest).
Proof.
  intros A p w rest l. induction l as [|a l IH]; intros fuel Hp Hrest Hf.
  - cbn [flat_map app] in *. destruct fuel; [lia|]. cbn [repeat0_fuel].
    rewrite Hrest. reflexivity.
  - destruct fuel as [|fuel]; [lia|]. cbn [flat_map repeat0_fuel].
    rewrite <- app_assoc.
    destruct (Hp a [] l eq_refl) as [Ha Hne]. rewrite Ha.
    assert (Hlen : (length (w a) > 0)%nat) by (destruct (w a); cbn; [congruence|lia]).
    cbn [flat_map] in Hf. rewrite <- app_assoc in Hf. rewrite app_length in Hf.
    destruct (Nat.eqb_spec (length (flat_map w l ++ rest)) (length (w a ++ flat_map w l ++ rest))) as [E|_].
    { rewrite (app_length (w a)) in E. lia. }
    rewrite IH; auto; try lia.
    intros a' l1 l2 E. apply (Hp a' (a :: l1) l2). rewrite E. reflexivity.
Qed.

Lemma repeat0_ok : forall {A} (p : parser A) (w : A -> bytes) (rest : bytes) l,
  (forall a l1 l2, l = l1 ++ a :: l2 ->
     p (w a ++ flat_map w l2 ++ rest) = Some (a, flat_map w l2 ++ rest) /\ w a <> []) ->
  p rest = None ->
  repeat0 p (flat_map w l ++ rest) = Some (l, rest).
Proof. intros. unfold repeat0. apply repeat0_fuel_ok; auto. Qed.

Lemma repeat0_fuel_inv : forall {A} (p : parser A) (w : A -> bytes) (P : A -> Prop),
  (forall i a r, p i = Some (a, r) -> i = w a ++ r /\ P a) ->
  forall fuel i l r, repeat0_fuel fuel p i = Some (l, r) ->
  i = flat_map w l ++ r /\ Forall P l /\ p r = None.
Proof.
  intros A p w P Hp. induction fuel as [|n IH]; cbn; intros i l r H; [discriminate|].
  destruct (p i) as [[a r0]|] eqn:E.
  - destruct (Nat.eqb (length r0) (length i)); [discriminate|].
    destruct (repeat0_fuel n p r0) as [[l' r']|] eqn:F; [|discriminate].
    injection H as <- <-. destruct (Hp _ _ _ E) as [-> Ha].
    destruct (IH _ _ _ F) as (-> & Hl & Hr). cbn. rewrite app_assoc. auto.
  - injection H as <- <-. auto.
Qed.

Lemma repeat0_inv : forall {A} (p : parser A) (w : A -> bytes) (P : A -> Prop),
  (forall i a r, p i = Some (a, r) -> i = w a ++ r /\ P a) ->
  forall i l r, repeat0 p i = Some (l, r) ->
  i = flat_map w l ++ r /\ Forall P l /\ p r = None.
Proof. intros A p w P Hp i l r H. eapply repeat0_fuel_inv; eauto. Qed.

Lemma parse_all_inv : forall {A} (p : parser A) i a,
  parse_all p i = Some a -> p i = Some (a, []).
Proof.
  unfold parse_all. intros A p i a H. destruct (p i) as [[x [|c r]]|]; try discriminate.
  injection H as <-. reflexivity.
Qed.

Lemma parse_all_ok : forall {A} (p : parser A) i a,
  p i = Some (a, []) -> parse_all p i = Some a.
Proof. unfold parse_all. intros A p i a H. rewrite H. reflexivity. Qed.

(** character classes versus explicit listings *)
Lemma in_digits_iff : forall c, In c (lit "0123456789") <-> is_digit c = true.
Proof.
  intros c. unfold is_digit. rewrite andb_true_iff, !N.leb_le. cbn. split.
  - intros H. repeat destruct H as [<-|H]; try lia.
  - intros H. lia.
Qed.
Lemma in_lowers_iff : forall c, In c (lit "abcdefghijklmnopqrstuvwxyz") <-> is_lower c = true.
Proof.
  intros c. unfold is_lower. rewrite andb_true_iff, !N.leb_le. cbn. split.
  - intros H. repeat destruct H as [<-|H]; try lia.
  - intros H. lia.
Qed.
Lemma in_uppers_iff : forall c, In c (lit "ABCDEFGHIJKLMNOPQRSTUVWXYZ") <-> is_upper c = true.
Proof.
  intros c. unfold is_upper. rewrite andb_true_iff, !N.leb_le. cbn. split.
  - intros H. repeat destruct H as [<-|H]; try lia.
  - intros H. lia.
Qed.

(** parsers never give back more input than they got *)
Definition nongrow {A} (p : parser A) : Prop :=
  forall i a r, p i = Some (a, r) -> (length r <= length i)%nat.

Lemma repeat0_fuel_irrel : forall {A} (p : parser A), nongrow p ->
  forall n m i, (length i < n)%nat -> (length i < m)%nat ->
  repeat0_fuel n p i = repeat0_fuel m p i.
Proof.
  intros A p Hp. induction n as [|n IH]; intros m i Hn Hm; [lia|].
  destruct m as [|m]; [lia|]. cbn. destruct (p i) as [[a r]|] eqn:E; [|reflexivity].
  apply Hp in E. destruct (Nat.eqb_spec (length r) (length i)); [reflexivity|].
  rewrite (IH m r) by lia. reflexivity.
Qed.

Lemma repeat1_eq : forall {A} (p : parser A), nongrow p ->
  (forall i a r, p i = Some (a, r) -> length r <> length i) ->
  forall i, repeat1 p i = match repeat0 p i with Some ([], _) => None | x => x end.
Proof.
  intros A p Hp Hne i. unfold repeat1, repeat0. cbn [repeat0_fuel].
  destruct (p i) as [[a r]|] eqn:E; [|reflexivity].
  pose proof (Hp _ _ _ E). pose proof (Hne _ _ _ E).
  destruct (Nat.eqb_spec (length r) (length i)); [contradiction|].
  rewrite (repeat0_fuel_irrel p Hp (length i) (S (length r)) r) by lia.
  cbn [repeat0_fuel]. destruct (p r) as [[b r']|] eqn:F; [|reflexivity].
  destruct (Nat.eqb (length r') (length r)); [reflexivity|].
  destruct (repeat0_fuel (length r) p r') as [[l r'']|]; reflexivity.
Qed.

Lemma Forall2_length : forall {A B} (R : A -> B -> Prop) l k,
  Forall2 R l k -> length l = length k.
Proof. intros A B R l k H. induction H as [|x y l k _ _ IH]; cbn; congruence. Qed.

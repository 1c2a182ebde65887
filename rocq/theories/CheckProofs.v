(** * Proofs about the checks *)

From Coq Require Import String Permutation.
From Verif Require Import Bytes Winnow RecordModel RecordSpec BaseProofs TagOccModel Utf8Model Utf8Spec Utf8Proofs
  ByteRecordModel MatcherModel MatcherSpec MatcherProofs PathModel FmtModel QueryModel QuerySpec
  QueryProofs QueryExtraProofs CliModel CliSpec CliProofs TableSpec TableProofs CheckCodes CheckModel CheckSpec.

(** ** ISNI *)

Lemma isni_digits_picks : forall b, exists cs, characters b cs /\ isni_digits b = map (fun c => c - 48) cs
  /\ Forall (fun c => 48 <= c) cs.
Proof.
  unfold characters. induction b as [|c b (cs & H1 & H2 & H3)]; [exists []; repeat split; constructor|].
  change (isni_digits (c :: b)) with ((if 48 <=? c then [c - 48] else []) ++ isni_digits b).
  destruct (N.leb_spec 48 c) as [E|E].
  - exists (c :: cs). split; [constructor; assumption|]. split; [cbn; rewrite H2; reflexivity|constructor; assumption].
  - exists cs. split; [constructor; [lia|assumption]|]. split; assumption.
Qed.

Lemma fold_weighted : forall ds acc,
  fold_left (fun acc item => (acc + item) * 2) ds acc = acc * 2 ^ N.of_nat (length ds) + weighted ds.
Proof.
  induction ds as [|d ds IH]; intros acc; cbn [fold_left weighted length]; [cbn; lia|].
  rewrite IH. rewrite Nnat.Nat2N.inj_succ, N.pow_succ_r'. lia.
Qed.

Lemma mod_check : forall w x, x <= 10 -> ((12 - w mod 11) mod 11 = x <-> (w + x) mod 11 = 1).
Proof.
  intros w x Hx. rewrite <- (N.add_mod_idemp_l w x) by lia.
  assert (H : w mod 11 < 11) by (apply N.mod_lt; lia). revert H. generalize (w mod 11) as m. intros m H.
  assert (M : m = 0 \/ m = 1 \/ m = 2 \/ m = 3 \/ m = 4 \/ m = 5 \/ m = 6 \/ m = 7 \/ m = 8 \/ m = 9 \/ m = 10) by lia.
  assert (X : x = 0 \/ x = 1 \/ x = 2 \/ x = 3 \/ x = 4 \/ x = 5 \/ x = 6 \/ x = 7 \/ x = 8 \/ x = 9 \/ x = 10) by lia.
  repeat (destruct M as [->|M]); try subst m; repeat (destruct X as [->|X]); try subst x; vm_compute; split; congruence.
Qed.

Lemma digit_iff : forall c, digit c <-> 48 <= c <= 57.
Proof.
  intros c. unfold digit. cbn. split; [intuition lia|]. intros H.
  assert (c = 48 \/ c = 49 \/ c = 50 \/ c = 51 \/ c = 52 \/ c = 53 \/ c = 54 \/ c = 55 \/ c = 56 \/ c = 57) by lia.
  intuition.
Qed.

Lemma isni_ok_iff : forall b, isni_ok b = true <-> isni_accepted b.
Proof.
  intros b. unfold isni_ok, isni_accepted. destruct (isni_digits_picks b) as (cs & H1 & H2 & H3). rewrite H2. clear H2.
  rewrite Bool.andb_true_iff, Nat.eqb_eq, map_length. split.
  - intros [L E].
    assert (S : exists ds c, cs = ds ++ [c] /\ length ds = 15%nat).
    { destruct (rev cs) as [|c l] eqn:R.
      - apply (f_equal (@length byte)) in R. rewrite rev_length in R. cbn in R. lia.
      - exists (rev l), c. assert (cs = rev l ++ [c]) by (rewrite <- (rev_involutive cs), R; reflexivity). split; [assumption|].
        subst cs. rewrite app_length in L. cbn in L. lia. }
    destruct S as (ds & c & -> & Ld). rewrite map_app in E. cbn [map] in E.
    rewrite firstn_app, map_length, Ld, Nat.sub_diag, app_nil_r in E.
    rewrite firstn_all2 in E by (rewrite map_length; lia).
    rewrite app_nth2 in E by (rewrite map_length; lia). rewrite map_length, Ld in E. cbn [nth Nat.sub] in E.
    rewrite fold_weighted, N.mul_0_l, N.add_0_l in E.
    apply Forall_app in H3 as [_ Hc]. apply Forall_inv in Hc.
    exists ds, c. set (w := weighted _) in *.
    assert (Hm : (12 - w mod 11) mod 11 < 11) by (apply N.mod_lt; lia).
    destruct (N.eqb_spec ((12 - w mod 11) mod 11) 10) as [E10|E10]; apply N.eqb_eq in E.
    + exists 10. repeat split; try assumption; [right; split; lia|]. apply mod_check; lia.
    + exists (c - 48). repeat split; try assumption; [left; rewrite digit_iff; lia|]. apply mod_check; lia.
  - intros (ds & c & n & H4 & Ld & Hc & E).
    assert (cs = ds ++ [c]) by (eapply picks_fun; eassumption). subst cs.
    split; [rewrite app_length; cbn; lia|]. rewrite map_app. cbn [map].
    rewrite firstn_app, map_length, Ld, Nat.sub_diag, app_nil_r.
    rewrite firstn_all2 by (rewrite map_length; lia).
    rewrite app_nth2 by (rewrite map_length; lia). rewrite map_length, Ld. cbn [nth Nat.sub].
    rewrite fold_weighted, N.mul_0_l, N.add_0_l. set (w := weighted _) in *.
    destruct Hc as [[Hd ->]|[-> ->]].
    + apply digit_iff in Hd. apply mod_check in E; [|lia]. rewrite E.
      destruct (N.eqb_spec (c - 48) 10); [lia|]. apply N.eqb_refl.
    + apply mod_check in E; [|lia]. rewrite E. reflexivity.
Qed.

Lemma is_isni_accepted : forall b, is_isni b -> isni_accepted b.
Proof. intros b (ds & c & n & H1 & H2 & _ & H3 & H4). exists ds, c, n. auto. Qed.

(** on digits and a possible X at the end the two agree *)
Lemma isni_shaped : forall b ds c, characters b (ds ++ [c]) -> Forall digit ds ->
  (isni_accepted b <-> is_isni b).
Proof.
  intros b ds c H F. split; [|apply is_isni_accepted].
  intros (ds' & c' & n & H1 & H2 & H3 & H4). exists ds', c', n.
  assert (E : ds' ++ [c'] = ds ++ [c]) by (eapply picks_fun; eassumption).
  apply app_inj_tail in E as [-> ->]. auto.
Qed.

Lemma isni_reports_iff : forall prefix v, isni_reports prefix v = true <-> isni_bad prefix v.
Proof.
  intros prefix v. unfold isni_reports, isni_bad. destruct prefix as [p|]; cbn [opt_text].
  - assert (SW : forall v p, starts_with v p = true <-> exists rest, v = p ++ rest).
    { clear. induction v as [|a v IH]; intros [|b p]; cbn.
      - split; eauto.
      - split; [discriminate|]. intros [rest E]. discriminate E.
      - split; eauto.
      - rewrite Bool.andb_true_iff, N.eqb_eq, IH. split.
        + intros [-> [rest ->]]. exists rest. reflexivity.
        + intros [rest E]. injection E as -> ->. eauto. }
    rewrite Bool.andb_true_iff, SW, Bool.negb_true_iff. split.
    + intros [[rest ->] E]. exists rest. split; [reflexivity|]. rewrite <- isni_ok_iff.
      rewrite skipn_app, skipn_all, Nat.sub_diag in E. change (isni_ok ([] ++ skipn 0 rest)) with (isni_ok rest) in E. congruence.
    + intros (rest & -> & E). split; [eauto|]. rewrite skipn_app, skipn_all, Nat.sub_diag. change ([] ++ skipn 0 rest) with rest.
      rewrite <- isni_ok_iff in E. destruct (isni_ok rest); congruence.
  - rewrite Bool.negb_true_iff. split.
    + intros E. exists v. split; [reflexivity|]. rewrite <- isni_ok_iff. congruence.
    + intros (rest & -> & E). change ([] ++ rest) with rest. rewrite <- isni_ok_iff in E. destruct (isni_ok rest); congruence.
Qed.

(** *** Error detection *)

Lemma weighted_app : forall a b, weighted (a ++ b) = weighted a * 2 ^ N.of_nat (length b) + weighted b.
Proof.
  induction a as [|d a IH]; intros b; cbn [weighted app]; [lia|].
  rewrite IH. cbn [length]. rewrite app_length, !Nnat.Nat2N.inj_succ, Nnat.Nat2N.inj_add, !N.pow_succ_r', N.pow_add_r. nia.
Qed.

(** the check: the sum including the check character with weight 1 *)
Definition total (ds : list N) (n : N) : N := weighted ds + n.

Lemma pow2_mod11 : forall k, exists m, 1 <= m <= 10 /\ (2 ^ N.of_nat k) mod 11 = m.
Proof.
  induction k as [|k (m & Hm & E)]; [exists 1; cbn; split; [lia|reflexivity]|].
  rewrite Nnat.Nat2N.inj_succ, N.pow_succ_r', N.mul_mod by lia. rewrite E.
  exists ((2 mod 11 * m) mod 11). split; [clear E|reflexivity].
  assert (M : m = 1 \/ m = 2 \/ m = 3 \/ m = 4 \/ m = 5 \/ m = 6 \/ m = 7 \/ m = 8 \/ m = 9 \/ m = 10) by lia.
  repeat (destruct M as [->|M]); try subst m; vm_compute; split; discriminate.
Qed.

(** 11 is prime *)
Lemma cancel11 : forall a m, a < 11 -> (a * m) mod 11 = 0 -> m mod 11 <> 0 -> a = 0.
Proof.
  intros a m Ha E Hm. rewrite N.mul_mod in E by lia. rewrite (N.mod_small a) in E by lia.
  assert (Hm' : m mod 11 < 11) by (apply N.mod_lt; lia). revert E Hm Hm'. generalize (m mod 11) as k. intros k E Hm Hm'.
  assert (A : a = 0 \/ a = 1 \/ a = 2 \/ a = 3 \/ a = 4 \/ a = 5 \/ a = 6 \/ a = 7 \/ a = 8 \/ a = 9 \/ a = 10) by lia.
  assert (K : k = 1 \/ k = 2 \/ k = 3 \/ k = 4 \/ k = 5 \/ k = 6 \/ k = 7 \/ k = 8 \/ k = 9 \/ k = 10) by lia.
  repeat (destruct A as [->|A]); try subst a; try reflexivity; exfalso;
    repeat (destruct K as [->|K]); try subst k; vm_compute in E; discriminate E.
Qed.

Lemma mod_diff : forall x y, x <= y -> x mod 11 = y mod 11 -> (y - x) mod 11 = 0.
Proof.
  intros x y L E. pose proof (N.div_mod x 11 ltac:(lia)). pose proof (N.div_mod y 11 ltac:(lia)).
  assert (y - x = (y / 11 - x / 11) * 11) as -> by nia. apply N.mod_mul. lia.
Qed.

(** two sums that differ by a small multiple of a unit have different remainders *)
Lemma unit_diff : forall base a b m, a < 11 -> b < 11 -> m mod 11 <> 0 ->
  (base + a * m) mod 11 = (base + b * m) mod 11 -> a = b.
Proof.
  assert (W : forall base a b m, a <= b -> b < 11 -> m mod 11 <> 0 ->
    (base + a * m) mod 11 = (base + b * m) mod 11 -> a = b).
  { intros base a b m L Hb Hm E. apply mod_diff in E; [|nia].
    replace (base + b * m - (base + a * m)) with ((b - a) * m) in E by nia.
    apply cancel11 in E; [lia|lia|exact Hm]. }
  intros base a b m Ha Hb Hm E. destruct (N.le_ge_cases a b).
  - eapply W; eassumption.
  - symmetry in E |- *. eapply W; eassumption.
Qed.

Lemma pow2_unit : forall k, (2 ^ N.of_nat k) mod 11 <> 0.
Proof. intros k. destruct (pow2_mod11 k) as (m & Hm & E). lia. Qed.

Lemma last_snoc : forall A (l1 : list A) d l2 ds c, l1 ++ d :: l2 = ds ++ [c] ->
  (l2 = [] /\ l1 = ds /\ d = c) \/ (exists l3, l2 = l3 ++ [c] /\ ds = l1 ++ d :: l3).
Proof.
  intros A l1 d l2 ds c E. destruct (rev l2) as [|x l] eqn:R.
  - left. assert (l2 = []) by (rewrite <- (rev_involutive l2), R; reflexivity). subst.
    apply app_inj_tail in E as [-> ->]. auto.
  - right. assert (El : l2 = rev l ++ [x]) by (rewrite <- (rev_involutive l2), R; reflexivity). subst l2.
    change (l1 ++ d :: rev l ++ [x]) with (l1 ++ (d :: rev l) ++ [x]) in E. rewrite app_assoc in E.
    apply app_inj_tail in E as [<- ->]. exists (rev l). auto.
Qed.

Lemma check_character_fun : forall c n n', check_character c n -> check_character c n' -> n = n'.
Proof.
  intros c n n' [[H ->]|[-> ->]] [[H' ->]|[E ->]]; try reflexivity; subst; unfold digit in *; cbn in *; intuition discriminate.
Qed.

Lemma check_character_small : forall c n, check_character c n -> n < 11.
Proof. intros c n [[H ->]|[-> ->]]; [apply digit_iff in H|]; lia. Qed.

Lemma check_character_inj : forall c c' n, check_character c n -> check_character c' n -> c = c'.
Proof.
  intros c c' n [[H ->]|[-> ->]] [[H' E]|[-> E]]; try apply digit_iff in H; try apply digit_iff in H'; lia.
Qed.

(** a wrong character is detected *)
Lemma single_error : forall b b' l1 d d' l2, is_isni b ->
  characters b (l1 ++ d :: l2) -> characters b' (l1 ++ d' :: l2) -> d <> d' ->
  digit d' \/ (d' = 88 /\ l2 = []) -> ~ isni_accepted b'.
Proof.
  intros b b' l1 d d' l2 (ds & c & n & H1 & L & F & Hc & E) H2 H2' D Hd' (ds' & c' & n' & H3 & L' & Hc' & E').
  assert (E1 : l1 ++ d :: l2 = ds ++ [c]) by (eapply picks_fun; eassumption).
  assert (E2 : l1 ++ d' :: l2 = ds' ++ [c']) by (eapply picks_fun; eassumption).
  apply last_snoc in E1 as [(-> & -> & ->)|(l3 & -> & ->)].
  - apply last_snoc in E2 as [(_ & -> & ->)|(l3 & E2 & _)]; [|destruct l3; discriminate E2].
    set (w := weighted _) in *. apply D.
    assert (n = n').
    { apply (unit_diff w n n' 1); [eapply check_character_small; eassumption..|vm_compute; discriminate|].
      rewrite !N.mul_1_r. congruence. }
    subst n'. eapply check_character_inj; eassumption.
  - apply last_snoc in E2 as [(E2 & _)|(l4 & E2 & ->)]; [destruct l3; discriminate E2|].
    apply app_inj_tail in E2 as [<- <-].
    assert (n = n') by (eapply check_character_fun; eassumption). subst n'.
    destruct Hd' as [Hd'|[_ X]]; [|destruct l3; discriminate X].
    apply Forall_app in F as [_ F]. apply Forall_inv in F.
    apply digit_iff in F. apply digit_iff in Hd'.
    rewrite map_app in E, E'. cbn [map] in E, E'. rewrite weighted_app in E, E'. cbn [weighted length] in E, E'.
    rewrite !map_length in E, E'. set (u := 2 ^ N.of_nat (S (length l3))) in *.
    assert (d - 48 = d' - 48); [|lia].
    apply (unit_diff (weighted (map (fun x => x - 48) l1) * u + weighted (map (fun x => x - 48) l3) + n) _ _ u); try lia.
    + apply pow2_unit.
    + etransitivity; [|etransitivity; [exact (eq_trans E (eq_sym E'))|]]; f_equal; lia.
Qed.

(** a swap of adjacent digits is detected *)
Lemma adjacent_swap : forall b b' l1 d d' l2, is_isni b ->
  characters b (l1 ++ d :: d' :: l2) -> characters b' (l1 ++ d' :: d :: l2) -> d <> d' ->
  digit d' -> ~ isni_accepted b'.
Proof.
  intros b b' l1 d d' l2 (ds & c & n & H1 & L & F & Hc & E) H2 H2' D Hd' (ds' & c' & n' & H3 & L' & Hc' & E').
  assert (E1 : l1 ++ d :: d' :: l2 = ds ++ [c]) by (eapply picks_fun; eassumption).
  assert (E2 : l1 ++ d' :: d :: l2 = ds' ++ [c']) by (eapply picks_fun; eassumption).
  apply last_snoc in E1 as [(X & _)|(l3 & El & ->)]; [discriminate X|].
  apply last_snoc in E2 as [(X & _)|(l4 & El' & ->)]; [discriminate X|].
  apply Forall_app in F as [_ F]. pose proof (Forall_inv F) as Fd. apply Forall_inv_tail in F.
  apply digit_iff in Fd. apply digit_iff in Hd'.
  destruct l3 as [|x l3]; cbn in El.
  - injection El as -> ->. destruct l4 as [|y l4]; cbn in El'; [|destruct l4; discriminate El'].
    injection El' as ->.
    assert (n = c - 48) by (destruct Hc as [[_ ->]|[-> _]]; lia). subst n.
    assert (n' = c' - 48) by (destruct Hc' as [[_ ->]|[-> _]]; lia). subst n'.
    rewrite map_app in E, E'. cbn [map] in E, E'. rewrite weighted_app in E, E'. cbn [weighted length] in E, E'.
    change (2 ^ N.of_nat 1) with 2 in *. set (w := weighted (map _ l1)) in *.
    assert (c' - 48 = c - 48); [|lia].
    destruct (N.le_ge_cases c' c) as [Hle|Hle].
    + apply (unit_diff (w * 2 + (c' - 48) + (c - 48)) (c' - 48) (c - 48) 1); try lia; [vm_compute; discriminate|].
      etransitivity; [|etransitivity; [exact (eq_trans E (eq_sym E'))|]]; f_equal; lia.
    + apply (unit_diff (w * 2 + (c' - 48) + (c - 48)) (c' - 48) (c - 48) 1); try lia; [vm_compute; discriminate|].
      etransitivity; [|etransitivity; [exact (eq_trans E (eq_sym E'))|]]; f_equal; lia.
  - injection El as <- ->. destruct l4 as [|y l4]; cbn in El'.
    { injection El' as _ X. destruct l3; discriminate X. }
    injection El' as <- El'. apply app_inj_tail in El' as [<- <-].
    assert (n = n') by (eapply check_character_fun; eassumption). subst n'.
    rewrite map_app in E, E'. cbn [map] in E, E'. rewrite weighted_app in E, E'. cbn [weighted length] in E, E'.
    rewrite !map_length in E, E'. rewrite !Nnat.Nat2N.inj_succ, !N.pow_succ_r' in E, E'.
    set (u := 2 ^ N.of_nat (length l3)) in *. set (w := weighted (map _ l1)) in *. set (w3 := weighted (map _ l3)) in *.
    assert (d - 48 = d' - 48); [|lia].
    apply (unit_diff (w * (2 * (2 * u)) + w3 + n + (d - 48) * (2 * u) + (d' - 48) * (2 * u)) _ _ (2 * u)); try lia.
    + pose proof (pow2_unit (S (length l3))) as U. rewrite Nnat.Nat2N.inj_succ, N.pow_succ_r' in U. exact U.
    + etransitivity; [|etransitivity; [exact (eq_trans E (eq_sym E'))|]]; f_equal; lia.
Qed.

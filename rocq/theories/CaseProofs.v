(** * Proofs about comparisons without regard to case *)

From Coq Require Import String ZArith Lia.
From Verif Require Import Bytes BaseProofs RecordModel TagOccModel Utf8Model MatcherModel MatcherSpec MatcherProofs CaseSpec.

Lemma moved_refl : forall up b, moved up b b.
Proof. intros [] b H; exact H. Qed.

Lemma moved_negb : forall up b b', moved up b b' -> moved (negb up) (negb b) (negb b').
Proof. intros [] [] []; cbn; intuition congruence. Qed.

Lemma moved_true : forall b b', (b = true -> b' = true) -> moved true b b'.
Proof. intros b b' H. exact H. Qed.

Lemma moved_and : forall up b b' c c', moved up b b' -> moved up c c' -> moved up (b && c) (b' && c').
Proof. intros [] [] [] [] []; cbn; intuition congruence. Qed.

Lemma moved_or : forall up b b' c c', moved up b b' -> moved up c c' -> moved up (b || c) (b' || c').
Proof. intros [] [] [] [] []; cbn; intuition congruence. Qed.

(** both are answered, and the answers are on this side of each other *)
Definition both (up : bool) (x y : option bool) : Prop := exists b b', x = Some b /\ y = Some b' /\ moved up b b'.

Lemma both_any : forall {A} up (f g : A -> option bool) l, (forall x, In x l -> both up (f x) (g x)) -> both up (any_p f l) (any_p g l).
Proof.
  intros A up f g l. induction l as [|x l IH]; intros H; [exists false, false; repeat split; apply moved_refl|].
  destruct (H x (or_introl eq_refl)) as (b & b' & E & E' & M). destruct (IH (fun y Hy => H y (or_intror Hy))) as (c & c' & F & F' & M').
  cbn [any_p]. rewrite E, E'. exists (b || c), (b' || c'). destruct b, b'; cbn; rewrite ?F, ?F'; repeat split; exact (moved_or up _ _ _ _ M M').
Qed.

Lemma both_all : forall {A} up (f g : A -> option bool) l, (forall x, In x l -> both up (f x) (g x)) -> both up (all_p f l) (all_p g l).
Proof.
  intros A up f g l. induction l as [|x l IH]; intros H; [exists true, true; repeat split; apply moved_refl|].
  destruct (H x (or_introl eq_refl)) as (b & b' & E & E' & M). destruct (IH (fun y Hy => H y (or_intror Hy))) as (c & c' & F & F' & M').
  cbn [all_p]. rewrite E, E'. exists (b && c), (b' && c'). destruct b, b'; cbn; rewrite ?F, ?F'; repeat split; exact (moved_and up _ _ _ _ M M').
Qed.

Lemma both_quantify : forall {A} up q (f g : A -> option bool) l, (forall x, In x l -> both up (f x) (g x)) -> both up (quantify q f l) (quantify q g l).
Proof. intros A up [] f g l H; [apply both_all|apply both_any]; exact H. Qed.

Lemma both_filter : forall {A} up (f g : A -> option bool) l, (forall x, In x l -> both up (f x) (g x)) ->
  exists r r', filter_p f l = Some r /\ filter_p g l = Some r' /\ if up then (length r <= length r')%nat else (length r' <= length r)%nat.
Proof.
  intros A up f g l. induction l as [|x l IH]; intros H; [exists [], []; repeat split; destruct up; constructor|].
  destruct (H x (or_introl eq_refl)) as (b & b' & E & E' & M). destruct (IH (fun y Hy => H y (or_intror Hy))) as (r & r' & F & F' & L).
  cbn [filter_p]. rewrite E, E', F, F'. do 2 eexists. split; [reflexivity|]. split; [reflexivity|].
  destruct up, b, b'; cbn in *; try lia; exfalso; intuition congruence.
Qed.

Lemma both_composite_and : forall up (l l' r r' : option bool), both up l l' -> both up r r' ->
  both up (match l with Some lb => if lb then r else Some false | None => None end) (match l' with Some lb => if lb then r' else Some false | None => None end).
Proof.
  intros up l l' r r' (b & b' & -> & -> & M) (c & c' & -> & -> & M'). exists (b && c), (b' && c'). destruct b, b'; repeat split; exact (moved_and up _ _ _ _ M M').
Qed.

Lemma both_composite_or : forall up (l l' r r' : option bool), both up l l' -> both up r r' ->
  both up (match l with Some lb => if lb then Some true else r | None => None end) (match l' with Some lb => if lb then Some true else r' | None => None end).
Proof.
  intros up l l' r r' (b & b' & -> & -> & M) (c & c' & -> & -> & M'). exists (b || c), (b' || c'). destruct b, b'; repeat split; exact (moved_or up _ _ _ _ M M').
Qed.

Lemma both_not : forall up x y, both (negb up) x y ->
  both up (match x with Some b => Some (negb b) | None => None end) (match y with Some b => Some (negb b) | None => None end).
Proof.
  intros up x y (b & b' & -> & -> & M). exists (negb b), (negb b'). repeat split. apply moved_negb in M. rewrite Bool.negb_involutive in M. exact M.
Qed.

(** Two ways to compare, of which the sides of the comparisons are known *)
Section Moves.
  Variables O O' : oracles.
  Variables ci ci' : bool.
  Variable one : bool -> singleton -> Prop.
  Hypothesis Hone : forall up s sfs, one up s -> both up (singleton_is_match O ci s sfs) (singleton_is_match O' ci' s sfs).

  Lemma subfield_side : forall up m sfs, subfield_moves one up m -> both up (sm_is_match O ci m sfs) (sm_is_match O' ci' m sfs).
  Proof.
    intros up m sfs H. induction H; cbn [sm_is_match].
    - apply Hone. assumption.
    - assumption.
    - apply both_not. assumption.
    - apply both_composite_and; assumption.
    - apply both_composite_or; assumption.
  Qed.

  Lemma tag_occ_side : forall up t o m f, subfield_moves one up m -> both up (tag_occ_sub_match O ci t o (Some m) f) (tag_occ_sub_match O' ci' t o (Some m) f).
  Proof.
    intros up t o m f H. unfold tag_occ_sub_match. destruct (tag_occ_match t o f); [apply subfield_side; exact H|].
    exists false, false. repeat split. apply moved_refl.
  Qed.

  Lemma field_side : forall up m r, field_moves one up m -> both up (rm_is_match O ci m r) (rm_is_match O' ci' m r).
  Proof.
    unfold rm_is_match. intros up m r H. induction H; cbn [fm_is_match].
    - do 2 eexists. cbn. repeat split. apply moved_refl.
    - cbn [fs_is_match]. apply both_quantify. intros f _. apply subfield_side. assumption.
    - destruct (both_filter true (tag_occ_sub_match O ci t o None) (tag_occ_sub_match O' ci' t o None) r) as (s & s' & E & E' & _).
      { intros x _. do 2 eexists. split; [reflexivity|]. split; [reflexivity|]. intros X. exact X. }
      assert (s = s') by (change (tag_occ_sub_match O' ci' t o None) with (tag_occ_sub_match O ci t o None) in E'; congruence). subst s'. rewrite E, E'.
      destruct op; try discriminate; do 2 eexists; (split; [reflexivity|]); (split; [reflexivity|]); apply moved_refl.
    - destruct (both_filter up (tag_occ_sub_match O ci t o (Some m)) (tag_occ_sub_match O' ci' t o (Some m)) r) as (s & s' & E & E' & L).
      { intros x _. apply tag_occ_side. assumption. }
      rewrite E, E'. destruct H as [->| ->]; do 2 eexists; (split; [reflexivity|]); (split; [reflexivity|]);
        destruct up; cbn [moved]; rewrite ?N.leb_le, ?N.ltb_lt; lia.
    - destruct (both_filter (negb up) (tag_occ_sub_match O ci t o (Some m)) (tag_occ_sub_match O' ci' t o (Some m)) r) as (s & s' & E & E' & L).
      { intros x _. apply tag_occ_side. assumption. }
      rewrite E, E'. destruct H as [->| ->]; do 2 eexists; (split; [reflexivity|]); (split; [reflexivity|]);
        destruct up; cbn [moved negb] in *; rewrite ?N.leb_le, ?N.ltb_lt; lia.
    - assumption.
    - apply both_not. assumption.
    - apply both_composite_and; assumption.
    - apply both_composite_or; assumption.
  Qed.
End Moves.

Section Case.
  Variable O : oracles.
  Hypothesis Hlow : lower_of_parts O.

  Lemma lower_nil : o_lower O [] = [].
  Proof. assert (H := Hlow [] [] [] eq_refl). cbn in H. apply (f_equal (@length N)) in H. rewrite !app_length in H. destruct (o_lower O []); [reflexivity|cbn in H; lia]. Qed.

  Lemma lower_prefix : forall v value, utf8_valid v = true -> starts_with value v = true -> starts_with (o_lower O value) (o_lower O v) = true.
  Proof.
    intros v value Hv H. apply starts_with_iff in H. apply starts_with_iff. destruct H as (c & ->).
    exists (o_lower O c). assert (H := Hlow [] v c Hv). cbn in H. rewrite lower_nil in H. exact H.
  Qed.

  Lemma lower_suffix : forall v value, utf8_valid v = true -> ends_with value v = true -> ends_with (o_lower O value) (o_lower O v) = true.
  Proof.
    intros v value Hv H. apply ends_with_iff in H. apply ends_with_iff. destruct H as (c & ->).
    exists (o_lower O c). assert (H := Hlow c v [] Hv). rewrite lower_nil, !app_nil_r in H. exact H.
  Qed.

  Lemma lower_infix : forall v value, utf8_valid v = true -> contains_str value v = true -> contains_str (o_lower O value) (o_lower O v) = true.
  Proof.
    intros v value Hv H. apply contains_str_iff in H. apply contains_str_iff. destruct H as (a & c & ->).
    exists (o_lower O a), (o_lower O c). exact (Hlow a v c Hv).
  Qed.

  Lemma eq_moves : forall v value, rel_compare O false v value = true -> rel_compare O true v value = true.
  Proof.
    intros v value. unfold rel_compare. destruct (Nat.eqb (length value) (length v)); cbn; [|discriminate].
    intros H. apply bytes_eqb_eq in H. subst. apply bytes_eqb_eq. reflexivity.
  Qed.

  Lemma singleton_side : forall up s sfs, singleton_moves up s -> both up (singleton_is_match O false s sfs) (singleton_is_match O true s sfs).
  Proof.
    assert (N : forall b b', (b = true -> b' = true) -> moved false (negb b) (negb b')) by (intros b b' H; exact (moved_negb true b b' H)).
    intros up s sfs H. destruct H; cbn [singleton_is_match]; try (apply both_quantify; intros x _; do 2 eexists; split; [reflexivity|]; split; [reflexivity|]).
    - do 2 eexists. repeat split. apply moved_refl.
    - apply moved_true, eq_moves.
    - apply N, eq_moves.
    - apply moved_true. apply lower_prefix. assumption.
    - apply N. apply lower_prefix. assumption.
    - apply moved_true. apply lower_suffix. assumption.
    - apply N. apply lower_suffix. assumption.
    - apply moved_true. unfold contains_check. intros E. apply existsb_exists in E. destruct E as (v & Hv & E). apply existsb_exists. exists v. split; [exact Hv|].
      apply lower_infix; [|exact E]. exact (proj1 (Forall_forall _ _) H v Hv).
    - apply moved_true. unfold in_check. intros E. apply existsb_exists in E. destruct E as (v & Hv & E). apply existsb_exists. exists v. split; [exact Hv|].
      apply bytes_eqb_eq in E. rewrite E. apply bytes_eqb_eq. reflexivity.
    - unfold in_check. apply N. intros E. apply existsb_exists in E. destruct E as (v & Hv & E). apply existsb_exists. exists v. split; [exact Hv|].
      apply bytes_eqb_eq in E. rewrite E. apply bytes_eqb_eq. reflexivity.
    - destruct op; try discriminate; do 2 eexists; (split; [reflexivity|]); (split; [reflexivity|]); apply moved_refl.
  Qed.

  Lemma case_side : forall up m r, field_moves singleton_moves up m -> both up (rm_is_match O false m r) (rm_is_match O true m r).
  Proof. exact (field_side O O false true singleton_moves singleton_side). Qed.
End Case.

(** ** Similarity *)

Lemma both_same : forall up x, both up (Some x) (Some x).
Proof. intros up x. exists x, x. repeat split. apply moved_refl. Qed.

Lemma similar_one : forall O O' ci, no_stricter O O' -> forall up s sfs, similar_moves O ci up s ->
  both up (singleton_is_match O ci s sfs) (singleton_is_match O' ci s sfs).
Proof.
  intros O O' ci (E1 & E2 & E3 & E4 & Hs) up s sfs H. destruct H; cbn [singleton_is_match].
  - apply both_quantify. intros x _. do 2 eexists. split; [reflexivity|]. split; [reflexivity|]. apply moved_true. apply Hs.
  - apply both_quantify. intros x _. destruct op; try discriminate; try (destruct (H eq_refl)); cbn [rel_check]; unfold rel_compare, rel_starts_with, rel_ends_with; rewrite E1; apply both_same.
  - apply both_same.
  - apply both_quantify. intros x _. unfold contains_check. rewrite E1. apply both_same.
  - rewrite E2, H, E4. apply both_quantify. intros y _. apply both_same.
  - rewrite E3, H, E4. apply both_quantify. intros y _. apply both_same.
  - apply both_quantify. intros x _. unfold in_check. rewrite E1. apply both_same.
  - destruct op; try discriminate; apply both_same.
Qed.

Lemma similar_side : forall O O' ci, no_stricter O O' -> forall up m r, field_moves (similar_moves O ci) up m ->
  both up (rm_is_match O ci m r) (rm_is_match O' ci m r).
Proof. intros O O' ci H. exact (field_side O O' ci ci (similar_moves O ci) (similar_one O O' ci H)). Qed.

(** * Proofs about tag and occurrence matchers *)

From Coq Require Import String.
From Verif Require Import Bytes Winnow RecordModel RecordSpec BaseProofs RecordProofs
  TagOccModel TagOccSpec.

(** ** byte order *)
Lemma bytes_cmp_refl : forall a, bytes_cmp a a = Eq.
Proof. induction a as [|x a IH]; cbn; [reflexivity|]. rewrite N.compare_refl. exact IH. Qed.

Lemma bytes_cmp_eq : forall a b, bytes_cmp a b = Eq -> a = b.
Proof.
  induction a as [|x a IH]; destruct b as [|y b]; cbn; try congruence.
  destruct (N.compare_spec x y) as [->|_|_]; try discriminate. intros H. f_equal. auto.
Qed.

Lemma bytes_cmp_antisym : forall a b, bytes_cmp b a = CompOpp (bytes_cmp a b).
Proof.
  induction a as [|x a IH]; destruct b as [|y b]; cbn; try reflexivity.
  rewrite (N.compare_antisym x y). destruct (x ?= y); cbn; auto.
Qed.

Lemma bytes_cmp_lt_trans : forall a b c,
  bytes_cmp a b = Lt -> bytes_cmp b c = Lt -> bytes_cmp a c = Lt.
Proof.
  induction a as [|x a IH]; destruct b as [|y b]; destruct c as [|z c]; cbn; try congruence.
  destruct (N.compare_spec x y) as [E1|H1|H1]; destruct (N.compare_spec y z) as [E2|H2|H2];
    intros Ha Hb; try discriminate.
  - subst. rewrite N.compare_refl. eauto.
  - subst. rewrite (proj2 (N.compare_lt_iff y z)) by lia. reflexivity.
  - subst. rewrite (proj2 (N.compare_lt_iff x z)) by lia. reflexivity.
  - rewrite (proj2 (N.compare_lt_iff x z)) by lia. reflexivity.
Qed.

Lemma bytes_leb_lex : forall a b, bytes_leb a b = true <-> lex_le a b.
Proof.
  unfold bytes_leb. induction a as [|x a IH]; destruct b as [|y b]; cbn.
  - split; [|reflexivity]. intros _. left. exists []. reflexivity.
  - split; [|reflexivity]. intros _. left. exists (y :: b). reflexivity.
  - split; [discriminate|]. intros [[s H]|(p & u & v & a' & b' & H1 & H2 & _)].
    + discriminate.
    + destruct p; discriminate.
  - destruct (N.compare_spec x y) as [->|H|H].
    + rewrite IH. split.
      * intros [[s ->]|(p & u & v & a' & b' & -> & -> & Hlt)].
        -- left. exists s. reflexivity.
        -- right. exists (y :: p), u, v, a', b'. auto.
      * intros [[s E]|(p & u & v & a' & b' & E1 & E2 & Hlt)].
        -- injection E as ->. left. eauto.
        -- destruct p as [|z p]; cbn in E1, E2.
           ++ injection E1 as -> ->. injection E2 as -> ->. lia.
           ++ injection E1 as -> ->. injection E2 as ->. right. exists p, u, v, a', b'. auto.
    + split; [|reflexivity]. intros _. right. exists [], x, y, a, b. auto.
    + split; [discriminate|]. intros [[s E]|(p & u & v & a' & b' & E1 & E2 & Hlt)].
      * injection E as <- _. lia.
      * destruct p as [|z p]; cbn in E1, E2.
        -- injection E1 as -> ->. injection E2 as -> ->. lia.
        -- injection E1 as -> ->. injection E2 as -> ->. lia.
Qed.

Lemma bytes_ltb_leb : forall a b, bytes_ltb a b = negb (bytes_leb b a).
Proof.
  intros a b. unfold bytes_ltb, bytes_leb. rewrite (bytes_cmp_antisym a b).
  destruct (bytes_cmp a b); reflexivity.
Qed.

(** ** numbers *)
Definition number_from (acc : N) (b : bytes) : N :=
  fold_left (fun acc c => 10 * acc + (c - 48)) b acc.

Lemma number_from_split : forall b acc,
  number_from acc b = acc * 10 ^ N.of_nat (length b) + number b.
Proof.
  unfold number. fold (number_from 0).
  induction b as [|c b IH]; intros acc; cbn [length].
  - cbn. lia.
  - unfold number_from. cbn [fold_left]. fold (number_from (10 * acc + (c - 48)) b).
    fold (number_from (10 * 0 + (c - 48)) b).
    rewrite IH, (IH (10 * 0 + (c - 48))).
    rewrite Nat2N.inj_succ, N.pow_succ_r'. lia.
Qed.

Lemma number_bound : forall b, Forall (fun c => is_digit c = true) b ->
  number b < 10 ^ N.of_nat (length b).
Proof.
  induction 1 as [|c b Hc _ IH]; [cbn; lia|].
  unfold number. cbn [fold_left length]. fold (number_from (10 * 0 + (c - 48)) b).
  rewrite number_from_split, Nat2N.inj_succ, N.pow_succ_r'.
  unfold is_digit in Hc. apply andb_prop in Hc as [H1 H2]. apply N.leb_le in H1, H2.
  assert (c - 48 <= 9) by lia.
  set (p := 10 ^ N.of_nat (length b)) in *. nia.
Qed.

Lemma number_cons : forall c b,
  number (c :: b) = (c - 48) * 10 ^ N.of_nat (length b) + number b.
Proof.
  intros c b. unfold number at 1. cbn [fold_left]. fold (number_from (10 * 0 + (c - 48)) b).
  rewrite number_from_split. f_equal.
Qed.

Lemma number_cmp : forall a b,
  length a = length b ->
  Forall (fun c => is_digit c = true) a -> Forall (fun c => is_digit c = true) b ->
  bytes_cmp a b = (number a ?= number b).
Proof.
  induction a as [|x a IH]; destruct b as [|y b]; cbn [length]; intros Hl Ha Hb; try discriminate.
  - reflexivity.
  - inversion Ha as [|? ? Hx Ha']; subst. inversion Hb as [|? ? Hy Hb']; subst.
    injection Hl as Hl. cbn [bytes_cmp]. rewrite !number_cons, Hl.
    pose proof (number_bound a Ha') as Ba. pose proof (number_bound b Hb') as Bb.
    rewrite Hl in Ba.
    set (p := 10 ^ N.of_nat (length b)) in *.
    unfold is_digit in Hx, Hy. apply andb_prop in Hx as [H1 H2]. apply andb_prop in Hy as [H3 H4].
    apply N.leb_le in H1, H2, H3, H4.
    destruct (N.compare_spec x y) as [->|H|H].
    + rewrite (IH b Hl Ha' Hb'). symmetry.
      destruct (N.compare_spec (number a) (number b));
        [apply N.compare_eq_iff|apply N.compare_lt_iff|apply N.compare_gt_iff]; lia.
    + symmetry. apply N.compare_lt_iff. assert (x - 48 + 1 <= y - 48) by lia. nia.
    + symmetry. apply N.compare_gt_iff. assert (y - 48 + 1 <= x - 48) by lia. nia.
Qed.

Lemma valid_occ_digits : forall o, valid_occ o -> Forall (fun c => is_digit c = true) o.
Proof.
  intros o [_ H]. eapply Forall_impl; [|exact H]. intros c. apply in_digits_iff.
Qed.

Lemma bytes_ltb_number : forall a b, valid_occ a -> valid_occ b -> length a = length b ->
  bytes_ltb a b = (number a <? number b).
Proof.
  intros a b Ha Hb Hl. unfold bytes_ltb, N.ltb.
  rewrite (number_cmp a b Hl (valid_occ_digits _ Ha) (valid_occ_digits _ Hb)). reflexivity.
Qed.

Lemma bytes_leb_number : forall a b, valid_occ a -> valid_occ b -> length a = length b ->
  bytes_leb a b = (number a <=? number b).
Proof.
  intros a b Ha Hb Hl. unfold bytes_leb, N.leb.
  rewrite (number_cmp a b Hl (valid_occ_digits _ Ha) (valid_occ_digits _ Hb)). reflexivity.
Qed.

(** ** occurrence matchers *)

(** matchers the parser produces *)
Definition om_valid (m : occ_matcher) : Prop :=
  match m with
  | OMExact o => valid_occ o /\ o <> lit "00"
  | OMRange lo hi => valid_occ lo /\ valid_occ hi /\ length lo = length hi /\ number lo < number hi
  | OMNone | OMAny => True
  end.

(** the characters that may follow an occurrence matcher in a larger text *)
Definition occ_stop (r : bytes) : Prop :=
  match r with
  | [] => True
  | c :: _ => is_digit c = false /\ c <> 45 /\ c <> 47
  end.

Lemma parse_om_range_inv : forall i m r, parse_om_range i = Some (m, r) ->
  i = lit "" ++ match m with OMRange lo hi => lo ++ 45 :: hi | _ => [] end ++ r /\ om_valid m
  /\ exists lo hi, m = OMRange lo hi.
Proof.
  unfold parse_om_range, pmap, pverify, dash_pair. intros i m r H.
  destruct (parse_occurrence i) as [[a r1]|] eqn:E1; [|discriminate].
  destruct (ch 45 r1) as [[x r2]|] eqn:E2; [|discriminate].
  destruct (parse_occurrence r2) as [[b r3]|] eqn:E3; [|discriminate]. cbn [fst snd] in H.
  destruct (Nat.eqb (length a) (length b) && bytes_ltb a b) eqn:E4; [|discriminate].
  injection H as <- <-.
  apply parse_occurrence_inv in E1 as (-> & Ha & _).
  apply ch_inv in E2 as [-> ->].
  apply parse_occurrence_inv in E3 as (-> & Hb & _).
  apply andb_prop in E4 as [E4 E5]. apply Nat.eqb_eq in E4.
  rewrite bytes_ltb_number in E5 by assumption. apply N.ltb_lt in E5.
  split; [|split].
  - cbn. rewrite <- app_assoc. reflexivity.
  - cbn. auto.
  - eauto.
Qed.

Lemma parse_om_exact_inv : forall i m r, parse_om_exact i = Some (m, r) ->
  exists o, m = OMExact o /\ i = o ++ r /\ om_valid m.
Proof.
  unfold parse_om_exact, pmap, pverify. intros i m r H.
  destruct (parse_occurrence i) as [[a r1]|] eqn:E1; [|discriminate].
  destruct (negb (bytes_eqb a (lit "00"))) eqn:E2; [|discriminate].
  injection H as <- <-. apply parse_occurrence_inv in E1 as (-> & Ha & _).
  exists a. split; [reflexivity|]. split; [reflexivity|]. split; [exact Ha|].
  apply bytes_eqb_neq. apply negb_true_iff. exact E2.
Qed.

(** what was consumed *)
Lemma parse_occ_matcher_inv : forall i m r, parse_occ_matcher i = Some (m, r) ->
  om_valid m /\ (i = om_display m ++ r \/ (m = OMNone /\ i = lit "/00" ++ r)).
Proof.
  unfold parse_occ_matcher, alt, preceded, pvalue, pmap. intros i m r H.
  destruct (ch SLASH i) as [[x r1]|] eqn:E1.
  - apply ch_inv in E1 as [-> ->].
    destruct (parse_om_range r1) as [[m1 r2]|] eqn:E2.
    { injection H as -> ->. apply parse_om_range_inv in E2 as (-> & Hm & lo & hi & ->).
      split; [exact Hm|]. left. reflexivity. }
    destruct (parse_om_exact r1) as [[m1 r2]|] eqn:E3.
    { injection H as -> ->. apply parse_om_exact_inv in E3 as (o & -> & -> & Hm).
      split; [exact Hm|]. left. reflexivity. }
    destruct (tok (lit "00") r1) as [[u r2]|] eqn:E4.
    { injection H as <- <-. apply tok_inv in E4 as ->. split; [exact I|]. right. auto. }
    destruct (tok (lit "*") r1) as [[u r2]|] eqn:E5.
    { injection H as <- <-. apply tok_inv in E5 as ->. split; [exact I|]. left. reflexivity. }
    injection H as <- <-. split; [exact I|]. left. reflexivity.
  - injection H as <- <-. split; [exact I|]. left. reflexivity.
Qed.

Lemma occ_stop_digit : forall (o : bytes) r, occ_stop r ->
  (length o = 2%nat -> match r with [] => True | c :: _ => is_digit c = false end).
Proof. intros o [|c r]; cbn; tauto. Qed.

Lemma parse_om_range_none_exact : forall o r, valid_occ o ->
  match r with [] => True | c :: _ => c <> 45 end ->
  (length o = 2%nat -> match r with [] => True | c :: _ => is_digit c = false end) ->
  parse_om_range (o ++ r) = None.
Proof.
  intros o r Ho Hr Hd. unfold parse_om_range, pmap, pverify, dash_pair.
  rewrite parse_occurrence_ok by assumption.
  destruct r as [|c r]; [reflexivity|]. rewrite ch_fail by exact Hr. reflexivity.
Qed.

Lemma parse_occ_matcher_display : forall m r, om_valid m -> occ_stop r ->
  parse_occ_matcher (om_display m ++ r) = Some (m, r).
Proof.
  intros m r Hm Hr. pose proof (occ_stop_digit) as Hd.
  unfold parse_occ_matcher, alt, preceded, pvalue, pmap.
  destruct m as [o|lo hi| |]; cbn [om_display app].
  - destruct Hm as [Ho Hne]. rewrite ch_ok.
    rewrite parse_om_range_none_exact; [|exact Ho|destruct r; cbn in Hr; tauto|apply Hd; exact Hr].
    unfold parse_om_exact, pmap, pverify. rewrite parse_occurrence_ok; [|exact Ho|apply Hd; exact Hr].
    rewrite (proj2 (bytes_eqb_neq o (lit "00")) Hne). reflexivity.
  - destruct Hm as (Hlo & Hhi & Hl & Hlt). rewrite ch_ok.
    unfold parse_om_range, pmap, pverify, dash_pair. rewrite <- app_assoc.
    rewrite parse_occurrence_ok; [|exact Hlo|intros _; reflexivity].
    cbn [app]. rewrite ch_ok. rewrite parse_occurrence_ok; [|exact Hhi|apply Hd; exact Hr].
    cbn [fst snd]. rewrite Hl, Nat.eqb_refl.
    rewrite bytes_ltb_number by assumption. rewrite (proj2 (N.ltb_lt _ _) Hlt). reflexivity.
  - destruct r as [|c r]; [reflexivity|]. rewrite ch_fail; [reflexivity|].
    destruct Hr as (_ & _ & Hc). exact Hc.
  - cbn. reflexivity.
Qed.

Lemma parse_occ_matcher_zero : forall r, occ_stop r ->
  parse_occ_matcher (lit "/00" ++ r) = Some (OMNone, r).
Proof.
  intros r Hr. unfold parse_occ_matcher, alt, preceded, pvalue, pmap.
  change (lit "/00" ++ r) with (SLASH :: lit "00" ++ r). rewrite ch_ok.
  assert (Hz : valid_occ (lit "00")).
  { split; [left; reflexivity|]. repeat constructor. }
  rewrite parse_om_range_none_exact; [|exact Hz|destruct r; cbn in Hr; tauto|apply occ_stop_digit; exact Hr].
  unfold parse_om_exact, pmap, pverify.
  rewrite parse_occurrence_ok; [|exact Hz|apply occ_stop_digit; exact Hr].
  rewrite bytes_eqb_refl. cbn [negb]. rewrite tok_ok. reflexivity.
Qed.

(** C15 *)
Lemma occ_display_parse : forall b m,
  occ_matcher_new b = Some m -> occ_matcher_new (om_display m) = Some m.
Proof.
  intros b m H. apply parse_all_inv, parse_occ_matcher_inv in H as [Hm _].
  apply parse_all_ok. rewrite <- (app_nil_r (om_display m)).
  apply parse_occ_matcher_display; [exact Hm|exact I].
Qed.

(** C14 *)
Definition om_set (m : occ_matcher) : option bytes -> Prop :=
  match m with
  | OMNone => fun o => o = None \/ o = Some (lit "00")
  | OMAny => fun _ => True
  | OMExact x => fun o => o = Some x
  | OMRange x y => fun o => exists z, o = Some z /\ lex_le x z /\ lex_le z y
  end.

Lemma om_is_match_set : forall m o, om_is_match m o = true <-> om_set m o.
Proof.
  intros m [o|]; destruct m as [x|x y| |]; cbn.
  - rewrite bytes_eqb_eq. split; congruence.
  - rewrite andb_true_iff, !bytes_leb_lex. split.
    + intros [H1 H2]. exists o. auto.
    + intros (z & E & H1 & H2). injection E as <-. auto.
  - change (match o with [48; 48] => true | _ => bytes_eqb o (lit "00") end = true) with
      (bytes_eqb o (lit "00") = true) || rewrite bytes_eqb_eq.
    split; [intros ->; auto|intros [E|E]; congruence].
  - tauto.
  - split; congruence.
  - split; [congruence|]. intros (z & E & _). discriminate.
  - tauto.
  - tauto.
Qed.

Lemma occ_matcher_new_text : forall b m, occ_matcher_new b = Some m -> occ_matcher_text b (om_set m).
Proof.
  intros b m H. apply parse_all_inv, parse_occ_matcher_inv in H as [Hm [->|[-> ->]]];
    rewrite app_nil_r.
  - destruct m as [x|x y| |]; cbn in *.
    + destruct Hm. apply (omt_exact x); assumption.
    + destruct Hm as (? & ? & ? & ?). apply (omt_range x y); assumption.
    + apply omt_empty.
    + apply omt_any.
  - apply omt_zero.
Qed.

Lemma occ_matcher_text_new : forall b P, occ_matcher_text b P ->
  exists m, occ_matcher_new b = Some m /\ (forall o, om_set m o <-> P o).
Proof.
  intros b P H. assert (D : forall m, om_valid m -> occ_matcher_new (om_display m) = Some m).
  { intros m Hm. apply parse_all_ok. rewrite <- (app_nil_r (om_display m)).
    apply parse_occ_matcher_display; [exact Hm|exact I]. }
  destruct H as [| | |x Hx Hne|x y Hx Hy Hl Hlt].
  - exists OMNone. split; [apply (D OMNone); exact I|intros o; cbn; tauto].
  - exists OMNone. split; [|intros o; cbn; tauto]. apply parse_all_ok.
    rewrite <- (app_nil_r (lit "/00")). apply parse_occ_matcher_zero. exact I.
  - exists OMAny. split; [apply (D OMAny); exact I|intros o; cbn; tauto].
  - exists (OMExact x). split; [apply (D (OMExact x)); split; assumption|intros o; cbn; tauto].
  - exists (OMRange x y). split; [apply (D (OMRange x y)); cbn; auto|intros o; cbn; tauto].
Qed.

Lemma occ_matcher_sound : forall b m, occ_matcher_new b = Some m ->
  exists P, occ_matcher_text b P /\ (forall o, om_is_match m o = true <-> P o).
Proof.
  intros b m H. exists (om_set m). split; [apply occ_matcher_new_text; exact H|].
  intros o. apply om_is_match_set.
Qed.

Lemma occ_matcher_complete : forall b P, occ_matcher_text b P ->
  exists m, occ_matcher_new b = Some m /\ (forall o, om_is_match m o = true <-> P o).
Proof.
  intros b P H. destruct (occ_matcher_text_new b P H) as (m & Hm & HP).
  exists m. split; [exact Hm|]. intros o. rewrite om_is_match_set. apply HP.
Qed.

(** numeric reading of a range for occurrences of the same width *)
Lemma occ_range_numeric : forall x y z m,
  valid_occ x -> valid_occ y -> valid_occ z ->
  length x = length y -> length z = length x ->
  occ_matcher_new (lit "/" ++ x ++ lit "-" ++ y) = Some m ->
  (om_is_match m (Some z) = true <-> number x <= number z <= number y).
Proof.
  intros x y z m Hx Hy Hz Hxy Hzx H.
  assert (m = OMRange x y).
  { destruct (bytes_ltb x y) eqn:E.
    - assert (D : occ_matcher_new (om_display (OMRange x y)) = Some (OMRange x y)).
      { apply parse_all_ok. rewrite <- (app_nil_r (om_display _)).
        apply parse_occ_matcher_display; [|exact I]. cbn.
        rewrite bytes_ltb_number in E by assumption. apply N.ltb_lt in E. auto. }
      change (om_display (OMRange x y)) with (lit "/" ++ x ++ lit "-" ++ y) in D. congruence.
    - exfalso. apply parse_all_inv in H.
      unfold parse_occ_matcher, alt, preceded, pvalue, pmap in H.
      change (lit "/" ++ x ++ lit "-" ++ y) with (SLASH :: x ++ 45 :: y) in H.
      rewrite ch_ok in H.
      unfold parse_om_range, parse_om_exact, pmap, pverify, dash_pair in H.
      rewrite parse_occurrence_ok in H; [|exact Hx|intros _; reflexivity].
      rewrite ch_ok in H. rewrite <- (app_nil_r y) in H at 1.
      rewrite parse_occurrence_ok in H; [|exact Hy|auto]. cbn [fst snd] in H.
      rewrite E, andb_false_r in H.
      destruct (negb (bytes_eqb x (lit "00"))) eqn:F; [injection H; discriminate|].
      apply negb_false_iff, bytes_eqb_eq in F. subst x.
      change (tok (lit "00") (lit "00" ++ 45 :: y)) with (Some (tt, 45 :: y)) in H.
      injection H; discriminate. }
  subst m. cbn. rewrite andb_true_iff, !bytes_leb_number by (assumption || congruence).
  rewrite !N.leb_le. tauto.
Qed.

(** reversed, empty and mixed-width ranges are rejected *)
Lemma occ_range_rejected : forall x y,
  valid_occ x -> valid_occ y -> (length x <> length y \/ number y <= number x) ->
  occ_matcher_new (lit "/" ++ x ++ lit "-" ++ y) = None.
Proof.
  intros x y Hx Hy Hbad. unfold occ_matcher_new, parse_all.
  change (lit "/" ++ x ++ lit "-" ++ y) with (SLASH :: x ++ 45 :: y).
  unfold parse_occ_matcher, alt, preceded, pvalue, pmap. rewrite ch_ok.
  unfold parse_om_range, parse_om_exact, pmap, pverify, dash_pair.
  rewrite parse_occurrence_ok; [|exact Hx|intros _; reflexivity].
  rewrite ch_ok.
  assert (Ey : parse_occurrence y = Some (y, [])).
  { rewrite <- (app_nil_r y) at 1. apply parse_occurrence_ok; [exact Hy|auto]. }
  rewrite Ey. cbn [fst snd].
  assert (E : Nat.eqb (length x) (length y) && bytes_ltb x y = false).
  { destruct (Nat.eqb_spec (length x) (length y)) as [El|El]; [|reflexivity]. cbn.
    rewrite bytes_ltb_number by assumption. apply N.ltb_ge. destruct Hbad; [contradiction|assumption]. }
  rewrite E.
  destruct (negb (bytes_eqb x (lit "00"))) eqn:F; [reflexivity|].
  apply negb_false_iff, bytes_eqb_eq in F. subst x. reflexivity.
Qed.

(** ** tag matchers *)
Lemma byte_range_In : forall a b x, a <= b -> (In x (byte_range a b) <-> a <= x <= b).
Proof.
  intros a b x Hab. unfold byte_range. rewrite in_map_iff. split.
  - intros (k & <- & Hk). apply in_seq in Hk. lia.
  - intros H. exists (N.to_nat (x - a)). split; [lia|]. apply in_seq. lia.
Qed.

Section Fragment.
  Variable allowed : bytes.
  Hypothesis no_dash : ~ In 45 allowed.
  Hypothesis no_dot : ~ In 46 allowed.
  Hypothesis no_open : ~ In 91 allowed.
  Hypothesis no_close : ~ In 93 allowed.

  Let okc (c : byte) : bool := mem_byte c allowed.

  Lemma okc_In : forall c, okc c = true <-> In c allowed.
  Proof. intros c. apply mem_byte_In. Qed.

  Lemma okc_false : forall c, ~ In c allowed -> okc c = false.
  Proof. intros c H. apply mem_byte_not_In. exact H. Qed.

  Lemma parse_tm_item_inv : forall i l r, parse_tm_item allowed i = Some (l, r) ->
    exists t P, i = t ++ r /\ item_text allowed t P /\ (forall x, In x l <-> P x).
  Proof.
    intros i l r H. unfold parse_tm_item, alt, pmap, pverify, dash_pair in H. fold okc in H.
    destruct (one_of okc i) as [[a r1]|] eqn:E1; [|discriminate].
    apply one_of_inv in E1 as [-> Ha]. apply okc_In in Ha.
    assert (single : Some ([a], r1) = Some (l, r) ->
      exists t P, a :: r1 = t ++ r /\ item_text allowed t P /\ (forall x, In x l <-> P x)).
    { intros E. injection E as <- <-. exists [a], (fun x => x = a).
      split; [reflexivity|]. split; [constructor; exact Ha|]. intros x. cbn. intuition congruence. }
    destruct (ch 45 r1) as [[x r2]|] eqn:E2; [|auto].
    destruct (one_of okc r2) as [[b r3]|] eqn:E3; [|auto]. cbn [fst snd] in H.
    destruct (a <? b) eqn:E4; [|auto]. clear single.
    injection H as <- <-. apply ch_inv in E2 as [-> ->]. apply one_of_inv in E3 as [-> Hb].
    apply okc_In in Hb. apply N.ltb_lt in E4.
    exists (a :: lit "-" ++ [b]), (fun x => a <= x /\ x <= b).
    split; [reflexivity|]. split; [constructor; assumption|].
    intros x. apply byte_range_In. lia.
  Qed.

  Lemma parse_tm_item_ok : forall t P r, item_text allowed t P ->
    match r with [] => True | c :: _ => c <> 45 end ->
    exists l, parse_tm_item allowed (t ++ r) = Some (l, r) /\ (forall x, In x l <-> P x).
  Proof.
    intros t P r H Hr. unfold parse_tm_item, alt, pmap, pverify, dash_pair. fold okc.
    destruct H as [c Hc|a b Ha Hb Hab].
    - cbn [app]. rewrite one_of_ok by (apply okc_In; exact Hc).
      exists [c]. split; [|intros x; cbn; intuition congruence].
      destruct r as [|d r]; [reflexivity|]. rewrite ch_fail by exact Hr. reflexivity.
    - change ((a :: lit "-" ++ [b]) ++ r) with (a :: 45 :: b :: r).
      rewrite one_of_ok by (apply okc_In; exact Ha). rewrite ch_ok.
      rewrite one_of_ok by (apply okc_In; exact Hb). cbn [fst snd].
      rewrite (proj2 (N.ltb_lt a b) Hab). exists (byte_range a b). split; [reflexivity|].
      intros x. apply byte_range_In. lia.
  Qed.

  Lemma item_text_start : forall t P, item_text allowed t P ->
    exists c t', t = c :: t' /\ In c allowed.
  Proof. intros t P H. destruct H; eauto. Qed.

  Lemma parse_tm_item_none : forall c r, ~ In c allowed -> parse_tm_item allowed (c :: r) = None.
  Proof.
    intros c r H. unfold parse_tm_item, alt, pmap, pverify, dash_pair. fold okc.
    rewrite one_of_fail by (apply okc_false; exact H). reflexivity.
  Qed.

  Lemma parse_tm_item_ext : forall i l c r s,
    parse_tm_item allowed i = Some (l, c :: r) -> c <> 45 ->
    parse_tm_item allowed (i ++ s) = Some (l, c :: r ++ s).
  Proof.
    intros i l c r s H Hc. unfold parse_tm_item, alt, pmap, pverify, dash_pair in *. fold okc in H |- *.
    destruct (one_of okc i) as [[a r1]|] eqn:E1; [|discriminate].
    apply one_of_inv in E1 as [-> Ha]. cbn [app]. rewrite one_of_ok by exact Ha.
    destruct r1 as [|d r1]; [discriminate|]. cbn [app].
    destruct (N.eq_dec d 45) as [->|Hd].
    - rewrite ch_ok in H |- *. destruct (one_of okc r1) as [[b r3]|] eqn:E3.
      + apply one_of_inv in E3 as [-> Hb]. cbn [app]. rewrite one_of_ok by exact Hb. cbn [fst snd] in *.
        destruct (a <? b); [|injection H as _ <- _; congruence].
        injection H as <- ->. reflexivity.
      + injection H as _ <- _. congruence.
    - rewrite ch_fail in H |- * by exact Hd. injection H as <- -> ->. reflexivity.
  Qed.

  Lemma items_ext_fuel : forall n i ls r s m,
    repeat0_fuel n (parse_tm_item allowed) i = Some (ls, 93 :: r) ->
    (length (i ++ s) < m)%nat ->
    repeat0_fuel m (parse_tm_item allowed) (i ++ s) = Some (ls, 93 :: r ++ s).
  Proof.
    induction n as [|n IH]; cbn; intros i ls r s m H Hm; [discriminate|].
    destruct m as [|m]; [lia|]. cbn.
    destruct (parse_tm_item allowed i) as [[l r1]|] eqn:E.
    - destruct (Nat.eqb (length r1) (length i)); [discriminate|].
      destruct (repeat0_fuel n (parse_tm_item allowed) r1) as [[ls' r2]|] eqn:F; [|discriminate].
      injection H as <- ->.
      assert (Hr1 : exists c r1', r1 = c :: r1' /\ c <> 45).
      { destruct n as [|n']; [discriminate|]. cbn in F.
        destruct (parse_tm_item allowed r1) as [[l2 r3]|] eqn:G.
        - apply parse_tm_item_inv in G as (t & P & -> & Ht & _).
          apply item_text_start in Ht as (c & t' & -> & Hc). exists c, (t' ++ r3).
          split; [reflexivity|]. intros ->. contradiction.
        - injection F as _ ->. exists 93, r. split; [reflexivity|discriminate]. }
      destruct Hr1 as (c & r1' & -> & Hc).
      rewrite (parse_tm_item_ext _ _ _ _ s E Hc).
      pose proof E as E'. apply parse_tm_item_inv in E' as (t & P & -> & Ht & _).
      apply item_text_start in Ht as (d & t' & -> & _).
      rewrite (proj2 (Nat.eqb_neq _ _)).
      2:{ lenlia. }
      change (c :: r1' ++ s) with ((c :: r1') ++ s).
      rewrite (IH _ _ _ s m F); [reflexivity|].
      lenlia.
    - injection H as <- ->. cbn [app]. rewrite parse_tm_item_none by exact no_close. reflexivity.
  Qed.

  Lemma items_text_start : forall t P, items_text allowed t P ->
    exists c t', t = c :: t' /\ In c allowed.
  Proof.
    intros t P H. destruct H as [t P H|t P ts Q H _]; apply item_text_start in H;
      destruct H as (c & t' & -> & Hc); [eauto|]. exists c, (t' ++ ts). auto.
  Qed.

  Lemma items_inv_fuel : forall n i ls r,
    repeat0_fuel n (parse_tm_item allowed) i = Some (ls, r) ->
    (ls = [] /\ r = i) \/
    exists t P, i = t ++ r /\ items_text allowed t P /\ (forall x, In x (concat ls) <-> P x).
  Proof.
    induction n as [|n IH]; cbn; intros i ls r H; [discriminate|].
    destruct (parse_tm_item allowed i) as [[l r1]|] eqn:E.
    - destruct (Nat.eqb (length r1) (length i)); [discriminate|].
      destruct (repeat0_fuel n (parse_tm_item allowed) r1) as [[ls' r2]|] eqn:F; [|discriminate].
      injection H as <- <-. apply parse_tm_item_inv in E as (t & P & -> & Ht & HP). right.
      apply IH in F as [[-> ->]|(ts & Q & -> & Hts & HQ)].
      + exists t, P. split; [reflexivity|]. split; [constructor; exact Ht|].
        intros x. cbn. rewrite app_nil_r. apply HP.
      + exists (t ++ ts), (fun x => P x \/ Q x). split; [apply app_assoc|].
        split; [constructor; assumption|]. intros x. cbn. rewrite in_app_iff, HP, HQ. tauto.
    - injection H as <- <-. auto.
  Qed.

  Lemma items_ok_fuel : forall t P, items_text allowed t P -> forall n r,
    (length (t ++ 93%N :: r) < n)%nat ->
    exists ls, repeat0_fuel n (parse_tm_item allowed) (t ++ 93 :: r) = Some (ls, 93 :: r)
      /\ ls <> [] /\ (forall x, In x (concat ls) <-> P x).
  Proof.
    induction 1 as [t P Ht|t P ts Q Ht Hts IH]; intros n r Hn.
    - destruct (parse_tm_item_ok t P (93 :: r) Ht) as (l & El & Hl); [discriminate|].
      destruct (item_text_start t P Ht) as (c & t' & -> & Hc).
      destruct n as [|n]; [cbn in Hn; lia|]. cbn [repeat0_fuel]. rewrite El.
      rewrite (proj2 (Nat.eqb_neq _ _)) by (rewrite app_length; cbn; lia).
      destruct n as [|n]; [cbn in Hn; rewrite app_length in Hn; cbn in Hn; lia|].
      cbn [repeat0_fuel]. rewrite parse_tm_item_none by exact no_close.
      exists [l]. split; [reflexivity|]. split; [discriminate|].
      intros x. cbn. rewrite app_nil_r. apply Hl.
    - rewrite <- app_assoc.
      destruct (items_text_start ts Q Hts) as (d & ts' & E & Hd).
      destruct (parse_tm_item_ok t P (ts ++ 93 :: r) Ht) as (l & El & Hl).
      { rewrite E. cbn. intros ->. contradiction. }
      destruct (item_text_start t P Ht) as (c & t' & -> & Hc).
      destruct n as [|n]; [lia|]. cbn [repeat0_fuel]. rewrite El.
      rewrite (proj2 (Nat.eqb_neq _ _)).
      2:{ cbn [app length]. rewrite (app_length t'). lia. }
      destruct (IH n r) as (ls & Els & Hne & Hls).
      { rewrite <- app_assoc in Hn. cbn [app length] in Hn. rewrite app_length in Hn. lia. }
      rewrite Els. exists (l :: ls). split; [reflexivity|]. split; [discriminate|].
      intros x. cbn. rewrite in_app_iff, Hl, Hls. tauto.
  Qed.

  Lemma parse_tm_fragment_inv : forall i l r, parse_tm_fragment allowed i = Some (l, r) ->
    exists t P, i = t ++ r /\ pos_text allowed t P /\ (forall x, In x l <-> P x).
  Proof.
    intros i l r H. unfold parse_tm_fragment, alt, pmap, pvalue, delimited in H. fold okc in H.
    destruct (one_of okc i) as [[c r1]|] eqn:E1.
    { injection H as <- <-. apply one_of_inv in E1 as [-> Hc]. apply okc_In in Hc.
      exists [c], (fun x => x = c). split; [reflexivity|]. split; [constructor; exact Hc|].
      intros x. cbn. intuition congruence. }
    unfold pmap in H. destruct (ch 46 i) as [[c r1]|] eqn:E2.
    { injection H as <- <-. apply ch_inv in E2 as [-> ->].
      exists (lit "."), (fun x => In x allowed). split; [reflexivity|]. split; [constructor|]. tauto. }
    destruct (ch 91 i) as [[c r1]|] eqn:E3; [|discriminate]. apply ch_inv in E3 as [-> ->].
    destruct (repeat1 (parse_tm_item allowed) r1) as [[ls r2]|] eqn:E4; [|discriminate].
    destruct (ch 93 r2) as [[d r3]|] eqn:E5; [|discriminate]. apply ch_inv in E5 as [-> ->].
    injection H as <- <-. unfold repeat1 in E4.
    destruct (parse_tm_item allowed r1) as [[l1 r4]|] eqn:E6; [|discriminate].
    destruct (repeat0 (parse_tm_item allowed) r4) as [[ls' r5]|] eqn:E7; [|discriminate].
    injection E4 as <- ->. apply parse_tm_item_inv in E6 as (t & P & -> & Ht & HP).
    apply items_inv_fuel in E7 as [[-> <-]|(ts & Q & -> & Hts & HQ)].
    - exists (lit "[" ++ t ++ lit "]"), P. split; [cbn; rewrite <- app_assoc; reflexivity|].
      split; [constructor; constructor; exact Ht|]. intros x. cbn. rewrite app_nil_r. apply HP.
    - exists (lit "[" ++ (t ++ ts) ++ lit "]"), (fun x => P x \/ Q x).
      split; [cbn; rewrite <- !app_assoc; reflexivity|].
      split; [constructor; constructor; assumption|].
      intros x. cbn. rewrite in_app_iff, HP, HQ. tauto.
  Qed.

  Lemma parse_tm_fragment_ok : forall t P r, pos_text allowed t P ->
    exists l, parse_tm_fragment allowed (t ++ r) = Some (l, r) /\ (forall x, In x l <-> P x).
  Proof.
    intros t P r H. unfold parse_tm_fragment, alt, pvalue, delimited, pmap. fold okc.
    destruct H as [c Hc| |t P Ht].
    - cbn [app]. rewrite one_of_ok by (apply okc_In; exact Hc).
      exists [c]. split; [reflexivity|]. intros x. cbn. intuition congruence.
    - change (lit "." ++ r) with (46 :: r).
      rewrite one_of_fail by (apply okc_false; exact no_dot). rewrite ch_ok.
      exists allowed. split; [reflexivity|tauto].
    - change ((lit "[" ++ t ++ lit "]") ++ r) with (91 :: (t ++ [93]) ++ r).
      rewrite <- app_assoc. cbn [app].
      rewrite one_of_fail by (apply okc_false; exact no_open).
      rewrite ch_fail by discriminate. rewrite ch_ok.
      assert (R : exists ls, repeat1 (parse_tm_item allowed) (t ++ 93 :: r) = Some (ls, 93 :: r)
        /\ (forall x, In x (concat ls) <-> P x)).
      { rewrite repeat1_eq.
        - destruct (items_ok_fuel t P Ht (S (length (t ++ 93 :: r))) r) as (ls & E & Hne & Hls); [lia|].
          unfold repeat0. rewrite E. exists ls. destruct ls; [congruence|auto].
        - intros i0 a r0 H0. apply parse_tm_item_inv in H0 as (t0 & P0 & -> & _ & _).
          rewrite app_length. lia.
        - intros i0 a r0 H0. apply parse_tm_item_inv in H0 as (t0 & P0 & -> & Ht0 & _).
          apply item_text_start in Ht0 as (c & t' & -> & _). cbn. rewrite app_length. lia. }
      destruct R as (ls & -> & Hls). rewrite ch_ok. exists (concat ls). auto.
  Qed.

  Lemma parse_tm_fragment_ext : forall i l r s, parse_tm_fragment allowed i = Some (l, r) ->
    parse_tm_fragment allowed (i ++ s) = Some (l, r ++ s).
  Proof.
    intros i l r s H. unfold parse_tm_fragment, alt, pmap, pvalue, delimited in *. fold okc in H |- *.
    destruct i as [|c i]; [discriminate|]. cbn [app].
    destruct (okc c) eqn:Ec.
    { rewrite one_of_ok in H |- * by exact Ec. injection H as <- <-. reflexivity. }
    rewrite one_of_fail in H |- * by exact Ec. unfold pmap in *.
    destruct (N.eq_dec c 46) as [->|H46].
    { rewrite ch_ok in H |- *. injection H as <- <-. reflexivity. }
    rewrite (ch_fail 46) in H |- * by exact H46.
    destruct (N.eq_dec c 91) as [->|H91]; [|rewrite ch_fail in H by exact H91; discriminate].
    rewrite ch_ok in H |- *.
    assert (N1 : nongrow (parse_tm_item allowed)).
    { intros i0 a r0 H0. apply parse_tm_item_inv in H0 as (t0 & P0 & -> & _ & _).
      rewrite app_length. lia. }
    assert (N2 : forall i a r, parse_tm_item allowed i = Some (a, r) -> length r <> length i).
    { intros i0 a r0 H0. apply parse_tm_item_inv in H0 as (t0 & P0 & -> & Ht0 & _).
      apply item_text_start in Ht0 as (d & t' & -> & _). cbn. rewrite app_length. lia. }
    rewrite (repeat1_eq _ N1 N2) in H |- *.
    destruct (repeat0 (parse_tm_item allowed) i) as [[ls r2]|] eqn:E4; [|discriminate].
    destruct ls as [|l1 ls]; [discriminate|].
    destruct (ch 93 r2) as [[d r3]|] eqn:E5; [|discriminate]. apply ch_inv in E5 as [-> ->].
    injection H as <- <-. unfold repeat0 in E4.
    unfold repeat0. rewrite (items_ext_fuel _ _ _ _ s (S (length (i ++ s))) E4) by lia.
    rewrite ch_ok. reflexivity.
  Qed.
End Fragment.

Lemma frag0_inv : forall i l r, parse_tm_fragment allowed0 i = Some (l, r) ->
  exists t P, i = t ++ r /\ pos_text (lit "012") t P /\ (forall x, In x l <-> P x).
Proof. exact (parse_tm_fragment_inv allowed0). Qed.
Lemma frag12_inv : forall i l r, parse_tm_fragment allowed12 i = Some (l, r) ->
  exists t P, i = t ++ r /\ pos_text digits t P /\ (forall x, In x l <-> P x).
Proof. exact (parse_tm_fragment_inv allowed12). Qed.
Lemma frag3_inv : forall i l r, parse_tm_fragment allowed3 i = Some (l, r) ->
  exists t P, i = t ++ r /\ pos_text (uppers ++ lit "@") t P /\ (forall x, In x l <-> P x).
Proof. exact (parse_tm_fragment_inv allowed3). Qed.

Ltac notin := let H := fresh in intros H; cbn in H; repeat destruct H as [H|H]; try discriminate; try contradiction.

Lemma frag0_ok : forall t P r, pos_text (lit "012") t P ->
  exists l, parse_tm_fragment allowed0 (t ++ r) = Some (l, r) /\ (forall x, In x l <-> P x).
Proof. apply (parse_tm_fragment_ok allowed0); notin. Qed.
Lemma frag12_ok : forall t P r, pos_text digits t P ->
  exists l, parse_tm_fragment allowed12 (t ++ r) = Some (l, r) /\ (forall x, In x l <-> P x).
Proof. apply (parse_tm_fragment_ok allowed12); notin. Qed.
Lemma frag3_ok : forall t P r, pos_text (uppers ++ lit "@") t P ->
  exists l, parse_tm_fragment allowed3 (t ++ r) = Some (l, r) /\ (forall x, In x l <-> P x).
Proof. apply (parse_tm_fragment_ok allowed3); notin. Qed.

Lemma taken_app : forall a b, taken (a ++ b) b = a.
Proof.
  intros a b. unfold taken. rewrite app_length, Nat.add_sub.
  rewrite firstn_app, Nat.sub_diag, firstn_all. cbn. apply app_nil_r.
Qed.

(** a valid tag as matcher text denotes itself *)
Lemma valid_tag_text : forall t, valid_tag t ->
  exists P, tag_matcher_text t P /\ forall x, P x <-> x = t.
Proof.
  intros t (a & b & c & d & -> & Ha & Hb & Hc & Hd). eexists. split.
  - apply (tmt_intro [a] [b] [c] [d]); apply pos_lit; assumption.
  - intros x. cbn. split.
    + intros (a' & b' & c' & d' & -> & -> & -> & -> & ->). reflexivity.
    + intros ->. exists a, b, c, d. auto.
Qed.

Definition tm_valid (m : tag_matcher) : Prop := exists b, tag_matcher_new b = Some m.

Lemma parse_tag_matcher_inv : forall i m r, parse_tag_matcher i = Some (m, r) ->
  i = tm_display m ++ r
  /\ exists P, tag_matcher_text (tm_display m) P
      /\ forall t, tm_is_match m t = true <-> P t.
Proof.
  intros i m r H. unfold parse_tag_matcher, alt in H.
  destruct (parse_tm_tag i) as [[m1 r1]|] eqn:E.
  - injection H as -> ->. unfold parse_tm_tag, pmap in E.
    destruct (parse_tag i) as [[t r1]|] eqn:E1; [|discriminate]. injection E as <- <-.
    apply parse_tag_inv in E1 as [-> Ht]. split; [reflexivity|].
    destruct (valid_tag_text t Ht) as (P & HP & HPx). exists P. split; [exact HP|].
    intros x. cbn. rewrite bytes_eqb_eq, HPx. split; congruence.
  - clear E. unfold parse_tm_pattern in H.
    destruct (parse_tm_fragment allowed0 i) as [[p0 r0]|] eqn:E0; [|discriminate].
    apply frag0_inv in E0 as (t0 & P0 & -> & T0 & Q0).
    destruct (parse_tm_fragment allowed12 r0) as [[p1 r1]|] eqn:E1; [|discriminate].
    apply frag12_inv in E1 as (t1 & P1 & -> & T1 & Q1).
    destruct (parse_tm_fragment allowed12 r1) as [[p2 r2]|] eqn:E2; [|discriminate].
    apply frag12_inv in E2 as (t2 & P2 & -> & T2 & Q2).
    destruct (parse_tm_fragment allowed3 r2) as [[p3 r3]|] eqn:E3; [|discriminate].
    apply frag3_inv in E3 as (t3 & P3 & -> & T3 & Q3).
    injection H as <- <-. cbn [tm_display].
    replace (t0 ++ t1 ++ t2 ++ t3 ++ r3) with ((t0 ++ t1 ++ t2 ++ t3) ++ r3)
      by (rewrite <- !app_assoc; reflexivity).
    rewrite taken_app. split; [reflexivity|].
    eexists. split; [apply (tmt_intro t0 t1 t2 t3 P0 P1 P2 P3); assumption|].
    intros t. cbn [tm_is_match]. split.
    + destruct t as [|a [|b [|c [|d [|e t]]]]]; try discriminate.
      rewrite !andb_true_iff, !mem_byte_In. intros [[[H0 H1] H2] H3].
      exists a, b, c, d. rewrite <- Q0, <- Q1, <- Q2, <- Q3. auto.
    + intros (a & b & c & d & -> & H0 & H1 & H2 & H3).
      rewrite !andb_true_iff, !mem_byte_In, Q0, Q1, Q2, Q3. auto.
Qed.

Lemma parse_tag_matcher_ok : forall b P r, tag_matcher_text b P ->
  exists m, parse_tag_matcher (b ++ r) = Some (m, r) /\ tm_display m = b
    /\ (forall t, tm_is_match m t = true <-> P t).
Proof.
  intros b P r H. destruct H as [t0 t1 t2 t3 P0 P1 P2 P3 T0 T1 T2 T3].
  set (b := t0 ++ t1 ++ t2 ++ t3).
  destruct (parse_tag_matcher (b ++ r)) as [[m r']|] eqn:E.
  - (* the parser succeeds; show it stops at the right place *)
    unfold parse_tag_matcher, alt in E.
    assert (Pat : exists p0 p1 p2 p3, parse_tm_pattern (b ++ r) = Some (TMPattern p0 p1 p2 p3 b, r)
      /\ (forall x, In x p0 <-> P0 x) /\ (forall x, In x p1 <-> P1 x)
      /\ (forall x, In x p2 <-> P2 x) /\ (forall x, In x p3 <-> P3 x)).
    { unfold parse_tm_pattern. unfold b at 1. rewrite <- !app_assoc.
      destruct (frag0_ok t0 P0 (t1 ++ t2 ++ t3 ++ r) T0) as (p0 & -> & Q0).
      destruct (frag12_ok t1 P1 (t2 ++ t3 ++ r) T1) as (p1 & -> & Q1).
      destruct (frag12_ok t2 P2 (t3 ++ r) T2) as (p2 & -> & Q2).
      destruct (frag3_ok t3 P3 r T3) as (p3 & -> & Q3).
      exists p0, p1, p2, p3. rewrite taken_app. auto. }
    destruct Pat as (p0 & p1 & p2 & p3 & EP & Q0 & Q1 & Q2 & Q3).
    destruct (parse_tm_tag (b ++ r)) as [[m1 r1]|] eqn:E1.
    + injection E as -> ->. unfold parse_tm_tag, pmap in E1.
      destruct (parse_tag (b ++ r)) as [[t r1]|] eqn:E2; [|discriminate]. injection E1 as <- <-.
      apply parse_tag_inv in E2 as [E2 (x0 & x1 & x2 & x3 & -> & X0 & X1 & X2 & X3)].
      (* every fragment must be a literal *)
      assert (lit_case : forall allowed t P x s s', pos_text allowed t P -> In x allowed ->
                ~ In 46 allowed -> ~ In 91 allowed -> t ++ s = x :: s' ->
                t = [x] /\ s = s' /\ (forall y, P y <-> y = x)).
      { intros allowed t P x s s' Ht Hx N1 N2 Eq. destruct Ht as [c Hc| |t P Ht].
        - injection Eq as -> ->. split; [reflexivity|]. split; [reflexivity|]. tauto.
        - injection Eq as <- _. contradiction.
        - injection Eq as <- _. contradiction. }
      unfold b in E2. rewrite <- !app_assoc in E2. cbn [app] in E2.
      destruct (lit_case _ _ _ _ _ _ T0 X0 ltac:(notin) ltac:(notin) E2) as (-> & E3 & L0).
      destruct (lit_case _ _ _ _ _ _ T1 X1 ltac:(notin) ltac:(notin) E3) as (-> & E4 & L1).
      destruct (lit_case _ _ _ _ _ _ T2 X2 ltac:(notin) ltac:(notin) E4) as (-> & E5 & L2).
      destruct (lit_case _ _ _ _ _ _ T3 X3 ltac:(notin) ltac:(notin) E5) as (-> & E6 & L3).
      exists (TMTag [x0; x1; x2; x3]). split; [rewrite E6; reflexivity|]. split; [reflexivity|].
      intros t. cbn [tm_is_match]. rewrite bytes_eqb_eq. split.
      * intros <-. exists x0, x1, x2, x3. rewrite L0, L1, L2, L3. auto.
      * intros (a & b0 & c & d & -> & A & B & C & D).
        apply L0 in A. apply L1 in B. apply L2 in C. apply L3 in D. congruence.
    + rewrite EP in E. injection E as <- <-. eexists. split; [reflexivity|]. split; [reflexivity|].
      intros t. cbn [tm_is_match]. split.
      * destruct t as [|a [|b0 [|c [|d [|e t]]]]]; try discriminate.
        rewrite !andb_true_iff, !mem_byte_In. intros [[[H0 H1] H2] H3].
        exists a, b0, c, d. rewrite <- Q0, <- Q1, <- Q2, <- Q3. auto.
      * intros (a & b0 & c & d & -> & H0 & H1 & H2 & H3).
        rewrite !andb_true_iff, !mem_byte_In, Q0, Q1, Q2, Q3. auto.
  - exfalso. unfold parse_tag_matcher, alt in E.
    destruct (parse_tm_tag (b ++ r)); [discriminate|].
    unfold parse_tm_pattern in E. unfold b in E at 1. rewrite <- !app_assoc in E.
    destruct (frag0_ok t0 P0 (t1 ++ t2 ++ t3 ++ r) T0) as (p0 & F0 & _). rewrite F0 in E.
    destruct (frag12_ok t1 P1 (t2 ++ t3 ++ r) T1) as (p1 & F1 & _). rewrite F1 in E.
    destruct (frag12_ok t2 P2 (t3 ++ r) T2) as (p2 & F2 & _). rewrite F2 in E.
    destruct (frag3_ok t3 P3 r T3) as (p3 & F3 & _). rewrite F3 in E. discriminate.
Qed.

(** C16 *)
Lemma tag_matcher_sound : forall b m, tag_matcher_new b = Some m ->
  exists P, tag_matcher_text b P /\ (forall t, tm_is_match m t = true <-> P t).
Proof.
  intros b m H. apply parse_all_inv, parse_tag_matcher_inv in H as (-> & P & HP & HPx).
  rewrite app_nil_r. eauto.
Qed.

Lemma tag_matcher_complete : forall b P, tag_matcher_text b P ->
  exists m, tag_matcher_new b = Some m /\ (forall t, tm_is_match m t = true <-> P t).
Proof.
  intros b P H. destruct (parse_tag_matcher_ok b P [] H) as (m & Hm & _ & HP).
  exists m. rewrite app_nil_r in Hm. split; [apply parse_all_ok; exact Hm|exact HP].
Qed.

Lemma tag_matcher_plain : forall t, valid_tag t ->
  exists m, tag_matcher_new t = Some m /\ forall x, tm_is_match m x = true <-> x = t.
Proof.
  intros t Ht. exists (TMTag t). split.
  - apply parse_all_ok. unfold parse_tag_matcher, alt, parse_tm_tag, pmap.
    rewrite <- (app_nil_r t) at 1. rewrite parse_tag_ok by exact Ht. reflexivity.
  - intros x. cbn. rewrite bytes_eqb_eq. split; congruence.
Qed.

(** printing and reparsing, also in the middle of a text *)
Lemma parse_tag_matcher_display : forall m r, tm_valid m ->
  parse_tag_matcher (tm_display m ++ r) = Some (m, r).
Proof.
  intros m r (b & Hb). apply parse_all_inv in Hb.
  pose proof (parse_tag_matcher_inv _ _ _ Hb) as (Eb & P & HP & _). rewrite app_nil_r in Eb. subst b.
  unfold parse_tag_matcher, alt in *.
  destruct (parse_tm_tag (tm_display m)) as [[m1 r1]|] eqn:E1.
  - injection Hb as -> ->. unfold parse_tm_tag, pmap in *.
    destruct (parse_tag (tm_display m)) as [[t r1]|] eqn:E2; [|discriminate]. injection E1 as <- ->.
    apply parse_tag_inv in E2 as [_ Ht]. cbn [tm_display].
    rewrite parse_tag_ok by exact Ht. reflexivity.
  - destruct (parse_tag_matcher_ok (tm_display m) P r HP) as (m2 & H2 & D2 & _).
    unfold parse_tag_matcher, alt in H2.
    destruct (parse_tm_tag (tm_display m ++ r)) as [[m3 r3]|] eqn:E3.
    + (* then the text itself would have been read as a tag *)
      exfalso. injection H2 as -> ->. unfold parse_tm_tag, pmap in *.
      destruct (parse_tag (tm_display m ++ r)) as [[t r1]|] eqn:E4; [|discriminate].
      injection E3 as <- ->. apply parse_tag_inv in E4 as [E4 Ht]. cbn in D2. rewrite <- D2 in E1.
      rewrite <- (app_nil_r t), parse_tag_ok in E1 by exact Ht. discriminate.
    + clear E1 E3. unfold parse_tm_pattern in *.
      destruct (parse_tm_fragment allowed0 (tm_display m)) as [[p0 r0]|] eqn:E0; [|discriminate].
      destruct (parse_tm_fragment allowed12 r0) as [[p1 r1]|] eqn:E1; [|discriminate].
      destruct (parse_tm_fragment allowed12 r1) as [[p2 r2]|] eqn:E2; [|discriminate].
      destruct (parse_tm_fragment allowed3 r2) as [[p3 r3]|] eqn:E3; [|discriminate].
      injection Hb as Em ->.
      rewrite (parse_tm_fragment_ext allowed0 ltac:(notin) ltac:(notin) _ _ _ r E0).
      rewrite (parse_tm_fragment_ext allowed12 ltac:(notin) ltac:(notin) _ _ _ r E1).
      rewrite (parse_tm_fragment_ext allowed12 ltac:(notin) ltac:(notin) _ _ _ r E2).
      rewrite (parse_tm_fragment_ext allowed3 ltac:(notin) ltac:(notin) _ _ _ r E3).
      cbn [app]. rewrite taken_app. rewrite <- (app_nil_r (tm_display m)) in Em at 1.
      rewrite taken_app in Em. rewrite Em. reflexivity.
Qed.

Lemma tag_matcher_display_new : forall m, tm_valid m -> tag_matcher_new (tm_display m) = Some m.
Proof.
  intros m Hm. apply parse_all_ok. rewrite <- (app_nil_r (tm_display m)).
  apply parse_tag_matcher_display; exact Hm.
Qed.

Lemma parse_tag_matcher_valid : forall i m r, parse_tag_matcher i = Some (m, r) -> tm_valid m.
Proof.
  intros i m r H. exists (tm_display m).
  pose proof (parse_tag_matcher_inv _ _ _ H) as (-> & P & HP & _).
  apply parse_all_ok. unfold parse_tag_matcher, alt in *.
  destruct (parse_tm_tag (tm_display m ++ r)) as [[m1 r1]|] eqn:E1.
  - injection H as -> ->. unfold parse_tm_tag, pmap in *.
    destruct (parse_tag (tm_display m ++ r)) as [[t r1]|] eqn:E2; [|discriminate]. injection E1 as <- ->.
    apply parse_tag_inv in E2 as [_ Ht]. cbn [tm_display].
    rewrite <- (app_nil_r t) at 1. rewrite parse_tag_ok by exact Ht. reflexivity.
  - destruct (parse_tm_tag (tm_display m)) as [[m2 r2]|] eqn:E2.
    + exfalso. unfold parse_tm_tag, pmap in *.
      destruct (parse_tag (tm_display m)) as [[t r3]|] eqn:E3; [|discriminate].
      apply parse_tag_inv in E3 as [E3 Ht]. rewrite E3, <- app_assoc, parse_tag_ok in E1 by exact Ht.
      discriminate.
    + destruct (parse_tag_matcher_ok (tm_display m) P [] HP) as (m3 & H3 & D3 & _).
      rewrite app_nil_r in H3. unfold parse_tag_matcher, alt in H3. rewrite E2 in H3.
      rewrite H3. f_equal. f_equal. clear E1 E2. unfold parse_tm_pattern in *.
      destruct (parse_tm_fragment allowed0 (tm_display m)) as [[p0 r0]|] eqn:F0; [|discriminate].
      destruct (parse_tm_fragment allowed12 r0) as [[p1 r1]|] eqn:F1; [|discriminate].
      destruct (parse_tm_fragment allowed12 r1) as [[p2 r2]|] eqn:F2; [|discriminate].
      destruct (parse_tm_fragment allowed3 r2) as [[p3 r3]|] eqn:F3; [|discriminate].
      injection H3 as Em ->.
      rewrite (parse_tm_fragment_ext allowed0 ltac:(notin) ltac:(notin) _ _ _ r F0) in H.
      rewrite (parse_tm_fragment_ext allowed12 ltac:(notin) ltac:(notin) _ _ _ r F1) in H.
      rewrite (parse_tm_fragment_ext allowed12 ltac:(notin) ltac:(notin) _ _ _ r F2) in H.
      rewrite (parse_tm_fragment_ext allowed3 ltac:(notin) ltac:(notin) _ _ _ r F3) in H.
      cbn [app] in H. rewrite taken_app in H. injection H as Hm.
      rewrite <- (app_nil_r (tm_display m)) in Em at 1. rewrite taken_app in Em. congruence.
Qed.

Lemma occ_range_numeric_refuted :
  (exists x y z m, valid_occ x /\ valid_occ y /\ valid_occ z
     /\ occ_matcher_new (lit "/" ++ x ++ lit "-" ++ y) = Some m
     /\ om_is_match m (Some z) = true /\ ~ (number x <= number z <= number y))
  /\ (exists x y z m, valid_occ x /\ valid_occ y /\ valid_occ z
     /\ occ_matcher_new (lit "/" ++ x ++ lit "-" ++ y) = Some m
     /\ om_is_match m (Some z) = false /\ number x <= number z <= number y).
Proof.
  assert (V : forall z, (length z = 2%nat \/ length z = 3%nat) ->
            forallb (fun c => mem_byte c digits) z = true -> valid_occ z).
  { intros z Hl Hz. split; [exact Hl|]. apply Forall_forall. intros c Hc.
    rewrite forallb_forall in Hz. apply mem_byte_In. apply Hz. exact Hc. }
  split.
  - exists (lit "01"), (lit "99"), (lit "100"). eexists.
    split; [apply V; auto|]. split; [apply V; auto|]. split; [apply V; auto|].
    split; [vm_compute; reflexivity|]. split; [vm_compute; reflexivity|].
    vm_compute. intros [_ H]. apply H. reflexivity.
  - exists (lit "005"), (lit "010"), (lit "07"). eexists.
    split; [apply V; auto|]. split; [apply V; auto|]. split; [apply V; auto|].
    split; [vm_compute; reflexivity|]. split; [vm_compute; reflexivity|].
    vm_compute. split; discriminate.
Qed.

Lemma tag_matcher_display_text : forall b m, tag_matcher_new b = Some m -> tm_display m = b.
Proof.
  intros b m H. unfold tag_matcher_new in H. apply parse_all_inv in H.
  apply parse_tag_matcher_inv in H. destruct H as [H _]. rewrite app_nil_r in H. auto.
Qed.

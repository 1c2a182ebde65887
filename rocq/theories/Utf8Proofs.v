(** * Proofs about UTF-8 validation *)

From Verif Require Import Bytes RecordModel Utf8Model Utf8Spec.
From Coq Require Import ZArith.

Ltac nboool := repeat rewrite ?andb_true_iff, ?andb_false_iff, ?N.leb_le, ?N.leb_gt, ?N.ltb_lt, ?N.ltb_ge, ?N.eqb_eq, ?N.eqb_neq in *.

Ltac divmod c d :=
  let q := fresh "q" in let r := fresh "r" in
  pose proof (N.div_mod c d ltac:(lia));
  pose proof (N.mod_lt c d ltac:(lia)).

Lemma enc1 : forall c r, c < 128 -> utf8_valid (c :: r) = utf8_valid r.
Proof. intros c r H. cbn. apply N.ltb_lt in H. rewrite H. reflexivity. Qed.

Lemma utf8_valid_app_char : forall c r,
  is_scalar c -> utf8_valid (utf8_encode_char c ++ r) = utf8_valid r.
Proof.
  intros c r Hc. unfold utf8_encode_char, is_scalar in *.
  destruct (N.ltb_spec c 128) as [H1|H1]; [apply enc1; exact H1|].
  destruct (N.ltb_spec c 2048) as [H2|H2].
  { cbn [app]. cbn [utf8_valid].
    divmod c 64.
    set (q := c / 64) in *. set (m := c mod 64) in *. clearbody q m.
    rewrite (proj2 (N.ltb_ge (192 + q) 128)) by lia.
    rewrite (proj2 (N.leb_le 194 (192 + q))) by lia.
    rewrite (proj2 (N.leb_le (192 + q) 223)) by lia.
    cbn [andb]. unfold is_cont.
    rewrite (proj2 (N.leb_le 128 (128 + m))) by lia.
    rewrite (proj2 (N.leb_le (128 + m) 191)) by lia. reflexivity. }
  destruct (N.ltb_spec c 65536) as [H3|H3].
  { cbn [app]. cbn [utf8_valid].
    divmod c 64. divmod (c/64) 64. 
    assert (E : c / 4096 = c / 64 / 64) by (rewrite N.div_div by lia; reflexivity).
    rewrite E in *.
    set (a := c / 64 / 64) in *. set (b := (c/64) mod 64) in *. set (d := c mod 64) in *.
    set (q := c / 64) in *. clearbody a b d q. clear E.
    rewrite (proj2 (N.ltb_ge (224 + a) 128)) by lia.
    rewrite (proj2 (N.leb_gt (224 + a) 223)) by lia.
    rewrite andb_false_r.
    rewrite (proj2 (N.leb_le 224 (224 + a))) by lia.
    rewrite (proj2 (N.leb_le (224 + a) 239)) by lia.
    cbn [andb].
    assert (Hs : second3 (224 + a) (128 + b) = true).
    { unfold second3. destruct (N.eqb_spec (224 + a) 224); [nboool; lia|].
      destruct (N.eqb_spec (224 + a) 237); [nboool; lia|]. unfold is_cont; nboool; lia. }
    assert (Hd : is_cont (128 + d) = true) by (unfold is_cont; nboool; lia).
    rewrite Hs, Hd. reflexivity. }
  { cbn [app]. cbn [utf8_valid].
    divmod c 64. divmod (c/64) 64. divmod (c/64/64) 64.
    assert (E : c / 4096 = c / 64 / 64) by (rewrite N.div_div by lia; reflexivity).
    assert (E2 : c / 262144 = c / 64 / 64 / 64) by (rewrite !N.div_div by lia; reflexivity).
    rewrite E, E2 in *.
    set (e := c / 64 / 64 / 64) in *. set (a := (c / 64 / 64) mod 64) in *.
    set (b := (c/64) mod 64) in *. set (d := c mod 64) in *.
    set (q2 := c / 64 / 64) in *. set (q := c / 64) in *. clearbody a b d q q2 e. clear E E2.
    rewrite (proj2 (N.ltb_ge (240 + e) 128)) by lia.
    rewrite (proj2 (N.leb_gt (240 + e) 223)) by lia.
    rewrite andb_false_r.
    rewrite (proj2 (N.leb_gt (240 + e) 239)) by lia.
    rewrite andb_false_r.
    rewrite (proj2 (N.leb_le 240 (240 + e))) by lia.
    rewrite (proj2 (N.leb_le (240 + e) 244)) by lia.
    cbn [andb].
    assert (Hs : second4 (240 + e) (128 + a) = true).
    { unfold second4. destruct (N.eqb_spec (240 + e) 240); [nboool; lia|].
      destruct (N.eqb_spec (240 + e) 244); [nboool; lia|]. unfold is_cont; nboool; lia. }
    assert (Hb : is_cont (128 + b) = true) by (unfold is_cont; nboool; lia).
    assert (Hd : is_cont (128 + d) = true) by (unfold is_cont; nboool; lia).
    rewrite Hs, Hb, Hd. reflexivity. }
Qed.

Lemma utf8_encode_valid : forall l, Forall is_scalar l -> utf8_valid (utf8_encode l) = true.
Proof.
  induction 1 as [|c l Hc _ IH]; [reflexivity|].
  unfold utf8_encode. cbn [flat_map]. rewrite utf8_valid_app_char by exact Hc. exact IH.
Qed.

Lemma encode2 : forall x y, 194 <= x <= 223 -> 128 <= y <= 191 ->
  exists c, is_scalar c /\ utf8_encode_char c = [x; y].
Proof.
  intros x y Hx Hy. exists ((x - 192) * 64 + (y - 128)). unfold is_scalar. split; [lia|].
  unfold utf8_encode_char. set (c := (x - 192) * 64 + (y - 128)).
  rewrite (proj2 (N.ltb_ge c 128)) by (unfold c; lia).
  rewrite (proj2 (N.ltb_lt c 2048)) by (unfold c; lia).
  assert (E1 : c / 64 = x - 192) by (symmetry; apply N.div_unique with (r := y - 128); unfold c; lia).
  assert (E2 : c mod 64 = y - 128) by (symmetry; apply N.mod_unique with (q := x - 192); unfold c; lia).
  rewrite E1, E2. f_equal; [lia|]. f_equal; lia.
Qed.

Lemma encode3 : forall x y z,
  224 <= x <= 239 -> 128 <= y <= 191 -> 128 <= z <= 191 ->
  (x = 224 -> 160 <= y) -> (x = 237 -> y <= 159) ->
  exists c, is_scalar c /\ utf8_encode_char c = [x; y; z].
Proof.
  intros x y z Hx Hy Hz H1 H2.
  exists ((x - 224) * 4096 + (y - 128) * 64 + (z - 128)).
  set (c := (x - 224) * 4096 + (y - 128) * 64 + (z - 128)).
  split; [unfold is_scalar, c; lia|].
  unfold utf8_encode_char.
  rewrite (proj2 (N.ltb_ge c 128)) by (unfold c; lia).
  rewrite (proj2 (N.ltb_ge c 2048)) by (unfold c; lia).
  rewrite (proj2 (N.ltb_lt c 65536)) by (unfold c; lia).
  assert (E1 : c / 64 = (x - 224) * 64 + (y - 128))
    by (symmetry; apply N.div_unique with (r := z - 128); unfold c; lia).
  assert (E2 : c mod 64 = z - 128)
    by (symmetry; apply N.mod_unique with (q := (x - 224) * 64 + (y - 128)); unfold c; lia).
  assert (E3 : c / 4096 = x - 224)
    by (symmetry; apply N.div_unique with (r := (y - 128) * 64 + (z - 128)); unfold c; lia).
  assert (E4 : (c / 64) mod 64 = y - 128)
    by (rewrite E1; symmetry; apply N.mod_unique with (q := x - 224); lia).
  rewrite E4, E2, E3. repeat (f_equal; try lia).
Qed.

Lemma encode4 : forall x y z w,
  240 <= x <= 244 -> 128 <= y <= 191 -> 128 <= z <= 191 -> 128 <= w <= 191 ->
  (x = 240 -> 144 <= y) -> (x = 244 -> y <= 143) ->
  exists c, is_scalar c /\ utf8_encode_char c = [x; y; z; w].
Proof.
  intros x y z w Hx Hy Hz Hw H1 H2.
  exists ((x - 240) * 262144 + (y - 128) * 4096 + (z - 128) * 64 + (w - 128)).
  set (c := (x - 240) * 262144 + (y - 128) * 4096 + (z - 128) * 64 + (w - 128)).
  split; [unfold is_scalar, c; lia|].
  unfold utf8_encode_char.
  rewrite (proj2 (N.ltb_ge c 128)) by (unfold c; lia).
  rewrite (proj2 (N.ltb_ge c 2048)) by (unfold c; lia).
  rewrite (proj2 (N.ltb_ge c 65536)) by (unfold c; lia).
  assert (E1 : c / 64 = (x - 240) * 4096 + (y - 128) * 64 + (z - 128))
    by (symmetry; apply N.div_unique with (r := w - 128); unfold c; lia).
  assert (E2 : c mod 64 = w - 128)
    by (symmetry; apply N.mod_unique with (q := (x - 240) * 4096 + (y - 128) * 64 + (z - 128)); unfold c; lia).
  assert (E3 : c / 4096 = (x - 240) * 64 + (y - 128))
    by (symmetry; apply N.div_unique with (r := (z - 128) * 64 + (w - 128)); unfold c; lia).
  assert (E5 : c / 262144 = x - 240)
    by (symmetry; apply N.div_unique with (r := (y - 128) * 4096 + (z - 128) * 64 + (w - 128)); unfold c; lia).
  assert (E4 : (c / 64) mod 64 = z - 128)
    by (rewrite E1; symmetry; apply N.mod_unique with (q := (x - 240) * 64 + (y - 128)); lia).
  assert (E6 : (c / 4096) mod 64 = y - 128)
    by (rewrite E3; symmetry; apply N.mod_unique with (q := x - 240); lia).
  rewrite E6, E4, E2, E5. repeat (f_equal; try lia).
Qed.

Lemma utf8_valid_encode : forall n b, (length b <= n)%nat -> utf8_valid b = true -> is_utf8 b.
Proof.
  induction n as [|n IH]; intros b Hn H.
  - destruct b; [|cbn in Hn; lia]. exists []. split; [constructor|reflexivity].
  - destruct b as [|x r]; [exists []; split; [constructor|reflexivity]|].
    cbn [utf8_valid] in H. cbn [length] in Hn.
    assert (cons_case : forall c s r', is_scalar c -> utf8_encode_char c = s ->
              is_utf8 r' -> is_utf8 (s ++ r')).
    { intros c s r' Hc Hs (l & Hl & ->). exists (c :: l). split; [constructor; assumption|].
      unfold utf8_encode. cbn [flat_map]. rewrite Hs. reflexivity. }
    destruct (N.ltb_spec x 128) as [H1|H1].
    { change (x :: r) with ([x] ++ r). apply cons_case with (c := x).
      - unfold is_scalar. lia.
      - unfold utf8_encode_char. rewrite (proj2 (N.ltb_lt x 128)) by lia. reflexivity.
      - apply IH; [lia|exact H]. }
    destruct ((194 <=? x) && (x <=? 223)) eqn:E2.
    { nboool. destruct r as [|y r']; [discriminate|]. apply andb_prop in H as [Hy H].
      unfold is_cont in Hy. nboool.
      destruct (encode2 x y) as (c & Hc & Hs); [lia|lia|].
      change (x :: y :: r') with ([x; y] ++ r'). apply cons_case with (c := c); auto.
      apply IH; [cbn in Hn; lia|exact H]. }
    destruct ((224 <=? x) && (x <=? 239)) eqn:E3.
    { apply andb_prop in E3 as [E3a E3b]. apply N.leb_le in E3a, E3b.
      destruct r as [|y [|z r']]; try discriminate. apply andb_prop in H as [H Hr].
      apply andb_prop in H as [Hy Hz].
      assert (Hyy : 128 <= y <= 191 /\ (x = 224 -> 160 <= y) /\ (x = 237 -> y <= 159)).
      { unfold second3, is_cont in Hy. destruct (N.eqb_spec x 224); [nboool; lia|].
        destruct (N.eqb_spec x 237); nboool; lia. }
      unfold is_cont in Hz. apply andb_prop in Hz as [Hz1 Hz2]. apply N.leb_le in Hz1, Hz2.
      destruct (encode3 x y z) as (c & Hc & Hs); try lia.
      change (x :: y :: z :: r') with ([x; y; z] ++ r'). apply cons_case with (c := c); auto.
      apply IH; [cbn in Hn; lia|exact Hr]. }
    destruct ((240 <=? x) && (x <=? 244)) eqn:E4; [|discriminate].
    apply andb_prop in E4 as [E4a E4b]. apply N.leb_le in E4a, E4b.
    destruct r as [|y [|z [|w r']]]; try discriminate.
    apply andb_prop in H as [H Hr]. apply andb_prop in H as [H Hw].
    apply andb_prop in H as [Hy Hz].
    assert (Hyy : 128 <= y <= 191 /\ (x = 240 -> 144 <= y) /\ (x = 244 -> y <= 143)).
    { unfold second4, is_cont in Hy. destruct (N.eqb_spec x 240); [nboool; lia|].
      destruct (N.eqb_spec x 244); nboool; lia. }
    unfold is_cont in Hz, Hw.
    apply andb_prop in Hz as [Hz1 Hz2]. apply N.leb_le in Hz1, Hz2.
    apply andb_prop in Hw as [Hw1 Hw2]. apply N.leb_le in Hw1, Hw2.
    destruct (encode4 x y z w) as (c & Hc & Hs); try lia.
    change (x :: y :: z :: w :: r') with ([x; y; z; w] ++ r').
    apply cons_case with (c := c); auto. apply IH; [cbn in Hn; lia|exact Hr].
Qed.

Lemma utf8_valid_iff : forall b, utf8_valid b = true <-> is_utf8 b.
Proof.
  intros b. split.
  - apply utf8_valid_encode with (n := length b). lia.
  - intros (l & Hl & ->). apply utf8_encode_valid; exact Hl.
Qed.

Lemma is_ascii_valid : forall b, is_ascii b = true -> utf8_valid b = true.
Proof.
  induction b as [|x b IH]; [reflexivity|]. intros H. cbn in H. apply andb_prop in H as [Hx H].
  cbn [utf8_valid]. rewrite Hx. apply IH; exact H.
Qed.

Lemma subfield_validate_iff : forall s, subfield_validate s = true <-> is_utf8 (sf_value s).
Proof.
  intros s. unfold subfield_validate. rewrite <- utf8_valid_iff.
  destruct (is_ascii (sf_value s)) eqn:E; [|tauto].
  split; [|reflexivity]. intros _. apply is_ascii_valid; exact E.
Qed.

Lemma record_validate_iff : forall r,
  record_validate r = true <->
  forall f s, In f r -> In s (f_subfields f) -> is_utf8 (sf_value s).
Proof.
  intros r. unfold record_validate, field_validate. rewrite forallb_forall. split.
  - intros H f s Hf Hs. apply H in Hf. rewrite forallb_forall in Hf.
    apply subfield_validate_iff. auto.
  - intros H f Hf. apply forallb_forall. intros s Hs. apply subfield_validate_iff. eauto.
Qed.

Lemma utf8_valid_app : forall a b,
  utf8_valid a = true -> utf8_valid b = true -> utf8_valid (a ++ b) = true.
Proof.
  intros a b Ha Hb. apply utf8_valid_iff in Ha as (la & Hla & ->).
  apply utf8_valid_iff in Hb as (lb & Hlb & ->).
  apply utf8_valid_iff. exists (la ++ lb). split; [apply Forall_app; auto|].
  unfold utf8_encode. rewrite flat_map_app. reflexivity.
Qed.

Lemma is_utf8_app : forall a b, is_utf8 a -> is_utf8 b -> is_utf8 (a ++ b).
Proof.
  intros a b (l & H1 & ->) (k & H2 & ->). exists (l ++ k). split; [apply Forall_app; auto|].
  unfold utf8_encode. rewrite flat_map_app. reflexivity.
Qed.
Lemma is_utf8_nil : is_utf8 [].
Proof. exists []. split; [constructor|reflexivity]. Qed.
Lemma is_utf8_concat : forall l, Forall is_utf8 l -> is_utf8 (concat l).
Proof. induction 1; [apply is_utf8_nil|]. apply is_utf8_app; assumption. Qed.
Lemma encode_char_high : forall c, 128 <= c -> Forall (fun x => 128 <= x) (utf8_encode_char c).
Proof.
  intros c H. unfold utf8_encode_char. destruct (N.ltb_spec c 128); [lia|].
  destruct (c <? 2048); [|destruct (c <? 65536)]; repeat apply Forall_cons; try apply Forall_nil;
    match goal with |- _ <= ?a + _ => apply N.le_trans with a; [|apply N.le_add_r]; lia end.
Qed.

Lemma filter_all : forall A (f : A -> bool) l, (forall x, In x l -> f x = true) -> filter f l = l.
Proof.
  induction l as [|x l IH]; intros H; [reflexivity|]. cbn. rewrite (H x) by (left; reflexivity).
  f_equal. apply IH. intros y Hy. apply H. right. exact Hy.
Qed.

(** dropping ASCII bytes keeps UTF-8 *)
Lemma is_utf8_filter : forall (f : byte -> bool) b, (forall c, 128 <= c -> f c = true) ->
  is_utf8 b -> is_utf8 (filter f b).
Proof.
  intros f b Hf (l & H & ->). induction H as [|c l Hc Hl IH]; [apply is_utf8_nil|].
  unfold utf8_encode in *. cbn. rewrite filter_app. apply is_utf8_app; [|exact IH].
  destruct (N.ltb_spec c 128).
  - unfold utf8_encode_char. destruct (N.ltb_spec c 128); [|lia]. cbn. destruct (f c).
    + exists [c]. split; [constructor; [exact Hc|constructor]|]. unfold utf8_encode, utf8_encode_char. cbn.
      destruct (N.ltb_spec c 128); [reflexivity|lia].
    + apply is_utf8_nil.
  - exists [c]. split; [constructor; [exact Hc|constructor]|]. unfold utf8_encode. cbn. rewrite app_nil_r.
    apply filter_all. intros x Hx. apply Hf.
    apply encode_char_high in H. rewrite Forall_forall in H. apply H. exact Hx.
Qed.

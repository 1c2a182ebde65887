(** * Proofs about the record codec *)

From Coq Require Import String.
From Verif Require Import Bytes Winnow RecordModel RecordSpec BaseProofs.

Lemma valid_code_iff : forall c, valid_code c <-> is_alnum c = true.
Proof.
  intros c. unfold valid_code, is_alnum.
  rewrite !in_app_iff, !orb_true_iff.
  unfold digits, lowers, uppers.
  rewrite in_digits_iff, in_lowers_iff, in_uppers_iff. tauto.
Qed.

Lemma valid_value_iff : forall v,
  valid_value v <-> Forall (fun c => negb ((c =? US) || (c =? RS)) = true) v.
Proof.
  intros v. unfold valid_value. rewrite Forall_forall. split.
  - intros [H1 H2] c Hc. apply negb_true_iff, orb_false_iff. split; apply N.eqb_neq;
    intros ->; contradiction.
  - intros H. split; intros Hc; apply H in Hc; discriminate.
Qed.

Lemma parse_tag_inv : forall i t r, parse_tag i = Some (t, r) -> i = t ++ r /\ valid_tag t.
Proof.
  unfold parse_tag. intros i t r H.
  destruct (one_of _ i) as [[a r1]|] eqn:E1; [|discriminate]. apply one_of_inv in E1 as [-> F1].
  destruct (one_of _ r1) as [[b r2]|] eqn:E2; [|discriminate]. apply one_of_inv in E2 as [-> F2].
  destruct (one_of _ r2) as [[c r3]|] eqn:E3; [|discriminate]. apply one_of_inv in E3 as [-> F3].
  destruct (one_of _ r3) as [[d r4]|] eqn:E4; [|discriminate]. apply one_of_inv in E4 as [-> F4].
  injection H as <- <-. split; [reflexivity|]. exists a, b, c, d. split; [reflexivity|].
  repeat split.
  - rewrite !orb_true_iff, !N.eqb_eq in F1. cbn. intuition congruence.
  - apply in_digits_iff; exact F2.
  - apply in_digits_iff; exact F3.
  - rewrite orb_true_iff, N.eqb_eq in F4. apply in_app_iff.
    destruct F4 as [F4| ->]; [left; apply in_uppers_iff; exact F4|right; cbn; auto].
Qed.

Lemma parse_tag_ok : forall t r, valid_tag t -> parse_tag (t ++ r) = Some (t, r).
Proof.
  intros t r (a & b & c & d & -> & Ha & Hb & Hc & Hd). cbn [app]. unfold parse_tag.
  rewrite one_of_ok.
  2:{ cbn in Ha. rewrite !orb_true_iff, !N.eqb_eq. intuition congruence. }
  rewrite one_of_ok by (apply in_digits_iff; exact Hb).
  rewrite one_of_ok by (apply in_digits_iff; exact Hc).
  rewrite one_of_ok; [reflexivity|].
  apply in_app_iff in Hd. rewrite orb_true_iff, N.eqb_eq.
  destruct Hd as [Hd|Hd]; [left; apply in_uppers_iff; exact Hd|right; cbn in Hd; intuition congruence].
Qed.

Lemma parse_occurrence_inv : forall i o r,
  parse_occurrence i = Some (o, r) ->
  i = o ++ r /\ valid_occ o
  /\ (length o = 2%nat -> match r with [] => True | c :: _ => is_digit c = false end).
Proof.
  unfold parse_occurrence, take_while_m_n. intros i o r H.
  destruct (span_max 3 is_digit i) as [a r'] eqn:E.
  destruct (Nat.leb_spec 2 (length a)) as [L|L]; [|discriminate].
  injection H as <- <-. apply span_max_inv in E as (-> & Ha & Hl & Hr).
  split; [reflexivity|]. split.
  - split; [lia|]. eapply Forall_impl; [|exact Ha]. intros c. apply in_digits_iff.
  - intros H. apply Hr. lia.
Qed.

Lemma parse_occurrence_ok : forall o r,
  valid_occ o ->
  (length o = 2%nat -> match r with [] => True | c :: _ => is_digit c = false end) ->
  parse_occurrence (o ++ r) = Some (o, r).
Proof.
  intros o r [Hl Ho] Hr. unfold parse_occurrence, take_while_m_n.
  rewrite span_max_ok.
  - destruct (Nat.leb_spec 2 (length o)); [reflexivity|lia].
  - eapply Forall_impl; [|exact Ho]. intros c. apply in_digits_iff.
  - lia.
  - intros H. apply Hr. lia.
Qed.

Lemma parse_subfield_inv : forall i s r,
  parse_subfield i = Some (s, r) ->
  i = write_subfield s ++ r /\ valid_subfield s
  /\ match r with [] => True | c :: _ => c = US \/ c = RS end.
Proof.
  unfold parse_subfield, pmap, preceded, pseq, parse_subfield_code, parse_subfield_value,
    take_till0, take_while0. intros i s r H.
  destruct (ch US i) as [[u r1]|] eqn:E1; [|discriminate]. apply ch_inv in E1 as [-> ->].
  destruct (one_of is_alnum r1) as [[c r2]|] eqn:E2; [|discriminate].
  apply one_of_inv in E2 as [-> Hc].
  destruct (span _ r2) as [v r3] eqn:E3. cbn [fst snd] in H.
  injection H as <- <-. apply span_inv in E3 as (-> & Hv & Hr).
  split; [reflexivity|]. split.
  - split; cbn; [apply valid_code_iff; exact Hc|apply valid_value_iff; exact Hv].
  - destruct r3 as [|x r3]; [exact I|].
    rewrite negb_false_iff, orb_true_iff, !N.eqb_eq in Hr. exact Hr.
Qed.

Lemma parse_subfield_ok : forall s r,
  valid_subfield s ->
  match r with [] => True | c :: _ => c = US \/ c = RS end ->
  parse_subfield (write_subfield s ++ r) = Some (s, r).
Proof.
  intros [c v] r [Hc Hv] Hr. cbn in Hc, Hv. unfold write_subfield. cbn [sf_code sf_value app].
  unfold parse_subfield, pmap, preceded, pseq, parse_subfield_code, parse_subfield_value,
    take_till0, take_while0.
  rewrite ch_ok. rewrite one_of_ok by (apply valid_code_iff; exact Hc).
  rewrite span_ok; [reflexivity|apply valid_value_iff; exact Hv|].
  destruct r as [|x r]; [exact I|]. rewrite negb_false_iff, orb_true_iff, !N.eqb_eq. exact Hr.
Qed.

Lemma parse_subfield_none : forall c r, c <> US -> parse_subfield (c :: r) = None.
Proof.
  intros c r H. unfold parse_subfield, pmap, preceded. rewrite ch_fail by exact H. reflexivity.
Qed.

Lemma parse_subfields_ok : forall l r,
  Forall valid_subfield l ->
  repeat0 parse_subfield (flat_map write_subfield l ++ RS :: r) = Some (l, RS :: r).
Proof.
  intros l r Hl. apply repeat0_ok.
  - intros a l1 l2 ->. split; [|discriminate].
    rewrite Forall_app in Hl. destruct Hl as [_ Hl]. inversion Hl as [|? ? Ha Hl2]; subst.
    apply parse_subfield_ok; [exact Ha|].
    destruct l2 as [|b l2]; cbn; [right|left]; reflexivity.
  - apply parse_subfield_none. discriminate.
Qed.

Definition occ_bytes (o : option bytes) : bytes :=
  match o with Some o => write_occ o | None => [] end.

Lemma parse_field_inv : forall i f r,
  parse_field i = Some (f, r) -> i = write_field f ++ r /\ valid_field f.
Proof.
  unfold parse_field. intros i f r H.
  destruct (parse_tag i) as [[t r1]|] eqn:E1; [|discriminate].
  apply parse_tag_inv in E1 as [-> Ht].
  destruct (opt _ r1) as [[o r2]|] eqn:E2; [|discriminate].
  destruct (ch SP r2) as [[x r3]|] eqn:E3; [|discriminate]. apply ch_inv in E3 as [-> ->].
  destruct (repeat0 _ r3) as [[l r4]|] eqn:E4; [|discriminate].
  apply (repeat0_inv _ write_subfield valid_subfield) in E4 as (-> & Hl & _).
  2:{ intros i' a r' Hi. apply parse_subfield_inv in Hi as (? & ? & _). auto. }
  destruct (ch RS r4) as [[y r5]|] eqn:E5; [|discriminate]. apply ch_inv in E5 as [-> ->].
  injection H as <- <-.
  assert (Ho : r1 = occ_bytes o ++ SP :: flat_map write_subfield l ++ RS :: r5
               /\ forall o', o = Some o' -> valid_occ o').
  { unfold opt, preceded in E2. destruct (ch SLASH r1) as [[z r6]|] eqn:E6.
    - apply ch_inv in E6 as [-> ->].
      destruct (parse_occurrence r6) as [[o' r7]|] eqn:E7.
      + apply parse_occurrence_inv in E7 as (-> & Ho & _). injection E2 as <- ->.
        split; [reflexivity|]. intros o'' Heq. injection Heq as <-. exact Ho.
      + discriminate E2.
    - injection E2 as <- ->. split; [reflexivity|discriminate]. }
  destruct Ho as [-> Ho]. split.
  - unfold write_field. cbn [f_tag f_occ f_subfields]. fold (occ_bytes o).
    rewrite <- !app_assoc. reflexivity.
  - split; [exact Ht|]. split; [exact Ho|exact Hl].
Qed.

Lemma parse_field_ok : forall f r,
  valid_field f -> parse_field (write_field f ++ r) = Some (f, r).
Proof.
  intros [t o l] r (Ht & Ho & Hl). cbn [f_tag f_occ f_subfields] in *.
  unfold write_field. cbn [f_tag f_occ f_subfields].
  rewrite <- !app_assoc. unfold parse_field. rewrite parse_tag_ok by exact Ht.
  unfold opt, preceded. destruct o as [o|].
  - unfold write_occ. cbn [app]. rewrite ch_ok.
    rewrite parse_occurrence_ok; [|apply Ho; reflexivity|intros _; reflexivity].
    rewrite ch_ok. cbn [app]. rewrite parse_subfields_ok by exact Hl.
    rewrite ch_ok. reflexivity.
  - cbn [app]. rewrite ch_fail by discriminate. rewrite ch_ok. cbn [app].
    rewrite parse_subfields_ok by exact Hl. rewrite ch_ok. reflexivity.
Qed.

Lemma parse_field_lf : forall r, parse_field (LF :: r) = None.
Proof. reflexivity. Qed.

Lemma write_field_nonempty : forall f, valid_field f -> write_field f <> [].
Proof.
  intros f [(a & b & c & d & Ht & _) _] E. unfold write_field in E. rewrite Ht in E. discriminate.
Qed.

Lemma parse_record_inv : forall i r rest,
  parse_record i = Some (r, rest) ->
  i = flat_map write_field r ++ LF :: rest /\ r <> [] /\ Forall valid_field r.
Proof.
  unfold parse_record, terminated, repeat1. intros i r rest H.
  destruct (parse_field i) as [[f r1]|] eqn:E1; [|discriminate].
  apply parse_field_inv in E1 as [-> Hf].
  destruct (repeat0 parse_field r1) as [[l r2]|] eqn:E2; [|discriminate].
  apply (repeat0_inv _ write_field valid_field) in E2 as (-> & Hl & _); [|exact parse_field_inv].
  destruct (ch LF r2) as [[x r3]|] eqn:E3; [|discriminate]. apply ch_inv in E3 as [-> ->].
  injection H as <- <-. cbn. rewrite <- !app_assoc. split; [reflexivity|].
  split; [discriminate|]. constructor; assumption.
Qed.

Lemma parse_record_ok : forall r rest,
  r <> [] -> Forall valid_field r ->
  parse_record (flat_map write_field r ++ LF :: rest) = Some (r, rest).
Proof.
  intros [|f r] rest Hne Hr; [congruence|]. inversion Hr as [|? ? Hf Hr']; subst.
  unfold parse_record, terminated, repeat1. cbn [flat_map]. rewrite <- app_assoc.
  rewrite parse_field_ok by exact Hf.
  rewrite repeat0_ok.
  - rewrite ch_ok. reflexivity.
  - intros a l1 l2 ->. rewrite Forall_app in Hr'. destruct Hr' as [_ Hr'].
    inversion Hr' as [|? ? Ha Hl2]; subst. split; [apply parse_field_ok; exact Ha|].
    apply write_field_nonempty; exact Ha.
  - apply parse_field_lf.
Qed.

Lemma write_record_nonempty : forall r, r <> [] -> write_record r = flat_map write_field r ++ [LF].
Proof. intros [|f r] H; [congruence|reflexivity]. Qed.

(** C01 *)
Lemma record_parse_write : forall b r, record_from_bytes b = Some r -> write_record r = b.
Proof.
  intros b r H. apply parse_all_inv, parse_record_inv in H as (-> & Hne & _).
  apply write_record_nonempty; exact Hne.
Qed.

Lemma record_from_bytes_valid : forall b r,
  record_from_bytes b = Some r -> r <> [] /\ Forall valid_field r.
Proof. intros b r H. apply parse_all_inv, parse_record_inv in H as (_ & ? & ?). auto. Qed.

(** C02 *)
Lemma record_write_parse : forall r,
  r <> [] -> Forall valid_field r -> record_from_bytes (write_record r) = Some r.
Proof.
  intros r Hne Hr. rewrite write_record_nonempty by exact Hne.
  apply parse_all_ok, parse_record_ok; assumption.
Qed.

(** C03 *)
Lemma subfields_text_iff : forall l b,
  subfields_text l b <-> b = flat_map write_subfield l /\ Forall valid_subfield l.
Proof.
  induction l as [|[c v] l IH]; intros b; split.
  - intros H. inversion H. auto.
  - intros [-> _]. constructor.
  - intros H. inversion H as [|? ? ? b' Hc Hv Hb]; subst. apply IH in Hb as [-> Hl].
    split; [reflexivity|]. constructor; [split; assumption|assumption].
  - intros [-> Hl]. inversion Hl as [|? ? [Hc Hv] Hl']; subst. cbn in *.
    constructor; [assumption|assumption|]. apply IH. auto.
Qed.

Lemma occ_text_iff : forall o b,
  occ_text o b <-> b = occ_bytes o /\ (forall o', o = Some o' -> valid_occ o').
Proof.
  intros o b. split.
  - intros H. inversion H; subst; split; try reflexivity; try discriminate.
    intros o' E. injection E as <-. assumption.
  - intros [-> H]. destruct o as [o|]; constructor. apply H. reflexivity.
Qed.

Lemma field_text_iff : forall f b, field_text f b <-> b = write_field f /\ valid_field f.
Proof.
  intros [t o l] b. split.
  - intros H. inversion H as [? ? bo ? bl Ht Ho Hl]; subst.
    apply occ_text_iff in Ho as [-> Ho]. apply subfields_text_iff in Hl as [-> Hl].
    split; [reflexivity|]. exact (conj Ht (conj Ho Hl)).
  - intros [-> (Ht & Ho & Hl)]. cbn in *.
    change (write_field (mkField t o l))
      with (t ++ occ_bytes o ++ 32 :: flat_map write_subfield l ++ [30]).
    constructor; [exact Ht| |].
    + apply occ_text_iff. auto.
    + apply subfields_text_iff. auto.
Qed.

Lemma fields_text_iff : forall r b,
  fields_text r b <-> r <> [] /\ b = flat_map write_field r /\ Forall valid_field r.
Proof.
  induction r as [|f r IH]; intros b; split.
  - intros H. inversion H.
  - intros [H _]. congruence.
  - intros H. inversion H as [? ? Hf|? b1 ? bs Hf Hfs]; subst.
    + apply field_text_iff in Hf as [-> Hf]. split; [discriminate|]. cbn. rewrite app_nil_r.
      split; [reflexivity|]. constructor; [assumption|constructor].
    + apply field_text_iff in Hf as [-> Hf]. apply IH in Hfs as (Hne & -> & Hfs).
      split; [discriminate|]. split; [reflexivity|]. constructor; assumption.
  - intros (_ & -> & H). inversion H as [|? ? Hf Hr]; subst.
    destruct r as [|g r].
    + cbn. rewrite app_nil_r. constructor. apply field_text_iff. auto.
    + change (flat_map write_field (f :: g :: r))
        with (write_field f ++ flat_map write_field (g :: r)).
      constructor; [apply field_text_iff; auto|]. apply IH. split; [discriminate|auto].
Qed.

Lemma record_text_iff : forall r b,
  record_text r b <-> r <> [] /\ b = write_record r /\ Forall valid_field r.
Proof.
  intros r b. unfold record_text. split.
  - intros (body & H & ->). apply fields_text_iff in H as (Hne & -> & Hr).
    rewrite write_record_nonempty by exact Hne. auto.
  - intros (Hne & -> & Hr). exists (flat_map write_field r).
    rewrite write_record_nonempty by exact Hne. split; [|reflexivity].
    apply fields_text_iff. auto.
Qed.

Lemma record_accept_iff : forall b r, record_from_bytes b = Some r <-> record_text r b.
Proof.
  intros b r. rewrite record_text_iff. split.
  - intros H. pose proof (record_from_bytes_valid _ _ H) as [Hne Hr].
    rewrite (record_parse_write _ _ H). auto.
  - intros (Hne & -> & Hr). apply record_write_parse; assumption.
Qed.

Lemma record_reject_iff : forall b,
  record_from_bytes b = None <-> (forall r, ~ record_text r b).
Proof.
  intros b. split.
  - intros H r Hr. apply record_accept_iff in Hr. congruence.
  - intros H. destruct (record_from_bytes b) as [r|] eqn:E; [|reflexivity].
    apply record_accept_iff in E. exfalso. eapply H; eauto.
Qed.

Lemma field_accept_iff : forall b f, field_from_bytes b = Some f <-> field_text f b.
Proof.
  intros b f. rewrite field_text_iff. split.
  - intros H. apply parse_all_inv, parse_field_inv in H as [-> Hf]. rewrite app_nil_r. auto.
  - intros [-> Hf]. apply parse_all_ok. rewrite <- (app_nil_r (write_field f)).
    apply parse_field_ok; exact Hf.
Qed.

(** C04 *)
Lemma code_new_iff : forall c c', code_new c = Some c' <-> c' = c /\ valid_code c.
Proof.
  intros c c'. unfold code_new. rewrite valid_code_iff.
  destruct (is_alnum c); cbn; split; try congruence; intuition congruence.
Qed.

Lemma code_parser_agree : forall c, parse_all parse_subfield_code [c] = code_new c.
Proof. intros c. unfold code_new, parse_all, parse_subfield_code. cbn. destruct (is_alnum c); reflexivity. Qed.

Lemma value_new_iff : forall v v', value_new v = Some v' <-> v' = v /\ valid_value v.
Proof.
  intros v v'. unfold value_new, valid_value.
  rewrite <- !mem_byte_not_In. fold US RS.
  destruct (mem_byte US v), (mem_byte RS v); cbn; split; intuition congruence.
Qed.

Lemma value_from_bytes_iff : forall v v', value_from_bytes v = Some v' <-> v' = v /\ valid_value v.
Proof.
  intros v v'. unfold value_from_bytes. split.
  - intros H. apply parse_all_inv in H. unfold parse_subfield_value, take_till0, take_while0 in H.
    destruct (span _ v) as [a r] eqn:E. injection H as -> ->.
    apply span_inv in E as (-> & Ha & _). rewrite app_nil_r. split; [reflexivity|].
    apply valid_value_iff; exact Ha.
  - intros [-> H]. apply parse_all_ok. unfold parse_subfield_value, take_till0, take_while0.
    f_equal. rewrite <- (app_nil_r v) at 1. apply span_ok; [apply valid_value_iff; exact H|exact I].
Qed.

Lemma value_new_parser_agree : forall v, value_new v = value_from_bytes v.
Proof.
  intros v. destruct (value_new v) as [w|] eqn:E.
  - apply value_new_iff in E as [-> H]. symmetry. apply value_from_bytes_iff. auto.
  - destruct (value_from_bytes v) as [w|] eqn:F; [|reflexivity].
    apply value_from_bytes_iff in F as [-> H].
    assert (G : value_new v = Some v) by (apply value_new_iff; auto). congruence.
Qed.

Lemma tag_from_bytes_iff : forall t t', tag_from_bytes t = Some t' <-> t' = t /\ valid_tag t.
Proof.
  intros t t'. unfold tag_from_bytes. split.
  - intros H. apply parse_all_inv, parse_tag_inv in H as [-> H]. rewrite app_nil_r. auto.
  - intros [-> H]. apply parse_all_ok. rewrite <- (app_nil_r t) at 1. apply parse_tag_ok; exact H.
Qed.

Lemma occ_from_bytes_iff : forall o o', occ_from_bytes o = Some o' <-> o' = o /\ valid_occ o.
Proof.
  intros t t'. unfold occ_from_bytes. split.
  - intros H. apply parse_all_inv, parse_occurrence_inv in H as (-> & H & _). rewrite app_nil_r. auto.
  - intros [-> H]. apply parse_all_ok. rewrite <- (app_nil_r t) at 1.
    apply parse_occurrence_ok; [exact H|auto].
Qed.

Lemma subfield_new_iff : forall c v s,
  subfield_new c v = Some s <-> s = mkSubfield c v /\ valid_subfield s.
Proof.
  intros c v s. unfold subfield_new. split.
  - intros H. destruct (value_new v) as [v'|] eqn:E; [|discriminate].
    destruct (code_new c) as [c'|] eqn:F; [|discriminate]. injection H as <-.
    apply value_new_iff in E as [-> Hv]. apply code_new_iff in F as [-> Hc].
    split; [reflexivity|]. split; assumption.
  - intros [-> [Hc Hv]]. cbn in *.
    rewrite (proj2 (value_new_iff v v)) by auto.
    rewrite (proj2 (code_new_iff c c)) by auto. reflexivity.
Qed.

Lemma subfield_new_parser_agree : forall c v,
  subfield_new c v = subfield_from_bytes (31 :: c :: v).
Proof.
  intros c v. destruct (subfield_new c v) as [s|] eqn:E.
  - apply subfield_new_iff in E as [-> H]. symmetry. apply parse_all_ok.
    rewrite <- (app_nil_r v) at 1. apply (parse_subfield_ok (mkSubfield c v) []); [exact H|exact I].
  - destruct (subfield_from_bytes (31 :: c :: v)) as [s|] eqn:F; [|reflexivity].
    apply parse_all_inv, parse_subfield_inv in F as (G & H & _). rewrite app_nil_r in G.
    destruct s as [c' v']. injection G as -> ->.
    assert (K : subfield_new c' v' = Some (mkSubfield c' v')) by (apply subfield_new_iff; auto).
    congruence.
Qed.

Lemma collect_Some : forall {A B} (f : A -> option B) l l',
  collect f l = Some l' <-> Forall2 (fun x y => f x = Some y) l l'.
Proof.
  induction l as [|x l IH]; cbn; intros l'; split.
  - intros H. injection H as <-. constructor.
  - intros H. inversion H. reflexivity.
  - intros H. destruct (f x) as [y|] eqn:E; [|discriminate].
    destruct (collect f l) as [ys|] eqn:F; [|discriminate]. injection H as <-.
    constructor; [exact E|]. apply IH. reflexivity.
  - intros H. inversion H as [|? y ? ys Hx Hl]; subst. rewrite Hx.
    apply IH in Hl. rewrite Hl. reflexivity.
Qed.

Lemma field_new_iff : forall t o sfs f,
  field_new t o sfs = Some f <->
  f = mkField t o (map (fun cv => mkSubfield (fst cv) (snd cv)) sfs) /\ valid_field f.
Proof.
  intros t o sfs f. unfold field_new. split.
  - intros H. destruct (tag_from_bytes t) as [t'|] eqn:E1; [|discriminate].
    apply tag_from_bytes_iff in E1 as [-> Ht].
    destruct (match o with Some v => _ | None => _ end) as [o'|] eqn:E2; [|discriminate].
    destruct (collect _ sfs) as [l|] eqn:E3; [|discriminate]. injection H as <-.
    assert (Ho : o' = o /\ forall v, o = Some v -> valid_occ v).
    { destruct o as [v|].
      - destruct (occ_from_bytes v) as [w|] eqn:E4; [|discriminate]. injection E2 as <-.
        apply occ_from_bytes_iff in E4 as [-> Hv]. split; [reflexivity|].
        intros v' E. injection E as <-. exact Hv.
      - injection E2 as <-. split; [reflexivity|discriminate]. }
    destruct Ho as [-> Ho]. apply collect_Some in E3.
    assert (Hl : l = map (fun cv => mkSubfield (fst cv) (snd cv)) sfs /\ Forall valid_subfield l).
    { clear -E3. induction E3 as [|[c v] s l l' H _ IH]; [split; [reflexivity|constructor]|].
      cbn in H. apply subfield_new_iff in H as [-> Hs]. destruct IH as [-> IH]. cbn.
      split; [reflexivity|]. constructor; assumption. }
    destruct Hl as [-> Hl]. split; [reflexivity|]. exact (conj Ht (conj Ho Hl)).
  - intros [-> (Ht & Ho & Hl)]. cbn in *.
    rewrite (proj2 (tag_from_bytes_iff t t)) by auto.
    assert (E2 : match o with Some v => match occ_from_bytes v with Some o' => Some (Some o') | None => None end | None => Some None end = Some o).
    { destruct o as [v|]; [|reflexivity].
      rewrite (proj2 (occ_from_bytes_iff v v)) by auto. reflexivity. }
    rewrite E2.
    assert (E3 : collect (fun cv => subfield_new (fst cv) (snd cv)) sfs
                 = Some (map (fun cv => mkSubfield (fst cv) (snd cv)) sfs)).
    { apply collect_Some. clear -Hl. induction sfs as [|[c v] s IH]; cbn in *; [constructor|].
      inversion Hl as [|? ? Hs Hl']; subst. constructor; [|auto].
      apply subfield_new_iff. auto. }
    rewrite E3. reflexivity.
Qed.

Lemma record_new_iff : forall l r,
  record_new l = Some r <->
  r = map (fun tos => mkField (fst (fst tos)) (snd (fst tos))
             (map (fun cv => mkSubfield (fst cv) (snd cv)) (snd tos))) l
  /\ Forall valid_field r.
Proof.
  intros l r. unfold record_new. split.
  - intros H. apply collect_Some in H. induction H as [|[[t o] s] f l r H _ IH]; [split; [reflexivity|constructor]|].
    cbn in H. apply field_new_iff in H as [-> Hf]. destruct IH as [-> IH].
    split; [reflexivity|]. constructor; assumption.
  - intros [-> H]. apply collect_Some. induction l as [|[[t o] s] l IH]; cbn in *; [constructor|].
    inversion H as [|? ? Hf Hl]; subst. constructor; [|auto].
    apply field_new_iff. auto.
Qed.

(** decidable equality *)
Lemma subfield_eqb_eq : forall a b, subfield_eqb a b = true <-> a = b.
Proof.
  intros [c v] [c' v']. unfold subfield_eqb. cbn.
  rewrite andb_true_iff, N.eqb_eq, bytes_eqb_eq. split; [intros [-> ->]; reflexivity|].
  intros H. injection H as -> ->. auto.
Qed.

Lemma list_eqb_eq : forall {A} (eqb : A -> A -> bool),
  (forall a b, eqb a b = true <-> a = b) ->
  forall a b, list_eqb eqb a b = true <-> a = b.
Proof.
  intros A eqb He. induction a as [|x a IH]; destruct b as [|y b]; cbn; try (split; congruence).
  rewrite andb_true_iff, He, IH. split; [intros [-> ->]; reflexivity|].
  intros H. injection H as -> ->. auto.
Qed.

Lemma option_eqb_eq : forall {A} (eqb : A -> A -> bool),
  (forall a b, eqb a b = true <-> a = b) ->
  forall a b, option_eqb eqb a b = true <-> a = b.
Proof.
  intros A eqb He [x|] [y|]; cbn; try (split; congruence).
  rewrite He. split; congruence.
Qed.

Lemma field_eqb_eq : forall a b, field_eqb a b = true <-> a = b.
Proof.
  intros [t o l] [t' o' l']. unfold field_eqb. cbn.
  rewrite !andb_true_iff, bytes_eqb_eq, (option_eqb_eq _ bytes_eqb_eq),
    (list_eqb_eq _ subfield_eqb_eq).
  split; [intros [[-> ->] ->]; reflexivity|]. intros H. injection H as -> -> ->. auto.
Qed.

Lemma record_eqb_eq : forall a b, record_eqb a b = true <-> a = b.
Proof. apply list_eqb_eq, field_eqb_eq. Qed.

(** levels of accepted tags exist *)
Lemma tag_level_valid : forall t, valid_tag t -> tag_level t <> None.
Proof.
  intros t (a & b & c & d & -> & Ha & _). cbn in Ha.
  destruct Ha as [<-|[<-|[<-|[]]]]; discriminate.
Qed.

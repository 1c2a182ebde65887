(** * Grammar: the conditions on subfields *)

From Coq Require Import String.
From Verif Require Import Bytes Winnow RecordModel RecordSpec BaseProofs Utf8Model Utf8Spec Utf8Proofs
  TagOccModel TagOccSpec TagOccProofs StrParserModel StrSpec StrProofs MatcherModel StateParser
  MatcherParserModel MatcherSpec GrammarSpec GrammarExprProofs GrammarLeafProofs.

(** ** numbers *)
Lemma digits_iff : forall t, Forall (fun c => In c digits) t <-> Forall (fun c => is_digit c = true) t.
Proof.
  intros t. rewrite !Forall_forall. unfold digits. split; intros H c Hc; apply in_digits_iff, H; exact Hc.
Qed.

Lemma usize_inv : forall i n r, parse_usize i = Some (n, r) ->
  exists t, i = t ++ r /\ number_text t n /\ match r with [] => True | c :: _ => is_digit c = false end.
Proof.
  intros i n r H. unfold parse_usize, take_while1 in H.
  destruct (span is_digit i) as [[|c d] r'] eqn:E; [discriminate|].
  set (m := fold_left (fun acc c => 10 * acc + (c - 48)) (c :: d) 0) in *.
  destruct (m <? 18446744073709551616) eqn:L; [|discriminate]. injection H as <- <-.
  apply span_inv in E as (-> & Hd & Hr). exists (c :: d). split; [reflexivity|].
  split; [|exact Hr]. split; [discriminate|]. split; [apply digits_iff; exact Hd|].
  split; [reflexivity|]. apply N.ltb_lt. exact L.
Qed.

Lemma usize_ok : forall t n r, number_text t n ->
  match r with [] => True | c :: _ => is_digit c = false end ->
  parse_usize (t ++ r) = Some (n, r).
Proof.
  intros t n r (Hne & Hd & -> & Hlt) Hr. unfold parse_usize, take_while1.
  rewrite span_ok; [|apply digits_iff; exact Hd|exact Hr].
  destruct t as [|c d]; [contradiction|]. unfold number in *.
  rewrite (proj2 (N.ltb_lt _ _) Hlt). reflexivity.
Qed.

Lemma follow_digit : forall r, follow r -> match r with [] => True | c :: _ => is_digit c = false end.
Proof.
  intros [|c r] H; [exact I|]. destruct (H c r eq_refl) as [Hb|Hc].
  - unfold blank in Hb. cbn in Hb. repeat (destruct Hb as [<-|Hb]; [reflexivity|]). contradiction.
  - cbn in Hc. repeat (destruct Hc as [<-|Hc]; [reflexivity|]). contradiction.
Qed.

(** ** characters of a text *)
Lemma encode_char_nonempty : forall c, utf8_encode_char c <> [].
Proof.
  intros c. unfold utf8_encode_char. destruct (c <? 128); [discriminate|].
  destruct (c <? 2048); [discriminate|]. destruct (c <? 65536); discriminate.
Qed.

Lemma utf8_chars_step : forall c r n, is_scalar c ->
  utf8_chars_fuel (S n) (utf8_encode_char c ++ r) = utf8_encode_char c :: utf8_chars_fuel n r.
Proof.
  intros c r n Hc. unfold utf8_encode_char.
  destruct (c <? 128) eqn:E1.
  { cbn [app utf8_chars_fuel]. rewrite E1. reflexivity. }
  apply N.ltb_ge in E1. destruct (c <? 2048) eqn:E2.
  { apply N.ltb_lt in E2. cbn [app utf8_chars_fuel].
    assert (B : c / 64 < 32) by (apply N.div_lt_upper_bound; lia).
    generalize dependent (c / 64). intros d B.
    rewrite (proj2 (N.ltb_ge _ 128)) by lia. rewrite (proj2 (N.ltb_lt _ 224)) by lia. reflexivity. }
  apply N.ltb_ge in E2. destruct (c <? 65536) eqn:E3.
  { apply N.ltb_lt in E3. cbn [app utf8_chars_fuel].
    assert (B : c / 4096 < 16) by (apply N.div_lt_upper_bound; lia).
    generalize dependent (c / 4096). intros d B.
    rewrite (proj2 (N.ltb_ge _ 128)) by lia. rewrite (proj2 (N.ltb_ge _ 224)) by lia.
    rewrite (proj2 (N.ltb_lt _ 240)) by lia. reflexivity. }
  cbn [app utf8_chars_fuel]. generalize (c / 262144). intros d.
  rewrite (proj2 (N.ltb_ge _ 128)) by lia. rewrite (proj2 (N.ltb_ge _ 224)) by lia.
  rewrite (proj2 (N.ltb_ge _ 240)) by lia. reflexivity.
Qed.

Lemma utf8_chars_encode : forall l, Forall is_scalar l ->
  utf8_chars (utf8_encode l) = map utf8_encode_char l.
Proof.
  intros l H. unfold utf8_chars.
  assert (G : forall n, (length (utf8_encode l) <= n)%nat ->
            utf8_chars_fuel n (utf8_encode l) = map utf8_encode_char l); [|apply G; lia].
  induction H as [|c l Hc Hl IH]; intros n Hn.
  - destruct n; reflexivity.
  - cbn [utf8_encode flat_map] in *. rewrite app_length in Hn.
    pose proof (encode_char_nonempty c) as Hne.
    destruct n as [|n]; [destruct (utf8_encode_char c); [contradiction|cbn in Hn; lia]|].
    rewrite utf8_chars_step by exact Hc. cbn [map]. f_equal. apply IH.
    destruct (utf8_encode_char c); [contradiction|]. cbn in Hn. unfold utf8_encode. lia.
Qed.

Lemma has_chars_ok : forall v char, has_chars v char ->
  Nat.ltb 1 (length (utf8_chars v)) = true /\ forall x, In x (utf8_chars v) <-> char x.
Proof.
  intros v char (l & Hl & -> & Hlen & Hc). rewrite utf8_chars_encode by exact Hl. split.
  - apply Nat.ltb_lt. rewrite map_length. lia.
  - intros x. rewrite Hc, in_map_iff. split; intros (c & H1 & H2); exists c; auto.
Qed.

Lemma has_chars_inv : forall v, is_utf8 v -> Nat.ltb 1 (length (utf8_chars v)) = true ->
  has_chars v (fun x => In x (utf8_chars v)).
Proof.
  intros v (l & Hl & ->) H. rewrite utf8_chars_encode in * by exact Hl. apply Nat.ltb_lt in H.
  rewrite map_length in H. exists l. split; [exact Hl|]. split; [reflexivity|]. split; [lia|].
  intros x. rewrite in_map_iff. split; intros (c & H1 & H2); exists c; auto.
Qed.

(** ** operators *)
Lemma str_op_ok : forall top op r, In (top, op) str_ops ->
  parse_rel_op (top ++ r) = Some (op, r) /\ is_str_applicable op = true.
Proof.
  intros top op r H. unfold str_ops in H. cbn [In] in H.
  repeat (destruct H as [H|H]; [injection H as <- <-; split; reflexivity|]). contradiction.
Qed.

Lemma num_op_ok : forall top op r, In (top, op) num_ops -> (forall r', r <> 61 :: r') ->
  parse_rel_op (top ++ r) = Some (op, r) /\ is_usize_applicable op = true.
Proof.
  intros top op r H Hr. unfold num_ops in H. cbn [In] in H.
  assert (F : forall c, tok [c; 61] (c :: r) = None).
  { intros c. destruct (tok [c; 61] (c :: r)) as [[u r']|] eqn:E; [|reflexivity].
    apply tok_inv in E. injection E as E. destruct (Hr _ E). }
  repeat (destruct H as [H|H]; [injection H as <- <-; split; [|reflexivity]|]); try contradiction;
    try reflexivity.
  - unfold parse_rel_op, alt, pvalue, pmap. change (lit ">" ++ r) with (62 :: r).
    change (lit ">=") with [62; 61]. rewrite F. reflexivity.
  - unfold parse_rel_op, alt, pvalue, pmap. change (lit "<" ++ r) with (60 :: r).
    change (lit "<=") with [60; 61]. rewrite F. reflexivity.
Qed.

Lemma rel_op_inv : forall i op r, parse_rel_op i = Some (op, r) ->
  exists top, i = top ++ r /\ (is_str_applicable op = true -> In (top, op) str_ops)
    /\ (is_usize_applicable op = true -> In (top, op) num_ops).
Proof.
  intros i op r H. unfold parse_rel_op, alt, pvalue, pmap in H.
  repeat match type of H with
  | match match tok ?x i with _ => _ end with _ => _ end = _ =>
      let E := fresh "E" in
      destruct (tok x i) as [[u rr]|] eqn:E;
      [injection H as <- <-; apply tok_inv in E; exists x; split; [exact E|];
       split; intros D; first [discriminate D|cbn; tauto]|]
  end.
  destruct (tok (lit "<") i) as [[u rr]|] eqn:Ez; [|discriminate].
  injection H as <- <-; apply tok_inv in Ez; exists (lit "<"); split; [exact Ez|];
       split; intros D; first [discriminate D|cbn; tauto].
Qed.

(** ** quantifier and codes in front of an operator *)
Lemma quantifier_inv : forall i q r, parse_quantifier i = Some (q, r) ->
  (i = lit "ALL" ++ r /\ q = QAll) \/ (i = lit "ANY" ++ r /\ q = QAny).
Proof.
  intros i q r H. unfold parse_quantifier, alt, pvalue, pmap in H.
  destruct (tok (lit "ALL") i) as [[u r1]|] eqn:E1.
  - injection H as <- <-. apply tok_inv in E1. auto.
  - destruct (tok (lit "ANY") i) as [[u r1]|] eqn:E2; [|discriminate].
    injection H as <- <-. apply tok_inv in E2. auto.
Qed.

Definition head (sep : bool) : parser (option quantifier * bytes) := fun i =>
  do (q, r1) <- opt (ws (if sep then terminated parse_quantifier multispace1 else parse_quantifier)) i;
  do (codes, r2) <- ws parse_codes r1;
  Some ((q, codes), r2).

Lemma opt_ws_quant_inv : forall (sep : bool) i q r1,
  opt (ws (if sep then terminated parse_quantifier multispace1 else parse_quantifier)) i = Some (q, r1) ->
  (q = None /\ r1 = i)
  \/ exists w0 tq, blanks w0 /\ quant_text sep tq (quant_default q) /\ i = w0 ++ tq ++ r1 /\ nonblank r1.
Proof.
  intros sep i q r1 H. unfold opt, ws in H. destruct (skip_ws_split i) as (w0 & W0 & E0).
  destruct sep.
  - destruct (terminated parse_quantifier multispace1 (skip_ws i)) as [[q' r]|] eqn:E;
      [|injection H as <- <-; auto].
    injection H as <- <-. right. unfold terminated in E.
    destruct (parse_quantifier (skip_ws i)) as [[q1 r2]|] eqn:E1; [|discriminate].
    unfold multispace1, take_while1 in E. destruct (span is_mspace r2) as [[|c w] r3] eqn:E2; [discriminate|].
    injection E as <- <-. apply span_inv in E2 as (-> & Hw & _).
    destruct (skip_ws_split r3) as (w3 & W3 & E3).
    assert (W : blanks (c :: w)).
    { apply Forall_forall. intros x Hx. apply is_mspace_blank. rewrite Forall_forall in Hw. apply Hw. exact Hx. }
    apply quantifier_inv in E1 as [[E1 ->]|[E1 ->]].
    + exists w0, (lit "ALL" ++ (c :: w) ++ w3). split; [exact W0|].
      split; [constructor; [apply blanks_app; assumption|discriminate]|].
      split; [|apply nonblank_skip]. rewrite <- !app_assoc, <- E3, <- E1. exact E0.
    + exists w0, (lit "ANY" ++ (c :: w) ++ w3). split; [exact W0|].
      split; [constructor; [apply blanks_app; assumption|discriminate]|].
      split; [|apply nonblank_skip]. rewrite <- !app_assoc, <- E3, <- E1. exact E0.
  - destruct (parse_quantifier (skip_ws i)) as [[q1 r2]|] eqn:E1; [|injection H as <- <-; auto].
    injection H as <- <-. right. destruct (skip_ws_split r2) as (w3 & W3 & E3).
    apply quantifier_inv in E1 as [[E1 ->]|[E1 ->]].
    + exists w0, (lit "ALL" ++ w3). split; [exact W0|].
      split; [constructor; [assumption|discriminate]|].
      split; [|apply nonblank_skip]. rewrite <- !app_assoc, <- E3, <- E1. exact E0.
    + exists w0, (lit "ANY" ++ w3). split; [exact W0|].
      split; [constructor; [assumption|discriminate]|].
      split; [|apply nonblank_skip]. rewrite <- !app_assoc, <- E3, <- E1. exact E0.
Qed.

Lemma ws_codes_inv : forall i l r, ws parse_codes i = Some (l, r) ->
  exists w0 t w1 C, blanks w0 /\ blanks w1 /\ i = w0 ++ t ++ w1 ++ r /\ codes_text t C
    /\ same_set l C /\ nonblank r.
Proof.
  intros i l r H. unfold ws in H. destruct (skip_ws_split i) as (w0 & W0 & E0).
  destruct (parse_codes (skip_ws i)) as [[l' r1]|] eqn:E; [|discriminate]. injection H as <- <-.
  apply codes_inv in E as (t & C & E & Ht & HC). destruct (skip_ws_split r1) as (w1 & W1 & E1).
  exists w0, t, w1, C. split; [exact W0|]. split; [exact W1|]. rewrite <- E1, <- E.
  split; [exact E0|]. split; [exact Ht|]. split; [exact HC|apply nonblank_skip].
Qed.

Lemma head_inv : forall sep i q l r, head sep i = Some ((q, l), r) ->
  exists w0 tq tc w1 C, blanks w0 /\ blanks w1 /\ quant_text sep tq (quant_default q)
    /\ codes_text tc C /\ same_set l C /\ i = w0 ++ tq ++ tc ++ w1 ++ r /\ nonblank r.
Proof.
  intros sep i q l r H. unfold head in H.
  destruct (opt _ i) as [[q' r1]|] eqn:E1; [|discriminate].
  destruct (ws parse_codes r1) as [[l' r2]|] eqn:E2; [|discriminate]. injection H as <- <- <-.
  apply ws_codes_inv in E2 as (w2 & t & w1 & C & W2 & W1 & -> & Ht & HC & Hr).
  apply opt_ws_quant_inv in E1 as [[-> E1]|(w0 & tq & W0 & Hq & E1 & Hn)].
  - exists w2, [], t, w1, C. split; [exact W2|]. split; [exact W1|]. split; [constructor|].
    split; [exact Ht|]. split; [exact HC|]. split; [symmetry; exact E1|exact Hr].
  - assert (w2 = []) as ->.
    { destruct w2 as [|c w2]; [reflexivity|]. exfalso. inversion W2; subst.
      apply (Hn c (w2 ++ t ++ w1 ++ r2) eq_refl). assumption. }
    exists w0, tq, t, w1, C. split; [exact W0|]. split; [exact W1|]. split; [exact Hq|].
    split; [exact Ht|]. split; [exact HC|]. split; [exact E1|exact Hr].
Qed.

(** the operator text that follows the codes *)
Definition op_start (o : bytes) : Prop := exists c o', o = c :: o' /\ In c (lit "=!in?").

Lemma op_start_nonblank : forall o, op_start o -> nonblank o.
Proof.
  intros o (c & o' & -> & Hc). apply nonblank_cons. cbn in Hc.
  repeat (destruct Hc as [<-|Hc]; [notblank|]). contradiction.
Qed.

Lemma ws_codes_ok : forall t C w r, codes_text t C -> blanks w -> nonblank r ->
  exists l, ws parse_codes (t ++ w ++ r) = Some (l, r) /\ same_set l C.
Proof.
  intros t C w r H W Hr. unfold ws. destruct (codes_nonblank t C H) as [N1 N2].
  rewrite skip_ws_nonblank by (apply nonblank_app; assumption).
  destruct (codes_ok t C (w ++ r) H) as (l & -> & Hl). exists l. split; [|exact Hl].
  rewrite skip_ws_blanks_nonblank by assumption. reflexivity.
Qed.

Lemma quantifier_none_codes : forall t C w o, codes_text t C -> blanks w -> op_start o ->
  parse_quantifier (t ++ w ++ o) = None.
Proof.
  intros t C w o H W (c & o' & -> & Hc). destruct (parse_quantifier (t ++ w ++ c :: o')) as [[q r]|] eqn:E; [|reflexivity].
  exfalso. assert (Q : exists d e r', t ++ w ++ c :: o' = 65 :: d :: e :: r' /\ (d = 76 \/ d = 78)).
  { apply quantifier_inv in E as [[E _]|[E _]]; rewrite E; [exists 76, 76, r|exists 78, 89, r]; auto. }
  destruct Q as (d & e & r' & Q & Hd). apply codes_start in H as (x & t' & -> & Ht & _).
  injection Q as -> Q. destruct Ht as [->|E1]; [|discriminate]. cbn [app] in Q.
  destruct w as [|y w].
  - injection Q as -> _. cbn in Hc. destruct Hd as [-> | ->];
      repeat (destruct Hc as [Hc|Hc]; [discriminate|]); contradiction.
  - injection Q as -> _. inversion W as [|y' w' Hy _]; subst. unfold blank in Hy. cbn in Hy.
    destruct Hd as [-> | ->]; repeat (destruct Hy as [Hy|Hy]; [discriminate|]); contradiction.
Qed.

Lemma multispace1_ok : forall w r, blanks w -> w <> [] -> nonblank r -> multispace1 (w ++ r) = Some (w, r).
Proof.
  intros w r W Hne Hr. unfold multispace1, take_while1. rewrite span_ok.
  - destruct w; [contradiction|reflexivity].
  - apply Forall_forall. intros x Hx. apply is_mspace_blank. unfold blanks in W. rewrite Forall_forall in W.
    apply W. exact Hx.
  - destruct r as [|c r]; [exact I|]. destruct (is_mspace c) eqn:E; [|reflexivity].
    exfalso. apply (Hr c r eq_refl). apply is_mspace_blank. exact E.
Qed.

Lemma multispace1_none : forall r, nonblank r -> multispace1 r = None.
Proof.
  intros [|c r] Hr; [reflexivity|]. unfold multispace1, take_while1. cbn [span].
  destruct (is_mspace c) eqn:E; [|reflexivity].
  exfalso. apply (Hr c r eq_refl). apply is_mspace_blank. exact E.
Qed.

Lemma quant_none_eq : forall (sep : bool) i, parse_quantifier (skip_ws i) = None ->
  opt (ws (if sep then terminated parse_quantifier multispace1 else parse_quantifier)) i = Some (None, i).
Proof.
  intros [] i H; unfold opt, ws, terminated; rewrite H; reflexivity.
Qed.

Lemma quant_some_eq : forall (sep : bool) q w t, In (t, q) [(lit "ALL", QAll); (lit "ANY", QAny)] ->
  blanks w -> (sep = true -> w <> []) -> forall r, nonblank r ->
  opt (ws (if sep then terminated parse_quantifier multispace1 else parse_quantifier)) (t ++ w ++ r)
  = Some (Some q, r).
Proof.
  intros sep q w t Ht W Hs r Hr. unfold opt, ws.
  assert (Eq : parse_quantifier (t ++ w ++ r) = Some (q, w ++ r)).
  { cbn in Ht. destruct Ht as [Ht|[Ht|[]]]; injection Ht as <- <-; reflexivity. }
  assert (Es : skip_ws (t ++ w ++ r) = t ++ w ++ r).
  { apply skip_ws_nonblank. cbn in Ht. destruct Ht as [Ht|[Ht|[]]]; injection Ht as <- <-;
      apply nonblank_cons; notblank. }
  rewrite Es. destruct sep.
  - unfold terminated. rewrite Eq. rewrite multispace1_ok; [|exact W|apply Hs; reflexivity|exact Hr].
    rewrite skip_ws_nonblank by exact Hr. reflexivity.
  - rewrite Eq. rewrite skip_ws_blanks_nonblank by assumption. reflexivity.
Qed.

Lemma head_ok : forall sep tq q tc C w o, quant_text sep tq q -> codes_text tc C -> blanks w -> op_start o ->
  exists q' l, head sep (tq ++ tc ++ w ++ o) = Some ((q', l), o) /\ quant_default q' = q /\ same_set l C.
Proof.
  intros sep tq q tc C w o Hq Hc W Ho. unfold head. pose proof (op_start_nonblank o Ho) as No.
  destruct (codes_nonblank tc C Hc) as [N1 N2].
  assert (N3 : nonblank (tc ++ w ++ o)) by (apply nonblank_app; assumption).
  destruct (ws_codes_ok tc C w o Hc W No) as (l & El & Hl).
  destruct Hq as [|w' W' Hs|w' W' Hs].
  - cbn [app]. rewrite quant_none_eq.
    + rewrite El. exists None, l. auto.
    + rewrite skip_ws_nonblank by exact N3. apply (quantifier_none_codes tc C); assumption.
  - rewrite <- app_assoc. rewrite (quant_some_eq sep QAll) by (cbn; auto).
    rewrite El. exists (Some QAll), l. auto.
  - rewrite <- app_assoc. rewrite (quant_some_eq sep QAny) by (cbn; auto).
    rewrite El. exists (Some QAny), l. auto.
Qed.

(** the relation parser on a text whose operator is not a string operator *)
Lemma head_sep_stop : forall tq q tc C w o, quant_text false tq q -> codes_text tc C -> blanks w -> op_start o ->
  (exists q' l, head true (tq ++ tc ++ w ++ o) = Some ((q', l), o))
  \/ (exists l r, head true (tq ++ tc ++ w ++ o) = Some ((None, l), 76 :: r))
  \/ (exists l r, head true (tq ++ tc ++ w ++ o) = Some ((None, l), 78 :: r)).
Proof.
  intros tq q tc C w o Hq Hc W Ho.
  destruct (codes_nonblank tc C Hc) as [N1 N2].
  assert (N3 : nonblank (tc ++ w ++ o)) by (apply nonblank_app; assumption).
  destruct Hq as [|w' W' _|w' W' _].
  - destruct (head_ok true [] QAny tc C w o ltac:(constructor) Hc W Ho) as (q' & l & E & _). left. eauto.
  - destruct w' as [|c w'].
    + right. left. cbn [app lit]. unfold head, opt, ws.
      assert (E : skip_ws (lit "ALL" ++ tc ++ w ++ o) = lit "ALL" ++ tc ++ w ++ o) by reflexivity.
      cbn [app lit] in E. rewrite E. unfold terminated. cbn -[multispace1 skip_ws parse_codes].
      rewrite multispace1_none by exact N3. cbn -[skip_ws]. eexists _, _. reflexivity.
    + left. destruct (head_ok true (lit "ALL" ++ c :: w') QAll tc C w o) as (q' & l & E & _); try assumption.
      * constructor; [exact W'|discriminate].
      * eauto.
  - destruct w' as [|c w'].
    + right. right. cbn [app lit]. unfold head, opt, ws.
      assert (E : skip_ws (lit "ANY" ++ tc ++ w ++ o) = lit "ANY" ++ tc ++ w ++ o) by reflexivity.
      cbn [app lit] in E. rewrite E. unfold terminated. cbn -[multispace1 skip_ws parse_codes].
      rewrite multispace1_none by exact N3. cbn -[skip_ws]. eexists _, _. reflexivity.
    + left. destruct (head_ok true (lit "ANY" ++ c :: w') QAny tc C w o) as (q' & l & E & _); try assumption.
      * constructor; [exact W'|discriminate].
      * eauto.
Qed.

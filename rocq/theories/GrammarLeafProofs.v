(** * Grammar: codes, quantifiers, operators, strings, lists, numbers *)

From Coq Require Import String.
From Verif Require Import Bytes Winnow RecordModel RecordSpec BaseProofs Utf8Model Utf8Spec Utf8Proofs
  TagOccModel TagOccSpec TagOccProofs StrParserModel StrSpec StrProofs MatcherModel StateParser
  MatcherParserModel MatcherSpec GrammarSpec GrammarExprProofs.

(** ** codes *)
Lemma alnums_iff : forall c, In c alnums <-> is_alnum c = true.
Proof.
  intros c. unfold alnums, is_alnum, digits, lowers, uppers.
  rewrite !in_app_iff, in_digits_iff, in_lowers_iff, in_uppers_iff, !orb_true_iff. tauto.
Qed.

Lemma alnum_mem : forall c, is_alnum c = mem_byte c alnums.
Proof.
  intros c. destruct (is_alnum c) eqn:E; symmetry.
  - apply mem_byte_In, alnums_iff. exact E.
  - apply mem_byte_not_In. rewrite alnums_iff. congruence.
Qed.

Lemma one_of_ext : forall f g i, (forall c, f c = g c) -> one_of f i = one_of g i.
Proof. intros f g [|c i] H; cbn; [reflexivity|]. rewrite H. reflexivity. Qed.

Definition code_item : parser bytes := alt parse_code_range (pmap (fun c => [c]) parse_subfield_code).

Lemma code_item_tm : forall i, code_item i = parse_tm_item alnums i.
Proof.
  intros i. unfold code_item, parse_tm_item, parse_code_range, alt, pmap, pverify, dash_pair, parse_subfield_code.
  rewrite (one_of_ext is_alnum (fun c => mem_byte c alnums) i alnum_mem).
  destruct (one_of (fun c => mem_byte c alnums) i) as [[a r1]|]; [|reflexivity].
  destruct (ch 45 r1) as [[x r2]|]; [|reflexivity].
  rewrite (one_of_ext is_alnum (fun c => mem_byte c alnums) r2 alnum_mem). reflexivity.
Qed.

Lemma repeat0_fuel_ext : forall A (p q : parser A), (forall i, p i = q i) ->
  forall n i, repeat0_fuel n p i = repeat0_fuel n q i.
Proof.
  intros A p q H. induction n as [|n IH]; intros i; cbn; [reflexivity|]. rewrite H.
  destruct (q i) as [[a r]|]; [|reflexivity]. rewrite IH. reflexivity.
Qed.

Ltac alnot := rewrite alnums_iff; discriminate.

Lemma code_list_eq : forall i, parse_code_list i =
  delimited (ch 91) (pmap (@concat N) (repeat1 (parse_tm_item alnums))) (ch 93) i.
Proof.
  intros i. unfold parse_code_list, delimited. fold code_item.
  destruct (ch 91 i) as [[x r]|]; [|reflexivity]. unfold pmap, repeat1.
  rewrite code_item_tm. destruct (parse_tm_item alnums r) as [[l r1]|]; [|reflexivity].
  unfold repeat0. rewrite (repeat0_fuel_ext _ _ _ code_item_tm). reflexivity.
Qed.

Definition same_set (l : bytes) (P : byte -> Prop) : Prop := forall x, In x l <-> P x.

Lemma code_list_inv : forall i l r, parse_code_list i = Some (l, r) ->
  exists t C, i = (lit "[" ++ t ++ lit "]") ++ r /\ items_text alnums t C /\ same_set l C.
Proof.
  intros i l r H. rewrite code_list_eq in H. unfold delimited, pmap in H.
  destruct (ch 91 i) as [[x r1]|] eqn:E1; [|discriminate]. apply ch_inv in E1 as [-> _].
  destruct (repeat1 (parse_tm_item alnums) r1) as [[ls r2]|] eqn:E2; [|discriminate].
  destruct (ch 93 r2) as [[y r3]|] eqn:E3; [|discriminate]. apply ch_inv in E3 as [-> _].
  injection H as <- <-. unfold repeat1 in E2.
  destruct (parse_tm_item alnums r1) as [[l1 r4]|] eqn:E4; [|discriminate].
  destruct (repeat0 (parse_tm_item alnums) r4) as [[ls' r5]|] eqn:E5; [|discriminate].
  injection E2 as <- ->. apply parse_tm_item_inv in E4 as (t & P & -> & Ht & HP).
  apply items_inv_fuel in E5 as [[-> <-]|(ts & Q & -> & Hts & HQ)].
  - exists t, P. split; [cbn; rewrite <- !app_assoc; reflexivity|]. split; [constructor; exact Ht|].
    intros x0. cbn. rewrite app_nil_r. apply HP.
  - exists (t ++ ts), (fun x => P x \/ Q x).
    split; [cbn; rewrite <- !app_assoc; reflexivity|]. split; [constructor; assumption|].
    intros x0. cbn. rewrite in_app_iff, HP, HQ. tauto.
Qed.

Lemma code_list_ok : forall t C r, items_text alnums t C ->
  exists l, parse_code_list (lit "[" ++ t ++ lit "]" ++ r) = Some (l, r) /\ same_set l C.
Proof.
  intros t C r H. rewrite code_list_eq. unfold delimited, pmap.
  change (lit "[" ++ t ++ lit "]" ++ r) with (91 :: t ++ 93 :: r). rewrite ch_ok.
  destruct (items_ok_fuel alnums ltac:(alnot) ltac:(alnot) t C H (S (length (t ++ 93 :: r))) r)
    as (ls & E & Hne & Hls); [lia|].
  unfold repeat1. cbn [repeat0_fuel] in E.
  destruct (parse_tm_item alnums (t ++ 93 :: r)) as [[l1 r1]|] eqn:E1.
  - destruct (Nat.eqb (length r1) (length (t ++ 93 :: r))) eqn:E2; [discriminate|].
    destruct (repeat0_fuel (length (t ++ 93 :: r)) (parse_tm_item alnums) r1) as [[l' r']|] eqn:E3; [|discriminate].
    injection E as <- ->.
    assert (Hng : nongrow (parse_tm_item alnums)).
    { intros j a s Hj. apply parse_tm_item_inv in Hj as (t' & P' & -> & Ht' & _).
      apply item_text_start in Ht' as (c & t'' & -> & _). rewrite app_length. cbn. lia. }
    unfold repeat0. apply parse_tm_item_inv in E1 as E1'. destruct E1' as (t' & P' & Et & Ht' & _).
    apply item_text_start in Ht' as (c & t'' & -> & _).
    rewrite (repeat0_fuel_irrel _ Hng (S (length r1)) (length (t ++ 93 :: r)) r1).
    + rewrite E3. rewrite ch_ok. exists (concat (l1 :: l')). split; [reflexivity|exact Hls].
    + lia.
    + rewrite Et. cbn. rewrite app_length. lia.
  - injection E as <- _. contradiction.
Qed.

Lemma codes_inv : forall i l r, parse_codes i = Some (l, r) ->
  exists t C, i = t ++ r /\ codes_text t C /\ same_set l C.
Proof.
  intros i l r H. unfold parse_codes, alt in H.
  destruct (parse_code_list i) as [[l1 r1]|] eqn:E1.
  { injection H as -> ->. apply code_list_inv in E1 as (t & C & -> & Ht & HC).
    exists (lit "[" ++ t ++ lit "]"), C. split; [reflexivity|]. split; [constructor; exact Ht|exact HC]. }
  unfold pmap, parse_subfield_code in H. destruct (one_of is_alnum i) as [[c r1]|] eqn:E2.
  { injection H as <- <-. apply one_of_inv in E2 as [-> Hc]. exists [c], (fun x => x = c).
    split; [reflexivity|]. split; [constructor; apply alnums_iff; exact Hc|].
    intros x. cbn. intuition congruence. }
  unfold parse_code_all, pvalue, pmap in H. destruct (ch 42 i) as [[c r1]|] eqn:E3; [|discriminate].
  injection H as <- <-. apply ch_inv in E3 as [-> _]. exists (lit "*"), (fun x => In x alnums).
  split; [reflexivity|]. split; [constructor|]. intros x. reflexivity.
Qed.

Lemma codes_ok : forall t C r, codes_text t C ->
  exists l, parse_codes (t ++ r) = Some (l, r) /\ same_set l C.
Proof.
  intros t C r H. unfold parse_codes, alt. destruct H as [c Hc|t C Ht|].
  - assert (E : parse_code_list ([c] ++ r) = None).
    { unfold parse_code_list, delimited. cbn [app]. rewrite ch_fail; [reflexivity|].
      intros ->. revert Hc. alnot. }
    rewrite E. cbn [app]. unfold pmap, parse_subfield_code. rewrite one_of_ok by (apply alnums_iff; exact Hc).
    exists [c]. split; [reflexivity|]. intros x. cbn. intuition congruence.
  - rewrite <- !app_assoc. destruct (code_list_ok t C r Ht) as (l & -> & Hl). exists l. auto.
  - exists (lit "0123456789abcdefghijklmnopqrstuvwxyzABCDEFGHIJKLMNOPQRSTUVWXYZ").
    split; [reflexivity|]. intros x. reflexivity.
Qed.

Lemma codes_start : forall t C, codes_text t C ->
  exists c t', t = c :: t' /\ (t' = [] \/ c = 91) /\ (In c alnums \/ c = 91 \/ c = 42).
Proof.
  intros t C H. destruct H as [c Hc|t C Ht|]; [exists c, []|exists 91, (t ++ lit "]")|exists 42, []]; auto.
Qed.

Lemma alnum_nonblank : forall c, In c alnums -> ~ blank c.
Proof.
  intros c H HB. apply alnums_iff in H. unfold blank in HB. cbn in HB.
  repeat (destruct HB as [<-|HB]; [discriminate|]). exact HB.
Qed.

Lemma codes_nonblank : forall t C, codes_text t C -> t <> [] /\ nonblank t.
Proof.
  intros t C H. destruct (codes_start t C H) as (c & t' & -> & _ & Hc). split; [discriminate|].
  apply nonblank_cons. destruct Hc as [Hc|[->| ->]]; [apply alnum_nonblank; exact Hc|notblank|notblank].
Qed.

(** ** strings *)
Lemma string_iff : forall i v r,
  parse_string i = Some (v, r) <-> exists t, i = t ++ r /\ string_text t v.
Proof.
  intros i v r. rewrite parse_string_iff. split.
  - intros (q & w & Hq & -> & Hw & Hu). exists (q :: w ++ [q]). split.
    + cbn. rewrite <- app_assoc. reflexivity.
    + exists q, w. split; [exact Hq|]. split; [reflexivity|]. split; [exact Hw|].
      apply utf8_valid_iff. exact Hu.
  - intros (t & -> & q & w & Hq & -> & Hw & Hu). exists q, w. split; [exact Hq|]. split.
    + cbn. rewrite <- app_assoc. reflexivity.
    + split; [exact Hw|]. apply utf8_valid_iff. exact Hu.
Qed.

Lemma string_start : forall t v, string_text t v -> exists q t', t = q :: t' /\ (q = 39 \/ q = 34).
Proof. intros t v (q & w & Hq & -> & _). eauto. Qed.

Lemma string_nonblank : forall t v, string_text t v -> t <> [] /\ nonblank t.
Proof.
  intros t v H. apply string_start in H as (q & t' & -> & Hq). split; [discriminate|].
  apply nonblank_cons. destruct Hq as [-> | ->]; notblank.
Qed.

Lemma string_none : forall c r, c <> 39 -> c <> 34 -> parse_string (c :: r) = None.
Proof.
  intros c r H1 H2. destruct (parse_string (c :: r)) as [[v r']|] eqn:E; [|reflexivity].
  apply string_iff in E as (t & E & Ht). apply string_start in Ht as (q & t' & -> & Hq).
  injection E as -> _. destruct Hq; contradiction.
Qed.

(** ** lists of strings *)
Section Lists.
  Variable p : parser bytes.
  Variable F : bytes -> Prop.
  Hypothesis p_iff : forall i v r,
    p i = Some (v, r) <-> exists t, i = t ++ r /\ string_text t v /\ F v.

  Lemma p_none : forall c r, c <> 39 -> c <> 34 -> p (c :: r) = None.
  Proof.
    intros c r H1 H2. destruct (p (c :: r)) as [[v r']|] eqn:E; [|reflexivity].
    apply p_iff in E as (t & E & Ht & _). apply string_start in Ht as (q & t' & -> & Hq).
    injection E as -> _. destruct Hq; contradiction.
  Qed.

  Lemma ws_ch_inv : forall c i x r, ws (ch c) i = Some (x, r) ->
    exists w1 w2, blanks w1 /\ blanks w2 /\ i = w1 ++ c :: w2 ++ r /\ nonblank r.
  Proof.
    intros c i x r H. unfold ws in H. destruct (skip_ws_split i) as (w1 & W1 & E1).
    destruct (ch c (skip_ws i)) as [[y r1]|] eqn:E; [|discriminate]. injection H as <- <-.
    apply ch_inv in E as [E _]. destruct (skip_ws_split r1) as (w2 & W2 & E2).
    exists w1, w2. split; [exact W1|]. split; [exact W2|]. rewrite <- E2, <- E.
    split; [exact E1|apply nonblank_skip].
  Qed.

  Lemma ws_ch_ok : forall c w1 r, blanks w1 -> ~ blank c ->
    ws (ch c) (w1 ++ c :: r) = Some (c, skip_ws r).
  Proof.
    intros c w1 r W Hc. unfold ws. rewrite skip_to_token by assumption. rewrite ch_ok. reflexivity.
  Qed.

  Lemma ws_ch_none : forall c r, (forall r', skip_ws r <> c :: r') -> ws (ch c) r = None.
  Proof.
    intros c r H. unfold ws. destruct (skip_ws r) as [|d r'] eqn:E; [reflexivity|].
    rewrite ch_fail; [reflexivity|]. intros ->. apply (H r'). reflexivity.
  Qed.

  Lemma sep_rest_inv : forall n i l r, sep_rest_fuel n p (ws (ch 44)) i = Some (l, r) ->
    Forall F l /\
    forall t0 v0, string_text t0 v0 -> exists ts, t0 ++ i = ts ++ r /\ strings_text ts (v0 :: l).
  Proof.
    induction n as [|n IH]; cbn; intros i l r H; [discriminate|].
    destruct (ws (ch 44) i) as [[x r1]|] eqn:E1.
    - destruct (Nat.eqb (length r1) (length i)); [discriminate|].
      destruct (p r1) as [[v r2]|] eqn:E2.
      + destruct (sep_rest_fuel n p (ws (ch 44)) r2) as [[l' r3]|] eqn:E3; [|discriminate].
        injection H as <- <-. apply ws_ch_inv in E1 as (w1 & w2 & W1 & W2 & -> & _).
        apply p_iff in E2 as (t & -> & Ht & Fv). destruct (IH _ _ _ E3) as [FF HH].
        split; [constructor; assumption|]. intros t0 v0 H0.
        destruct (HH t v Ht) as (ts & E & Hts).
        exists (t0 ++ w1 ++ lit "," ++ w2 ++ ts). split.
        * rewrite <- !app_assoc. cbn. rewrite E. reflexivity.
        * constructor; assumption.
      + injection H as <- <-. split; [constructor|]. intros t0 v0 H0. exists t0.
        split; [reflexivity|]. constructor. exact H0.
    - injection H as <- <-. split; [constructor|]. intros t0 v0 H0. exists t0.
      split; [reflexivity|]. constructor. exact H0.
  Qed.

  Lemma list_of_inv : forall i vs r, parse_list_of p i = Some (vs, r) ->
    exists w1 t w2, blanks w1 /\ blanks w2 /\ i = w1 ++ t ++ w2 ++ r /\ list_text t vs /\ Forall F vs.
  Proof.
    intros i vs r H. unfold parse_list_of, delimited, terminated, separated1 in H.
    destruct (ws (ch 91) i) as [[x r1]|] eqn:E1; [|discriminate].
    apply ws_ch_inv in E1 as (w1 & w2 & W1 & W2 & -> & _).
    destruct (p r1) as [[v r2]|] eqn:E2; [|discriminate]. apply p_iff in E2 as (t & -> & Ht & Fv).
    destruct (sep_rest_fuel (S (length r2)) p (ws (ch 44)) r2) as [[l r3]|] eqn:E3; [|discriminate].
    destruct (sep_rest_inv _ _ _ _ E3) as [FF HH]. destruct (HH t v Ht) as (ts & E & Hts).
    unfold opt in H. destruct (ws (ch 44) r3) as [[y r4]|] eqn:E4.
    - apply ws_ch_inv in E4 as (w3 & w4 & W3 & W4 & -> & _).
      destruct (ws (ch 93) r4) as [[z r5]|] eqn:E5; [|discriminate]. injection H as <- <-.
      apply ws_ch_inv in E5 as (w5 & w6 & W5 & W6 & -> & _).
      exists w1, (lit "[" ++ w2 ++ ts ++ (w3 ++ lit ",") ++ (w4 ++ w5) ++ lit "]"), w6.
      split; [exact W1|]. split; [exact W6|]. split.
      + f_equal. cbn. f_equal. rewrite E. rewrite <- !app_assoc. reflexivity.
      + split; [constructor; try assumption; [constructor; exact W3|apply blanks_app; assumption]|].
        constructor; assumption.
    - destruct (ws (ch 93) r3) as [[z r5]|] eqn:E5; [|discriminate]. injection H as <- <-.
      apply ws_ch_inv in E5 as (w5 & w6 & W5 & W6 & -> & _).
      exists w1, (lit "[" ++ w2 ++ ts ++ [] ++ w5 ++ lit "]"), w6.
      split; [exact W1|]. split; [exact W6|]. split.
      + f_equal. cbn. f_equal. rewrite E. rewrite <- !app_assoc. reflexivity.
      + split; [constructor; try assumption; constructor|]. constructor; assumption.
  Qed.

  (** what ends the strings of a list *)
  Definition list_end (e : bytes) : Prop :=
    (exists r, skip_ws e = 93 :: r)
    \/ (exists e' r, skip_ws e = 44 :: e' /\ skip_ws e' = 93 :: r).

  Lemma sep_rest_end : forall n e, list_end e ->
    sep_rest_fuel (S n) p (ws (ch 44)) e = Some ([], e).
  Proof.
    intros n e [(r & E)|(e' & r & E & E')]; cbn [sep_rest_fuel].
    - rewrite ws_ch_none; [reflexivity|]. intros r'. rewrite E. discriminate.
    - unfold ws at 1. rewrite E, ch_ok, E'.
      pose proof (StateParserProofs.skip_ws_length e) as L1.
      pose proof (StateParserProofs.skip_ws_length e') as L2.
      rewrite E in L1. rewrite E' in L2. cbn [length] in L1, L2.
      rewrite (proj2 (Nat.eqb_neq _ _)) by (cbn [length]; lia).
      rewrite p_none by discriminate. reflexivity.
  Qed.

  Lemma strings_ok : forall ts vs, strings_text ts vs -> Forall F vs ->
    forall e, list_end e ->
    exists v l r1, vs = v :: l /\ p (ts ++ e) = Some (v, r1) /\ (length r1 < length (ts ++ e))%nat
      /\ forall n, (length r1 <= n)%nat -> sep_rest_fuel (S n) p (ws (ch 44)) r1 = Some (l, e).
  Proof.
    induction 1 as [t v Ht|t v w1 w2 ts vs Ht W1 W2 Hts IH]; intros FF e He.
    - inversion FF as [|v' l' Fv _ E1]; subst v' l'.
      exists v, [], e. split; [reflexivity|].
      split; [apply p_iff; exists t; auto|]. apply string_start in Ht as (q & t' & -> & _).
      split; [cbn; rewrite app_length; lia|]. intros n _. apply sep_rest_end. exact He.
    - inversion FF as [|v' l' Fv FFs E1]; subst v' l'.
      rewrite <- !app_assoc. change (lit "," ++ w2 ++ ts ++ e) with (44 :: w2 ++ ts ++ e).
      exists v, vs, (w1 ++ 44 :: w2 ++ ts ++ e). split; [reflexivity|].
      split; [apply p_iff; exists t; auto|].
      assert (Ht0 := Ht). apply string_start in Ht0 as (q & t' & -> & _).
      split; [cbn; rewrite !app_length; cbn; rewrite !app_length; lia|].
      assert (Nts : ts <> [] /\ nonblank ts).
      { destruct Hts as [t2 v2 H2|t2 v2 w3 w4 ts2 vs2 H2 _ _ _]; apply string_nonblank in H2 as [N1 N2].
        - auto. - split; [destruct t2; [contradiction|discriminate]|apply nonblank_app; assumption]. }
      intros n Hn. cbn [sep_rest_fuel]. rewrite ws_ch_ok; [|exact W1|notblank].
      rewrite skip_ws_blanks_nonblank; [|exact W2|apply nonblank_app; apply Nts].
      rewrite (proj2 (Nat.eqb_neq _ _)).
      2:{ rewrite !app_length. cbn. rewrite !app_length. lia. }
      rewrite !app_length in Hn. cbn in Hn. rewrite !app_length in Hn.
      destruct n as [|n]; [lia|].
      destruct (IH FFs e He) as (v' & l' & r1' & -> & E1 & L1 & E2).
      rewrite app_length in L1. rewrite E1, E2 by lia. reflexivity.
  Qed.

  Lemma list_of_ok : forall t vs w r, list_text t vs -> Forall F vs -> blanks w ->
    parse_list_of p (w ++ t ++ r) = Some (vs, skip_ws r).
  Proof.
    intros t vs w r H FF W. destruct H as [w1 ts vs tc w2 W1 Hts Htc W2].
    unfold parse_list_of, delimited, terminated, separated1. rewrite <- !app_assoc.
    change (lit "[" ++ w1 ++ ts ++ tc ++ w2 ++ lit "]" ++ r) with (91 :: w1 ++ ts ++ tc ++ w2 ++ 93 :: r).
    rewrite ws_ch_ok; [|exact W|notblank].
    assert (Nts : ts <> [] /\ nonblank ts).
    { destruct Hts as [t2 v2 H2|t2 v2 w3 w4 ts2 vs2 H2 _ _ _]; apply string_nonblank in H2 as [N1 N2].
      - auto. - split; [destruct t2; [contradiction|discriminate]|apply nonblank_app; assumption]. }
    rewrite skip_ws_blanks_nonblank; [|exact W1|apply nonblank_app; apply Nts].
    set (e := tc ++ w2 ++ 93 :: r).
    assert (Hend : list_end e).
    { unfold e. destruct Htc as [|w3 W3].
      - left. exists r. cbn [app]. apply skip_to_token; [exact W2|notblank].
      - right. exists (w2 ++ 93 :: r), r. rewrite <- app_assoc. change (lit "," ++ w2 ++ 93 :: r) with (44 :: w2 ++ 93 :: r). split.
        + apply skip_to_token; [exact W3|notblank].
        + apply skip_to_token; [exact W2|notblank]. }
    destruct (strings_ok ts vs Hts FF e Hend) as (v & l & r1 & -> & E1 & L1 & E2).
    unfold e in *. clear e. rewrite E1.
    assert (Hs : sep_rest_fuel (S (length r1)) p (ws (ch 44)) r1 = Some (l, tc ++ w2 ++ 93 :: r)).
    { apply E2. lia. }
    rewrite Hs. unfold opt. destruct Htc as [|w3 W3].
    - cbn [app]. rewrite ws_ch_none.
      2:{ intros r'. rewrite skip_to_token; [discriminate|exact W2|notblank]. }
      rewrite ws_ch_ok; [|exact W2|notblank]. reflexivity.
    - rewrite <- app_assoc. change (lit "," ++ w2 ++ 93 :: r) with (44 :: w2 ++ 93 :: r).
      rewrite ws_ch_ok; [|exact W3|notblank].
      rewrite skip_to_token; [|exact W2|notblank].
      change (93 :: r) with ([] ++ 93 :: r).
      rewrite ws_ch_ok; [|constructor|notblank]. reflexivity.
  Qed.
End Lists.

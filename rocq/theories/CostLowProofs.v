(** * Nested parentheses are parsed again and again *)

From Coq Require Import String.
From Verif Require Import Bytes Winnow TagOccModel StrParserModel MatcherModel StateParser
  BaseProofs StateParserProofs MatcherParserModel MatcherParserProofs CostSpec CostProofs.

Definition bump (c : N) (s : levels) : levels := mkLevels (lv_sub s) (lv_field s) (lv_fmt s + c).

Lemma bump_bump : forall c d s, bump c (bump d s) = bump (d + c) s.
Proof. intros c d [a b e]. unfold bump. cbn. f_equal. lia. Qed.

(** what may follow: nothing or a closing parenthesis *)
Definition closed (r : bytes) : Prop := r = [] \/ exists r', r = 41 :: r'.

Lemma skip_closed : forall r, closed r -> skip_ws r = r.
Proof. intros r [->|[r' ->]]; reflexivity. Qed.

Section Low.
  Variable O : oracles.

  Section Step.
    Variable g t : sparser field_matcher.
    (** an input whose first atom ends before [r] and costs [c], wherever the
        counter stands *)
    Variable i r : bytes.
    Variable f c : N.
    Hypothesis Hr : closed r.
    Hypothesis Hi : skip_ws i = i.
    Hypothesis Ha : forall s, lv_field s = f -> exists m, f_atoms O g t s i = (POk m r, bump c s).

    Lemma no_tail : forall A (p : parser unit) (q : sparser A) s,
      p r = None -> srepeat1 (spreceded (slift p) q) s r = (PErr, s).
    Proof. intros A p q s H. unfold srepeat1, sbind, spreceded, sbind, slift. rewrite H. reflexivity. Qed.

    Lemma no_and : ws (tok (lit "&&")) r = None.
    Proof. unfold ws. destruct Hr as [->|[r' ->]]; reflexivity. Qed.
    Lemma no_or : ws (tok (lit "||")) r = None.
    Proof. unfold ws. destruct Hr as [->|[r' ->]]; reflexivity. Qed.
    Lemma no_xor : alt (tok (lit "^")) (tok (lit "XOR")) r = None.
    Proof. destruct Hr as [->|[r' ->]]; reflexivity. Qed.

    Lemma operands_fail : forall (atom : sparser field_matcher) (p : parser unit) d s m,
      p r = None -> atom s i = (POk m r, bump d s) ->
      s_operands atom (slift p) s i = (PErr, bump d s).
    Proof.
      intros atom p d s m Hp H. unfold s_operands, sbind. rewrite H. unfold smap.
      rewrite (no_tail _ p atom (bump d s) Hp). reflexivity.
    Qed.

    Lemma ws_atom : forall (atom : sparser field_matcher) s m d, atom s i = (POk m r, bump d s) ->
      sws atom s i = (POk m r, bump d s).
    Proof. intros atom s m d H. unfold sws. rewrite Hi, H, (skip_closed _ Hr). reflexivity. Qed.

    Lemma and_fails : forall s, lv_field s = f -> f_and O g t s i = (PErr, bump c s).
    Proof.
      intros s Hs. destruct (Ha s Hs) as [m H]. unfold f_and, smap.
      rewrite (operands_fail _ _ c s m no_and (ws_atom _ _ _ _ H)). reflexivity.
    Qed.
    Lemma after_and : forall s, lv_field s = f ->
      exists m, salt (f_and O g t) (f_atoms O g t) s i = (POk m r, bump (c + c) s).
    Proof.
      intros s Hs. unfold salt. rewrite (and_fails s Hs). destruct (Ha (bump c s) Hs) as [m H].
      exists m. rewrite H, bump_bump. reflexivity.
    Qed.
    Lemma xor_fails : forall s, lv_field s = f -> f_xor O g t s i = (PErr, bump (c + c) s).
    Proof.
      intros s Hs. destruct (after_and s Hs) as [m H]. unfold f_xor, smap.
      rewrite (operands_fail _ _ (c + c) s m no_xor (ws_atom _ _ _ _ H)). reflexivity.
    Qed.
    Lemma after_xor : forall s, lv_field s = f ->
      exists m, salt (f_and O g t) (salt (f_xor O g t) (f_atoms O g t)) s i = (POk m r, bump (4 * c) s).
    Proof.
      intros s Hs. unfold salt at 1. rewrite (and_fails s Hs). unfold salt. rewrite (xor_fails (bump c s) Hs).
      destruct (Ha (bump (c + c) (bump c s)) Hs) as [m H]. exists m. rewrite H, !bump_bump. do 2 f_equal. lia.
    Qed.
    Lemma or_fails : forall s, lv_field s = f -> f_or O g t s i = (PErr, bump (4 * c) s).
    Proof.
      intros s Hs. destruct (after_xor s Hs) as [m H]. unfold f_or, smap.
      rewrite (operands_fail _ _ (4 * c) s m no_or (ws_atom _ _ _ _ H)). reflexivity.
    Qed.
    Lemma composite_fails : forall s, lv_field s = f -> f_composite O g t s i = (PErr, bump (7 * c) s).
    Proof.
      intros s Hs. unfold f_composite, salt. rewrite (or_fails s Hs), (xor_fails (bump (4 * c) s) Hs).
      rewrite (and_fails (bump (c + c) (bump (4 * c) s)) Hs), !bump_bump. do 2 f_equal. lia.
    Qed.
  End Step.

  (** the innermost text *)
  Definition core : bytes := lit "003@?".

  Lemma core_singleton : forall r s, exists m, f_singleton O s (core ++ r) = (POk m r, s).
  Proof. intros r s. eexists. reflexivity. Qed.
  Lemma core_card : forall r s, parse_f_card O s (core ++ r) = (PErr, s).
  Proof. intros r s. reflexivity. Qed.

  Lemma group_at : forall i r g t s, i = 40 :: r -> skip_ws r = r -> lv_field s + 1 < 256 ->
    f_group_body O g t s i =
    smap FMGroup (fun s' i' => sbind (salt (f_composite O g t)
      (salt (f_singleton O) (salt t (salt (parse_f_card O) g)))) (fun b => sbind f_close (fun _ => sret b)) s' i')
      (mkLevels (lv_sub s) (lv_field s + 1) (lv_fmt s)) r.
  Proof.
    intros i r g t s -> Hr Hs. assert (E : ws (ch 40) (40 :: r) = Some (40, skip_ws r)) by reflexivity.
    rewrite Hr in E. unfold f_group_body, sdelim, smap, sbind, slift. rewrite E.
    unfold field_inc. replace (256 <=? lv_field s + 1) with false by (symmetry; apply N.leb_gt; exact Hs).
    reflexivity.
  Qed.

  Lemma close_at : forall s r, closed r -> f_close s (41 :: r) = (POk tt r, field_dec s).
  Proof.
    intros s r Hr. unfold f_close. assert (E : ws (ch 41) (41 :: r) = Some (41, skip_ws r)) by reflexivity.
    rewrite E, (skip_closed _ Hr). reflexivity.
  Qed.

  Lemma group_other : forall n s i, match i with c :: _ => negb (is_mspace c) && negb (c =? 40) | [] => true end = true ->
    fst (counted_gn O (S n)) s i = (PErr, bump 1 s).
  Proof.
    intros n s i Hi. cbn [counted_gn]. destruct (counted_gn O n) as [g t]. cbn [fst]. unfold counted.
    unfold f_group_body, sdelim, smap, sbind, slift, ws.
    destruct i as [|c i]; [reflexivity|]. apply andb_true_iff in Hi as [H1 H2].
    unfold skip_ws. cbn [span]. apply negb_true_iff in H1. rewrite H1. cbn [snd].
    unfold ch, one_of. rewrite N.eqb_sym in H2. apply negb_true_iff in H2. rewrite H2. reflexivity.
  Qed.
  Lemma not_other : forall n s i, match i with c :: _ => negb (is_mspace c) && negb (c =? 33) | [] => true end = true ->
    snd (counted_gn O (S n)) s i = (PErr, s).
  Proof.
    intros n s i Hi. cbn [counted_gn]. destruct (counted_gn O n) as [g t]. cbn [snd].
    unfold f_not_body, smap, spreceded, sbind, slift, ws.
    destruct i as [|c i]; [reflexivity|]. apply andb_true_iff in Hi as [H1 H2].
    unfold skip_ws. cbn [span]. apply negb_true_iff in H1. rewrite H1. cbn [snd].
    unfold ch, one_of. rewrite N.eqb_sym in H2. apply negb_true_iff in H2. rewrite H2. reflexivity.
  Qed.

  Definition nested (n : nat) (r : bytes) : bytes := repeat 40 n ++ core ++ repeat 41 n ++ r.

  Lemma nested_S : forall n r, nested (S n) r = 40 :: nested n (41 :: r).
  Proof.
    intros n r. unfold nested. cbn [repeat app]. do 3 f_equal. cbn [repeat app].
    clear. induction n as [|n IH]; [reflexivity|]. cbn. rewrite IH. reflexivity.
  Qed.
  Lemma skip_nested : forall n r, skip_ws (nested n r) = nested n r.
  Proof. intros [|n] r; [reflexivity|]. rewrite nested_S. reflexivity. Qed.

  (** on a text that begins with a parenthesis the other parsers fail at once *)
  Lemma card_paren : forall s r, parse_f_card O s (40 :: r) = (PErr, s).
  Proof. reflexivity. Qed.
  Lemma singleton_paren : forall s r, f_singleton O s (40 :: r) = (PErr, s).
  Proof. reflexivity. Qed.

  (** how often the parser is started for [S n] pairs *)
  Fixpoint cost (n : nat) : N := match n with 0%nat => 8 | S n' => 1 + 8 * cost n' end.
  Lemma cost_low : forall n, 8 ^ N.of_nat (S n) <= cost n.
  Proof.
    induction n as [|n IH]; [cbn; lia|]. rewrite Nnat.Nat2N.inj_succ, N.pow_succ_r'. cbn [cost]. lia.
  Qed.

  Lemma group_nested : forall n k s r, (n < k)%nat -> lv_field s + N.of_nat (S n) < 256 -> closed r ->
    exists m, fst (counted_gn O (S k)) s (nested (S n) r) = (POk m r, bump (cost n) s).
  Proof.
    induction n as [|n IH]; intros k s r Hk Hs Hr.
    - destruct k as [|k]; [lia|]. remember (S k) as k1. cbn [counted_gn].
      destruct (counted_gn O k1) as [g t] eqn:E. cbn [fst]. unfold counted. rewrite nested_S.
      rewrite (group_at _ (nested 0 (41 :: r)) g t _ eq_refl (skip_nested _ _)); [|cbn in *; lia].
      cbn [lv_sub lv_field lv_fmt]. unfold smap, sbind at 1, salt at 1.
      rewrite (composite_fails g t (nested 0 (41 :: r)) (41 :: r) (lv_field s + 1) 1).
      + unfold salt at 1. destruct (core_singleton (41 :: r) (bump (7 * 1) {| lv_sub := lv_sub s; lv_field := lv_field s + 1; lv_fmt := lv_fmt s + 1 |})) as [m Hm].
        unfold nested. cbn [repeat app]. rewrite Hm. unfold sbind. rewrite (close_at _ _ Hr).
        exists (FMGroup m). cbn [sret]. unfold field_dec, bump. cbn. do 2 f_equal; lia.
      + right. eexists. reflexivity.
      + apply skip_nested.
      + intros s1 H1. unfold f_atoms, salt at 1.
        replace (g s1 (nested 0 (41 :: r))) with (PErr (A := field_matcher), bump 1 s1).
        * unfold salt at 1. unfold nested. cbn [repeat app]. rewrite core_card.
          unfold salt at 1. destruct (core_singleton (41 :: r) (bump 1 s1)) as [m Hm]. rewrite Hm. eexists. reflexivity.
        * symmetry. replace g with (fst (counted_gn O (S k))) by (subst k1; rewrite E; reflexivity).
          apply group_other. reflexivity.
      + reflexivity.
    - destruct k as [|k]; [lia|]. remember (S k) as k1. cbn [counted_gn].
      destruct (counted_gn O k1) as [g t] eqn:E. cbn [fst]. unfold counted. rewrite nested_S.
      rewrite (group_at _ (nested (S n) (41 :: r)) g t _ eq_refl (skip_nested _ _)); [|cbn in *; lia].
      cbn [lv_sub lv_field lv_fmt].
      assert (Hg : forall s1, lv_field s1 = lv_field s + 1 -> exists m,
        g s1 (nested (S n) (41 :: r)) = (POk m (41 :: r), bump (cost n) s1)).
      { intros s1 H1. destruct (IH k s1 (41 :: r)) as (m & H).
        - lia.
        - rewrite H1. lia.
        - right. eexists. reflexivity.
        - exists m. rewrite <- H. subst k1. rewrite E. reflexivity. }
      assert (Ht : forall s1, t s1 (nested (S n) (41 :: r)) = (PErr, s1)).
      { intros s1. replace t with (snd (counted_gn O (S k))) by (subst k1; rewrite E; reflexivity).
        rewrite nested_S. apply not_other. reflexivity. }
      unfold smap, sbind at 1, salt at 1.
      rewrite (composite_fails g t (nested (S n) (41 :: r)) (41 :: r) (lv_field s + 1) (cost n)).
      + unfold salt. rewrite nested_S, singleton_paren, <- nested_S, Ht, nested_S, card_paren, <- nested_S.
        match goal with |- context [g ?x _] => destruct (Hg x eq_refl) as [m Hm] end. rewrite Hm.
        unfold sbind. rewrite (close_at _ _ Hr).
        exists (FMGroup m). cbn [sret]. unfold field_dec, bump. cbn [lv_sub lv_field lv_fmt cost]. do 2 f_equal; lia.
      + right. eexists. reflexivity.
      + apply skip_nested.
      + intros s1 H1. destruct (Hg s1 H1) as [m Hm]. exists m. unfold f_atoms, salt. rewrite Hm. reflexivity.
      + reflexivity.
  Qed.

  Lemma starts_nested : forall n, (S n < 256)%nat ->
    group_starts O (parens (S n) core) = 8 * cost n
    /\ exists m, fst (field_matcher_new O fresh (parens (S n) core)) = Some (Some m).
  Proof.
    intros n Hn. assert (E : parens (S n) core = nested (S n) []).
    { unfold parens, nested. rewrite app_nil_r. reflexivity. }
    assert (H : exists m, sparse_all (counted_matcher O) fresh (nested (S n) []) = (Some (Some m), bump (8 * cost n) fresh)).
    { unfold sparse_all, counted_matcher.
      assert (Hl : (S n < length (nested (S n) []))%nat).
      { unfold nested. rewrite !app_length, !repeat_length. cbn. lia. }
      remember (length (nested (S n) [])) as k. destruct (counted_gn O (S k)) as [g t] eqn:Eg.
      assert (Hg : forall s, lv_field s = 0 -> exists m, g s (nested (S n) []) = (POk m [], bump (cost n) s)).
      { intros s Hs. destruct (group_nested n k s []) as [m Hm].
        - lia.
        - rewrite Hs. lia.
        - left. reflexivity.
        - exists m. rewrite <- Hm, Eg. reflexivity. }
      unfold sws. rewrite skip_nested. unfold salt at 1.
      rewrite (composite_fails g t (nested (S n) []) [] 0 (cost n)).
      - unfold salt at 1. destruct (Hg (bump (7 * cost n) fresh) eq_refl) as [m Hm]. rewrite Hm.
        exists m. cbn [skip_ws span snd]. unfold field_reset, bump. cbn [lv_sub lv_field lv_fmt fresh]. do 2 f_equal. lia.
      - left. reflexivity.
      - apply skip_nested.
      - intros s1 H1. destruct (Hg s1 H1) as [m Hm]. exists m. unfold f_atoms, salt. rewrite Hm. reflexivity.
      - reflexivity. }
    destruct H as [m H]. split.
    - unfold group_starts. rewrite E, H. cbn. lia.
    - exists m. rewrite <- (proj1 (counting_harmless O fresh _)), E, H. reflexivity.
  Qed.

  Lemma starts_low : forall n, (n < 256)%nat ->
    8 ^ N.of_nat n <= group_starts O (parens n core)
    /\ exists m, fst (field_matcher_new O fresh (parens n core)) = Some (Some m).
  Proof.
    intros [|n] Hn.
    - split; [|eexists; reflexivity]. cbn. lia.
    - destruct (starts_nested n Hn) as [-> H]. split; [|exact H].
      pose proof (cost_low n). lia.
  Qed.
End Low.

Lemma size_parens : forall n t, size (parens n t) = 2 * N.of_nat n + size t.
Proof. intros n t. unfold size, parens. rewrite !app_length, !repeat_length. lia. Qed.

Lemma starts_examples : forall O,
  (exists t m, size t = 25 /\ fst (field_matcher_new O fresh t) = Some (Some m) /\ 10 ^ 9 < group_starts O t)
  /\ exists t m, size t = 515 /\ fst (field_matcher_new O fresh t) = Some (Some m)
     /\ 10 ^ 230 < group_starts O t /\ size t ^ 84 < group_starts O t.
Proof.
  intros O. split.
  - destruct (starts_low O 10 ltac:(lia)) as (H & m & E). exists (parens 10 core), m.
    rewrite size_parens. split; [reflexivity|]. split; [exact E|].
    eapply N.lt_le_trans; [|exact H]. reflexivity.
  - destruct (starts_low O 255 ltac:(lia)) as (H & m & E). exists (parens 255 core), m.
    rewrite size_parens. split; [reflexivity|]. split; [exact E|].
    change (N.of_nat 255) with 255 in *. change (2 * 255 + size core) with 515.
    split; (eapply N.lt_le_trans; [|exact H]); reflexivity.
Qed.

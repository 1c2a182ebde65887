(** * Lemmas on the feature "compat" *)

From Coq Require Import String Lia.
From Verif Require Import Bytes BaseProofs Winnow RecordModel TagOccModel Utf8Model StrParserModel
  MatcherModel StateParser MatcherParserModel PathModel QueryModel.
From Verif Require FmtModel.
Import FmtModel.
From Verif Require Import CompatModel CompatSpec.

(** ** single bytes *)

(** bytes that neither are a dollar sign nor change the place *)
Definition quiet (c : byte) : bool :=
  negb ((c =? 36) || is_quote c || operator_begins c).

Definition nodollar (i : bytes) : Prop := match i with [] => True | c :: _ => c <> 36 end.

Lemma bare_quiet : forall c r, quiet c = true -> bare_dollar (c :: r) = bare_dollar r.
Proof.
  intros c r H. unfold quiet in H. apply Bool.negb_true_iff in H.
  apply Bool.orb_false_iff in H. destruct H as [H H3]. apply Bool.orb_false_iff in H.
  destruct H as [H1 H2]. unfold bare_dollar. cbn [dollar_from next_place].
  unfold outside_next. rewrite H1, H2, H3. reflexivity.
Qed.

Lemma bare_op : forall c r, operator_begins c = true -> nodollar r -> bare_dollar (c :: r) = bare_dollar r.
Proof.
  intros c r H N. unfold bare_dollar. cbn [dollar_from next_place].
  assert (H1 : (c =? 36) = false).
  { apply N.eqb_neq. intros ->. discriminate H. }
  assert (H2 : is_quote c = false).
  { unfold is_quote. unfold operator_begins in H.
    destruct (N.eqb_spec c 39) as [->|]; [discriminate H|].
    destruct (N.eqb_spec c 34) as [->|]; [discriminate H|]. reflexivity. }
  unfold outside_next at 1. rewrite H1, H2, H. cbn [orb].
  destruct r as [|d r]; [reflexivity|]. cbn [dollar_from next_place] in *.
  cbn in N. apply N.eqb_neq in N. rewrite N. reflexivity.
Qed.

(** ** parsers without state *)

Definition keep {A} (p : parser A) : Prop :=
  forall i a r, p i = Some (a, r) -> bare_dollar i = bare_dollar r.
Definition same {A} (p q : parser A) : Prop :=
  forall i, bare_dollar i = false -> p i = q i.

Lemma keep_one_of : forall f, (forall c, f c = true -> quiet c = true) -> keep (one_of f).
Proof.
  intros f H [|c i] a r E; [discriminate E|]. cbn [one_of] in E.
  destruct (f c) eqn:F; [|discriminate E]. injection E as <- <-. apply bare_quiet, H, F.
Qed.

Lemma keep_ch : forall c, quiet c = true -> keep (ch c).
Proof.
  intros c H. apply keep_one_of. intros d E. apply N.eqb_eq in E. subst d. exact H.
Qed.

Lemma keep_tok : forall s, forallb quiet s = true -> keep (tok s).
Proof.
  induction s as [|c s IH]; intros H i a r E.
  - injection E as <- <-. reflexivity.
  - destruct i as [|d i]; [discriminate E|]. cbn [tok] in E.
    destruct (N.eqb_spec c d) as [<-|]; [|discriminate E].
    cbn [forallb] in H. apply andb_prop in H. destruct H as [H1 H2].
    rewrite bare_quiet by exact H1. exact (IH H2 _ _ _ E).
Qed.

Lemma bare_span : forall f, (forall c, f c = true -> quiet c = true) ->
  forall i, bare_dollar (snd (span f i)) = bare_dollar i.
Proof.
  intros f H. induction i as [|c i IH]; [reflexivity|]. cbn [span].
  destruct (f c) eqn:F; [|reflexivity].
  destruct (span f i) as [x y]. cbn [snd] in *.
  rewrite bare_quiet by (apply H, F). exact IH.
Qed.

Lemma bare_skip : forall i, bare_dollar (skip_ws i) = bare_dollar i.
Proof.
  intros i. apply bare_span. intros c H. unfold is_mspace in H.
  repeat (apply Bool.orb_prop in H; destruct H as [H|H]);
    apply N.eqb_eq in H; subst c; reflexivity.
Qed.

Lemma keep_while1 : forall f, (forall c, f c = true -> quiet c = true) -> keep (take_while1 f).
Proof.
  intros f H i a r E. unfold take_while1 in E. pose proof (bare_span f H i) as B.
  destruct (span f i) as [[|x y] z]; [discriminate E|]. injection E as <- <-. symmetry. exact B.
Qed.

Lemma keep_span_max : forall f, (forall c, f c = true -> quiet c = true) ->
  forall n i, bare_dollar (snd (span_max n f i)) = bare_dollar i.
Proof.
  intros f H. induction n as [|n IH]; intros i; [reflexivity|].
  destruct i as [|c i]; [reflexivity|]. cbn [span_max].
  destruct (f c) eqn:F; [|reflexivity].
  specialize (IH i). destruct (span_max n f i) as [x y]. cbn [snd] in *.
  rewrite bare_quiet by (apply H, F). exact IH.
Qed.

Lemma keep_while_m_n : forall m n f, (forall c, f c = true -> quiet c = true) -> keep (take_while_m_n m n f).
Proof.
  intros m n f H i a r E. unfold take_while_m_n in E. pose proof (keep_span_max f H n i) as B.
  destruct (span_max n f i) as [x y]. destruct (Nat.leb m (length x)); [|discriminate E].
  injection E as <- <-. symmetry. exact B.
Qed.

Lemma keep_map : forall A B (f : A -> B) p, keep p -> keep (pmap f p).
Proof.
  intros A B f p H i b r E. unfold pmap in E. destruct (p i) as [[a x]|] eqn:F; [|discriminate E].
  injection E as <- <-. exact (H _ _ _ F).
Qed.
Lemma keep_value : forall A B (b : B) (p : parser A), keep p -> keep (pvalue b p).
Proof. intros. apply keep_map. assumption. Qed.
Lemma keep_verify : forall A f (p : parser A), keep p -> keep (pverify f p).
Proof.
  intros A f p H i b r E. unfold pverify in E. destruct (p i) as [[a x]|] eqn:F; [|discriminate E].
  destruct (f a); [|discriminate E]. injection E as <- <-. exact (H _ _ _ F).
Qed.
Lemma keep_verify_map : forall A B (f : A -> option B) p, keep p -> keep (pverify_map f p).
Proof.
  intros A B f p H i b r E. unfold pverify_map in E. destruct (p i) as [[a x]|] eqn:F; [|discriminate E].
  destruct (f a); [|discriminate E]. injection E as <- <-. exact (H _ _ _ F).
Qed.
Lemma keep_alt : forall A (p q : parser A), keep p -> keep q -> keep (alt p q).
Proof.
  intros A p q H K i b r E. unfold alt in E. destruct (p i) as [[a x]|] eqn:F; [|exact (K _ _ _ E)].
  injection E as <- <-. exact (H _ _ _ F).
Qed.
Lemma keep_opt : forall A (p : parser A), keep p -> keep (opt p).
Proof.
  intros A p H i b r E. unfold opt in E. destruct (p i) as [[a x]|] eqn:F; injection E as <- <-;
    [exact (H _ _ _ F)|reflexivity].
Qed.
Lemma keep_ws : forall A (p : parser A), keep p -> keep (ws p).
Proof.
  intros A p H i b r E. unfold ws in E. destruct (p (skip_ws i)) as [[a x]|] eqn:F; [|discriminate E].
  injection E as <- <-. rewrite bare_skip, <- (H _ _ _ F), bare_skip. reflexivity.
Qed.
Lemma keep_preceded : forall A B (p : parser A) (q : parser B), keep p -> keep q -> keep (preceded p q).
Proof.
  intros A B p q H K i b r E. unfold preceded in E. destruct (p i) as [[a x]|] eqn:F; [|discriminate E].
  rewrite (H _ _ _ F). exact (K _ _ _ E).
Qed.
Lemma keep_terminated : forall A B (p : parser A) (q : parser B), keep p -> keep q -> keep (terminated p q).
Proof.
  intros A B p q H K i b r E. unfold terminated in E. destruct (p i) as [[a x]|] eqn:F; [|discriminate E].
  destruct (q x) as [[c y]|] eqn:G; [|discriminate E]. injection E as <- <-.
  rewrite (H _ _ _ F). exact (K _ _ _ G).
Qed.
Lemma keep_delimited : forall A B C (p : parser A) (q : parser B) (e : parser C),
  keep p -> keep q -> keep e -> keep (delimited p q e).
Proof.
  intros A B C p q e H K L i b r E. unfold delimited in E.
  destruct (p i) as [[a x]|] eqn:F; [|discriminate E].
  destruct (q x) as [[c y]|] eqn:G; [|discriminate E].
  destruct (e y) as [[d z]|] eqn:I; [|discriminate E]. injection E as <- <-.
  rewrite (H _ _ _ F), (K _ _ _ G). exact (L _ _ _ I).
Qed.
Lemma keep_pseq : forall A B (p : parser A) (q : parser B), keep p -> keep q -> keep (pseq p q).
Proof.
  intros A B p q H K i b r E. unfold pseq in E. destruct (p i) as [[a x]|] eqn:F; [|discriminate E].
  destruct (q x) as [[c y]|] eqn:G; [|discriminate E]. injection E as <- <-.
  rewrite (H _ _ _ F). exact (K _ _ _ G).
Qed.
Lemma keep_dash : forall A (p : parser A), keep p -> keep (dash_pair p).
Proof.
  intros A p H i b r E. unfold dash_pair in E.
  destruct (p i) as [[a x]|] eqn:F; [|discriminate E].
  destruct (ch 45 x) as [[c y]|] eqn:G; [|discriminate E].
  destruct (p y) as [[d z]|] eqn:I; [|discriminate E]. injection E as <- <-.
  rewrite (H _ _ _ F), (keep_ch 45 eq_refl _ _ _ G). exact (H _ _ _ I).
Qed.
Lemma keep_repeat0_fuel : forall A (p : parser A), keep p -> forall n, keep (repeat0_fuel n p).
Proof.
  intros A p H. induction n as [|n IH]; intros i l r E; [discriminate E|]. cbn [repeat0_fuel] in E.
  destruct (p i) as [[a x]|] eqn:F; [|injection E as <- <-; reflexivity].
  destruct (Nat.eqb _ _); [discriminate E|].
  destruct (repeat0_fuel n p x) as [[m y]|] eqn:G; [|discriminate E]. injection E as <- <-.
  rewrite (H _ _ _ F). exact (IH _ _ _ G).
Qed.
Lemma keep_repeat0 : forall A (p : parser A), keep p -> keep (repeat0 p).
Proof. intros A p H i l r E. exact (keep_repeat0_fuel A p H _ _ _ _ E). Qed.
Lemma keep_repeat1 : forall A (p : parser A), keep p -> keep (repeat1 p).
Proof.
  intros A p H i l r E. unfold repeat1 in E.
  destruct (p i) as [[a x]|] eqn:F; [|discriminate E].
  destruct (repeat0 p x) as [[m y]|] eqn:G; [|discriminate E]. injection E as <- <-.
  rewrite (H _ _ _ F). exact (keep_repeat0 A p H _ _ _ G).
Qed.
Lemma keep_sep_rest : forall A B (p : parser A) (sep : parser B), keep p -> keep sep ->
  forall n, keep (sep_rest_fuel n p sep).
Proof.
  intros A B p sep H K. induction n as [|n IH]; intros i l r E; [discriminate E|].
  cbn [sep_rest_fuel] in E.
  destruct (sep i) as [[b x]|] eqn:F; [|injection E as <- <-; reflexivity].
  destruct (Nat.eqb _ _); [discriminate E|].
  destruct (p x) as [[a y]|] eqn:I; [|injection E as <- <-; reflexivity].
  destruct (sep_rest_fuel n p sep y) as [[m z]|] eqn:G; [|discriminate E]. injection E as <- <-.
  rewrite (K _ _ _ F), (H _ _ _ I). exact (IH _ _ _ G).
Qed.
Lemma keep_separated1 : forall A B (p : parser A) (sep : parser B), keep p -> keep sep ->
  keep (separated1 p sep).
Proof.
  intros A B p sep H K i l r E. unfold separated1 in E.
  destruct (p i) as [[a x]|] eqn:F; [|discriminate E].
  destruct (sep_rest_fuel _ p sep x) as [[m y]|] eqn:G; [|discriminate E]. injection E as <- <-.
  rewrite (H _ _ _ F). exact (keep_sep_rest A B p sep H K _ _ _ _ G).
Qed.
Lemma keep_list_of : forall p, keep p -> keep (parse_list_of p).
Proof.
  intros p H. unfold parse_list_of. apply keep_delimited; [apply keep_ws, keep_ch; reflexivity| |].
  - apply keep_terminated; [apply keep_separated1; [exact H|]|apply keep_opt];
      apply keep_ws, keep_ch; reflexivity.
  - apply keep_ws, keep_ch; reflexivity.
Qed.
Lemma keep_nothing : forall A (a : A), keep (fun i => Some (a, i)).
Proof. intros A a i b r E. injection E as <- <-. reflexivity. Qed.

(** ** tokens of the languages *)

Lemma quiet_alnum : forall c, is_alnum c = true -> quiet c = true.
Proof.
  intros c H. unfold quiet, is_quote, operator_begins.
  destruct (N.eqb_spec c 36) as [->|]; [discriminate H|].
  destruct (N.eqb_spec c 39) as [->|]; [discriminate H|].
  destruct (N.eqb_spec c 34) as [->|]; [discriminate H|].
  destruct (N.eqb_spec c 61) as [->|]; [discriminate H|].
  destruct (N.eqb_spec c 33) as [->|]; [discriminate H|].
  destruct (N.eqb_spec c 60) as [->|]; [discriminate H|]. reflexivity.
Qed.
Lemma quiet_digit : forall c, is_digit c = true -> quiet c = true.
Proof.
  intros c H. apply quiet_alnum. unfold is_alnum, is_digit in *. rewrite H. reflexivity.
Qed.
Lemma quiet_mem : forall l, forallb quiet l = true -> forall c, mem_byte c l = true -> quiet c = true.
Proof.
  intros l H c E. unfold mem_byte in E. apply existsb_exists in E. destruct E as [d [D E]].
  apply N.eqb_eq in E. subst d. rewrite forallb_forall in H. exact (H _ D).
Qed.

Create HintDb kp.
#[export] Hint Resolve keep_map keep_value keep_verify keep_verify_map keep_alt keep_opt keep_ws
  keep_preceded keep_terminated keep_delimited keep_pseq keep_dash keep_repeat0 keep_repeat1
  keep_separated1 keep_list_of keep_nothing : kp.
#[export] Hint Extern 1 (keep (ch _)) => apply keep_ch; reflexivity : kp.
#[export] Hint Extern 1 (keep (tok _)) => apply keep_tok; reflexivity : kp.
#[export] Hint Extern 1 (keep parse_subfield_code) => apply keep_one_of, quiet_alnum : kp.

Ltac chain H :=
  repeat match type of H with
  | match ?e with Some _ => _ | None => _ end = _ =>
      let F := fresh "F" in destruct e as [[? ?]|] eqn:F; [|discriminate H]
  end.

Lemma keep_code_range : keep parse_code_range.
Proof. unfold parse_code_range. auto 10 with kp. Qed.
#[export] Hint Resolve keep_code_range : kp.
Lemma keep_code_list : keep parse_code_list.
Proof. unfold parse_code_list. auto 10 with kp. Qed.
#[export] Hint Resolve keep_code_list : kp.
Lemma keep_code_all : keep parse_code_all.
Proof. unfold parse_code_all. auto 10 with kp. Qed.
#[export] Hint Resolve keep_code_all : kp.
Lemma keep_codes : keep parse_codes.
Proof. unfold parse_codes. auto 10 with kp. Qed.
#[export] Hint Resolve keep_codes : kp.
Lemma keep_quantifier : keep parse_quantifier.
Proof. unfold parse_quantifier. auto 10 with kp. Qed.
#[export] Hint Resolve keep_quantifier : kp.
Lemma keep_multispace1 : keep multispace1.
Proof.
  apply keep_while1. intros c H. unfold is_mspace in H.
  repeat (apply Bool.orb_prop in H; destruct H as [H|H]);
    apply N.eqb_eq in H; subst c; reflexivity.
Qed.
#[export] Hint Resolve keep_multispace1 : kp.
Lemma keep_tag : keep parse_tag.
Proof.
  intros i a r E. unfold parse_tag in E. chain E. injection E as <- <-.
  repeat match goal with
  | F : one_of ?f ?x = Some (_, ?y) |- _ =>
      let K := fresh in
      assert (K : bare_dollar x = bare_dollar y) by
        (refine (keep_one_of f _ _ _ _ F); intros c Hc; revert Hc; clear;
         intros Hc; unfold quiet, is_quote, operator_begins;
         destruct (N.eqb_spec c 36) as [->|]; [discriminate Hc|];
         destruct (N.eqb_spec c 39) as [->|]; [discriminate Hc|];
         destruct (N.eqb_spec c 34) as [->|]; [discriminate Hc|];
         destruct (N.eqb_spec c 61) as [->|]; [discriminate Hc|];
         destruct (N.eqb_spec c 33) as [->|]; [discriminate Hc|];
         destruct (N.eqb_spec c 60) as [->|]; [discriminate Hc|]; reflexivity);
      clear F
  end.
  congruence.
Qed.
#[export] Hint Resolve keep_tag : kp.
Lemma keep_tm_fragment : forall l, forallb quiet l = true -> keep (parse_tm_fragment l).
Proof.
  intros l H. unfold parse_tm_fragment, parse_tm_item.
  assert (K : keep (one_of (fun c => mem_byte c l))) by (apply keep_one_of, quiet_mem, H).
  auto 15 with kp.
Qed.
Lemma keep_tag_matcher : keep parse_tag_matcher.
Proof.
  unfold parse_tag_matcher, parse_tm_tag. apply keep_alt; [auto with kp|].
  intros i a r E. unfold parse_tm_pattern in E. chain E. injection E as <- <-.
  rewrite (keep_tm_fragment allowed0 eq_refl _ _ _ F), (keep_tm_fragment allowed12 eq_refl _ _ _ F0),
    (keep_tm_fragment allowed12 eq_refl _ _ _ F1).
  exact (keep_tm_fragment allowed3 eq_refl _ _ _ F2).
Qed.
#[export] Hint Resolve keep_tag_matcher : kp.
Lemma keep_occ : keep parse_occurrence.
Proof. unfold parse_occurrence. apply keep_while_m_n. exact quiet_digit. Qed.
#[export] Hint Resolve keep_occ : kp.
Lemma keep_occ_matcher : keep parse_occ_matcher.
Proof. unfold parse_occ_matcher, parse_om_range, parse_om_exact. auto 15 with kp. Qed.
#[export] Hint Resolve keep_occ_matcher : kp.
Lemma keep_usize : keep parse_usize.
Proof.
  intros i a r E. unfold parse_usize in E. chain E. cbv zeta in E.
  destruct (_ <? _); [|discriminate E]. injection E as <- <-.
  exact (keep_while1 is_digit quiet_digit _ _ _ F).
Qed.
#[export] Hint Resolve keep_usize : kp.

(** ** quoted strings *)

Section Quoted.
  Variable q : byte.
  Hypothesis Q : is_quote q = true.

  Lemma inside_literal : forall i a r, parse_literal q i = Some (a, r) ->
    dollar_from (Inside q) i = dollar_from (Inside q) r.
  Proof.
    intros i a r E. unfold parse_literal, take_till1, take_while1 in E.
    assert (K : forall i, dollar_from (Inside q) (snd (span (fun c => negb ((c =? q) || (c =? 92))) i))
                  = dollar_from (Inside q) i).
    { clear. induction i as [|c i IH]; [reflexivity|]. cbn [span].
      destruct ((c =? q) || (c =? 92)) eqn:G; [reflexivity|]. cbn [negb].
      destruct (span _ i) as [x y]. cbn [snd] in *. rewrite IH.
      apply Bool.orb_false_iff in G. destruct G as [G1 G2].
      cbn [dollar_from next_place]. rewrite G1, G2. reflexivity. }
    specialize (K i). destruct (span _ i) as [[|x y] z]; [discriminate E|].
    injection E as <- <-. symmetry. exact K.
  Qed.

  Lemma q_not_backslash : (92 =? q) = false.
  Proof.
    unfold is_quote in Q. apply N.eqb_neq. intros <-. discriminate Q.
  Qed.

  Lemma inside_backslash : forall c r,
    dollar_from (Inside q) (92 :: c :: r) = dollar_from (Inside q) r.
  Proof.
    intros c r. cbn [dollar_from next_place]. rewrite q_not_backslash. reflexivity.
  Qed.

  Lemma ch_shape : forall c i a r, ch c i = Some (a, r) -> i = c :: r.
  Proof.
    intros c [|d i] a r E; [discriminate E|]. unfold ch, one_of in E.
    destruct (N.eqb_spec c d) as [<-|]; [|discriminate E]. injection E as <- <-. reflexivity.
  Qed.

  Lemma inside_escaped : forall i a r, parse_escaped_char q i = Some (a, r) ->
    dollar_from (Inside q) i = dollar_from (Inside q) r.
  Proof.
    intros i a r E. unfold parse_escaped_char, preceded in E.
    destruct (ch 92 i) as [[b x]|] eqn:F; [|discriminate E]. apply ch_shape in F. subst i.
    assert (exists c, x = c :: r) as [c ->]; [|apply inside_backslash].
    revert E. unfold alt, pvalue, pmap.
    repeat match goal with
    | |- context [ch ?c x] =>
        let G := fresh in destruct (ch c x) as [[? ?]|] eqn:G;
        [intros E; injection E as <- <-; apply ch_shape in G; eexists; exact G|]
    end.
    discriminate.
  Qed.

  Lemma inside_spaces : forall i, dollar_from (Inside q) (snd (span is_mspace i)) = dollar_from (Inside q) i.
  Proof.
    induction i as [|c i IH]; [reflexivity|]. cbn [span].
    destruct (is_mspace c) eqn:G; [|reflexivity].
    destruct (span is_mspace i) as [x y]. cbn [snd] in *. rewrite IH.
    cbn [dollar_from next_place].
    assert (c =? q = false) as ->.
    { apply N.eqb_neq. intros ->. unfold is_quote in Q. apply Bool.orb_prop in Q.
      destruct Q as [Q'|Q']; apply N.eqb_eq in Q'; subst q; discriminate G. }
    assert (c =? 92 = false) as ->; [|reflexivity].
    apply N.eqb_neq. intros ->. discriminate G.
  Qed.

  Lemma inside_fragment : forall i a r, parse_quoted_fragment q i = Some (a, r) ->
    dollar_from (Inside q) i = dollar_from (Inside q) r.
  Proof.
    intros i a r E. unfold parse_quoted_fragment, alt in E.
    destruct (parse_literal q i) as [[x y]|] eqn:F.
    { injection E as <- <-. exact (inside_literal _ _ _ F). }
    unfold pmap at 1 in E. destruct (parse_escaped_char q i) as [[x y]|] eqn:G.
    { injection E as <- <-. exact (inside_escaped _ _ _ G). }
    unfold pvalue, pmap, preceded in E.
    destruct (ch 92 i) as [[b x]|] eqn:H; [|discriminate E]. apply ch_shape in H. subst i.
    destruct (multispace1 x) as [[u v]|] eqn:M; [|discriminate E]. injection E as <- <-.
    unfold multispace1, take_while1 in M.
    destruct x as [|c x]; [discriminate M|]. cbn [span] in M.
    destruct (is_mspace c); [|discriminate M].
    pose proof (inside_spaces x) as S. destruct (span is_mspace x) as [m n]. cbn [snd] in S.
    injection M as <- <-. rewrite inside_backslash. symmetry. exact S.
  Qed.

  Lemma inside_fragments : forall n i l r, repeat0_fuel n (parse_quoted_fragment q) i = Some (l, r) ->
    dollar_from (Inside q) i = dollar_from (Inside q) r.
  Proof.
    induction n as [|n IH]; intros i l r E; [discriminate E|]. cbn [repeat0_fuel] in E.
    destruct (parse_quoted_fragment q i) as [[a x]|] eqn:F; [|injection E as <- <-; reflexivity].
    destruct (Nat.eqb _ _); [discriminate E|].
    destruct (repeat0_fuel n _ x) as [[m y]|] eqn:G; [|discriminate E]. injection E as <- <-.
    rewrite (inside_fragment _ _ _ F). exact (IH _ _ _ G).
  Qed.

  Lemma keep_quoted : keep (parse_quoted_string q).
  Proof.
    intros i a r E. unfold parse_quoted_string, delimited, pmap in E.
    destruct (ch q i) as [[b x]|] eqn:F; [|discriminate E]. apply ch_shape in F. subst i.
    destruct (repeat0 (parse_quoted_fragment q) x) as [[l y]|] eqn:G; [|discriminate E].
    destruct (ch q y) as [[c z]|] eqn:H; [|discriminate E]. apply ch_shape in H. subst y.
    injection E as <- <-. apply inside_fragments in G.
    unfold bare_dollar at 1. cbn [dollar_from next_place] in *. unfold outside_next. rewrite Q.
    assert (q =? 36 = false) as ->.
    { apply N.eqb_neq. intros ->. discriminate Q. }
    cbn [orb]. rewrite G. rewrite N.eqb_refl. reflexivity.
  Qed.
End Quoted.

Lemma keep_string : keep parse_string.
Proof.
  unfold parse_string. apply keep_verify, keep_alt; apply keep_quoted; reflexivity.
Qed.
#[export] Hint Resolve keep_string : kp.

(** ** where texts do not begin *)

Definition starts {A} (p : parser A) : Prop := forall i a r, p i = Some (a, r) -> nodollar i.

Lemma starts_ch : forall c, c <> 36 -> starts (ch c).
Proof. intros c H i a r E. apply ch_shape in E. subst i. exact H. Qed.
Lemma nodollar_skip : forall i, nodollar (skip_ws i) -> nodollar i.
Proof.
  intros [|c i] H; [exact I|]. cbn. intros ->. unfold skip_ws in H. cbn in H. apply H. reflexivity.
Qed.
Lemma starts_ws : forall A (p : parser A), starts p -> starts (ws p).
Proof.
  intros A p H i a r E. unfold ws in E. destruct (p (skip_ws i)) as [[b x]|] eqn:F; [|discriminate E].
  apply nodollar_skip. exact (H _ _ _ F).
Qed.
Lemma starts_map : forall A B (f : A -> B) p, starts p -> starts (pmap f p).
Proof.
  intros A B f p H i b r E. unfold pmap in E. destruct (p i) as [[a x]|] eqn:F; [|discriminate E].
  exact (H _ _ _ F).
Qed.
Lemma starts_verify : forall A f (p : parser A), starts p -> starts (pverify f p).
Proof.
  intros A f p H i b r E. unfold pverify in E. destruct (p i) as [[a x]|] eqn:F; [|discriminate E].
  exact (H _ _ _ F).
Qed.
Lemma starts_verify_map : forall A B (f : A -> option B) p, starts p -> starts (pverify_map f p).
Proof.
  intros A B f p H i b r E. unfold pverify_map in E. destruct (p i) as [[a x]|] eqn:F; [|discriminate E].
  exact (H _ _ _ F).
Qed.
Lemma starts_alt : forall A (p q : parser A), starts p -> starts q -> starts (alt p q).
Proof.
  intros A p q H K i b r E. unfold alt in E. destruct (p i) as [[a x]|] eqn:F; [|exact (K _ _ _ E)].
  exact (H _ _ _ F).
Qed.
Lemma starts_terminated : forall A B (p : parser A) (q : parser B), starts p -> starts (terminated p q).
Proof.
  intros A B p q H i b r E. unfold terminated in E. destruct (p i) as [[a x]|] eqn:F; [|discriminate E].
  exact (H _ _ _ F).
Qed.
Lemma starts_delimited : forall A B C (p : parser A) (q : parser B) (e : parser C),
  starts p -> starts (delimited p q e).
Proof.
  intros A B C p q e H i b r E. unfold delimited in E. destruct (p i) as [[a x]|] eqn:F; [|discriminate E].
  exact (H _ _ _ F).
Qed.
Lemma starts_one_of : forall f, f 36 = false -> starts (one_of f).
Proof.
  intros f H [|c i] a r E; [discriminate E|]. cbn. intros ->. cbn in E. rewrite H in E. discriminate E.
Qed.
Lemma starts_string : starts parse_string.
Proof.
  unfold parse_string, parse_quoted_string.
  apply starts_verify, starts_alt; apply starts_delimited, starts_ch; discriminate.
Qed.
Lemma starts_list : forall p, starts (parse_list_of p).
Proof. intros p. unfold parse_list_of. apply starts_delimited, starts_ws, starts_ch. discriminate. Qed.
Lemma starts_codes : starts parse_codes.
Proof.
  unfold parse_codes, parse_code_list, parse_code_all, pvalue.
  apply starts_alt; [apply starts_delimited, starts_ch; discriminate|].
  apply starts_alt; apply starts_map; [|apply starts_ch; discriminate].
  apply starts_one_of. reflexivity.
Qed.
Lemma starts_usize : starts parse_usize.
Proof.
  intros [|c i] a r E; [exact I|]. cbn. intros ->. unfold parse_usize, take_while1 in E.
  cbn in E. discriminate E.
Qed.
Lemma starts_tag : starts parse_tag.
Proof.
  intros i a r E. unfold parse_tag in E. chain E.
  refine (starts_one_of _ _ _ _ _ F). reflexivity.
Qed.
Lemma starts_tag_matcher : starts parse_tag_matcher.
Proof.
  unfold parse_tag_matcher, parse_tm_tag. apply starts_alt; [apply starts_map, starts_tag|].
  intros i a r E. unfold parse_tm_pattern in E. chain E.
  refine (_ : nodollar i). revert F. clear. unfold parse_tm_fragment, pvalue. intros F.
  refine (starts_alt _ _ _ _ _ _ _ _ F); [apply starts_map, starts_one_of; reflexivity|].
  apply starts_alt; [apply starts_map, starts_ch; discriminate|].
  apply starts_delimited, starts_ch. discriminate.
Qed.

(** ** operators *)

(** parsers that keep as long as what follows does not begin with a dollar sign *)
Definition keep_if {A} (p : parser A) : Prop :=
  forall i a r, p i = Some (a, r) -> nodollar r -> bare_dollar i = bare_dollar r.

Lemma keep_keep_if : forall A (p : parser A), keep p -> keep_if p.
Proof. intros A p H i a r E _. exact (H _ _ _ E). Qed.
Lemma keep_if_map : forall A B (f : A -> B) p, keep_if p -> keep_if (pmap f p).
Proof.
  intros A B f p H i b r E. unfold pmap in E. destruct (p i) as [[a x]|] eqn:F; [|discriminate E].
  injection E as <- <-. exact (H _ _ _ F).
Qed.
Lemma keep_if_verify : forall A f (p : parser A), keep_if p -> keep_if (pverify f p).
Proof.
  intros A f p H i b r E. unfold pverify in E. destruct (p i) as [[a x]|] eqn:F; [|discriminate E].
  destruct (f a); [|discriminate E]. injection E as <- <-. exact (H _ _ _ F).
Qed.
Lemma keep_if_alt : forall A (p q : parser A), keep_if p -> keep_if q -> keep_if (alt p q).
Proof.
  intros A p q H K i b r E. unfold alt in E. destruct (p i) as [[a x]|] eqn:F; [|exact (K _ _ _ E)].
  injection E as <- <-. exact (H _ _ _ F).
Qed.
Lemma keep_if_ws : forall A (p : parser A), keep_if p -> keep_if (ws p).
Proof.
  intros A p H i b r E N. unfold ws in E. destruct (p (skip_ws i)) as [[a x]|] eqn:F; [|discriminate E].
  injection E as <- <-. rewrite bare_skip. rewrite <- (bare_skip i). exact (H _ _ _ F (nodollar_skip _ N)).
Qed.

Lemma tok_shape : forall s i a r, tok s i = Some (a, r) -> i = s ++ r.
Proof.
  induction s as [|c s IH]; intros i a r E.
  - injection E as <- <-. reflexivity.
  - destruct i as [|d i]; [discriminate E|]. cbn [tok] in E.
    destruct (N.eqb_spec c d) as [<-|]; [|discriminate E]. cbn. f_equal. exact (IH _ _ _ E).
Qed.

Lemma keep_if_op : keep_if parse_rel_op.
Proof.
  unfold parse_rel_op, pvalue.
  repeat apply keep_if_alt; apply keep_if_map; intros i a r E N; apply tok_shape in E; subst i;
    cbn [app lit]; cbn -[bare_dollar];
    repeat first [ rewrite bare_quiet by reflexivity
                 | rewrite bare_op by (first [exact N | reflexivity | discriminate]) ];
    try reflexivity.
Qed.

Lemma keep_re_op : keep parse_re_op.
Proof.
  unfold parse_re_op, pvalue. apply keep_ws, keep_alt; apply keep_map; intros i a r E;
    apply tok_shape in E; subst i; reflexivity.
Qed.
#[export] Hint Resolve keep_re_op : kp.

Lemma keep_contains_op : keep (tok (lit "=?")).
Proof. intros i a r E. apply tok_shape in E. subst i. reflexivity. Qed.
#[export] Hint Resolve keep_contains_op : kp.

(** ** matchers without state *)

Ltac kept :=
  repeat match goal with
  | F : ?p ?x = Some (_, ?y) |- bare_dollar ?x = _ =>
      let K := fresh in
      assert (K : keep p) by auto 12 with kp; rewrite (K _ _ _ F); clear K F
  end; try reflexivity.

Lemma keep_exists : keep parse_exists.
Proof.
  intros i a r E. unfold parse_exists in E. chain E. injection E as <- <-. kept.
Qed.
#[export] Hint Resolve keep_exists : kp.

Lemma keep_relation : keep parse_relation.
Proof.
  intros i a r E. unfold parse_relation in E. chain E. injection E as <- <-.
  pose proof (starts_ws _ _ starts_string _ _ _ F2) as N.
  kept.
  rewrite (keep_if_verify _ _ _ (keep_if_ws _ _ keep_if_op) _ _ _ F1 N). kept.
Qed.
#[export] Hint Resolve keep_relation : kp.

Lemma keep_contains : keep parse_contains.
Proof.
  intros i a r E. unfold parse_contains in E. chain E. injection E as <- <-. kept.
Qed.
#[export] Hint Resolve keep_contains : kp.

Lemma keep_in : keep parse_in.
Proof.
  intros i a r E. unfold parse_in in E. chain E. injection E as <- <-. kept.
Qed.
#[export] Hint Resolve keep_in : kp.

Lemma keep_card : keep parse_card.
Proof.
  intros i a r E. unfold parse_card in E. chain E. injection E as <- <-.
  pose proof (starts_usize _ _ _ F2) as N.
  kept.
  rewrite (keep_if_verify _ _ _ (keep_if_ws _ _ keep_if_op) _ _ _ F1 N). kept.
Qed.
#[export] Hint Resolve keep_card : kp.

(** ** agreement of parsers without state *)

Lemma same_refl : forall A (p : parser A), same p p.
Proof. intros A p i _. reflexivity. Qed.
Lemma same_alt : forall A (p p' q q' : parser A), same p p' -> same q q' -> same (alt p q) (alt p' q').
Proof. intros A p p' q q' H K i B. unfold alt. rewrite (H i B), (K i B). reflexivity. Qed.
Lemma same_map : forall A B (f : A -> B) p p', same p p' -> same (pmap f p) (pmap f p').
Proof. intros A B f p p' H i X. unfold pmap. rewrite (H i X). reflexivity. Qed.

Lemma no_dollar_ws : forall i, bare_dollar i = false -> ws (ch 36) i = None.
Proof.
  intros i B. unfold ws. rewrite <- bare_skip in B. destruct (skip_ws i) as [|c r]; [reflexivity|].
  unfold ch, one_of. destruct (N.eqb_spec 36 c) as [<-|]; [discriminate B|reflexivity].
Qed.
Lemma no_dollar : forall i, bare_dollar i = false -> ch 36 i = None.
Proof.
  intros [|c r] B; [reflexivity|]. unfold ch, one_of.
  destruct (N.eqb_spec 36 c) as [<-|]; [discriminate B|reflexivity].
Qed.
Lemma no_dollar_codes : forall i, bare_dollar i = false -> dollar_codes i = None.
Proof. intros i B. unfold dollar_codes, preceded. rewrite (no_dollar_ws i B). reflexivity. Qed.
Lemma same_dollar : forall p, same p (alt p dollar_codes).
Proof.
  intros p i B. unfold alt. rewrite (no_dollar_codes i B). destruct (p i); reflexivity.
Qed.

Lemma same_relation : same parse_relation c_relation.
Proof.
  intros i B. unfold parse_relation, c_relation.
  destruct (opt (ws (terminated parse_quantifier multispace1)) i) as [[q r1]|] eqn:F; [|reflexivity].
  assert (K : keep (opt (ws (terminated parse_quantifier multispace1)))) by auto with kp.
  rewrite (K _ _ _ F) in B. rewrite <- (same_dollar (ws parse_codes) r1 B). reflexivity.
Qed.
Lemma same_contains : same parse_contains c_contains.
Proof.
  intros i B. unfold parse_contains, c_contains.
  destruct (opt (ws parse_quantifier) i) as [[q r1]|] eqn:F; [|reflexivity].
  assert (K : keep (opt (ws parse_quantifier))) by auto with kp.
  rewrite (K _ _ _ F) in B. rewrite <- (same_dollar (ws parse_codes) r1 B). reflexivity.
Qed.

Lemma same_sep_rest : forall A B (p p' : parser A) (sep : parser B), same p p' -> keep p -> keep sep ->
  forall n, same (sep_rest_fuel n p sep) (sep_rest_fuel n p' sep).
Proof.
  intros A B p p' sep H K L. induction n as [|n IH]; intros i X; [reflexivity|]. cbn [sep_rest_fuel].
  destruct (sep i) as [[b r]|] eqn:F; [|reflexivity].
  destruct (Nat.eqb _ _); [reflexivity|]. rewrite (L _ _ _ F) in X. rewrite <- (H r X).
  destruct (p r) as [[a r']|] eqn:G; [|reflexivity]. rewrite (K _ _ _ G) in X.
  rewrite (IH r' X). reflexivity.
Qed.
Lemma same_separated1 : forall A B (p p' : parser A) (sep : parser B), same p p' -> keep p -> keep sep ->
  same (separated1 p sep) (separated1 p' sep).
Proof.
  intros A B p p' sep H K L i X. unfold separated1. rewrite <- (H i X).
  destruct (p i) as [[a r]|] eqn:F; [|reflexivity]. rewrite (K _ _ _ F) in X.
  rewrite (same_sep_rest A B p p' sep H K L _ r X). reflexivity.
Qed.

(** ** parsers with state *)

Definition skeep {A} (p : sparser A) : Prop :=
  forall s i a r s', p s i = (POk a r, s') -> bare_dollar i = bare_dollar r.
Definition ssame {A} (p q : sparser A) : Prop :=
  forall s i, bare_dollar i = false -> p s i = q s i.
Definition sstarts {A} (p : sparser A) : Prop :=
  forall s i a r s', p s i = (POk a r, s') -> nodollar i.

Lemma skeep_lift : forall A (p : parser A), keep p -> skeep (slift p).
Proof.
  intros A p H s i a r s' E. unfold slift in E. destruct (p i) as [[b x]|] eqn:F; [|discriminate E].
  injection E as <- <- <-. exact (H _ _ _ F).
Qed.
Lemma skeep_fuel : forall A, skeep (@sfuel A).
Proof. intros A s i a r s' E. discriminate E. Qed.
Lemma skeep_ret : forall A (a : A), skeep (sret a).
Proof. intros A a s i b r s' E. injection E as <- <- <-. reflexivity. Qed.
Lemma skeep_map : forall A B (f : A -> B) p, skeep p -> skeep (smap f p).
Proof.
  intros A B f p H s i a r s' E. unfold smap in E. destruct (p s i) as [[b x| |] y] eqn:F; try discriminate E.
  injection E as <- <- <-. exact (H _ _ _ _ _ F).
Qed.
Lemma skeep_taken : forall A B (f : A -> bytes -> B) p, skeep p -> skeep (staken f p).
Proof.
  intros A B f p H s i a r s' E. unfold staken in E. destruct (p s i) as [[b x| |] y] eqn:F; try discriminate E.
  injection E as <- <- <-. exact (H _ _ _ _ _ F).
Qed.
Lemma skeep_bind : forall A B (p : sparser A) (k : A -> sparser B), skeep p -> (forall a, skeep (k a)) ->
  skeep (sbind p k).
Proof.
  intros A B p k H K s i a r s' E. unfold sbind in E. destruct (p s i) as [[b x| |] y] eqn:F; try discriminate E.
  rewrite (H _ _ _ _ _ F). exact (K _ _ _ _ _ _ E).
Qed.
Lemma skeep_alt : forall A (p q : sparser A), skeep p -> skeep q -> skeep (salt p q).
Proof.
  intros A p q H K s i a r s' E. unfold salt in E. destruct (p s i) as [[b x| |] y] eqn:F; try discriminate E.
  - injection E as <- <- <-. exact (H _ _ _ _ _ F).
  - exact (K _ _ _ _ _ E).
Qed.
Lemma skeep_opt : forall A (p : sparser A), skeep p -> skeep (sopt p).
Proof.
  intros A p H s i a r s' E. unfold sopt in E. destruct (p s i) as [[b x| |] y] eqn:F; try discriminate E;
    injection E as <- <- <-; [exact (H _ _ _ _ _ F)|reflexivity].
Qed.
Lemma skeep_preceded : forall A B (p : sparser A) (q : sparser B), skeep p -> skeep q -> skeep (spreceded p q).
Proof. intros A B p q H K. apply skeep_bind; [exact H|intros _; exact K]. Qed.
Lemma skeep_delim : forall A B C (p : sparser A) (q : sparser B) (e : sparser C),
  skeep p -> skeep q -> skeep e -> skeep (sdelim p q e).
Proof.
  intros A B C p q e H K L. apply skeep_bind; [exact H|intros _]. apply skeep_bind; [exact K|intros b].
  apply skeep_bind; [exact L|intros _]. apply skeep_ret.
Qed.
Lemma skeep_ws : forall A (p : sparser A), skeep p -> skeep (sws p).
Proof.
  intros A p H s i a r s' E. unfold sws in E.
  destruct (p s (skip_ws i)) as [[b x| |] y] eqn:F; try discriminate E.
  injection E as <- <- <-. rewrite bare_skip, <- (H _ _ _ _ _ F), bare_skip. reflexivity.
Qed.
Lemma skeep_repeat0 : forall A (p : sparser A), skeep p -> forall n, skeep (srepeat0_fuel n p).
Proof.
  intros A p H. induction n as [|n IH]; intros s i a r s' E; [discriminate E|]. cbn [srepeat0_fuel] in E.
  destruct (p s i) as [[b x| |] y] eqn:F; try discriminate E.
  - destruct (Nat.eqb _ _); [discriminate E|].
    destruct (srepeat0_fuel n p y x) as [[l z| |] u] eqn:G; try discriminate E.
    injection E as <- <- <-. rewrite (H _ _ _ _ _ F). exact (IH _ _ _ _ _ G).
  - injection E as <- <- <-. reflexivity.
Qed.
Lemma skeep_repeat1 : forall A (p : sparser A), skeep p -> skeep (srepeat1 p).
Proof.
  intros A p H. apply skeep_bind; [exact H|intros a]. apply skeep_map.
  intros s i l r s' E. exact (skeep_repeat0 A p H _ _ _ _ _ _ E).
Qed.
Lemma skeep_sep_rest : forall A B (p : sparser A) (sep : parser B), skeep p -> keep sep ->
  forall n, skeep (ssep_rest_fuel n p sep).
Proof.
  intros A B p sep H K. induction n as [|n IH]; intros s i a r s' E; [discriminate E|]. cbn [ssep_rest_fuel] in E.
  destruct (sep i) as [[b x]|] eqn:F; [|injection E as <- <- <-; reflexivity].
  destruct (Nat.eqb _ _); [discriminate E|].
  destruct (p s x) as [[c y| |] u] eqn:G; try discriminate E.
  - destruct (ssep_rest_fuel n p sep u y) as [[l z| |] v] eqn:I; try discriminate E.
    injection E as <- <- <-. rewrite (K _ _ _ F), (H _ _ _ _ _ G). exact (IH _ _ _ _ _ I).
  - injection E as <- <- <-. reflexivity.
Qed.
Lemma skeep_separated1 : forall A B (p : sparser A) (sep : parser B), skeep p -> keep sep ->
  skeep (sseparated1 p sep).
Proof.
  intros A B p sep H K. apply skeep_bind; [exact H|intros a]. apply skeep_map.
  intros s i l r s' E. exact (skeep_sep_rest A B p sep H K _ _ _ _ _ _ E).
Qed.
Lemma skeep_separated2 : forall A B (p : sparser A) (sep : parser B), skeep p -> keep sep ->
  skeep (sseparated2 p sep).
Proof.
  intros A B p sep H K s i a r s' E. unfold sseparated2 in E.
  destruct (sseparated1 p sep s i) as [[[|b [|c l]] x| |] y] eqn:F; try discriminate E.
  injection E as <- <- <-. exact (skeep_separated1 A B p sep H K _ _ _ _ _ F).
Qed.
Lemma skeep_operands : forall A (p : sparser A) (t : sparser unit), skeep p -> skeep t ->
  skeep (s_operands p t).
Proof.
  intros A p t H K. apply skeep_bind; [exact H|intros a]. apply skeep_map, skeep_repeat1, skeep_preceded; assumption.
Qed.

Lemma ssame_refl : forall A (p : sparser A), ssame p p.
Proof. intros A p s i _. reflexivity. Qed.
Lemma ssame_lift : forall A (p q : parser A), same p q -> ssame (slift p) (slift q).
Proof. intros A p q H s i B. unfold slift. rewrite (H i B). reflexivity. Qed.
Lemma ssame_map : forall A B (f : A -> B) p q, ssame p q -> ssame (smap f p) (smap f q).
Proof. intros A B f p q H s i X. unfold smap. rewrite (H s i X). reflexivity. Qed.
Lemma ssame_taken : forall A B (f : A -> bytes -> B) p q, ssame p q -> ssame (staken f p) (staken f q).
Proof. intros A B f p q H s i X. unfold staken. rewrite (H s i X). reflexivity. Qed.
Lemma ssame_bind : forall A B (p q : sparser A) (k l : A -> sparser B), ssame p q -> skeep p ->
  (forall a, ssame (k a) (l a)) -> ssame (sbind p k) (sbind q l).
Proof.
  intros A B p q k l H K L s i X. unfold sbind. rewrite <- (H s i X).
  destruct (p s i) as [[a r| |] y] eqn:F; try reflexivity.
  apply L. rewrite <- (K _ _ _ _ _ F). exact X.
Qed.
Lemma ssame_alt : forall A (p p' q q' : sparser A), ssame p p' -> ssame q q' -> ssame (salt p q) (salt p' q').
Proof.
  intros A p p' q q' H K s i X. unfold salt. rewrite <- (H s i X).
  destruct (p s i) as [[a r| |] y]; try reflexivity. apply K, X.
Qed.
Lemma ssame_opt : forall A (p q : sparser A), ssame p q -> ssame (sopt p) (sopt q).
Proof. intros A p q H s i X. unfold sopt. rewrite (H s i X). reflexivity. Qed.
Lemma ssame_preceded : forall A B (p p' : sparser A) (q q' : sparser B), ssame p p' -> skeep p -> ssame q q' ->
  ssame (spreceded p q) (spreceded p' q').
Proof. intros A B p p' q q' H K L. apply ssame_bind; [exact H|exact K|intros _; exact L]. Qed.
Lemma ssame_delim : forall A B C (p : sparser A) (q q' : sparser B) (e : sparser C),
  skeep p -> ssame q q' -> skeep q -> ssame (sdelim p q e) (sdelim p q' e).
Proof.
  intros A B C p q q' e H K L. apply ssame_bind; [apply ssame_refl|exact H|intros _].
  apply ssame_bind; [exact K|exact L|intros b]. apply ssame_refl.
Qed.
Lemma ssame_ws : forall A (p q : sparser A), ssame p q -> ssame (sws p) (sws q).
Proof. intros A p q H s i X. unfold sws. rewrite <- bare_skip in X. rewrite (H s _ X). reflexivity. Qed.
Lemma ssame_repeat0 : forall A (p q : sparser A), ssame p q -> skeep p ->
  forall n, ssame (srepeat0_fuel n p) (srepeat0_fuel n q).
Proof.
  intros A p q H K. induction n as [|n IH]; intros s i X; [reflexivity|]. cbn [srepeat0_fuel].
  rewrite <- (H s i X). destruct (p s i) as [[a r| |] y] eqn:F; try reflexivity.
  rewrite (K _ _ _ _ _ F) in X. rewrite (IH y r X). reflexivity.
Qed.
Lemma ssame_repeat1 : forall A (p q : sparser A), ssame p q -> skeep p -> ssame (srepeat1 p) (srepeat1 q).
Proof.
  intros A p q H K. apply ssame_bind; [exact H|exact K|intros a]. apply ssame_map.
  intros s i X. apply ssame_repeat0; assumption.
Qed.
Lemma ssame_sep_rest : forall A B (p q : sparser A) (sep : parser B), ssame p q -> skeep p -> keep sep ->
  forall n, ssame (ssep_rest_fuel n p sep) (ssep_rest_fuel n q sep).
Proof.
  intros A B p q sep H K L. induction n as [|n IH]; intros s i X; [reflexivity|]. cbn [ssep_rest_fuel].
  destruct (sep i) as [[b r]|] eqn:F; [|reflexivity]. destruct (Nat.eqb _ _); [reflexivity|].
  rewrite (L _ _ _ F) in X. rewrite <- (H s r X).
  destruct (p s r) as [[a r'| |] y] eqn:G; try reflexivity.
  rewrite (K _ _ _ _ _ G) in X. rewrite (IH y r' X). reflexivity.
Qed.
Lemma ssame_separated1 : forall A B (p q : sparser A) (sep : parser B), ssame p q -> skeep p -> keep sep ->
  ssame (sseparated1 p sep) (sseparated1 q sep).
Proof.
  intros A B p q sep H K L. apply ssame_bind; [exact H|exact K|intros a]. apply ssame_map.
  intros s i X. apply ssame_sep_rest; assumption.
Qed.
Lemma ssame_operands : forall A (p q : sparser A) (t : sparser unit), ssame p q -> skeep p -> skeep t ->
  ssame (s_operands p t) (s_operands q t).
Proof.
  intros A p q t H K L. apply ssame_bind; [exact H|exact K|intros a]. apply ssame_map, ssame_repeat1.
  - apply ssame_preceded; [apply ssame_refl|exact L|exact H].
  - apply skeep_preceded; assumption.
Qed.

#[export] Hint Resolve skeep_lift skeep_fuel skeep_ret skeep_map skeep_taken skeep_bind skeep_alt
  skeep_opt skeep_preceded skeep_delim skeep_ws skeep_repeat1 skeep_separated1 skeep_separated2
  skeep_operands : kp.
#[export] Hint Resolve same_refl same_alt same_map same_relation same_contains same_dollar
  same_separated1 : kp.
#[export] Hint Resolve ssame_refl ssame_lift ssame_map ssame_taken ssame_bind ssame_alt
  ssame_opt ssame_preceded ssame_delim ssame_ws ssame_repeat1 ssame_separated1
  ssame_operands : kp.

Lemma skeep_sub_inc : skeep sub_inc.
Proof.
  intros s i a r s' E. unfold sub_inc in E. cbv zeta in E. destruct (256 <=? _); [discriminate E|].
  injection E as <- <- <-. reflexivity.
Qed.
Lemma skeep_field_inc : skeep field_inc.
Proof.
  intros s i a r s' E. unfold field_inc in E. cbv zeta in E. destruct (256 <=? _); [discriminate E|].
  injection E as <- <- <-. reflexivity.
Qed.
Lemma skeep_fmt_inc : skeep fmt_inc.
Proof.
  intros s i a r s' E. unfold fmt_inc in E. cbv zeta in E. destruct (32 <=? _); [discriminate E|].
  injection E as <- <- <-. reflexivity.
Qed.
Lemma skeep_f_close : skeep f_close.
Proof.
  intros s i a r s' E. unfold f_close in E. destruct (ws (ch 41) i) as [[c x]|] eqn:F; [|discriminate E].
  injection E as <- <- <-. refine (keep_ws _ _ _ _ _ _ F). auto with kp.
Qed.
Lemma skeep_fmt_close : skeep fmt_close.
Proof.
  intros s i a r s' E. unfold fmt_close in E. destruct (ws (ch 41) i) as [[c x]|] eqn:F; [|discriminate E].
  injection E as <- <- <-. refine (keep_ws _ _ _ _ _ _ F). auto with kp.
Qed.
#[export] Hint Resolve skeep_sub_inc skeep_field_inc skeep_fmt_inc skeep_f_close skeep_fmt_close : kp.

(** ** subfield matchers *)

Definition ssame0 {A} (p q : sparser A) : Prop := forall s r, p s (36 :: r) = q s (36 :: r).

Lemma keep_if_bang : keep_if (ws (ch 33)).
Proof.
  apply keep_if_ws. intros i a r E N. apply ch_shape in E. subst i. apply bare_op; [reflexivity|exact N].
Qed.

Lemma skeep_bang : forall A (p : sparser A), skeep p -> sstarts p -> skeep (spreceded (slift (ws (ch 33))) p).
Proof.
  intros A p H K s i a r s' E. unfold spreceded, sbind, slift in E.
  destruct (ws (ch 33) i) as [[c x]|] eqn:F; [|discriminate E].
  rewrite (keep_if_bang _ _ _ F (K _ _ _ _ _ E)). exact (H _ _ _ _ _ E).
Qed.

Lemma ssame_bang : forall A (p q : sparser A), ssame p q -> ssame0 p q ->
  ssame (spreceded (slift (ws (ch 33))) p) (spreceded (slift (ws (ch 33))) q).
Proof.
  intros A p q H K s i X. unfold spreceded, sbind, slift.
  destruct (ws (ch 33) i) as [[c x]|] eqn:F; [|reflexivity].
  destruct x as [|d x]; [apply H; reflexivity|].
  destruct (N.eq_dec d 36) as [->|N]; [apply K|].
  apply H. rewrite <- (keep_if_bang _ _ _ F N). exact X.
Qed.

Lemma sstarts_lift : forall A (p : parser A), starts p -> sstarts (slift p).
Proof.
  intros A p H s i a r s' E. unfold slift in E. destruct (p i) as [[b x]|] eqn:F; [|discriminate E].
  exact (H _ _ _ F).
Qed.
Lemma sstarts_alt : forall A (p q : sparser A), sstarts p -> sstarts q -> sstarts (salt p q).
Proof.
  intros A p q H K s i a r s' E. unfold salt in E. destruct (p s i) as [[b x| |] y] eqn:F; try discriminate E.
  - exact (H _ _ _ _ _ F).
  - exact (K _ _ _ _ _ E).
Qed.
Lemma sstarts_map : forall A B (f : A -> B) p, sstarts p -> sstarts (smap f p).
Proof.
  intros A B f p H s i a r s' E. unfold smap in E. destruct (p s i) as [[b x| |] y] eqn:F; try discriminate E.
  exact (H _ _ _ _ _ F).
Qed.
Lemma sstarts_taken : forall A B (f : A -> bytes -> B) p, sstarts p -> sstarts (staken f p).
Proof.
  intros A B f p H s i a r s' E. unfold staken in E. destruct (p s i) as [[b x| |] y] eqn:F; try discriminate E.
  exact (H _ _ _ _ _ F).
Qed.
Lemma sstarts_bind : forall A B (p : sparser A) (k : A -> sparser B), sstarts p -> sstarts (sbind p k).
Proof.
  intros A B p k H s i a r s' E. unfold sbind in E. destruct (p s i) as [[b x| |] y] eqn:F; try discriminate E.
  exact (H _ _ _ _ _ F).
Qed.
Lemma sstarts_delim : forall A B C (p : sparser A) (q : sparser B) (e : sparser C), sstarts p -> sstarts (sdelim p q e).
Proof. intros. apply sstarts_bind. assumption. Qed.
Lemma sstarts_preceded : forall A B (p : sparser A) (q : sparser B), sstarts p -> sstarts (spreceded p q).
Proof. intros. apply sstarts_bind. assumption. Qed.
Lemma sstarts_fuel : forall A, sstarts (@sfuel A).
Proof. intros A s i a r s' E. discriminate E. Qed.

Lemma starts_exists : starts parse_exists.
Proof.
  intros i a r E. unfold parse_exists in E. chain E. exact (starts_terminated _ _ _ _ starts_codes _ _ _ F).
Qed.

Section Agreement.
  Variable O : oracles.

  Lemma keep_regex_string : keep (parse_regex_string O).
  Proof. unfold parse_regex_string. auto with kp. Qed.
  Hint Resolve keep_regex_string : kp.
  Lemma keep_regex : keep (parse_regex O).
  Proof. intros i a r E. unfold parse_regex in E. chain E. injection E as <- <-. kept. Qed.
  Hint Resolve keep_regex : kp.
  Lemma keep_regex_set : keep (parse_regex_set O).
  Proof. intros i a r E. unfold parse_regex_set in E. chain E. injection E as <- <-. kept. Qed.
  Hint Resolve keep_regex_set : kp.
  Lemma keep_singleton : keep (parse_singleton O).
  Proof. unfold parse_singleton. auto 12 with kp. Qed.
  Hint Resolve keep_singleton : kp.
  Lemma same_singleton : same (parse_singleton O) (c_singleton O).
  Proof. unfold parse_singleton, c_singleton. auto 12 with kp. Qed.
  Hint Resolve same_singleton : kp.
  Lemma skeep_sub_singleton : skeep (sub_singleton O).
  Proof. unfold sub_singleton. auto with kp. Qed.
  Hint Resolve skeep_sub_singleton : kp.
  Lemma ssame_sub_singleton : ssame (sub_singleton O) (c_sub_singleton O).
  Proof. unfold sub_singleton, c_sub_singleton. auto with kp. Qed.
  Hint Resolve ssame_sub_singleton : kp.

  Section SubKnot.
    Variable g t g' t' : sparser subfield_matcher.
    Hypothesis Kg : skeep g.
    Hypothesis Kt : skeep t.
    Hypothesis Sg : ssame g g'.
    Hypothesis St : ssame t t'.

    Lemma skeep_sub_and : skeep (sub_and O g t).
    Proof. unfold sub_and. cbv zeta. auto 12 with kp. Qed.
    Lemma ssame_sub_and : ssame (sub_and O g t) (c_sub_and O g' t').
    Proof. unfold sub_and, c_sub_and. cbv zeta. auto 12 with kp. Qed.
    Hint Resolve skeep_sub_and ssame_sub_and : kp.
    Lemma skeep_sub_xor : skeep (sub_xor O g t).
    Proof. unfold sub_xor. cbv zeta. auto 12 with kp. Qed.
    Lemma ssame_sub_xor : ssame (sub_xor O g t) (c_sub_xor O g' t').
    Proof. unfold sub_xor, c_sub_xor. cbv zeta. auto 12 with kp. Qed.
    Hint Resolve skeep_sub_xor ssame_sub_xor : kp.
    Lemma skeep_sub_or : skeep (sub_or O g t).
    Proof. unfold sub_or. cbv zeta. auto 12 with kp. Qed.
    Lemma ssame_sub_or : ssame (sub_or O g t) (c_sub_or O g' t').
    Proof. unfold sub_or, c_sub_or. cbv zeta. auto 12 with kp. Qed.
    Hint Resolve skeep_sub_or ssame_sub_or : kp.
    Lemma skeep_sub_composite : skeep (sub_composite O g t).
    Proof. unfold sub_composite. auto 12 with kp. Qed.
    Lemma ssame_sub_composite : ssame (sub_composite O g t) (c_sub_composite O g' t').
    Proof. unfold sub_composite, c_sub_composite. auto 12 with kp. Qed.
    Hint Resolve skeep_sub_composite ssame_sub_composite : kp.
    Lemma skeep_sub_group : skeep (sub_group_body O g t).
    Proof. unfold sub_group_body. auto 15 with kp. Qed.
    Lemma ssame_sub_group : ssame (sub_group_body O g t) (c_sub_group_body O g' t').
    Proof. unfold sub_group_body, c_sub_group_body. auto 15 with kp. Qed.
    Lemma sstarts_sub_group : sstarts (sub_group_body O g t).
    Proof.
      unfold sub_group_body. apply sstarts_map, sstarts_delim, sstarts_bind, sstarts_lift, starts_ws, starts_ch.
      discriminate.
    Qed.
    Lemma ssame0_sub_group : ssame0 (sub_group_body O g t) (c_sub_group_body O g' t').
    Proof. intros s r. reflexivity. Qed.
    Hypothesis Gg : sstarts g.
    Hypothesis Gt : sstarts t.
    Hypothesis Zg : ssame0 g g'.
    Hypothesis Zt : ssame0 t t'.
    Lemma skeep_sub_not : skeep (sub_not_body g t).
    Proof.
      unfold sub_not_body. apply skeep_map, skeep_bang; [auto 12 with kp|].
      apply sstarts_alt; [exact Gg|]. apply sstarts_alt; [|exact Gt].
      apply sstarts_lift, starts_map, starts_exists.
    Qed.
    Lemma ssame_sub_not : ssame (sub_not_body g t) (sub_not_body g' t').
    Proof.
      unfold sub_not_body. apply ssame_map, ssame_bang; [auto 12 with kp|].
      intros s r. unfold salt. rewrite <- Zg. destruct (g s (36 :: r)) as [[a x| |] y]; try reflexivity.
      destruct (slift _ y (36 :: r)) as [[a x| |] z]; try reflexivity. apply Zt.
    Qed.
    Lemma sstarts_sub_not : sstarts (sub_not_body g t).
    Proof.
      unfold sub_not_body. apply sstarts_map, sstarts_preceded, sstarts_lift, starts_ws, starts_ch. discriminate.
    Qed.
    Lemma ssame0_sub_not : ssame0 (sub_not_body g t) (sub_not_body g' t').
    Proof. intros s r. reflexivity. Qed.
  End SubKnot.

  Definition tied {A} (p q : sparser A) : Prop := skeep p /\ ssame p q /\ sstarts p /\ ssame0 p q.

  Lemma tied_sub_gn : forall n,
    tied (fst (sub_gn O n)) (fst (c_sub_gn O n)) /\ tied (snd (sub_gn O n)) (snd (c_sub_gn O n)).
  Proof.
    induction n as [|n [[A1 [A2 [A3 A4]]] [B1 [B2 [B3 B4]]]]].
    - cbn. repeat split; try apply skeep_fuel; try apply sstarts_fuel.
    - cbn [sub_gn c_sub_gn].
      destruct (sub_gn O n) as [g t], (c_sub_gn O n) as [g' t']. cbn [fst snd] in *.
      split; (split; [|split; [|split]]).
      + apply skeep_sub_group; assumption.
      + apply ssame_sub_group; assumption.
      + apply sstarts_sub_group.
      + apply ssame0_sub_group.
      + apply skeep_sub_not; assumption.
      + apply ssame_sub_not; assumption.
      + apply sstarts_sub_not.
      + apply ssame0_sub_not.
  Qed.

  Lemma skeep_subfield_matcher : skeep (parse_subfield_matcher O).
  Proof.
    intros s i a r s' E. unfold parse_subfield_matcher in E.
    destruct (tied_sub_gn (S (length i))) as [[A1 _] [B1 _]].
    destruct (sub_gn O (S (length i))) as [g t]. cbn [fst snd] in *.
    destruct (salt _ _ s i) as [[m x| |] y] eqn:F; try discriminate E. injection E as <- <- <-.
    refine (_ F). clear F. generalize s i m x y. change (skeep (salt (sub_composite O g t) (salt (sub_singleton O) (salt g t)))).
    apply skeep_alt; [apply skeep_sub_composite; assumption|]. auto with kp.
  Qed.
  Lemma ssame_subfield_matcher : ssame (parse_subfield_matcher O) (c_parse_subfield_matcher O).
  Proof.
    intros s i X. unfold parse_subfield_matcher, c_parse_subfield_matcher.
    destruct (tied_sub_gn (S (length i))) as [[A1 [A2 _]] [B1 [B2 _]]].
    destruct (sub_gn O (S (length i))) as [g t], (c_sub_gn O (S (length i))) as [g' t']. cbn [fst snd] in *.
    replace (salt (c_sub_composite O g' t') (salt (c_sub_singleton O) (salt g' t')) s i)
      with (salt (sub_composite O g t) (salt (sub_singleton O) (salt g t)) s i); [reflexivity|].
    refine (ssame_alt _ _ _ _ _ _ _ s i X); [apply ssame_sub_composite; assumption|]. auto with kp.
  Qed.
  Hint Resolve skeep_subfield_matcher ssame_subfield_matcher : kp.

  (** ** field matchers *)

  Lemma keep_f_exists : keep parse_f_exists.
  Proof.
    unfold parse_f_exists. apply keep_terminated; [|auto with kp]. apply keep_ws.
    intros i a r E. chain E. injection E as <- <-. kept.
  Qed.
  Hint Resolve keep_f_exists : kp.
  Lemma starts_f_exists : starts parse_f_exists.
  Proof.
    unfold parse_f_exists. apply starts_terminated, starts_ws.
    intros i a r E. chain E. exact (starts_tag_matcher _ _ _ F).
  Qed.
  Lemma keep_f_dot : keep (parse_f_dot O).
  Proof.
    intros i a r E. unfold parse_f_dot in E. chain E. injection E as <- <-.
    assert (K : keep (ch 46)) by auto with kp. kept.
  Qed.
  Hint Resolve keep_f_dot : kp.
  Lemma same_f_dot : same (parse_f_dot O) (c_f_dot O).
  Proof.
    intros i X. unfold parse_f_dot, c_f_dot.
    destruct (opt (ws parse_quantifier) i) as [[q r1]|] eqn:F1; [|reflexivity].
    destruct (parse_tag_matcher r1) as [[t r2]|] eqn:F2; [|reflexivity].
    destruct (parse_occ_matcher r2) as [[o r3]|] eqn:F3; [|reflexivity].
    destruct (ch 46 r3) as [[c r4]|] eqn:F4; [|reflexivity].
    assert (K : keep (opt (ws parse_quantifier))) by auto with kp.
    rewrite (K _ _ _ F1), (keep_tag_matcher _ _ _ F2), (keep_occ_matcher _ _ _ F3),
      (keep_ch 46 eq_refl _ _ _ F4) in X.
    rewrite (same_singleton r4 X). reflexivity.
  Qed.
  Hint Resolve same_f_dot : kp.
  Lemma no_f_dollar : forall i, bare_dollar i = false -> c_f_dollar O i = None.
  Proof.
    intros i X. unfold c_f_dollar.
    destruct (opt (ws parse_quantifier) i) as [[q r1]|] eqn:F1; [|reflexivity].
    destruct (parse_tag_matcher r1) as [[t r2]|] eqn:F2; [|reflexivity].
    destruct (parse_occ_matcher r2) as [[o r3]|] eqn:F3; [|reflexivity].
    assert (K : keep (opt (ws parse_quantifier))) by auto with kp.
    rewrite (K _ _ _ F1), (keep_tag_matcher _ _ _ F2), (keep_occ_matcher _ _ _ F3) in X.
    rewrite (no_dollar r3 X). reflexivity.
  Qed.
  Lemma skeep_braced : skeep (s_braced O).
  Proof. unfold s_braced. auto 12 with kp. Qed.
  Lemma ssame_braced : ssame (s_braced O) (c_braced O).
  Proof. unfold s_braced, c_braced. auto 12 with kp. Qed.
  Hint Resolve skeep_braced ssame_braced : kp.
  Lemma skeep_f_bracket : skeep (parse_f_bracket O).
  Proof. unfold parse_f_bracket. auto 15 with kp. Qed.
  Lemma ssame_f_bracket : ssame (parse_f_bracket O) (c_f_bracket O).
  Proof. unfold parse_f_bracket, c_f_bracket. auto 15 with kp. Qed.
  Hint Resolve skeep_f_bracket ssame_f_bracket : kp.
  Lemma opt_quantifier_dollar : forall r, opt (ws parse_quantifier) (36 :: r) = Some (None, 36 :: r).
  Proof. reflexivity. Qed.
  Lemma dollar_f_bracket : forall s r, parse_f_bracket O s (36 :: r) = (PErr, s).
  Proof. reflexivity. Qed.
  Lemma dollar_c_bracket : forall s r, c_f_bracket O s (36 :: r) = (PErr, s).
  Proof. reflexivity. Qed.
  Lemma sstarts_f_bracket : sstarts (parse_f_bracket O).
  Proof.
    intros s [|c i] a r s' E; [exact I|]. cbn. intros ->. rewrite dollar_f_bracket in E. discriminate E.
  Qed.
  Lemma skeep_parse_f_singleton : skeep (parse_f_singleton O).
  Proof. unfold parse_f_singleton. auto 12 with kp. Qed.
  Lemma ssame_parse_f_singleton : ssame (parse_f_singleton O) (c_parse_f_singleton O).
  Proof.
    unfold parse_f_singleton, c_parse_f_singleton. apply ssame_alt; [apply ssame_refl|].
    apply ssame_alt; [auto with kp|]. intros s i X. unfold salt.
    rewrite <- (ssame_f_bracket s i X). destruct (parse_f_bracket O s i) as [[a r| |] y]; try reflexivity.
    unfold slift. rewrite (no_f_dollar i X). reflexivity.
  Qed.
  Hint Resolve skeep_parse_f_singleton ssame_parse_f_singleton : kp.
  Lemma skeep_f_singleton : skeep (f_singleton O).
  Proof. unfold f_singleton. auto with kp. Qed.
  Lemma ssame_f_singleton : ssame (f_singleton O) (c_f_singleton O).
  Proof. unfold f_singleton, c_f_singleton. auto with kp. Qed.
  Hint Resolve skeep_f_singleton ssame_f_singleton : kp.

  (** the operator and the number of a cardinality *)
  Lemma skeep_op_usize : forall B (k : rel_op -> N -> B),
    skeep (sbind (slift (pverify is_usize_applicable (ws parse_rel_op)))
             (fun op => smap (fun v => k op v) (slift parse_usize))).
  Proof.
    intros B k s i a r s' E. unfold sbind, slift, smap in E.
    destruct (pverify is_usize_applicable (ws parse_rel_op) i) as [[op x]|] eqn:F; [|discriminate E].
    destruct (parse_usize x) as [[v y]|] eqn:G; [|discriminate E]. injection E as <- <- <-.
    rewrite (keep_if_verify _ _ _ (keep_if_ws _ _ keep_if_op) _ _ _ F (starts_usize _ _ _ G)).
    exact (keep_usize _ _ _ G).
  Qed.
  Lemma skeep_f_card : skeep (parse_f_card O).
  Proof.
    unfold parse_f_card. apply skeep_taken, skeep_preceded; [auto with kp|].
    apply skeep_bind; [auto with kp|intros t]. apply skeep_bind; [auto with kp|intros o].
    apply skeep_bind; [auto with kp|intros m].
    exact (skeep_op_usize _ (fun op v => (t, o, m, op, v))).
  Qed.
  Lemma ssame_f_card : ssame (parse_f_card O) (c_f_card O).
  Proof.
    unfold parse_f_card, c_f_card. apply ssame_taken, ssame_preceded; [auto with kp|auto with kp|].
    apply ssame_bind; [auto with kp|auto with kp|intros t].
    apply ssame_bind; [auto with kp|auto with kp|intros o].
    apply ssame_bind; [auto with kp|auto with kp|intros m]. apply ssame_refl.
  Qed.
  Hint Resolve skeep_f_card ssame_f_card : kp.
  Lemma keep_ff_exists : keep f_exists.
  Proof.
    unfold f_exists. apply keep_alt; [auto with kp|]. intros i a r E. chain E. injection E as <- <-.
    assert (K : keep (ws (ch 46))) by auto with kp. kept.
  Qed.
  Hint Resolve keep_ff_exists : kp.
  Lemma same_ff_exists : same f_exists c_f_exists.
  Proof.
    unfold f_exists, c_f_exists. apply same_alt; [apply same_refl|]. intros i X.
    destruct (opt parse_quantifier i) as [[q r1]|] eqn:F1; [|reflexivity].
    destruct (parse_tag_matcher r1) as [[t r2]|] eqn:F2; [|reflexivity].
    destruct (parse_occ_matcher r2) as [[o r3]|] eqn:F3; [|reflexivity].
    assert (K : keep (opt parse_quantifier)) by auto with kp.
    rewrite (K _ _ _ F1), (keep_tag_matcher _ _ _ F2), (keep_occ_matcher _ _ _ F3) in X.
    unfold alt, preceded. rewrite (no_dollar_ws r3 X).
    destruct (ws (ch 46) r3) as [[c r4]|]; [|reflexivity].
    destruct (parse_exists r4) as [[m r5]|]; reflexivity.
  Qed.
  Hint Resolve same_ff_exists : kp.
  Lemma starts_ff_exists : starts f_exists.
  Proof.
    intros [|c i] a r E; [exact I|]. cbn. intros ->. discriminate E.
  Qed.
  Lemma dollar_ff_exists : forall r, f_exists (36 :: r) = None.
  Proof. reflexivity. Qed.
  Lemma dollar_c_exists : forall r, c_f_exists (36 :: r) = None.
  Proof. reflexivity. Qed.

  Section FieldKnot.
    Variable g t g' t' : sparser field_matcher.
    Hypothesis Kg : skeep g.
    Hypothesis Kt : skeep t.
    Hypothesis Sg : ssame g g'.
    Hypothesis St : ssame t t'.

    Lemma skeep_f_atoms : skeep (f_atoms O g t).
    Proof. unfold f_atoms. auto 12 with kp. Qed.
    Lemma ssame_f_atoms : ssame (f_atoms O g t) (c_f_atoms O g' t').
    Proof. unfold f_atoms, c_f_atoms. auto 12 with kp. Qed.
    Hint Resolve skeep_f_atoms ssame_f_atoms : kp.
    Lemma skeep_f_and : skeep (f_and O g t).
    Proof. unfold f_and. auto 12 with kp. Qed.
    Lemma ssame_f_and : ssame (f_and O g t) (c_f_and O g' t').
    Proof. unfold f_and, c_f_and. auto 12 with kp. Qed.
    Hint Resolve skeep_f_and ssame_f_and : kp.
    Lemma skeep_f_xor : skeep (f_xor O g t).
    Proof. unfold f_xor. auto 12 with kp. Qed.
    Lemma ssame_f_xor : ssame (f_xor O g t) (c_f_xor O g' t').
    Proof. unfold f_xor, c_f_xor. auto 12 with kp. Qed.
    Hint Resolve skeep_f_xor ssame_f_xor : kp.
    Lemma skeep_f_or : skeep (f_or O g t).
    Proof. unfold f_or. auto 12 with kp. Qed.
    Lemma ssame_f_or : ssame (f_or O g t) (c_f_or O g' t').
    Proof. unfold f_or, c_f_or. auto 12 with kp. Qed.
    Hint Resolve skeep_f_or ssame_f_or : kp.
    Lemma skeep_f_composite : skeep (f_composite O g t).
    Proof. unfold f_composite. auto 12 with kp. Qed.
    Lemma ssame_f_composite : ssame (f_composite O g t) (c_f_composite O g' t').
    Proof. unfold f_composite, c_f_composite. auto 12 with kp. Qed.
    Hint Resolve skeep_f_composite ssame_f_composite : kp.
    Lemma skeep_f_group : skeep (f_group_body O g t).
    Proof. unfold f_group_body. auto 15 with kp. Qed.
    Lemma ssame_f_group : ssame (f_group_body O g t) (c_f_group_body O g' t').
    Proof. unfold f_group_body, c_f_group_body. auto 15 with kp. Qed.
    Lemma sstarts_f_group : sstarts (f_group_body O g t).
    Proof.
      unfold f_group_body. apply sstarts_map, sstarts_delim, sstarts_bind, sstarts_lift, starts_ws, starts_ch.
      discriminate.
    Qed.
    Lemma ssame0_f_group : ssame0 (f_group_body O g t) (c_f_group_body O g' t').
    Proof. intros s r. reflexivity. Qed.
    Hypothesis Gg : sstarts g.
    Hypothesis Gt : sstarts t.
    Hypothesis Zg : ssame0 g g'.
    Hypothesis Zt : ssame0 t t'.
    Lemma skeep_f_not : skeep (f_not_body O g t).
    Proof.
      unfold f_not_body. apply skeep_map, skeep_bang; [auto 12 with kp|].
      apply sstarts_alt; [exact Gg|]. apply sstarts_alt; [apply sstarts_map, sstarts_f_bracket|].
      apply sstarts_alt; [|exact Gt]. apply sstarts_lift, starts_ff_exists.
    Qed.
    Lemma ssame_f_not : ssame (f_not_body O g t) (c_f_not_body O g' t').
    Proof.
      unfold f_not_body, c_f_not_body. apply ssame_map, ssame_bang; [auto 12 with kp|].
      intros s r. unfold salt. rewrite <- Zg. destruct (g s (36 :: r)) as [[a x| |] y]; try reflexivity.
      unfold smap. rewrite dollar_f_bracket, dollar_c_bracket. unfold slift.
      rewrite dollar_ff_exists, dollar_c_exists. apply Zt.
    Qed.
    Lemma sstarts_f_not : sstarts (f_not_body O g t).
    Proof.
      unfold f_not_body. apply sstarts_map, sstarts_preceded, sstarts_lift, starts_ws, starts_ch. discriminate.
    Qed.
    Lemma ssame0_f_not : ssame0 (f_not_body O g t) (c_f_not_body O g' t').
    Proof. intros s r. reflexivity. Qed.
  End FieldKnot.

  Lemma tied_field_gn : forall n,
    tied (fst (field_gn O n)) (fst (c_field_gn O n)) /\ tied (snd (field_gn O n)) (snd (c_field_gn O n)).
  Proof.
    induction n as [|n [[A1 [A2 [A3 A4]]] [B1 [B2 [B3 B4]]]]].
    - cbn. repeat split; try apply skeep_fuel; try apply sstarts_fuel.
    - cbn [field_gn c_field_gn].
      destruct (field_gn O n) as [g t], (c_field_gn O n) as [g' t']. cbn [fst snd] in *.
      split; (split; [|split; [|split]]).
      + apply skeep_f_group; assumption.
      + apply ssame_f_group; assumption.
      + apply sstarts_f_group.
      + apply ssame0_f_group.
      + apply skeep_f_not; assumption.
      + apply ssame_f_not; assumption.
      + apply sstarts_f_not.
      + apply ssame0_f_not.
  Qed.

  Lemma skeep_field_matcher : skeep (parse_field_matcher O).
  Proof.
    intros s i a r s' E. unfold parse_field_matcher in E.
    destruct (tied_field_gn (S (length i))) as [[A1 _] [B1 _]].
    destruct (field_gn O (S (length i))) as [g t]. cbn [fst snd] in *.
    destruct (sws _ s i) as [[m x| |] y] eqn:F; try discriminate E. injection E as <- <- <-.
    refine (_ F). clear F. generalize s i m x y.
    change (skeep (sws (salt (f_composite O g t) (salt g (salt t (salt (f_singleton O) (parse_f_card O))))))).
    apply skeep_ws, skeep_alt; [apply skeep_f_composite; assumption|]. auto with kp.
  Qed.
  Lemma ssame_field_matcher : ssame (parse_field_matcher O) (c_parse_field_matcher O).
  Proof.
    intros s i X. unfold parse_field_matcher, c_parse_field_matcher.
    destruct (tied_field_gn (S (length i))) as [[A1 [A2 _]] [B1 [B2 _]]].
    destruct (field_gn O (S (length i))) as [g t], (c_field_gn O (S (length i))) as [g' t']. cbn [fst snd] in *.
    replace (sws (salt (c_f_composite O g' t') (salt g' (salt t' (salt (c_f_singleton O) (c_f_card O))))) s i)
      with (sws (salt (f_composite O g t) (salt g (salt t (salt (f_singleton O) (parse_f_card O))))) s i);
      [reflexivity|].
    refine (ssame_ws _ _ _ _ s i X). apply ssame_alt; [apply ssame_f_composite; assumption|]. auto with kp.
  Qed.

  (** ** paths, formats, queries *)

  Lemma keep_path_simple : keep parse_path_simple.
  Proof.
    intros i a r E. unfold parse_path_simple in E.
    destruct (ws _ i) as [[[[t o] c] x]|] eqn:F; [|discriminate E]. injection E as <- <-.
    refine (keep_ws _ _ _ _ _ _ F). clear. intros i a r E. chain E. injection E as <- <-.
    assert (K : keep (preceded (ch 46) parse_codes)) by auto with kp. kept.
  Qed.
  Hint Resolve keep_path_simple : kp.
  Lemma same_path_simple : same parse_path_simple c_path_simple.
  Proof.
    intros i X. unfold parse_path_simple, c_path_simple, ws. rewrite <- bare_skip in X.
    destruct (parse_tag_matcher (skip_ws i)) as [[t r1]|] eqn:F1; [|reflexivity].
    destruct (parse_occ_matcher r1) as [[o r2]|] eqn:F2; [|reflexivity].
    rewrite (keep_tag_matcher _ _ _ F1), (keep_occ_matcher _ _ _ F2) in X.
    rewrite <- (same_dollar (preceded (ch 46) parse_codes) r2 X). reflexivity.
  Qed.
  Hint Resolve same_path_simple : kp.
  Lemma keep_path_codes : keep parse_path_codes.
  Proof. unfold parse_path_codes. cbv zeta. auto 12 with kp. Qed.
  Hint Resolve keep_path_codes : kp.
  Lemma same_path_codes : same parse_path_codes c_path_codes.
  Proof.
    unfold parse_path_codes, c_path_codes. cbv zeta.
    assert (S : same (separated1 parse_codes (ws (ch 44))) (separated1 (alt parse_codes dollar_codes) (ws (ch 44))))
      by auto 12 with kp.
    apply same_alt; [exact S|]. intros i X. unfold delimited.
    destruct (ws (ch 40) i) as [[c r]|] eqn:F; [|reflexivity].
    assert (K : keep (ws (ch 40))) by auto with kp. rewrite (K _ _ _ F) in X.
    rewrite (S r X). reflexivity.
  Qed.
  Hint Resolve same_path_codes : kp.
  Lemma skeep_condition : skeep (parse_condition O).
  Proof. unfold parse_condition. auto 12 with kp. Qed.
  Lemma ssame_condition : ssame (parse_condition O) (c_condition O).
  Proof. unfold parse_condition, c_condition. auto 12 with kp. Qed.
  Hint Resolve skeep_condition ssame_condition : kp.
  Lemma skeep_path_curly : skeep (parse_path_curly O).
  Proof. unfold parse_path_curly. auto 15 with kp. Qed.
  Lemma ssame_path_curly : ssame (parse_path_curly O) (c_path_curly O).
  Proof. unfold parse_path_curly, c_path_curly. auto 18 with kp. Qed.
  Hint Resolve skeep_path_curly ssame_path_curly : kp.
  Lemma skeep_path : skeep (parse_path O).
  Proof. unfold parse_path. auto 12 with kp. Qed.
  Lemma ssame_path : ssame (parse_path O) (c_parse_path O).
  Proof. unfold parse_path, c_parse_path. auto 12 with kp. Qed.
  Hint Resolve skeep_path ssame_path : kp.

  Lemma keep_modifier : keep parse_modifier.
  Proof. unfold parse_modifier. auto 15 with kp. Qed.
  Hint Resolve keep_modifier : kp.
  Lemma keep_bound : forall d, keep (parse_bound d).
  Proof. intros d. unfold parse_bound. auto 12 with kp. Qed.
  Hint Resolve keep_bound : kp.
  Lemma keep_fmt_value : keep parse_value.
  Proof. intros i a r E. unfold parse_value in E. chain E. injection E as <- <-. kept. Qed.
  Hint Resolve keep_fmt_value : kp.
  Lemma keep_and_then_tok : keep (tok (lit "<$>")).
  Proof. intros i a r E. apply tok_shape in E. subst i. reflexivity. Qed.
  Hint Resolve keep_and_then_tok : kp.
  Lemma keep_cons_tok : keep (tok (lit "<*>")).
  Proof. intros i a r E. apply tok_shape in E. subst i. reflexivity. Qed.
  Hint Resolve keep_cons_tok : kp.
  Lemma skeep_fmt_list : forall g, skeep g -> skeep (fmt_list g).
  Proof.
    intros g H. unfold fmt_list, fmt_list_cons.
    assert (K : skeep (fmt_and_then g)) by (unfold fmt_and_then; auto 12 with kp). auto 12 with kp.
  Qed.
  Hint Resolve skeep_fmt_list : kp.
  Lemma skeep_fmt_group : forall n, skeep (fmt_group n).
  Proof.
    induction n as [|n IH]; [apply skeep_fuel|]. cbn [fmt_group]. unfold fmt_group_body.
    auto 20 with kp.
  Qed.
  Hint Resolve skeep_fmt_group : kp.
  Lemma skeep_fragments : skeep parse_fragments.
  Proof.
    intros s i a r s' E. unfold parse_fragments, fmt_fragments_body in E.
    revert E. generalize (S (length i)). intros n E.
    assert (K : skeep (salt (sws (fmt_list (fmt_group n))) (salt (sws (fmt_group n)) (sws (slift parse_value)))))
      by auto 12 with kp.
    exact (K _ _ _ _ _ E).
  Qed.
  Hint Resolve skeep_fragments : kp.
  Lemma skeep_format : skeep (parse_format O).
  Proof. unfold parse_format. auto 15 with kp. Qed.
  Lemma ssame_format : ssame (parse_format O) (c_parse_format O).
  Proof. unfold parse_format, c_parse_format. auto 18 with kp. Qed.
  Hint Resolve skeep_format ssame_format : kp.
  Lemma skeep_qfragment : skeep (parse_qfragment O).
  Proof. unfold parse_qfragment. auto 15 with kp. Qed.
  Lemma ssame_qfragment : ssame (parse_qfragment O) (c_qfragment O).
  Proof. unfold parse_qfragment, c_qfragment. auto 18 with kp. Qed.
  Hint Resolve skeep_qfragment ssame_qfragment : kp.
  Lemma skeep_query : skeep (parse_query O).
  Proof. unfold parse_query. auto 15 with kp. Qed.
  Lemma ssame_query : ssame (parse_query O) (c_parse_query O).
  Proof. unfold parse_query, c_parse_query. auto 18 with kp. Qed.

  (** ** whole texts *)

  Lemma same_all : forall A (p q : sparser A), ssame p q -> forall s t, bare_dollar t = false ->
    sparse_all q s t = sparse_all p s t.
  Proof. intros A p q H s t X. unfold sparse_all. rewrite (H s t X). reflexivity. Qed.
  Lemma accepted_no_dollar : forall A (p : sparser A), skeep p -> forall s t x s',
    sparse_all p s t = (Some (Some x), s') -> bare_dollar t = false.
  Proof.
    intros A p H s t x s' E. unfold sparse_all in E.
    destruct (p s t) as [[a [|c r]| |] y] eqn:F; try discriminate E.
    exact (H _ _ _ _ _ F).
  Qed.
End Agreement.

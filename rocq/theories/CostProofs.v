(** * How often the parser for parentheses is started *)

From Coq Require Import String.
From Verif Require Import Bytes Winnow TagOccModel StrParserModel MatcherModel StateParser
  BaseProofs StateParserProofs MatcherParserModel MatcherParserProofs CostSpec.

(** ** Counting changes nothing else *)

Definition agree (s s' : levels) : Prop := lv_sub s = lv_sub s' /\ lv_field s = lv_field s'.
Definition alike {A} (p q : sparser A) : Prop := forall s s' i, agree s s' ->
  fst (p s i) = fst (q s' i) /\ agree (snd (p s i)) (snd (q s' i)).

Ltac take H s s' i :=
  let F := fresh "F" in let G := fresh "G" in
  destruct (H s s' i) as [F G]; [assumption|].

Lemma alike_lift : forall A (p : parser A), alike (slift p) (slift p).
Proof. intros A p s s' i H. split; [reflexivity|exact H]. Qed.
Lemma alike_fuel : forall A, alike (@sfuel A) sfuel.
Proof. intros A s s' i H. split; [reflexivity|exact H]. Qed.
Lemma alike_ret : forall A (a : A), alike (sret a) (sret a).
Proof. intros A a s s' i H. split; [reflexivity|exact H]. Qed.
Lemma alike_map : forall A B (f : A -> B) p q, alike p q -> alike (smap f p) (smap f q).
Proof.
  intros A B f p q H s s' i Hs. destruct (H s s' i Hs) as [F G]. unfold smap.
  destruct (p s i) as [[a r| |] x], (q s' i) as [[b r'| |] y]; cbn in F, G |- *; try discriminate F;
    (split; [congruence|exact G]).
Qed.
Lemma alike_bind : forall A B (p q : sparser A) (k l : A -> sparser B),
  alike p q -> (forall a, alike (k a) (l a)) -> alike (sbind p k) (sbind q l).
Proof.
  intros A B p q k l H K s s' i Hs. destruct (H s s' i Hs) as [F G]. unfold sbind.
  destruct (p s i) as [[a r| |] x], (q s' i) as [[b r'| |] y]; cbn in F, G |- *; try discriminate F.
  - injection F as -> ->. apply K. exact G.
  - split; [reflexivity|exact G].
  - split; [reflexivity|exact G].
Qed.
Lemma alike_alt : forall A (p q p' q' : sparser A), alike p q -> alike p' q' -> alike (salt p p') (salt q q').
Proof.
  intros A p q p' q' H K s s' i Hs. destruct (H s s' i Hs) as [F G]. unfold salt.
  destruct (p s i) as [[a r| |] x], (q s' i) as [[b r'| |] y]; cbn in F, G |- *; try discriminate F.
  - split; [exact F|exact G].
  - apply K. exact G.
  - split; [exact F|exact G].
Qed.
Lemma alike_opt : forall A (p q : sparser A), alike p q -> alike (sopt p) (sopt q).
Proof.
  intros A p q H s s' i Hs. destruct (H s s' i Hs) as [F G]. unfold sopt.
  destruct (p s i) as [[a r| |] x], (q s' i) as [[b r'| |] y]; cbn in F, G |- *; try discriminate F;
    (split; [congruence|exact G]).
Qed.
Lemma alike_ws : forall A (p q : sparser A), alike p q -> alike (sws p) (sws q).
Proof.
  intros A p q H s s' i Hs. destruct (H s s' (skip_ws i) Hs) as [F G]. unfold sws.
  destruct (p s (skip_ws i)) as [[a r| |] x], (q s' (skip_ws i)) as [[b r'| |] y]; cbn in F, G |- *; try discriminate F;
    (split; [congruence|exact G]).
Qed.
Lemma alike_taken : forall A B (f : A -> bytes -> B) p q, alike p q -> alike (staken f p) (staken f q).
Proof.
  intros A B f p q H s s' i Hs. destruct (H s s' i Hs) as [F G]. unfold staken.
  destruct (p s i) as [[a r| |] x], (q s' i) as [[b r'| |] y]; cbn in F, G |- *; try discriminate F;
    (split; [congruence|exact G]).
Qed.
Lemma alike_repeat0 : forall A (p q : sparser A), alike p q -> forall n,
  alike (srepeat0_fuel n p) (srepeat0_fuel n q).
Proof.
  intros A p q H. induction n as [|n IH]; intros s s' i Hs; [split; [reflexivity|exact Hs]|].
  cbn [srepeat0_fuel]. destruct (H s s' i Hs) as [F G].
  destruct (p s i) as [[a r| |] x], (q s' i) as [[b r'| |] y]; cbn in F, G; try discriminate F.
  - injection F as <- <-. destruct (Nat.eqb (length r) (length i)); [split; [reflexivity|exact G]|].
    destruct (IH x y r G) as [F' G'].
    destruct (srepeat0_fuel n p x r) as [[l r2| |] x'], (srepeat0_fuel n q y r) as [[l' r2'| |] y'];
      cbn in F', G' |- *; try discriminate F'; (split; [congruence|exact G']).
  - split; [reflexivity|exact G].
  - split; [reflexivity|exact G].
Qed.
Lemma alike_repeat1 : forall A (p q : sparser A), alike p q -> alike (srepeat1 p) (srepeat1 q).
Proof.
  intros A p q H. unfold srepeat1. apply alike_bind; [exact H|]. intros a. apply alike_map.
  intros s s' i Hs. apply (alike_repeat0 _ _ _ H). exact Hs.
Qed.
Lemma alike_delim : forall A B C (p p' : sparser A) (q q' : sparser B) (e e' : sparser C),
  alike p p' -> alike q q' -> alike e e' -> alike (sdelim p q e) (sdelim p' q' e').
Proof.
  intros A B C p p' q q' e e' Hp Hq He. unfold sdelim. apply alike_bind; [exact Hp|]. intros _.
  apply alike_bind; [exact Hq|]. intros b. apply alike_bind; [exact He|]. intros _. apply alike_ret.
Qed.
Lemma alike_preceded : forall A B (p p' : sparser A) (q q' : sparser B),
  alike p p' -> alike q q' -> alike (spreceded p q) (spreceded p' q').
Proof. intros A B p p' q q' Hp Hq. unfold spreceded. apply alike_bind; [exact Hp|]. intros _. exact Hq. Qed.
Lemma alike_operands : forall A (p q : sparser A) t t', alike p q -> alike t t' ->
  alike (s_operands p t) (s_operands q t').
Proof.
  intros A p q t t' Hp Ht. unfold s_operands. apply alike_bind; [exact Hp|]. intros h. apply alike_map.
  apply alike_repeat1. apply alike_preceded; assumption.
Qed.

Ltac like := repeat first
  [ assumption | apply alike_lift | apply alike_map | apply alike_alt | apply alike_ws | apply alike_taken
  | apply alike_opt | apply alike_operands | apply alike_delim | apply alike_preceded
  | apply alike_bind; [|intros ?] ].

Section Alike.
  Variable O : oracles.

  Lemma alike_sub_inc : alike sub_inc sub_inc.
  Proof.
    intros s s' i [H1 H2]. unfold sub_inc. rewrite H1. destruct (256 <=? lv_sub s' + 1);
      (split; [reflexivity|split; [reflexivity|exact H2]]).
  Qed.
  Lemma alike_field_inc : alike field_inc field_inc.
  Proof.
    intros s s' i [H1 H2]. unfold field_inc. rewrite H2. destruct (256 <=? lv_field s' + 1);
      (split; [reflexivity|split; [exact H1|reflexivity]]).
  Qed.
  Lemma alike_close : alike f_close f_close.
  Proof.
    intros s s' i [H1 H2]. unfold f_close. destruct (ws (ch 41) i) as [[a r]|].
    - split; [reflexivity|]. split; [exact H1|]. cbn. rewrite H2. reflexivity.
    - split; [reflexivity|]. split; assumption.
  Qed.

  Section Sub.
    Variable g g' t t' : sparser subfield_matcher.
    Hypothesis Hg : alike g g'.
    Hypothesis Ht : alike t t'.
    Lemma alike_sub_and : alike (sub_and O g t) (sub_and O g' t').
    Proof. unfold sub_and, sub_singleton. cbv zeta. like. Qed.
    Lemma alike_sub_xor : alike (sub_xor O g t) (sub_xor O g' t').
    Proof. pose proof alike_sub_and. unfold sub_xor, sub_singleton. cbv zeta. like. Qed.
    Lemma alike_sub_or : alike (sub_or O g t) (sub_or O g' t').
    Proof. pose proof alike_sub_and. pose proof alike_sub_xor. unfold sub_or, sub_singleton. cbv zeta. like. Qed.
    Lemma alike_sub_composite : alike (sub_composite O g t) (sub_composite O g' t').
    Proof. pose proof alike_sub_and. pose proof alike_sub_xor. pose proof alike_sub_or. unfold sub_composite. like. Qed.
    Lemma alike_sub_group : alike (sub_group_body O g t) (sub_group_body O g' t').
    Proof.
      pose proof alike_sub_composite. pose proof alike_sub_inc. unfold sub_group_body, sub_singleton. like.
    Qed.
    Lemma alike_sub_not : alike (sub_not_body g t) (sub_not_body g' t').
    Proof. unfold sub_not_body. like. Qed.
  End Sub.

  Lemma alike_sub_gn : forall n,
    alike (fst (sub_gn O n)) (fst (sub_gn O n)) /\ alike (snd (sub_gn O n)) (snd (sub_gn O n)).
  Proof.
    induction n as [|n IH]; [split; apply alike_fuel|]. cbn [sub_gn]. destruct (sub_gn O n) as [g t].
    cbn [fst snd] in *. destruct IH as [Hg Ht].
    split; [apply alike_sub_group|apply alike_sub_not]; assumption.
  Qed.
  Lemma alike_subfield : alike (parse_subfield_matcher O) (parse_subfield_matcher O).
  Proof.
    intros s s' i Hs. unfold parse_subfield_matcher. destruct (sub_gn O (S (length i))) as [g t] eqn:E.
    destruct (alike_sub_gn (S (length i))) as [Hg Ht]. rewrite E in Hg, Ht. cbn [fst snd] in Hg, Ht.
    assert (H : alike (salt (sub_composite O g t) (salt (sub_singleton O) (salt g t)))
                      (salt (sub_composite O g t) (salt (sub_singleton O) (salt g t)))).
    { pose proof (alike_sub_composite _ _ _ _ Hg Ht). unfold sub_singleton. like. }
    destruct (H s s' i Hs) as [F G].
    destruct (salt _ _ s i) as [[a r| |] x]; destruct (salt _ _ s' i) as [[b r'| |] y];
      cbn in F, G |- *; try discriminate F; (split; [congruence|]); [|exact G|exact G].
    destruct G as [_ G]. split; [reflexivity|exact G].
  Qed.
  Lemma alike_braced : alike (s_braced O) (s_braced O).
  Proof. pose proof alike_subfield. unfold s_braced. like. Qed.
  Lemma alike_bracket : alike (parse_f_bracket O) (parse_f_bracket O).
  Proof. pose proof alike_braced. unfold parse_f_bracket. like. Qed.
  Lemma alike_singleton : alike (f_singleton O) (f_singleton O).
  Proof. pose proof alike_bracket. unfold f_singleton, parse_f_singleton. like. Qed.
  Lemma alike_card : alike (parse_f_card O) (parse_f_card O).
  Proof. pose proof alike_braced. unfold parse_f_card. like. Qed.

  Section Field.
    Variable g g' t t' : sparser field_matcher.
    Hypothesis Hg : alike g g'.
    Hypothesis Ht : alike t t'.
    Lemma alike_atoms : alike (f_atoms O g t) (f_atoms O g' t').
    Proof. pose proof alike_card. pose proof alike_singleton. unfold f_atoms. like. Qed.
    Lemma alike_and : alike (f_and O g t) (f_and O g' t').
    Proof. pose proof alike_atoms. unfold f_and. like. Qed.
    Lemma alike_xor : alike (f_xor O g t) (f_xor O g' t').
    Proof. pose proof alike_atoms. pose proof alike_and. unfold f_xor. like. Qed.
    Lemma alike_or : alike (f_or O g t) (f_or O g' t').
    Proof. pose proof alike_atoms. pose proof alike_and. pose proof alike_xor. unfold f_or. like. Qed.
    Lemma alike_composite : alike (f_composite O g t) (f_composite O g' t').
    Proof. pose proof alike_or. pose proof alike_and. pose proof alike_xor. unfold f_composite. like. Qed.
    Lemma alike_group : alike (f_group_body O g t) (f_group_body O g' t').
    Proof.
      pose proof alike_composite. pose proof alike_field_inc. pose proof alike_close.
      pose proof alike_card. pose proof alike_singleton. unfold f_group_body. like.
    Qed.
    Lemma alike_not : alike (f_not_body O g t) (f_not_body O g' t').
    Proof. pose proof alike_bracket. unfold f_not_body. like. Qed.
  End Field.

  Lemma alike_counted : forall A (p q : sparser A), alike p q -> alike (counted p) q.
  Proof. intros A p q H s s' i [H1 H2]. unfold counted. apply H. split; assumption. Qed.

  Lemma alike_gn : forall n, alike (fst (counted_gn O n)) (fst (field_gn O n))
    /\ alike (snd (counted_gn O n)) (snd (field_gn O n)).
  Proof.
    induction n as [|n IH]; [split; apply alike_fuel|]. cbn [counted_gn field_gn].
    destruct (counted_gn O n) as [g t], (field_gn O n) as [g' t']. cbn [fst snd] in *.
    destruct IH as [Hg Ht].
    split; [apply alike_counted, alike_group|apply alike_not]; assumption.
  Qed.

  Lemma alike_matcher : alike (counted_matcher O) (parse_field_matcher O).
  Proof.
    intros s s' i Hs. unfold counted_matcher, parse_field_matcher.
    destruct (alike_gn (S (length i))) as [Hg Ht].
    destruct (counted_gn O (S (length i))) as [g t], (field_gn O (S (length i))) as [g' t'].
    cbn [fst snd] in Hg, Ht.
    assert (H : alike (sws (salt (f_composite O g t) (salt g (salt t (salt (f_singleton O) (parse_f_card O))))))
                      (sws (salt (f_composite O g' t') (salt g' (salt t' (salt (f_singleton O) (parse_f_card O))))))).
    { pose proof (alike_composite _ _ _ _ Hg Ht). pose proof alike_card. pose proof alike_singleton. like. }
    destruct (H s s' i Hs) as [F G].
    destruct (sws _ s i) as [[a r| |] x]; destruct (sws _ s' i) as [[b r'| |] y];
      cbn in F, G |- *; try discriminate F; (split; [congruence|]); [|exact G|exact G].
    destruct G as [G _]. split; [exact G|reflexivity].
  Qed.

  Lemma counting_harmless : forall s t,
    fst (sparse_all (counted_matcher O) s t) = fst (field_matcher_new O s t)
    /\ lv_sub (snd (sparse_all (counted_matcher O) s t)) = lv_sub (snd (field_matcher_new O s t))
    /\ lv_field (snd (sparse_all (counted_matcher O) s t)) = lv_field (snd (field_matcher_new O s t)).
  Proof.
    intros s t. unfold field_matcher_new, sparse_all.
    destruct (alike_matcher s s t (conj eq_refl eq_refl)) as [F [G1 G2]].
    destruct (counted_matcher O s t) as [[a r| |] x], (parse_field_matcher O s t) as [[b r'| |] y];
      cbn in F, G1, G2; try discriminate F.
    - injection F as -> ->. destruct r'; split; cbn; auto.
    - cbn. auto.
    - cbn. auto.
  Qed.
End Alike.

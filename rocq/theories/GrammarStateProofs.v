(** * Texts without parentheses leave the group counters alone *)

From Coq Require Import String.
From Verif Require Import Bytes Winnow StrParserModel TagOccModel MatcherModel StateParser MatcherParserModel
  StateParserProofs MatcherParserProofs GrammarSpec GrammarExprProofs GrammarSubProofs GrammarFieldProofs.

Definition calm (s : levels) : Prop := lv_sub s = 0 /\ lv_field s = 0.

(** on inputs without "(" the state stays, and the rest has no "(" either *)
Definition still {A} (p : sparser A) : Prop := forall s i, calm s -> ~ In 40 i ->
  match p s i with
  | (POk _ r, s') => s' = s /\ ~ In 40 r
  | (_, s') => s' = s
  end.

Lemma suffix_in : forall c r i, suffix r i -> ~ In c i -> ~ In c r.
Proof. intros c r i [w ->] H F. apply H, in_or_app. right. exact F. Qed.

Lemma still_lift : forall A (P : A -> Prop) p, pok P p -> still (slift p).
Proof.
  intros A P p H s i Cs Hi. unfold slift. destruct (p i) as [[a r]|] eqn:E; [|reflexivity].
  split; [reflexivity|]. apply H in E as [_ E]. eapply suffix_in; eassumption.
Qed.
Lemma still_fuel : forall A, still (@sfuel A).
Proof. intros A s i _ _. reflexivity. Qed.
Lemma still_map : forall A B (f : A -> B) p, still p -> still (smap f p).
Proof.
  intros A B f p H s i Cs Hi. unfold smap. specialize (H s i Cs Hi).
  destruct (p s i) as [[a r| |] s']; exact H.
Qed.
Lemma still_bind : forall A B p (k : A -> sparser B), still p -> (forall a, still (k a)) -> still (sbind p k).
Proof.
  intros A B p k H Hk s i Cs Hi. unfold sbind. specialize (H s i Cs Hi).
  destruct (p s i) as [[a r| |] s']; [|exact H..]. destruct H as [-> H]. apply Hk; assumption.
Qed.
Lemma still_ret : forall A (a : A), still (sret a).
Proof. intros A a s i _ Hi. split; [reflexivity|exact Hi]. Qed.
Lemma still_alt : forall A (p q : sparser A), still p -> still q -> still (salt p q).
Proof.
  intros A p q H Hq s i Cs Hi. unfold salt. specialize (H s i Cs Hi).
  destruct (p s i) as [[a r| |] s']; [exact H| |exact H]. subst s'. apply Hq; assumption.
Qed.
Lemma still_opt : forall A (p : sparser A), still p -> still (sopt p).
Proof.
  intros A p H s i Cs Hi. unfold sopt. specialize (H s i Cs Hi).
  destruct (p s i) as [[a r| |] s']; [exact H| |exact H]. split; assumption.
Qed.
Lemma still_ws : forall A (p : sparser A), still p -> still (sws p).
Proof.
  intros A p H s i Cs Hi. unfold sws.
  specialize (H s (skip_ws i) Cs (suffix_in _ _ _ (skip_ws_suffix i) Hi)).
  destruct (p s (skip_ws i)) as [[a r| |] s']; [|exact H..]. destruct H as [-> H].
  split; [reflexivity|]. exact (suffix_in _ _ _ (skip_ws_suffix r) H).
Qed.
Lemma still_preceded : forall A B (p : sparser A) (q : sparser B), still p -> still q -> still (spreceded p q).
Proof. intros A B p q H Hq. apply still_bind; auto. Qed.
Lemma still_delim : forall A B C (p : sparser A) (q : sparser B) (e : sparser C),
  still p -> still q -> still e -> still (sdelim p q e).
Proof.
  intros A B C p q e Hp Hq He. apply still_bind; [exact Hp|]. intros _. apply still_bind; [exact Hq|].
  intros b. apply still_bind; [exact He|]. intros _. apply still_ret.
Qed.
Lemma still_taken : forall A B (f : A -> bytes -> B) p, still p -> still (staken f p).
Proof.
  intros A B f p H s i Cs Hi. unfold staken. specialize (H s i Cs Hi).
  destruct (p s i) as [[a r| |] s']; exact H.
Qed.
Lemma still_repeat0 : forall A (p : sparser A), still p -> forall n, still (fun s i => srepeat0_fuel n p s i).
Proof.
  intros A p H. induction n as [|n IH]; intros s i Cs Hi; cbn [srepeat0_fuel]; [reflexivity|].
  specialize (H s i Cs Hi). destruct (p s i) as [[a r| |] s']; [|split; assumption|exact H].
  destruct H as [-> Hr]. destruct (Nat.eqb (length r) (length i)); [reflexivity|].
  specialize (IH s r Cs Hr). destruct (srepeat0_fuel n p s r) as [[l r'| |] s'']; exact IH.
Qed.
Lemma still_repeat1 : forall A (p : sparser A), still p -> still (srepeat1 p).
Proof.
  intros A p H. apply still_bind; [exact H|]. intros a. apply still_map.
  intros s i. apply (still_repeat0 A p H (S (length i)) s i).
Qed.
Lemma still_operands : forall A B (f : A * list A -> B) (a : sparser A) t, still a -> still t ->
  still (smap f (s_operands a t)).
Proof.
  intros A B f a t Ha Ht. apply still_map, still_bind; [exact Ha|]. intros h. apply still_map.
  apply still_repeat1, still_preceded; assumption.
Qed.

(** an opening parenthesis is not found *)
Lemma no_paren : forall i, ~ In 40 i -> ws (ch 40) i = None.
Proof.
  intros i H. unfold ws. destruct (skip_ws i) as [|c r] eqn:E; [reflexivity|].
  pose proof (skip_ws_suffix i) as [w Hw]. rewrite E in Hw. unfold ch, one_of.
  destruct (N.eqb_spec 40 c) as [<-|Hne]; [|reflexivity]. destruct H. rewrite Hw. apply in_or_app. right. left.
  reflexivity.
Qed.
Lemma still_open : forall A B (p : byte -> sparser A) (k : A -> sparser B),
  still (sbind (sbind (slift (ws (ch 40))) p) k).
Proof.
  intros A B p k s i _ Hi. unfold sbind, slift. rewrite no_paren by exact Hi. reflexivity.
Qed.

Section Still.
  Variable O : oracles.

  Lemma still_sub_singleton : still (sub_singleton O).
  Proof. apply (still_lift _ (sm_checked O)), pok_map, singleton_parsed_checked. Qed.
  Lemma still_tok : forall t, still (slift (tok t)).
  Proof. intros t. eapply still_lift, pok_tok. Qed.
  Lemma still_ws_tok : forall t, still (slift (ws (tok t))).
  Proof. intros t. eapply still_lift, pok_ws, pok_tok. Qed.
  Lemma still_ws_ch : forall c, still (slift (ws (ch c))).
  Proof. intros t. eapply still_lift, pok_ws, pok_ch. Qed.
  Lemma still_xor_tok : still (slift (alt (tok (lit "^")) (tok (lit "XOR")))).
  Proof. eapply still_lift, pok_alt; apply pok_tok. Qed.
  Hint Resolve still_sub_singleton still_tok still_ws_tok still_ws_ch still_xor_tok : core.

  Section Knot.
    Variable g t : sparser subfield_matcher.
    Hypothesis Hg : still g.
    Hypothesis Ht : still t.
    Lemma still_sub_and : still (sub_and O g t).
    Proof. apply still_operands; auto. apply still_ws. repeat apply still_alt; auto. Qed.
    Lemma still_sub_xor : still (sub_xor O g t).
    Proof.
      apply still_operands; auto. apply still_ws. repeat apply still_alt; auto using still_sub_and.
    Qed.
    Lemma still_sub_or : still (sub_or O g t).
    Proof.
      apply still_operands; auto. apply still_ws. repeat apply still_alt;
        auto using still_sub_and, still_sub_xor.
    Qed.
    Lemma still_sub_composite : still (sub_composite O g t).
    Proof. repeat apply still_alt; auto using still_sub_and, still_sub_xor, still_sub_or. Qed.
    Lemma still_sub_group : still (sub_group_body O g t).
    Proof. apply still_map. unfold sdelim. apply still_open. Qed.
    Lemma still_sub_not : still (sub_not_body g t).
    Proof.
      apply still_map, still_preceded; auto. repeat apply still_alt; auto.
      apply (still_lift _ (sm_checked O)), pok_map, exists_checked.
    Qed.
  End Knot.

  Lemma still_sub_gn : forall n, still (fst (sub_gn O n)) /\ still (snd (sub_gn O n)).
  Proof.
    induction n as [|n IH]; [split; apply still_fuel|].
    cbn [sub_gn]. destruct (sub_gn O n) as [g t]. cbn [fst snd] in *. destruct IH as [Hg Ht].
    split; [apply still_sub_group|apply still_sub_not; assumption].
  Qed.

  Lemma still_subfield : still (parse_subfield_matcher O).
  Proof.
    intros s i Cs Hi. unfold parse_subfield_matcher.
    destruct (sub_gn O (S (length i))) as [g t] eqn:E.
    pose proof (still_sub_gn (S (length i))) as H. rewrite E in H. cbn [fst snd] in H.
    destruct H as [Hg Ht].
    assert (H : still (salt (sub_composite O g t) (salt (sub_singleton O) (salt g t)))).
    { repeat apply still_alt; auto using still_sub_composite, still_sub_or, still_sub_xor, still_sub_and. }
    specialize (H s i Cs Hi). destruct (salt _ _ s i) as [[m r| |] s']; [|exact H..].
    destruct H as [-> H]. split; [|exact H]. destruct Cs as [C1 C2]. destruct s as [a b c]. cbn in *.
    unfold sub_reset. cbn. rewrite C1. reflexivity.
  Qed.

  Lemma still_braced : still (s_braced O).
  Proof. apply still_delim; auto using still_subfield. Qed.
  Lemma still_f_bracket : still (parse_f_bracket O).
  Proof.
    unfold parse_f_bracket. apply still_taken.
    apply still_bind; [eapply still_lift, opt_quant_pok|]. intros q.
    apply still_bind; [eapply still_lift, pok_tag_matcher|]. intros t.
    apply still_bind; [eapply still_lift, pok_occ_matcher|]. intros o.
    apply still_map, still_braced.
  Qed.
  Lemma still_f_singleton : still (f_singleton O).
  Proof.
    unfold f_singleton. apply still_map. unfold parse_f_singleton. repeat apply still_alt.
    - eapply still_lift, (f_exists_checked O).
    - eapply still_lift, (f_dot_checked O).
    - apply still_f_bracket.
  Qed.
  Lemma still_f_card : still (parse_f_card O).
  Proof.
    unfold parse_f_card. apply still_taken, still_preceded; [auto|].
    apply still_bind; [eapply still_lift, pok_ws, pok_tag_matcher|]. intros t.
    apply still_bind; [eapply still_lift, pok_ws, pok_occ_matcher|]. intros o.
    apply still_bind; [apply still_opt, still_braced|]. intros m.
    apply still_bind.
    { apply (still_lift _ (fun _ => True)). eapply pok_verify; [apply pok_ws, pok_rel_op|]. auto. }
    intros op. apply still_map. eapply still_lift, pok_usize.
  Qed.
  Lemma still_f_exists : still (slift f_exists).
  Proof. eapply still_lift, (f_exists_ok O). Qed.
  Hint Resolve still_f_singleton still_f_card still_f_exists : core.

  Section FKnot.
    Variable g t : sparser field_matcher.
    Hypothesis Hg : still g.
    Hypothesis Ht : still t.
    Lemma still_f_atoms : still (f_atoms O g t).
    Proof. unfold f_atoms. repeat apply still_alt; auto. Qed.
    Lemma still_f_and : still (f_and O g t).
    Proof. apply still_operands; auto. apply still_ws, still_f_atoms. Qed.
    Lemma still_f_xor : still (f_xor O g t).
    Proof.
      apply still_operands; auto. apply still_ws. apply still_alt; auto using still_f_and, still_f_atoms.
    Qed.
    Lemma still_f_or : still (f_or O g t).
    Proof.
      apply still_operands; auto. apply still_ws.
      apply still_alt; [|apply still_alt]; auto using still_f_and, still_f_xor, still_f_atoms.
    Qed.
    Lemma still_f_composite : still (f_composite O g t).
    Proof. repeat apply still_alt; auto using still_f_or, still_f_xor, still_f_and. Qed.
    Lemma still_f_group : still (f_group_body O g t).
    Proof. apply still_map. unfold sdelim. apply still_open. Qed.
    Lemma still_f_not : still (f_not_body O g t).
    Proof.
      apply still_map, still_preceded; auto. repeat apply still_alt; auto.
      apply still_map, still_f_bracket.
    Qed.
  End FKnot.

  Lemma still_field_gn : forall n, still (fst (field_gn O n)) /\ still (snd (field_gn O n)).
  Proof.
    induction n as [|n IH]; [split; apply still_fuel|].
    cbn [field_gn]. destruct (field_gn O n) as [g t]. cbn [fst snd] in *. destruct IH as [Hg Ht].
    split; [apply still_f_group|apply still_f_not; assumption].
  Qed.

  Lemma still_field : still (parse_field_matcher O).
  Proof.
    intros s i Cs Hi. unfold parse_field_matcher.
    destruct (field_gn O (S (length i))) as [g t] eqn:E.
    pose proof (still_field_gn (S (length i))) as H. rewrite E in H. cbn [fst snd] in H.
    destruct H as [Hg Ht].
    assert (H : still (sws (salt (f_composite O g t) (salt g (salt t (salt (f_singleton O) (parse_f_card O))))))).
    { apply still_ws. repeat apply still_alt; auto using still_f_or, still_f_xor, still_f_and. }
    specialize (H s i Cs Hi). destruct (sws _ s i) as [[m r| |] s']; [|exact H..].
    destruct H as [-> H]. split; [|exact H]. destruct Cs as [C1 C2]. destruct s as [a b c]. cbn in *.
    unfold field_reset. cbn. rewrite C2. reflexivity.
  Qed.

  Lemma still_new : forall A (p : sparser A) s t, still p -> calm s -> ~ In 40 t -> snd (sparse_all p s t) = s.
  Proof.
    intros A p s t H Cs Ht. unfold sparse_all. specialize (H s t Cs Ht).
    destruct (p s t) as [[a [|c r]| |] s']; try exact H; exact (proj1 H).
  Qed.

  (** ** histories *)

  (** a text without "(", or a matcher within the limits *)
  Definition harmless (t : bytes) : Prop :=
    ~ In 40 t \/ exists P n, record_matcher_text O true t P n /\ n < 256.

  Lemma harmless_stays : forall s t, calm s -> harmless t -> snd (field_matcher_new O s t) = s.
  Proof.
    intros s t Cs [H|(P & n & H & Hn)].
    - apply still_new; auto using still_field.
    - destruct (field_accepts O t P n s H (proj1 Cs) (proj2 Cs) Hn) as (m & -> & _). reflexivity.
  Qed.

  Lemma history_stays : forall history s, calm s -> Forall harmless history ->
    fold_left (fun s e => snd (field_matcher_new O s e)) history s = s.
  Proof.
    induction history as [|e h IH]; intros s Cs H; [reflexivity|]. inversion H; subst. cbn [fold_left].
    rewrite harmless_stays by assumption. apply IH; assumption.
  Qed.

  Lemma history_harmless : forall history t, Forall harmless history ->
    field_matcher_new O (fold_left (fun s e => snd (field_matcher_new O s e)) history fresh) t
    = field_matcher_new O fresh t.
  Proof. intros history t H. rewrite history_stays; [reflexivity|split; reflexivity|exact H]. Qed.
End Still.

(** * An accepted text resets the counters *)

From Coq Require Import String.
From Verif Require Import Bytes Winnow StrParserModel TagOccModel MatcherModel StateParser MatcherParserModel
  StateParserProofs MatcherParserProofs GrammarSpec GrammarExprProofs GrammarSubProofs GrammarFieldProofs GrammarStateProofs.

Section Alike.
  (** a counter, and bytes that do not occur in the input *)
  Variable key : levels -> N.
  Variable bad : byte -> Prop.

  Definition clean (i : bytes) : Prop := forall c, bad c -> ~ In c i.

  (** the result depends on the state only by the counter *)
  Definition alike {A} (p : sparser A) : Prop := forall s1 s2 i, key s1 = key s2 -> clean i ->
    match p s1 i, p s2 i with
    | (POk a r, s1'), (POk b r', s2') => a = b /\ r = r' /\ key s1' = key s2' /\ clean r
    | (PErr, s1'), (PErr, s2') => key s1' = key s2'
    | (PFuel, s1'), (PFuel, s2') => key s1' = key s2'
    | _, _ => False
    end.

  Ltac two H Hk Hi := let s1 := fresh "s" in let s2 := fresh "s" in
    specialize (H _ _ _ Hk Hi);
    match type of H with match ?x with _ => _ end => destruct x as [[? ?| |] s1] end;
    match type of H with match ?x with _ => _ end => destruct x as [[? ?| |] s2] end; try tauto.

  Lemma clean_suffix : forall r i, suffix r i -> clean i -> clean r.
  Proof. intros r i H C c Hc. eapply suffix_in; [exact H|apply C, Hc]. Qed.

  Lemma alike_lift : forall A (P : A -> Prop) p, pok P p -> alike (slift p).
  Proof.
    intros A P p H s1 s2 i Hk Hi. unfold slift. destruct (p i) as [[a r]|] eqn:E; [|exact Hk].
    repeat split; auto. apply H in E as [_ E]. eapply clean_suffix; eassumption.
  Qed.
  Lemma alike_fuel : forall A, alike (@sfuel A).
  Proof. intros A s1 s2 i H _. exact H. Qed.
  Lemma alike_map : forall A B (f : A -> B) p, alike p -> alike (smap f p).
  Proof. intros A B f p H s1 s2 i Hk Hi. unfold smap. two H Hk Hi. destruct H as (-> & H). auto. Qed.
  Lemma alike_bind : forall A B p (k : A -> sparser B), alike p -> (forall a, alike (k a)) -> alike (sbind p k).
  Proof.
    intros A B p k H H' s1 s2 i Hk Hi. unfold sbind. two H Hk Hi. destruct H as (-> & -> & H1 & H2). apply H'; assumption.
  Qed.
  Lemma alike_ret : forall A (a : A), alike (sret a).
  Proof. intros A a s1 s2 i Hk Hi. repeat split; assumption. Qed.
  Lemma alike_alt : forall A (p q : sparser A), alike p -> alike q -> alike (salt p q).
  Proof. intros A p q H Hq s1 s2 i Hk Hi. unfold salt. two H Hk Hi. apply Hq; assumption. Qed.
  Lemma alike_opt : forall A (p : sparser A), alike p -> alike (sopt p).
  Proof. intros A p H s1 s2 i Hk Hi. unfold sopt. two H Hk Hi. destruct H as (-> & H). auto. Qed.
  Lemma alike_ws : forall A (p : sparser A), alike p -> alike (sws p).
  Proof.
    intros A p H s1 s2 i Hk Hi. unfold sws. pose proof (clean_suffix _ _ (skip_ws_suffix i) Hi) as Hi'. two H Hk Hi'.
    destruct H as (-> & -> & H1 & H2). repeat split; auto. exact (clean_suffix _ _ (skip_ws_suffix _) H2).
  Qed.
  Lemma alike_preceded : forall A B (p : sparser A) (q : sparser B), alike p -> alike q -> alike (spreceded p q).
  Proof. intros A B p q H Hq. apply alike_bind; auto. Qed.
  Lemma alike_delim : forall A B C (p : sparser A) (q : sparser B) (e : sparser C),
    alike p -> alike q -> alike e -> alike (sdelim p q e).
  Proof.
    intros A B C p q e Hp Hq He. apply alike_bind; [exact Hp|]. intros _. apply alike_bind; [exact Hq|].
    intros b. apply alike_bind; [exact He|]. intros _. apply alike_ret.
  Qed.
  Lemma alike_taken : forall A B (f : A -> bytes -> B) p, alike p -> alike (staken f p).
  Proof. intros A B f p H s1 s2 i Hk Hi. unfold staken. two H Hk Hi. destruct H as (-> & -> & H). auto. Qed.
  Lemma alike_repeat0 : forall A (p : sparser A), alike p -> forall n, alike (fun s i => srepeat0_fuel n p s i).
  Proof.
    intros A p H. induction n as [|n IH]; intros s1 s2 i Hk Hi; cbn [srepeat0_fuel]; [exact Hk|].
    two H Hk Hi. destruct H as (-> & -> & H1 & H2). destruct (Nat.eqb _ (length i)); [exact H1|].
    two IH H1 H2. destruct IH as (-> & IH). auto.
  Qed.
  Lemma alike_repeat1 : forall A (p : sparser A), alike p -> alike (srepeat1 p).
  Proof.
    intros A p H. apply alike_bind; [exact H|]. intros a. apply alike_map.
    intros s1 s2 i. apply (alike_repeat0 A p H (S (length i)) s1 s2 i).
  Qed.
  Lemma alike_operands : forall A B (f : A * list A -> B) (a : sparser A) t, alike a -> alike t ->
    alike (smap f (s_operands a t)).
  Proof.
    intros A B f a t Ha Ht. apply alike_map, alike_bind; [exact Ha|]. intros h. apply alike_map.
    apply alike_repeat1, alike_preceded; assumption.
  Qed.
  Lemma alike_tok : forall t, alike (slift (tok t)).
  Proof. intros t. eapply alike_lift, pok_tok. Qed.
  Lemma alike_ws_tok : forall t, alike (slift (ws (tok t))).
  Proof. intros t. eapply alike_lift, pok_ws, pok_tok. Qed.
  Lemma alike_ws_ch : forall c, alike (slift (ws (ch c))).
  Proof. intros t. eapply alike_lift, pok_ws, pok_ch. Qed.
  Lemma alike_xor_tok : alike (slift (alt (tok (lit "^")) (tok (lit "XOR")))).
  Proof. eapply alike_lift, pok_alt; apply pok_tok. Qed.
End Alike.

Section Recover.
  Variable O : oracles.

  Section Sub.
    Variable bad : byte -> Prop.
    Notation alike := (alike lv_sub bad).

    Lemma alike_sub_singleton : alike (sub_singleton O).
    Proof. apply (alike_lift _ _ _ (sm_checked O)), pok_map, singleton_parsed_checked. Qed.
    Lemma alike_sub_inc : alike sub_inc.
    Proof.
      intros s1 s2 i Hk Hi. unfold sub_inc. cbv zeta. rewrite Hk.
      destruct (_ <=? _); cbn [lv_sub]; auto.
    Qed.
    Hint Resolve alike_sub_singleton alike_tok alike_ws_tok alike_ws_ch alike_xor_tok alike_sub_inc : core.

    Section Knot.
      Variable g t : sparser subfield_matcher.
      Hypothesis Hg : alike g.
      Hypothesis Ht : alike t.
      Lemma alike_sub_and : alike (sub_and O g t).
      Proof. apply alike_operands; auto. apply alike_ws. repeat apply alike_alt; auto. Qed.
      Lemma alike_sub_xor : alike (sub_xor O g t).
      Proof. apply alike_operands; auto. apply alike_ws. repeat apply alike_alt; auto using alike_sub_and. Qed.
      Lemma alike_sub_or : alike (sub_or O g t).
      Proof. apply alike_operands; auto. apply alike_ws. repeat apply alike_alt; auto using alike_sub_and, alike_sub_xor. Qed.
      Lemma alike_sub_composite : alike (sub_composite O g t).
      Proof. repeat apply alike_alt; auto using alike_sub_and, alike_sub_xor, alike_sub_or. Qed.
      Lemma alike_sub_group : alike (sub_group_body O g t).
      Proof.
        apply alike_map, alike_delim; auto.
        - apply alike_bind; auto.
        - repeat apply alike_alt; auto using alike_sub_and, alike_sub_xor, alike_sub_or.
      Qed.
      Lemma alike_sub_not : alike (sub_not_body g t).
      Proof.
        apply alike_map, alike_preceded; auto. repeat apply alike_alt; auto.
        apply (alike_lift _ _ _ (sm_checked O)), pok_map, exists_checked.
      Qed.
    End Knot.

    Lemma alike_sub_gn : forall n, alike (fst (sub_gn O n)) /\ alike (snd (sub_gn O n)).
    Proof.
      induction n as [|n IH]; [split; apply alike_fuel|].
      cbn [sub_gn]. destruct (sub_gn O n) as [g t]. cbn [fst snd] in *. destruct IH as [Hg Ht].
      split; [apply alike_sub_group|apply alike_sub_not]; assumption.
    Qed.

    Lemma alike_subfield : alike (parse_subfield_matcher O).
    Proof.
      intros s1 s2 i Hk Hi. unfold parse_subfield_matcher.
      destruct (sub_gn O (S (length i))) as [g t] eqn:E.
      pose proof (alike_sub_gn (S (length i))) as H. rewrite E in H. cbn [fst snd] in H. destruct H as [Hg Ht].
      assert (H : alike (salt (sub_composite O g t) (salt (sub_singleton O) (salt g t)))).
      { repeat apply alike_alt; auto using alike_sub_composite, alike_sub_or, alike_sub_xor, alike_sub_and. }
      specialize (H s1 s2 i Hk Hi).
      destruct (salt _ _ s1 i) as [[m r| |] s1'], (salt _ _ s2 i) as [[m' r'| |] s2']; try tauto.
    Qed.
  End Sub.

  Lemma new_alike : forall A key (p : sparser A) s1 s2 t, alike key (fun _ => False) p -> key s1 = key s2 ->
    fst (sparse_all p s1 t) = fst (sparse_all p s2 t).
  Proof.
    intros A key p s1 s2 t H Hk. unfold sparse_all. specialize (H s1 s2 t Hk (fun _ F => match F with end)).
    destruct (p s1 t) as [[a [|c r]| |] s1'], (p s2 t) as [[a' [|c' r']| |] s2']; try tauto; destruct H as (Ha & E & _); subst; try discriminate; reflexivity.
  Qed.

  (** after an accepted subfield matcher, subfield matchers are parsed as by a
      new thread *)
  Lemma subfield_recovers : forall s e m s' t, subfield_matcher_new O s e = (Some (Some m), s') ->
    fst (subfield_matcher_new O s' t) = fst (subfield_matcher_new O fresh t).
  Proof.
    intros s e m s' t H. apply (new_alike _ lv_sub); [apply alike_subfield|].
    unfold subfield_matcher_new, sparse_all, parse_subfield_matcher in H.
    destruct (sub_gn O (S (length e))) as [g u]. destruct (salt _ _ s e) as [[a [|c r]| |] s1]; try discriminate.
    injection H as _ <-. reflexivity.
  Qed.

  Section Field.
    Notation brace := (fun c => c = 123).
    Notation alike := (alike lv_field brace).

    Lemma no_brace : forall i, clean brace i -> ws (ch 123) i = None.
    Proof.
      intros i H. unfold ws. destruct (skip_ws i) as [|c r] eqn:E; [reflexivity|].
      pose proof (skip_ws_suffix i) as [w Hw]. rewrite E in Hw. unfold ch, one_of.
      destruct (N.eqb_spec 123 c) as [<-|Hne]; [|reflexivity]. destruct (H 123 eq_refl). rewrite Hw. apply in_or_app. right. left.
      reflexivity.
    Qed.
    Lemma alike_braced : alike (s_braced O).
    Proof. intros s1 s2 i Hk Hi. unfold s_braced, sdelim, sbind, slift. rewrite no_brace by exact Hi. exact Hk. Qed.
    Lemma alike_f_bracket : alike (parse_f_bracket O).
    Proof.
      unfold parse_f_bracket. apply alike_taken.
      apply alike_bind; [eapply alike_lift, opt_quant_pok|]. intros q.
      apply alike_bind; [eapply alike_lift, pok_tag_matcher|]. intros t.
      apply alike_bind; [eapply alike_lift, pok_occ_matcher|]. intros o.
      apply alike_map, alike_braced.
    Qed.
    Lemma alike_f_singleton : alike (f_singleton O).
    Proof.
      unfold f_singleton. apply alike_map. unfold parse_f_singleton. repeat apply alike_alt.
      - eapply alike_lift, (f_exists_checked O).
      - eapply alike_lift, (f_dot_checked O).
      - apply alike_f_bracket.
    Qed.
    Lemma alike_f_card : alike (parse_f_card O).
    Proof.
      unfold parse_f_card. apply alike_taken, alike_preceded; [apply alike_ws_ch|].
      apply alike_bind; [eapply alike_lift, pok_ws, pok_tag_matcher|]. intros t.
      apply alike_bind; [eapply alike_lift, pok_ws, pok_occ_matcher|]. intros o.
      apply alike_bind; [apply alike_opt, alike_braced|]. intros m.
      apply alike_bind.
      { apply (alike_lift _ _ _ (fun _ => True)). eapply pok_verify; [apply pok_ws, pok_rel_op|]. auto. }
      intros op. apply alike_map. eapply alike_lift, pok_usize.
    Qed.
    Lemma alike_f_exists : alike (slift f_exists).
    Proof. eapply alike_lift, (f_exists_ok O). Qed.
    Lemma alike_f_inc : alike field_inc.
    Proof.
      intros s1 s2 i Hk Hi. unfold field_inc. cbv zeta. rewrite Hk.
      destruct (_ <=? _); cbn [lv_field]; auto.
    Qed.
    Hint Resolve alike_f_singleton alike_f_card alike_f_exists alike_f_inc alike_tok alike_ws_tok alike_ws_ch alike_xor_tok : core.

    Section FKnot.
      Variable g t : sparser field_matcher.
      Hypothesis Hg : alike g.
      Hypothesis Ht : alike t.
      Lemma alike_f_atoms : alike (f_atoms O g t).
      Proof. unfold f_atoms. repeat apply alike_alt; auto. Qed.
      Lemma alike_f_and : alike (f_and O g t).
      Proof. apply alike_operands; auto. apply alike_ws, alike_f_atoms. Qed.
      Lemma alike_f_xor : alike (f_xor O g t).
      Proof. apply alike_operands; auto. apply alike_ws. apply alike_alt; auto using alike_f_and, alike_f_atoms. Qed.
      Lemma alike_f_or : alike (f_or O g t).
      Proof.
        apply alike_operands; auto. apply alike_ws.
        apply alike_alt; [|apply alike_alt]; auto using alike_f_and, alike_f_xor, alike_f_atoms.
      Qed.
      Lemma alike_f_composite : alike (f_composite O g t).
      Proof. repeat apply alike_alt; auto using alike_f_or, alike_f_xor, alike_f_and. Qed.
      Lemma alike_f_close : alike f_close.
      Proof.
        intros s1 s2 i Hk Hi. unfold f_close. pose proof (alike_ws_ch lv_field brace 41 s1 s2 i Hk Hi) as H. unfold slift in H.
        destruct (ws (ch 41) i) as [[c r]|]; [|exact Hk]. destruct H as (_ & _ & _ & H).
        repeat split; auto. unfold field_dec. cbn [lv_field]. rewrite Hk. reflexivity.
      Qed.
      Lemma alike_f_group : alike (f_group_body O g t).
      Proof.
        apply alike_map, alike_delim; auto using alike_f_close.
        - apply alike_bind; auto.
        - repeat apply alike_alt; auto using alike_f_or, alike_f_xor, alike_f_and, alike_f_atoms.
      Qed.
      Lemma alike_f_not : alike (f_not_body O g t).
      Proof.
        apply alike_map, alike_preceded; auto. repeat apply alike_alt; auto. apply alike_map, alike_f_bracket.
      Qed.
    End FKnot.

    Lemma alike_field_gn : forall n, alike (fst (field_gn O n)) /\ alike (snd (field_gn O n)).
    Proof.
      induction n as [|n IH]; [split; apply alike_fuel|].
      cbn [field_gn]. destruct (field_gn O n) as [g t]. cbn [fst snd] in *. destruct IH as [Hg Ht].
      split; [apply alike_f_group|apply alike_f_not]; assumption.
    Qed.

    Lemma alike_field : alike (parse_field_matcher O).
    Proof.
      intros s1 s2 i Hk Hi. unfold parse_field_matcher.
      destruct (field_gn O (S (length i))) as [g t] eqn:E.
      pose proof (alike_field_gn (S (length i))) as H. rewrite E in H. cbn [fst snd] in H. destruct H as [Hg Ht].
      assert (H : alike (sws (salt (f_composite O g t) (salt g (salt t (salt (f_singleton O) (parse_f_card O))))))).
      { apply alike_ws. repeat apply alike_alt; auto using alike_f_or, alike_f_xor, alike_f_and. }
      specialize (H s1 s2 i Hk Hi).
      destruct (sws _ s1 i) as [[m r| |] s1'], (sws _ s2 i) as [[m' r'| |] s2']; try tauto.
    Qed.
  End Field.

  (** after an accepted record matcher, record matchers without braces are
      parsed as by a new thread *)
  Lemma field_recovers : forall s e m s' t, field_matcher_new O s e = (Some (Some m), s') -> ~ In 123 t ->
    fst (field_matcher_new O s' t) = fst (field_matcher_new O fresh t).
  Proof.
    intros s e m s' t H Ht. assert (Hk : lv_field s' = lv_field fresh).
    { unfold field_matcher_new, sparse_all, parse_field_matcher in H.
      destruct (field_gn O (S (length e))) as [g u]. destruct (sws _ s e) as [[a [|c r]| |] s1]; try discriminate.
      injection H as _ <-. reflexivity. }
    unfold field_matcher_new, sparse_all.
    pose proof (alike_field s' fresh t Hk) as A. specialize (A (fun c Hc => eq_ind_r (fun c => ~ In c t) Ht Hc)).
    destruct (parse_field_matcher O s' t) as [[a [|c r]| |] s1'], (parse_field_matcher O fresh t) as [[a' [|c' r']| |] s2'];
      try tauto; destruct A as (Ha & E & _); subst; try discriminate; reflexivity.
  Qed.
End Recover.

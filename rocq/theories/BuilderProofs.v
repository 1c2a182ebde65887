(** * The record matcher builder: proofs *)

From Verif Require Import Bytes Winnow RecordModel MatcherModel StateParser MatcherParserModel
  BuilderModel BuilderSpec MatcherSpec BaseProofs MatcherProofs.

Section Builder.
  Variable O : oracles.
  Variable tr : bytes -> bytes.

  Definition eval_items (ci : bool) (r : list field) (ms : list (kind * field_matcher))
    (bs : list bool) : Prop :=
    Forall2 (fun km b => fm_is_match O ci (snd km) r = Some b) ms bs.

  Definition items_read (items : list (kind * bytes)) (ms : list (kind * field_matcher)) : Prop :=
    Forall2 (fun ke km => fst ke = fst km /\ reads_as O (tr (snd ke)) (snd km)) items ms.

  Definition means (m0 m : field_matcher) (ms : list (kind * field_matcher)) : Prop :=
    forall ci r b0 bs,
      fm_is_match O ci m0 r = Some b0 -> eval_items ci r ms bs ->
      fm_is_match O ci m r = Some (fold_left combine_bool (combine (map fst ms) bs) b0).

  Definition op_of (k : kind) : field_matcher -> field_matcher -> field_matcher :=
    match k with
    | KAnd => fm_and_assign
    | KOr => fm_or_assign
    | KNot => fun a b => fm_and_assign a (fm_not b)
    end.

  Lemma op_of_eval : forall k ci r a b x y,
    fm_is_match O ci a r = Some x -> fm_is_match O ci b r = Some y ->
    fm_is_match O ci (op_of k a b) r = Some (combine_bool x (k, y)).
  Proof.
    intros k ci r a b x y Ha Hb. destruct (fm_ops_eval O ci a b r x y Ha Hb) as (H1 & H2 & H3 & H4 & _).
    destruct k; cbn [op_of combine_bool fst snd]; auto.
    assert (Hn : fm_is_match O ci (fm_not b) r = Some (negb y)).
    { rewrite fm_not_eval, Hb. reflexivity. }
    destruct (fm_ops_eval O ci a (fm_not b) r x (negb y) Ha Hn) as (_ & H & _). exact H.
  Qed.

  Lemma builder_fold_inv : forall k l m s m' s',
    builder_fold O tr (op_of k) l m s = (Some (Some m'), s') ->
    exists ms, items_read (map (pair k) l) ms /\ means m m' ms.
  Proof.
    intros k. induction l as [|e l IH]; intros m s m' s' H; cbn [builder_fold map] in *.
    - injection H as <- <-. exists []. split; [constructor|].
      intros ci r b0 bs Hb0 Hbs. inversion Hbs; subst. exact Hb0.
    - unfold and_then in H. destruct (field_matcher_new O s (tr e)) as [[[m1|]|] s1] eqn:E; try discriminate.
      apply IH in H as (ms & Hr & Hm). exists ((k, m1) :: ms). split.
      + constructor; [|exact Hr]. cbn. split; [reflexivity|]. exists s, s1. exact E.
      + intros ci r b0 bs Hb0 Hbs. inversion Hbs as [|km b ms' bs' H1 H2 E1 E2]; subst. cbn in H1.
        cbn [map combine fold_left fst]. apply Hm; [|exact H2]. apply op_of_eval; assumption.
  Qed.

  Lemma builder_step_eq : forall c m s,
    exists k l, builder_step O tr c m s = builder_fold O tr (op_of k) l m s
             /\ call_items c = map (pair k) l.
  Proof.
    intros c m s. destruct c as [l|l|l].
    - exists KAnd, l. split; reflexivity.
    - exists KOr, l. split; reflexivity.
    - exists KNot, l. split; reflexivity.
  Qed.

  Lemma means_app : forall m0 m1 m2 ms1 ms2,
    means m0 m1 ms1 -> means m1 m2 ms2 -> means m0 m2 (ms1 ++ ms2).
  Proof.
    intros m0 m1 m2 ms1 ms2 H1 H2 ci r b0 bs Hb0 Hbs.
    apply Forall2_app_inv_l in Hbs as (bs1 & bs2 & Hb1 & Hb2 & ->).
    pose proof (H1 ci r b0 bs1 Hb0 Hb1) as E1. pose proof (H2 ci r _ bs2 E1 Hb2) as E2.
    rewrite E2. f_equal. rewrite map_app.
    rewrite <- fold_left_app. f_equal.
    assert (L : length (map fst ms1) = length bs1).
    { rewrite map_length. eapply Forall2_length. exact Hb1. }
    clear - L. revert bs1 L. induction (map fst ms1) as [|x l IH]; intros [|b bs1] L; cbn in *;
      try discriminate; [reflexivity|]. f_equal. apply IH. congruence.
  Qed.

  Lemma builder_calls_inv : forall cs m s m' s',
    builder_calls O tr cs m s = (Some (Some m'), s') ->
    exists ms, items_read (flat_map call_items cs) ms /\ means m m' ms.
  Proof.
    induction cs as [|c cs IH]; intros m s m' s' H; cbn [builder_calls flat_map] in *.
    - injection H as <- <-. exists []. split; [constructor|].
      intros ci r b0 bs Hb0 Hbs. inversion Hbs; subst. exact Hb0.
    - unfold and_then in H. destruct (builder_step O tr c m s) as [[[m1|]|] s1] eqn:E; try discriminate.
      destruct (builder_step_eq c m s) as (k & l & Hs & Hi). rewrite Hs in E.
      apply builder_fold_inv in E as (ms1 & Hr1 & Hm1).
      apply IH in H as (ms2 & Hr2 & Hm2). exists (ms1 ++ ms2). split.
      + rewrite Hi. apply Forall2_app; assumption.
      + eapply means_app; eassumption.
  Qed.

  Lemma builder_run_inv : forall s e cs m s',
    builder_run O tr s e cs = (Some (Some m), s') ->
    exists m0 ms, reads_as O (tr e) m0 /\ items_read (flat_map call_items cs) ms /\ means m0 m ms.
  Proof.
    intros s e cs m s' H. unfold builder_run, and_then, builder_new in H.
    destruct (field_matcher_new O s (tr e)) as [[[m0|]|] s1] eqn:E; try discriminate.
    apply builder_calls_inv in H as (ms & Hr & Hm). exists m0, ms.
    split; [exists s, s1; exact E|]. auto.
  Qed.

  (** the command line: AND, OR, NOT lists after the first expression *)
  Lemma fold_ands : forall bs b0,
    fold_left combine_bool (map (pair KAnd) bs) b0 = b0 && forallb (fun b => b) bs.
  Proof.
    induction bs as [|b bs IH]; intros b0; cbn; [rewrite andb_true_r; reflexivity|].
    rewrite IH. unfold combine_bool. cbn. rewrite andb_assoc. reflexivity.
  Qed.
  Lemma fold_ors : forall bs b0,
    fold_left combine_bool (map (pair KOr) bs) b0 = b0 || existsb (fun b => b) bs.
  Proof.
    induction bs as [|b bs IH]; intros b0; cbn; [rewrite orb_false_r; reflexivity|].
    rewrite IH. unfold combine_bool. cbn. rewrite orb_assoc. reflexivity.
  Qed.
  Lemma fold_nots : forall bs b0,
    fold_left combine_bool (map (pair KNot) bs) b0 = b0 && negb (existsb (fun b => b) bs).
  Proof.
    induction bs as [|b bs IH]; intros b0; cbn; [rewrite andb_true_r; reflexivity|].
    rewrite IH. unfold combine_bool. cbn. rewrite negb_orb, andb_assoc. reflexivity.
  Qed.

  Lemma combine_kinds : forall (k : kind) (ms : list field_matcher) (bs : list bool), length ms = length bs ->
    combine (map fst (map (pair k) ms)) bs = map (pair k) bs.
  Proof.
    intros k. induction ms as [|m ms IH]; intros [|b bs] H; cbn in *; try discriminate; [reflexivity|].
    f_equal. apply IH. congruence.
  Qed.

  Lemma items_read_kind : forall k l ms, items_read (map (pair k) l) ms ->
    exists l', ms = map (pair k) l' /\ Forall2 (fun e m => reads_as O (tr e) m) l l'.
  Proof.
    intros k. induction l as [|e l IH]; intros ms H; inversion H as [|ke km l1 ms' [H1 H2] H3 E1 E2]; subst.
    - exists []. split; [reflexivity|constructor].
    - cbn in H1, H2. destruct km as [k' m]. cbn in *. subst k'.
      apply IH in H3 as (l' & -> & Hl). exists (m :: l'). split; [reflexivity|constructor; assumption].
  Qed.

  Lemma filter_opts_inv : forall pred wh ands ors nots s m s',
    filter_opts_matcher O tr pred wh ands ors nots s = (Some (Some (Some m)), s') ->
    exists e m0 ma mo mn,
      (pred = Some e \/ (pred = None /\ wh = Some e))
      /\ reads_as O (tr e) m0
      /\ Forall2 (fun e m => reads_as O (tr e) m) ands ma
      /\ Forall2 (fun e m => reads_as O (tr e) m) ors mo
      /\ Forall2 (fun e m => reads_as O (tr e) m) nots mn
      /\ forall ci r b0 ba bo bn,
           fm_is_match O ci m0 r = Some b0 ->
           Forall2 (fun x b => fm_is_match O ci x r = Some b) ma ba ->
           Forall2 (fun x b => fm_is_match O ci x r = Some b) mo bo ->
           Forall2 (fun x b => fm_is_match O ci x r = Some b) mn bn ->
           fm_is_match O ci m r
           = Some (((b0 && forallb (fun b => b) ba) || existsb (fun b => b) bo)
                   && negb (existsb (fun b => b) bn)).
  Proof.
    intros pred wh ands ors nots s m s' H. unfold filter_opts_matcher in H.
    assert (exists e, (pred = Some e \/ (pred = None /\ wh = Some e))
      /\ and_then (builder_run O tr s e [CallAnd ands; CallOr ors; CallNot nots])
           (fun m s' => (Some (Some (Some m)), s')) = (Some (Some (Some m)), s')) as (e & He & H').
    { destruct pred as [e|]; [exists e; auto|]. destruct wh as [e|]; [exists e; auto|discriminate]. }
    clear H. unfold and_then in H'.
    destruct (builder_run O tr s e [CallAnd ands; CallOr ors; CallNot nots]) as [[[m1|]|] s1] eqn:E;
      try discriminate. injection H' as -> ->.
    apply builder_run_inv in E as (m0 & ms & H0 & Hr & Hm).
    cbn [flat_map call_items] in Hr. rewrite app_nil_r in Hr.
    apply Forall2_app_inv_l in Hr as (ms1 & ms23 & Hr1 & Hr23 & ->).
    apply Forall2_app_inv_l in Hr23 as (ms2 & ms3 & Hr2 & Hr3 & ->).
    apply items_read_kind in Hr1 as (ma & -> & Ha).
    apply items_read_kind in Hr2 as (mo & -> & Ho).
    apply items_read_kind in Hr3 as (mn & -> & Hn).
    exists e, m0, ma, mo, mn. repeat (split; [assumption|]).
    intros ci r b0 ba bo bn Hb0 Hba Hbo Hbn.
    specialize (Hm ci r b0 (ba ++ bo ++ bn) Hb0).
    rewrite Hm.
    - f_equal. rewrite !map_app.
      assert (C : forall A B (l1 l2 : list A) (k1 k2 : list B), length l1 = length k1 ->
        combine (l1 ++ l2) (k1 ++ k2) = combine l1 k1 ++ combine l2 k2).
      { clear. intros A B. induction l1 as [|x l1 IH]; intros l2 [|y k1] k2 L; cbn in *; try discriminate;
          [reflexivity|]. f_equal. apply IH. congruence. }
      rewrite C by (rewrite !map_length; eapply Forall2_length; eassumption).
      rewrite C by (rewrite !map_length; eapply Forall2_length; eassumption).
      rewrite !combine_kinds by (eapply Forall2_length; eassumption).
      rewrite !fold_left_app, fold_ands, fold_ors, fold_nots. reflexivity.
    - assert (M : forall k l bs, Forall2 (fun x b => fm_is_match O ci x r = Some b) l bs ->
                eval_items ci r (map (pair k) l) bs).
      { intros k l bs F. induction F as [|x b l bs Hx F IH]; constructor; assumption. }
      apply Forall2_app; [apply M; assumption|]. apply Forall2_app; apply M; assumption.
  Qed.
End Builder.

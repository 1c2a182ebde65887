(** * Printing a matcher and reading it again *)

From Coq Require Import String.
From Verif Require Import Bytes Winnow RecordModel RecordSpec BaseProofs Utf8Model Utf8Spec
  TagOccModel TagOccSpec TagOccProofs StrParserModel StrSpec StrProofs MatcherModel StateParser
  MatcherParserModel MatcherSpec MatcherProofs GrammarSpec GrammarExprProofs GrammarLeafProofs
  GrammarSingletonProofs GrammarCondProofs GrammarSubProofs GrammarFieldLeafProofs GrammarFieldProofs
  GrammarSoundProofs DisplaySpec.

Lemma conn_iff : forall op P P' Q Q', (P <-> P') -> (Q <-> Q') -> (connective op P Q <-> connective op P' Q').
Proof. intros op P P' Q Q' H1 H2. destruct op; cbn [connective]; rewrite H1, H2; reflexivity. Qed.

Lemma conn_assoc : forall op P Q R, P \/ ~ P -> Q \/ ~ Q -> R \/ ~ R ->
  (connective op (connective op P Q) R <-> connective op P (connective op Q R)).
Proof. intros op P Q R [HP|HP] [HQ|HQ] [HR|HR]; destruct op; cbn [connective]; tauto. Qed.

Section Display.
  Context {A B : Type}.
  Variable holds : A -> meaning B.
  Variable display : A -> bytes.
  Variable lt : kind -> bytes -> A -> Prop.
  Variable G Nt : A -> A.
  Variable C : A -> bool_op -> A -> A.
  Variable leaf : kind -> bytes -> meaning B -> N -> Prop.
  Variable up : N -> N.
  Variable join : N -> N -> N.
  Variable sh : A -> kind.
  Variable tame : A -> Prop.
  Variable size : A -> N.
  Hypothesis lt_display : forall k t a, lt k t a ->
    exists v1 t' v2, blanks v1 /\ blanks v2 /\ display a = v1 ++ t' ++ v2 /\ lt k t' a.
  Hypothesis display_G : forall a, display (G a) = lit "(" ++ display a ++ lit ")".
  Hypothesis display_N : forall a, display (Nt a) = lit "!" ++ display a.
  Hypothesis display_C : forall l op r,
    display (C l op r) = display l ++ lit " " ++ bool_op_display op ++ lit " " ++ display r.
  Hypothesis join_assoc : forall a b c, join a (join b c) = join (join a b) c.
  Hypothesis leaf_ok : forall k t a, lt k t a -> tame a -> exists P, leaf k t P (size a) /\ means holds a P.
  Hypothesis lt_shape : forall k t a, lt k t a -> is_atom (sh a) = true.
  Hypothesis lt_leaf : forall k t a b, lt k t a -> a <> G b /\ a <> Nt b.
  Hypothesis G_shape : forall a, is_atom (sh (G a)) = true /\ size (G a) = up (size a) /\ (tame (G a) -> tame a).
  Hypothesis N_shape : forall a, is_atom (sh (Nt a)) = true /\ size (Nt a) = size a /\ (tame (Nt a) -> tame a).
  Definition op_shape (op : bool_op) (k : kind) : kind :=
    match op with BAnd => KAnd | BOr => KOr | BXor => match k with KAnd | KXorN => KXorN | _ => KXorA end end.
  Hypothesis C_shape : forall l op r, sh (C l op r) = op_shape op (sh l)
    /\ size (C l op r) = join (size l) (size r) /\ (tame (C l op r) -> tame l /\ tame r)
    /\ (tame (C l op r) -> op = BOr -> sh l <> KXorN /\ sh r <> KXorN).
  Hypothesis G_means : forall a P, means holds a P -> means holds (G a) P.
  Hypothesis N_means : forall a P, means holds a P -> means holds (Nt a) (fun ci l => ~ P ci l).
  Hypothesis C_means : forall l op r ci x, holds (C l op r) ci x <-> connective op (holds l ci x) (holds r ci x).
  Hypothesis dec : forall a ci x, holds a ci x \/ ~ holds a ci x.

  Definition stands (a : A) : Prop :=
    (exists k t, is_atom k = true /\ alone k = true /\ lt k t a)
    \/ (exists b, a = G b) \/ (exists b, a = Nt b) \/ (exists l op r, a = C l op r).
  Definition negs (a : A) : Prop :=
    (exists k t, is_atom k = true /\ negatable k = true /\ lt k t a)
    \/ (exists b, a = G b) \/ (exists b, a = Nt b).
  Definition fits (op : bool_op) (a : A) : Prop :=
    match op with
    | BAnd => is_or (sh a) = false /\ is_xor (sh a) = false
    | BXor => is_or (sh a) = false
    | BOr => True
    end.

  Inductive formed : A -> Prop :=
  | formed_leaf : forall k t a, is_atom k = true -> lt k t a -> formed a
  | formed_group : forall a, stands a -> formed a -> formed (G a)
  | formed_not : forall a, negs a -> formed a -> formed (Nt a)
  | formed_op : forall l op r, fits op l -> fits op r -> formed l -> formed r -> formed (C l op r).

  Let ex := expr leaf up join true.

  Definition shape_of (k : kind) (a : A) : Prop := if is_atom k then is_atom (sh a) = true else sh a = k.

  Definition shown (K : kind -> bool) (a : A) : Prop :=
    exists k v1 c v2 P, K k = true /\ shape_of k a /\ blanks v1 /\ blanks v2 /\ display a = v1 ++ c ++ v2
      /\ ex k c P (size a) /\ means holds a P.

  Definition okl (op : bool_op) (k : kind) : bool :=
    match op with
    | BAnd => is_atom k || is_and k
    | BXor => is_atom k || is_and k || is_xor k
    | BOr => or_operand true k || is_or k
    end.
  Definition okr (op : bool_op) (k : kind) : bool :=
    match op with
    | BAnd => is_atom k
    | BXor => is_atom k || is_and k
    | BOr => or_operand true k
    end.

  Definition mconn (op : bool_op) (P Q : meaning B) : meaning B := fun ci x => connective op (P ci x) (Q ci x).

  Lemma one_step : forall op k1 k2 t1 w1 w2 t2 P1 P2 n1 n2,
    okl op k1 = true -> okr op k2 = true -> ex k1 t1 P1 n1 -> ex k2 t2 P2 n2 -> blanks w1 -> blanks w2 ->
    exists P, ex (op_shape op k1) (t1 ++ w1 ++ bool_op_display op ++ w2 ++ t2) P (join n1 n2)
      /\ forall ci x, P ci x <-> mconn op P1 P2 ci x.
  Proof.
    intros op k1 k2 t1 w1 w2 t2 P1 P2 n1 n2 K1 K2 H1 H2 W1 W2. destruct op; cbn [op_shape bool_op_display].
    - eexists. split; [apply (expr_and leaf up join true k1 k2); eassumption|]. intros ci x. reflexivity.
    - eexists. split; [apply (expr_or leaf up join true k1 k2); eassumption|]. intros ci x. reflexivity.
    - eexists. split; [apply (expr_xor leaf up join true k1 k2); try eassumption; constructor|]. intros ci x.
      unfold mconn, connective. tauto.
  Qed.

  Lemma okl_shape : forall op k, okl op k = true -> okl op (op_shape op k) = true.
  Proof. intros [] []; cbn; congruence. Qed.

  Lemma shape_idem : forall op k, op_shape op (op_shape op k) = op_shape op k.
  Proof. intros [] []; reflexivity. Qed.

  Lemma blank_one : blanks (lit " ").
  Proof. constructor; [|constructor]. left. reflexivity. Qed.

  Definition follows (r : A) : Prop := forall op, fits op r -> (op = BOr -> sh r <> KXorN) ->
    forall l k1 t1 P1 n1 w1 w2, okl op k1 = true -> ex k1 t1 P1 n1 -> means holds l P1 -> blanks w1 -> blanks w2 ->
    exists c v P, t1 ++ w1 ++ bool_op_display op ++ w2 ++ display r = c ++ v /\ blanks v
      /\ ex (op_shape op k1) c P (join n1 (size r)) /\ means holds (C l op r) P.

  Lemma follows_shown : forall op r, okr op (sh r) = true -> shown (fun _ => true) r ->
    forall l k1 t1 P1 n1 w1 w2, okl op k1 = true -> ex k1 t1 P1 n1 -> means holds l P1 -> blanks w1 -> blanks w2 ->
    exists c v P, t1 ++ w1 ++ bool_op_display op ++ w2 ++ display r = c ++ v /\ blanks v
      /\ ex (op_shape op k1) c P (join n1 (size r)) /\ means holds (C l op r) P.
  Proof.
    intros op r Hr (k & v1 & c & v2 & P & _ & Hs & V1 & V2 & Ed & He & Hm) l k1 t1 P1 n1 w1 w2 K1 H1 M1 W1 W2.
    assert (K2 : okr op k = true).
    { unfold shape_of in Hs. destruct (is_atom k) eqn:Ek.
      - destruct op; cbn [okr]; try rewrite Ek; try reflexivity. destruct k; discriminate || reflexivity.
      - rewrite <- Hs. exact Hr. }
    destruct (one_step op k1 k t1 w1 (w2 ++ v1) c P1 P n1 (size r)) as (Q & HQ & EQ);
      try assumption; [apply blanks_app; assumption|].
    exists (t1 ++ w1 ++ bool_op_display op ++ (w2 ++ v1) ++ c), v2, Q.
    split; [rewrite Ed; rewrite <- !app_assoc; reflexivity|]. split; [exact V2|]. split; [exact HQ|].
    intros ci x. rewrite C_means, EQ. unfold mconn. specialize (M1 ci x). specialize (Hm ci x).
    destruct op; cbn [connective]; tauto.
  Qed.

  Lemma assoc_means : forall op l r1 r2 P, means holds (C (C l op r1) op r2) P -> means holds (C l op (C r1 op r2)) P.
  Proof.
    intros op l r1 r2 P H ci x. rewrite <- (H ci x).
    rewrite (C_means (C l op r1) op r2 ci x), (C_means l op (C r1 op r2) ci x).
    rewrite (conn_iff op _ _ _ _ (C_means l op r1 ci x) (iff_refl _)).
    rewrite (conn_iff op _ _ _ _ (iff_refl _) (C_means r1 op r2 ci x)).
    symmetry. apply conn_assoc; apply dec.
  Qed.

  Lemma formed_shown : forall a, formed a -> tame a ->
    shown (fun _ => true) a /\ (stands a -> shown alone a) /\ (negs a -> shown negatable a) /\ follows a.
  Proof.
    assert (Leaf : forall (K : kind -> bool) k t a, K k = true -> is_atom k = true -> lt k t a -> tame a -> shown K a).
    { intros K k t a HK Hk Hl Ht. destruct (lt_display k t a Hl) as (v1 & t' & v2 & V1 & V2 & Ed & Hl').
      destruct (leaf_ok k t' a Hl' Ht) as (P & HP & Hm).
      exists k, v1, t', v2, P. split; [exact HK|]. split; [unfold shape_of; rewrite Hk; apply (lt_shape k t); exact Hl|].
      split; [exact V1|]. split; [exact V2|]. split; [exact Ed|]. split; [|exact Hm]. apply expr_leaf; assumption. }
    intros a H. induction H as [k t a Hk Hl|a Hst H IH|a Hn H IH|l op r F1 F2 H1 IH1 H2 IH2]; intros Ht.
    - assert (S0 : shown (fun _ => true) a) by (apply (Leaf _ k t); auto).
      pose proof (lt_shape _ _ _ Hl) as Sa.
      split; [exact S0|]. split; [|split].
      + intros [(k' & t' & A1 & A2 & A3)|[(b & Eb)|[(b & Eb)|(l & op & r & ->)]]].
        * apply (Leaf _ k' t'); assumption.
        * destruct (lt_leaf _ _ _ b Hl) as [X _]. contradiction.
        * destruct (lt_leaf _ _ _ b Hl) as [_ X]. contradiction.
        * destruct (C_shape l op r) as (Es & _). rewrite Es in Sa. destruct op; cbn in Sa; try discriminate.
          destruct (sh l); discriminate.
      + intros [(k' & t' & A1 & A2 & A3)|[(b & Eb)|(b & Eb)]].
        * apply (Leaf _ k' t'); assumption.
        * destruct (lt_leaf _ _ _ b Hl) as [X _]. contradiction.
        * destruct (lt_leaf _ _ _ b Hl) as [_ X]. contradiction.
      + intros op Hf Hx. apply follows_shown; [|exact S0].
        destruct (sh a), op; discriminate || reflexivity.
    - destruct (G_shape a) as (Sa & Es & Et). destruct (IH (Et Ht)) as (_ & IH2 & _).
      destruct (IH2 Hst) as (k & v1 & c & v2 & P & Hk & Hs & V1 & V2 & Ed & He & Hm).
      assert (SG : forall K : kind -> bool, K KGroup = true -> shown K (G a)).
      { intros K HK. exists KGroup, [], (lit "(" ++ v1 ++ c ++ v2 ++ lit ")"), [], P.
        split; [exact HK|]. split; [exact Sa|]. split; [constructor|]. split; [constructor|].
        split; [rewrite display_G, Ed, app_nil_r, <- !app_assoc; reflexivity|].
        split; [|apply G_means; exact Hm]. rewrite Es. apply (expr_group leaf up join true k); assumption. }
      split; [apply SG; reflexivity|]. split; [intros _; apply SG; reflexivity|].
      split; [intros _; apply SG; reflexivity|].
      intros op Hf Hx. apply follows_shown; [|apply SG; reflexivity].
      destruct (sh (G a)), op; discriminate || reflexivity.
    - destruct (N_shape a) as (Sa & Es & Et). destruct (IH (Et Ht)) as (_ & _ & IH2 & _).
      destruct (IH2 Hn) as (k & v1 & c & v2 & P & Hk & Hs & V1 & V2 & Ed & He & Hm).
      assert (SG : forall K : kind -> bool, K KNot = true -> shown K (Nt a)).
      { intros K HK. eexists KNot, [], (lit "!" ++ v1 ++ c), v2, _.
        split; [exact HK|]. split; [exact Sa|]. split; [constructor|]. split; [exact V2|].
        split; [rewrite display_N, Ed; cbn [app]; rewrite <- !app_assoc; reflexivity|].
        split; [|apply N_means; exact Hm]. rewrite Es. apply (expr_not leaf up join true k); assumption. }
      split; [apply SG; reflexivity|]. split; [intros _; apply SG; reflexivity|].
      split; [intros _; apply SG; reflexivity|].
      intros op Hf Hx. apply follows_shown; [|apply SG; reflexivity].
      destruct (sh (Nt a)), op; discriminate || reflexivity.
    - destruct (C_shape l op r) as (Sa & Es & Et & Ex). destruct (Et Ht) as [T1 T2].
      specialize (IH1 T1). specialize (IH2 T2). specialize (Ex Ht).
      destruct IH1 as ((k1 & v1 & c1 & v2 & P1 & _ & Hs1 & V1 & V2 & Ed1 & He1 & Hm1) & _ & _ & Fl).
      destruct IH2 as (Sr & _ & _ & Fr).
      assert (Kl : okl op k1 = true).
      { unfold shape_of in Hs1. destruct (is_atom k1) eqn:Ek.
        - destruct op; cbn [okl]; try rewrite Ek; try reflexivity. destruct k1; discriminate || reflexivity.
        - subst k1. destruct op; cbn [fits okl] in *.
          + destruct F1 as [F1a F1b]. destruct (sh l); discriminate || reflexivity.
          + destruct (Ex eq_refl) as [Ex1 _]. destruct (sh l); try reflexivity. contradiction.
          + destruct (sh l); discriminate || reflexivity. }
      assert (Eo : op_shape op k1 = op_shape op (sh l)).
      { unfold shape_of in Hs1. destruct (is_atom k1) eqn:Ek; [|subst k1; reflexivity].
        destruct op; cbn [op_shape]; try reflexivity.
        destruct k1; try discriminate; destruct (sh l); discriminate || reflexivity. }
      assert (SC : forall K : kind -> bool, (forall k, K (op_shape op k) = true) -> shown K (C l op r)).
      { intros K HK. destruct (Fr op F2) with (l := l) (k1 := k1) (t1 := c1) (P1 := P1) (n1 := size l)
          (w1 := v2 ++ lit " ") (w2 := lit " ") as (c & v & P & Ec & V & HP & HM); try assumption.
        - intros ->. apply Ex. reflexivity.
        - apply blanks_app; [exact V2|exact blank_one].
        - exact blank_one.
        - exists (op_shape op k1), v1, c, v, P. split; [apply HK|]. split.
          { unfold shape_of. rewrite Sa, Eo. destruct op; cbn; try reflexivity. destruct (sh l); reflexivity. }
          split; [exact V1|]. split; [exact V|]. split.
          { rewrite display_C, Ed1. rewrite <- Ec. rewrite <- !app_assoc. reflexivity. }
          rewrite Es. split; [exact HP|exact HM]. }
      assert (S0 : shown (fun _ => true) (C l op r)) by (apply SC; reflexivity).
      split; [exact S0|]. split; [intros _; apply SC; intros k; destruct op, k; reflexivity|]. split.
      { intros [(k' & t' & _ & _ & A3)|[(b & Eb)|(b & Eb)]].
        - apply lt_shape in A3. rewrite Sa in A3. destruct op; cbn in A3; try discriminate. destruct (sh l); discriminate.
        - destruct (G_shape b) as [A3 _]. rewrite <- Eb, Sa in A3. destruct op; cbn in A3; try discriminate.
          destruct (sh l); discriminate.
        - destruct (N_shape b) as [A3 _]. rewrite <- Eb, Sa in A3. destruct op; cbn in A3; try discriminate.
          destruct (sh l); discriminate. }
      intros op' Hf Hx.
      assert (Hd : op' = op \/ okr op' (sh (C l op r)) = true).
      { rewrite Sa. unfold fits in Hf. rewrite Sa in Hf, Hx. destruct op', op; cbn [op_shape okr] in *;
          try (left; reflexivity); try (right; reflexivity).
        - destruct Hf; discriminate.
        - destruct Hf as [_ Hf]. destruct (sh l); discriminate.
        - specialize (Hx eq_refl). right. destruct (sh l); try reflexivity; exfalso; apply Hx; reflexivity.
        - discriminate. }
      destruct Hd as [->|Hd]; [|apply follows_shown; assumption].
      intros l0 k0 t0 P0 n0 w1 w2 K0 H0 M0 W1 W2.
      destruct (Fl op F1) with (l := l0) (k1 := k0) (t1 := t0) (P1 := P0) (n1 := n0) (w1 := w1) (w2 := w2)
        as (c' & v' & P' & Ec' & V' & HP' & HM'); try assumption.
      { intros ->. apply Ex. reflexivity. }
      destruct (Fr op F2) with (l := C l0 op l) (k1 := op_shape op k0) (t1 := c') (P1 := P') (n1 := join n0 (size l))
        (w1 := v' ++ lit " ") (w2 := lit " ") as (c & v & P & Ec & V & HP & HM); try assumption.
      { intros ->. apply Ex. reflexivity. }
      { apply okl_shape. exact K0. }
      { apply blanks_app; [exact V'|exact blank_one]. }
      { exact blank_one. }
      exists c, v, P. split; [|split; [exact V|split]].
      + rewrite <- Ec. rewrite display_C.
        replace (c' ++ (v' ++ lit " ") ++ bool_op_display op ++ lit " " ++ display r)
          with ((c' ++ v') ++ lit " " ++ bool_op_display op ++ lit " " ++ display r)
          by (rewrite <- !app_assoc; reflexivity).
        rewrite <- Ec'. rewrite <- !app_assoc. reflexivity.
      + rewrite shape_idem in HP. rewrite Es, join_assoc. exact HP.
      + apply assoc_means. exact HM.
  Qed.

  (** ** parsed matchers are well formed *)
  Variable op_and op_xor op_or : A -> A -> A.
  Definition grouped (b : bool) (a : A) : A := if b then G a else a.
  Hypothesis and_eq : forall a b, op_and a b =
    C (grouped (is_or (sh a) || is_xor (sh a)) a) BAnd (grouped (is_or (sh b) || is_xor (sh b)) b).
  Hypothesis xor_eq : forall a b, op_xor a b = C (grouped (is_or (sh a)) a) BXor (grouped (is_or (sh b)) b).
  Hypothesis or_eq : forall a b, op_or a b = C a BOr b.
  Hypothesis composite_shape : forall a, is_atom (sh a) = false -> exists l op r, a = C l op r.

  Lemma grouped_formed : forall b a, formed a -> (b = true -> is_atom (sh a) = false) -> formed (grouped b a).
  Proof.
    intros [] a H Hb; [|exact H]. apply formed_group; [|exact H].
    right. right. right. apply composite_shape. apply Hb. reflexivity.
  Qed.

  Lemma grouped_fits_and : forall a, fits BAnd (grouped (is_or (sh a) || is_xor (sh a)) a).
  Proof.
    intros a. unfold grouped. destruct (is_or (sh a) || is_xor (sh a)) eqn:E.
    - destruct (G_shape a) as [Sa _]. cbn. destruct (sh (G a)); discriminate || (split; reflexivity).
    - apply orb_false_iff in E. exact E.
  Qed.
  Lemma grouped_fits_xor : forall a, fits BXor (grouped (is_or (sh a)) a).
  Proof.
    intros a. unfold grouped. destruct (is_or (sh a)) eqn:E; [|exact E].
    destruct (G_shape a) as [Sa _]. cbn. destruct (sh (G a)); discriminate || reflexivity.
  Qed.

  Lemma and_formed : forall a b, formed a -> formed b -> formed (op_and a b).
  Proof.
    intros a b Ha Hb. rewrite and_eq. apply formed_op; try apply grouped_fits_and; apply grouped_formed; try assumption.
    - intros E. destruct (sh a); discriminate || reflexivity.
    - intros E. destruct (sh b); discriminate || reflexivity.
  Qed.
  Lemma xor_formed : forall a b, formed a -> formed b -> formed (op_xor a b).
  Proof.
    intros a b Ha Hb. rewrite xor_eq. apply formed_op; try apply grouped_fits_xor; apply grouped_formed; try assumption.
    - intros E. destruct (sh a); discriminate || reflexivity.
    - intros E. destruct (sh b); discriminate || reflexivity.
  Qed.
  Lemma or_formed : forall a b, formed a -> formed b -> formed (op_or a b).
  Proof. intros a b Ha Hb. rewrite or_eq. apply formed_op; try exact I; assumption. Qed.

  Lemma and_stands : forall a b, stands (op_and a b).
  Proof. intros a b. rewrite and_eq. right. right. right. eexists _, _, _. reflexivity. Qed.
  Lemma xor_stands : forall a b, stands (op_xor a b).
  Proof. intros a b. rewrite xor_eq. right. right. right. eexists _, _, _. reflexivity. Qed.
  Lemma or_stands : forall a b, stands (op_or a b).
  Proof. intros a b. rewrite or_eq. right. right. right. eexists _, _, _. reflexivity. Qed.

  Lemma tx_formed : forall k t a, tx lt G Nt op_and op_xor op_or k t a ->
    formed a /\ (alone k = true -> stands a) /\ (is_atom k = true -> negatable k = true -> negs a).
  Proof.
    intros k t a H. induction H as [k t a Hk H|k w1 e w2 a Hk H (F & St & _) W1 W2|k w e a Hk H (F & _ & Ng) W
                     |k1 k2 t1 w1 w2 t2 a b K1 K2 H1 (F1 & _) H2 (F2 & _) W1 W2
                     |k1 k2 t1 w1 x w2 t2 a b K1 K2 H1 (F1 & _) H2 (F2 & _) W1 W2 X
                     |k1 k2 t1 w1 w2 t2 a b K1 K2 H1 (F1 & _) H2 (F2 & _) W1 W2].
    - split; [apply (formed_leaf k t); assumption|]. split; intros; left; exists k, t; auto.
    - split; [apply formed_group; auto|]. split.
      + intros _. right. left. exists a. reflexivity.
      + intros _ _. right. left. exists a. reflexivity.
    - split; [apply formed_not; [apply Ng; [|exact Hk]|exact F]|].
      { destruct k; discriminate || reflexivity. }
      split.
      + intros _. right. right. left. exists a. reflexivity.
      + intros _ _. right. right. exists a. reflexivity.
    - split; [apply and_formed; assumption|]. split; [intros _; apply and_stands|discriminate].
    - split; [apply xor_formed; assumption|]. split; [intros _; apply xor_stands|].
      intros E. destruct k1; discriminate.
    - split; [apply or_formed; assumption|]. split; [intros _; apply or_stands|discriminate].
  Qed.
End Display.

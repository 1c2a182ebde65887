(** * Grammar: every accepted text belongs to the language, with the meaning
    of the matcher that is built *)

From Coq Require Import String.
From Verif Require Import Bytes Winnow RecordModel RecordSpec BaseProofs Utf8Model Utf8Spec
  TagOccModel TagOccSpec TagOccProofs StrParserModel StrSpec StrProofs MatcherModel StateParser
  MatcherParserModel MatcherSpec GrammarSpec GrammarExprProofs GrammarLeafProofs GrammarSingletonProofs
  GrammarCondProofs GrammarSubProofs GrammarFieldLeafProofs GrammarFieldProofs.

(** ** Texts of a matcher: the language, indexed by the structure that is built *)
Section Texts.
  Context {A : Type}.
  Variable lt : kind -> bytes -> A -> Prop.
  Variable G Nt : A -> A.
  Variable op_and op_xor op_or : A -> A -> A.

  Inductive tx : kind -> bytes -> A -> Prop :=
  | tx_leaf : forall k t a, is_atom k = true -> lt k t a -> tx k t a
  | tx_group : forall k w1 e w2 a, alone k = true -> tx k e a -> blanks w1 -> blanks w2 ->
      tx KGroup (lit "(" ++ w1 ++ e ++ w2 ++ lit ")") (G a)
  | tx_not : forall k w e a, negatable k = true -> tx k e a -> blanks w ->
      tx KNot (lit "!" ++ w ++ e) (Nt a)
  | tx_and : forall k1 k2 t1 w1 w2 t2 a b,
      is_atom k1 || is_and k1 = true -> is_atom k2 = true -> tx k1 t1 a -> tx k2 t2 b ->
      blanks w1 -> blanks w2 -> tx KAnd (t1 ++ w1 ++ lit "&&" ++ w2 ++ t2) (op_and a b)
  | tx_xor : forall k1 k2 t1 w1 x w2 t2 a b,
      is_atom k1 || is_and k1 || is_xor k1 = true -> is_atom k2 || is_and k2 = true ->
      tx k1 t1 a -> tx k2 t2 b -> blanks w1 -> blanks w2 -> xor_token x ->
      tx (match k1 with KAnd | KXorN => KXorN | _ => KXorA end) (t1 ++ w1 ++ x ++ w2 ++ t2) (op_xor a b)
  | tx_or : forall k1 k2 t1 w1 w2 t2 a b,
      or_operand false k1 || is_or k1 = true -> or_operand false k2 = true -> tx k1 t1 a -> tx k2 t2 b ->
      blanks w1 -> blanks w2 -> tx KOr (t1 ++ w1 ++ lit "||" ++ w2 ++ t2) (op_or a b).

  (** a result of kind [K], read from blanks, text, blanks *)
  Definition is_read (K : kind -> bool) (i : bytes) (a : A) (r : bytes) : Prop :=
    exists k w1 c w2, K k = true /\ blanks w1 /\ blanks w2 /\ i = w1 ++ c ++ w2 ++ r /\ tx k c a.
  Definition preads (K : kind -> bool) (p : sparser A) : Prop := forall s i a r s',
    p s i = (POk a r, s') -> is_read K i a r.
  Definition treads {U} (tokt : bytes -> Prop) (p : sparser U) : Prop := forall s i u r s',
    p s i = (POk u r, s') -> exists w1 x w2, blanks w1 /\ blanks w2 /\ i = w1 ++ x ++ w2 ++ r /\ tokt x.

  Lemma preads_weaken : forall K K' p, (forall k, K k = true -> K' k = true) -> preads K p -> preads K' p.
  Proof.
    intros K K' p HK H s i a r s' E. destruct (H s i a r s' E) as (k & w1 & c & w2 & Hk & HR).
    exists k, w1, c, w2. split; [apply HK; exact Hk|exact HR].
  Qed.

  Lemma preads_alt : forall K p q, preads K p -> preads K q -> preads K (salt p q).
  Proof.
    intros K p q Hp Hq s i a r s' E. unfold salt in E. destruct (p s i) as [[a1 r1| |] s1] eqn:F.
    - injection E as -> -> ->. apply (Hp _ _ _ _ _ F).
    - apply (Hq _ _ _ _ _ E).
    - discriminate.
  Qed.

  Lemma preads_sws : forall K p, preads K p -> preads K (sws p).
  Proof.
    intros K p H s i a r s' E. unfold sws in E. destruct (p s (skip_ws i)) as [[a1 r1| |] s1] eqn:F; try discriminate.
    injection E as -> <- ->. destruct (H _ _ _ _ _ F) as (k & w1 & c & w2 & Hk & W1 & W2 & E & HR).
    destruct (skip_ws_split i) as (v1 & V1 & E1). destruct (skip_ws_split r1) as (v2 & V2 & E2).
    exists k, (v1 ++ w1), c, (w2 ++ v2).
    split; [exact Hk|]. split; [apply blanks_app; assumption|]. split; [apply blanks_app; assumption|].
    split; [|exact HR]. rewrite E1, E. rewrite E2 at 1. rewrite <- !app_assoc. reflexivity.
  Qed.

  Lemma preads_fuel : forall K, preads K sfuel.
  Proof. intros K s i a r s' E. discriminate. Qed.

  Section Chain.
    Variable op : A -> A -> A.
    Variable opd chain : kind -> bool.
    Variable tokt : bytes -> Prop.
    Variable p : sparser A.
    Variable tokp : sparser unit.
    Hypothesis p_reads : preads opd p.
    Hypothesis tok_reads : treads tokt tokp.
    Hypothesis extend : forall k1 k2 t1 w1 x w2 t2 a b,
      opd k1 || chain k1 = true -> opd k2 = true -> tx k1 t1 a -> tx k2 t2 b ->
      blanks w1 -> blanks w2 -> tokt x ->
      exists k, chain k = true /\ tx k (t1 ++ w1 ++ x ++ w2 ++ t2) (op a b).

    Definition so_far (K : kind -> bool) (i : bytes) (a : A) (r : bytes) : Prop :=
      exists k c w, K k = true /\ blanks w /\ i = c ++ w ++ r /\ tx k c a.

    Lemma item_read : forall s i a r s' j b, spreceded tokp p s i = (POk a r, s') ->
      so_far (fun k => opd k || chain k) j b i -> so_far chain j (op b a) r.
    Proof.
      intros s i a r s' j b E (k & c & w & Hk & W & Ej & Hc).
      unfold spreceded, sbind in E. destruct (tokp s i) as [[u r1| |] s1] eqn:F; try discriminate.
      destruct (tok_reads _ _ _ _ _ F) as (w1 & x & w2 & W1 & W2 & Ei & Hx).
      destruct (p_reads _ _ _ _ _ E) as (k2 & w3 & c2 & w4 & Hk2 & W3 & W4 & E2 & Hc2).
      destruct (extend k k2 c (w ++ w1) x (w2 ++ w3) c2 b a) as (k' & Hk' & Hc');
        try assumption; try (apply blanks_app; assumption).
      exists k', (c ++ (w ++ w1) ++ x ++ (w2 ++ w3) ++ c2), w4.
      split; [exact Hk'|]. split; [exact W4|]. split; [|exact Hc'].
      rewrite Ej, Ei, E2. rewrite <- !app_assoc. reflexivity.
    Qed.

    Lemma so_far_weaken : forall i a r, so_far chain i a r -> so_far (fun k => opd k || chain k) i a r.
    Proof.
      intros i a r (k & c & w & Hk & HR). exists k, c, w. split; [|exact HR].
      rewrite Hk. apply orb_true_r.
    Qed.

    Lemma items_read : forall f s i l r s' j b, srepeat0_fuel f (spreceded tokp p) s i = (POk l r, s') ->
      so_far chain j b i -> so_far chain j (fold_left op l b) r.
    Proof.
      induction f as [|f IH]; intros s i l r s' j b E Hj; [discriminate|]. cbn [srepeat0_fuel] in E.
      destruct (spreceded tokp p s i) as [[a r1| |] s1] eqn:F; try discriminate.
      - destruct (Nat.eqb (length r1) (length i)); [discriminate|].
        destruct (srepeat0_fuel f (spreceded tokp p) s1 r1) as [[l1 r2| |] s2] eqn:H; try discriminate.
        injection E as <- <- <-. cbn [fold_left]. apply (IH _ _ _ _ _ _ _ H).
        apply (item_read _ _ _ _ _ _ _ F). apply so_far_weaken. exact Hj.
      - injection E as <- <- <-. exact Hj.
    Qed.

    Lemma chain_reads : preads chain (smap (fold_ops op) (s_operands p tokp)).
    Proof.
      intros s i a r s' E. unfold smap at 1, s_operands, sbind in E.
      destruct (p s i) as [[h r0| |] s0] eqn:E0; try discriminate.
      unfold smap, srepeat1, sbind in E.
      destruct (spreceded tokp p s0 r0) as [[a1 r1| |] s1] eqn:E1; try discriminate.
      unfold smap in E. cbn beta in E.
      destruct (srepeat0_fuel (S (length r1)) (spreceded tokp p) s1 r1) as [[l r2| |] s2] eqn:E2; try discriminate.
      injection E as <- <- <-. unfold fold_ops. cbn [fst snd fold_left].
      destruct (p_reads _ _ _ _ _ E0) as (k & w1 & c & w2 & Hk & W1 & W2 & Ei & Hc).
      assert (H0 : so_far (fun k => opd k || chain k) (c ++ w2 ++ r0) h r0).
      { exists k, c, w2. rewrite Hk. auto 10. }
      pose proof (item_read _ _ _ _ _ _ _ E1 H0) as H1.
      pose proof (items_read _ _ _ _ _ _ _ _ E2 H1) as (k' & c' & w' & Hk' & W' & Ej & Hc').
      exists k', w1, c', w'. split; [exact Hk'|]. split; [exact W1|]. split; [exact W'|].
      split; [|exact Hc']. rewrite Ei, Ej. reflexivity.
    Qed.
  End Chain.

  Variable tok_and tok_xor tok_or : sparser unit.
  Hypothesis and_tok : treads and_token tok_and.
  Hypothesis xor_tok : treads xor_token tok_xor.
  Hypothesis or_tok : treads or_token tok_or.
  Variable atoms : sparser A.
  Hypothesis atoms_read : preads is_atom atoms.

  Lemma and_reads : preads is_and (and_p atoms tok_and op_and).
  Proof.
    apply (chain_reads op_and is_atom is_and and_token).
    - apply preads_sws. exact atoms_read.
    - exact and_tok.
    - intros k1 k2 t1 w1 x w2 t2 a b K1 K2 H1 H2 W1 W2 X. unfold and_token in X. subst x.
      exists KAnd. split; [reflexivity|]. apply (tx_and k1 k2); assumption.
  Qed.

  Lemma atom_and : forall k, is_atom k = true -> is_atom k || is_and k = true.
  Proof. intros k ->. reflexivity. Qed.
  Lemma and_and : forall k, is_and k = true -> is_atom k || is_and k = true.
  Proof. intros k ->. apply orb_true_r. Qed.

  Lemma xor_reads : preads is_xor (xor_p atoms tok_and tok_xor op_and op_xor).
  Proof.
    apply (chain_reads op_xor (fun k => is_atom k || is_and k) is_xor xor_token).
    - apply preads_sws, preads_alt.
      + apply (preads_weaken is_and); [exact and_and|exact and_reads].
      + apply (preads_weaken is_atom); [exact atom_and|exact atoms_read].
    - exact xor_tok.
    - intros k1 k2 t1 w1 x w2 t2 a b K1 K2 H1 H2 W1 W2 X.
      eexists. split; [|apply (tx_xor k1 k2); assumption]. destruct k1; reflexivity.
  Qed.

  Lemma or_reads : preads is_or (or_p atoms tok_and tok_xor tok_or op_and op_xor op_or).
  Proof.
    apply (chain_reads op_or (or_operand false) is_or or_token).
    - apply preads_sws, preads_alt; [|apply preads_alt].
      + apply (preads_weaken is_and); [|exact and_reads]. intros []; discriminate || reflexivity.
      + apply (preads_weaken is_xor); [|exact xor_reads]. intros []; discriminate || reflexivity.
      + apply (preads_weaken is_atom); [|exact atoms_read]. intros []; discriminate || reflexivity.
    - exact or_tok.
    - intros k1 k2 t1 w1 x w2 t2 a b K1 K2 H1 H2 W1 W2 X. unfold or_token in X. subst x.
      exists KOr. split; [reflexivity|]. apply (tx_or k1 k2); assumption.
  Qed.

  Lemma composite_reads : preads alone (composite atoms tok_and tok_xor tok_or op_and op_xor op_or).
  Proof.
    unfold composite. apply preads_alt; [|apply preads_alt].
    - apply (preads_weaken is_or); [|exact or_reads]. intros []; discriminate || reflexivity.
    - apply (preads_weaken is_xor); [|exact xor_reads]. intros []; discriminate || reflexivity.
    - apply (preads_weaken is_and); [|exact and_reads]. intros []; discriminate || reflexivity.
  Qed.

  Definition is_group (k : kind) : bool := match k with KGroup => true | _ => false end.
  Definition is_not (k : kind) : bool := match k with KNot => true | _ => false end.

  Lemma group_reads : forall U (inc : sparser unit) (close : sparser U) p,
    (forall s i u r s', inc s i = (POk u r, s') -> r = i) ->
    treads (fun x => x = lit ")") close -> preads alone p ->
    preads is_group (smap G (sdelim (sbind (slift (ws (ch 40))) (fun _ => inc)) p close)).
  Proof.
    intros U inc close p Hi Hc Hp s i a r s' E. unfold smap, sdelim in E. unfold sbind at 1 2, slift at 1 in E.
    destruct (ws (ch 40) i) as [[x r1]|] eqn:E1; [|discriminate].
    destruct (inc s r1) as [[u r2| |] s2] eqn:E2; try discriminate.
    apply Hi in E2. subst r2. unfold sbind at 1 in E.
    destruct (p s2 r1) as [[b r3| |] s3] eqn:E3; try discriminate.
    unfold sbind, sret in E. destruct (close s3 r3) as [[v r4| |] s4] eqn:E4; try discriminate.
    injection E as <- <- <-.
    apply ws_ch_inv in E1 as (w1 & w2 & W1 & W2 & -> & _).
    destruct (Hp _ _ _ _ _ E3) as (k & w3 & c & w4 & Hk & W3 & W4 & -> & He).
    destruct (Hc _ _ _ _ _ E4) as (w5 & x' & w6 & W5 & W6 & -> & ->).
    exists KGroup, w1, (lit "(" ++ (w2 ++ w3) ++ c ++ (w4 ++ w5) ++ lit ")"), w6.
    split; [reflexivity|]. split; [exact W1|]. split; [exact W6|]. split.
    - rewrite <- !app_assoc. reflexivity.
    - apply (tx_group k); try assumption; apply blanks_app; assumption.
  Qed.

  Lemma not_reads : forall p, preads negatable p ->
    preads is_not (smap Nt (spreceded (slift (ws (ch 33))) p)).
  Proof.
    intros p Hp s i a r s' E. unfold smap, spreceded in E. unfold sbind at 1, slift at 1 in E.
    destruct (ws (ch 33) i) as [[x r1]|] eqn:E1; [|discriminate].
    destruct (p s r1) as [[b r3| |] s3] eqn:E3; try discriminate. injection E as <- <- <-.
    apply ws_ch_inv in E1 as (w1 & w2 & W1 & W2 & -> & _).
    destruct (Hp _ _ _ _ _ E3) as (k & w3 & c & w4 & Hk & W3 & W4 & -> & He).
    exists KNot, w1, (lit "!" ++ (w2 ++ w3) ++ c), w4.
    split; [reflexivity|]. split; [exact W1|]. split; [exact W4|]. split.
    - rewrite <- !app_assoc. reflexivity.
    - apply (tx_not k); try assumption. apply blanks_app; assumption.
  Qed.

  (** *** from structure to meaning *)
  Section Meaning.
    Context {B : Type}.
    Variable holds : A -> meaning B.
    Variable leaf : kind -> bytes -> meaning B -> N -> Prop.
    Variable up : N -> N.
    Variable join : N -> N -> N.
    Hypothesis G_means : forall a P, means holds a P -> means holds (G a) P.
    Hypothesis N_means : forall a P, means holds a P -> means holds (Nt a) (fun ci l => ~ P ci l).
    Hypothesis and_means : forall a b P Q, means holds a P -> means holds b Q -> means holds (op_and a b) (mand P Q).
    Hypothesis xor_means : forall a b P Q, means holds a P -> means holds b Q -> means holds (op_xor a b) (mxor P Q).
    Hypothesis or_means : forall a b P Q, means holds a P -> means holds b Q -> means holds (op_or a b) (mor P Q).

    Lemma tx_loose : (forall k t a, lt k t a -> exists P n, leaf k t P n /\ means holds a P) ->
      forall k t a, tx k t a -> exists P n, expr leaf up join false k t P n /\ means holds a P.
    Proof.
      intros HL k t a H.
      induction H as [k t a Hk H|k w1 e w2 a Hk H (P & n & He & Hm) W1 W2|k w e a Hk H (P & n & He & Hm) W
                     |k1 k2 t1 w1 w2 t2 a b K1 K2 H1 (P1 & n1 & E1 & M1) H2 (P2 & n2 & E2 & M2) W1 W2
                     |k1 k2 t1 w1 x w2 t2 a b K1 K2 H1 (P1 & n1 & E1 & M1) H2 (P2 & n2 & E2 & M2) W1 W2 X
                     |k1 k2 t1 w1 w2 t2 a b K1 K2 H1 (P1 & n1 & E1 & M1) H2 (P2 & n2 & E2 & M2) W1 W2].
      - destruct (HL _ _ _ H) as (P & n & Hl & Hm). exists P, n. split; [apply expr_leaf; assumption|exact Hm].
      - exists P, (up n). split; [apply (expr_group leaf up join false k); assumption|apply G_means; exact Hm].
      - eexists _, n. split; [apply (expr_not leaf up join false k); eassumption|apply N_means; exact Hm].
      - eexists _, _. split; [apply (expr_and leaf up join false k1 k2); eassumption|apply and_means; assumption].
      - eexists _, _. split; [apply (expr_xor leaf up join false k1 k2); eassumption|apply xor_means; assumption].
      - eexists _, _. split; [apply (expr_or leaf up join false k1 k2); eassumption|apply or_means; assumption].
    Qed.

    Variable sh : A -> kind.
    Variable tame : A -> Prop.
    Variable size : A -> N.
    Hypothesis lt_shape : forall k t a, lt k t a -> is_atom (sh a) = true.
    Hypothesis G_shape : forall a, is_atom (sh (G a)) = true /\ size (G a) = up (size a) /\ (tame (G a) -> tame a).
    Hypothesis N_shape : forall a, is_atom (sh (Nt a)) = true /\ size (Nt a) = size a /\ (tame (Nt a) -> tame a).
    Hypothesis and_shape : forall a b, is_atom (sh a) || is_and (sh a) = true -> is_atom (sh b) || is_and (sh b) = true ->
      sh (op_and a b) = KAnd /\ size (op_and a b) = join (size a) (size b)
      /\ (tame (op_and a b) -> tame a /\ tame b).
    Hypothesis xor_shape : forall a b, is_or (sh a) = false -> is_or (sh b) = false ->
      sh (op_xor a b) = match sh a with KAnd | KXorN => KXorN | _ => KXorA end
      /\ size (op_xor a b) = join (size a) (size b) /\ (tame (op_xor a b) -> tame a /\ tame b).
    Hypothesis or_shape : forall a b,
      sh (op_or a b) = KOr /\ size (op_or a b) = join (size a) (size b)
      /\ (tame (op_or a b) -> tame a /\ tame b /\ sh a <> KXorN /\ sh b <> KXorN).

    Definition shaped (k : kind) (a : A) : Prop := if is_atom k then is_atom (sh a) = true else sh a = k.

    Lemma tx_shape : forall k t a, tx k t a -> shaped k a.
    Proof.
      intros k t a H. induction H as [k t a Hk H|k w1 e w2 a Hk H IH W1 W2|k w e a Hk H IH W
                     |k1 k2 t1 w1 w2 t2 a b K1 K2 H1 S1 H2 S2 W1 W2
                     |k1 k2 t1 w1 x w2 t2 a b K1 K2 H1 S1 H2 S2 W1 W2 X
                     |k1 k2 t1 w1 w2 t2 a b K1 K2 H1 S1 H2 S2 W1 W2]; unfold shaped in *.
      - rewrite Hk. apply (lt_shape _ _ _ H).
      - apply G_shape.
      - apply N_shape.
      - cbn. apply and_shape.
        + destruct (is_atom k1) eqn:A1; [rewrite S1; reflexivity|]. rewrite S1, A1. exact K1.
        + rewrite K2 in S2. rewrite S2. reflexivity.
      - destruct (xor_shape a b) as [Es _].
        { destruct k1; try discriminate; cbn in S1; try (rewrite S1; reflexivity);
            destruct (sh a); discriminate || reflexivity. }
        { destruct k2; try discriminate; cbn in S2; try (rewrite S2; reflexivity);
            destruct (sh b); discriminate || reflexivity. }
        destruct k1; try discriminate; cbn in *; rewrite Es; try (rewrite S1; reflexivity);
          destruct (sh a); discriminate || reflexivity.
      - cbn. apply or_shape.
    Qed.

    Lemma tx_strict : (forall k t a, lt k t a -> tame a -> exists P, leaf k t P (size a) /\ means holds a P) ->
      forall k t a, tx k t a -> tame a -> exists P, expr leaf up join true k t P (size a) /\ means holds a P.
    Proof.
      intros HL k t a H.
      induction H as [k t a Hk H|k w1 e w2 a Hk H IH W1 W2|k w e a Hk H IH W
                     |k1 k2 t1 w1 w2 t2 a b K1 K2 H1 IH1 H2 IH2 W1 W2
                     |k1 k2 t1 w1 x w2 t2 a b K1 K2 H1 IH1 H2 IH2 W1 W2 X
                     |k1 k2 t1 w1 w2 t2 a b K1 K2 H1 IH1 H2 IH2 W1 W2]; intros HT.
      - destruct (HL _ _ _ H HT) as (P & Hl & Hm). exists P. split; [apply expr_leaf; assumption|exact Hm].
      - destruct (G_shape a) as (_ & Es & Ht). destruct (IH (Ht HT)) as (P & He & Hm).
        exists P. rewrite Es. split; [apply (expr_group leaf up join true k); assumption|apply G_means; exact Hm].
      - destruct (N_shape a) as (_ & Es & Ht). destruct (IH (Ht HT)) as (P & He & Hm).
        eexists. rewrite Es. split; [apply (expr_not leaf up join true k); eassumption|apply N_means; exact Hm].
      - pose proof (tx_shape _ _ _ H1) as S1. pose proof (tx_shape _ _ _ H2) as S2. unfold shaped in *.
        destruct (and_shape a b) as (_ & Es & Ht).
        { destruct (is_atom k1) eqn:A1; [rewrite S1; reflexivity|]. rewrite S1, A1. exact K1. }
        { rewrite K2 in S2. rewrite S2. reflexivity. }
        destruct (Ht HT) as [T1 T2]. destruct (IH1 T1) as (P1 & E1 & M1). destruct (IH2 T2) as (P2 & E2 & M2).
        eexists. rewrite Es. split; [apply (expr_and leaf up join true k1 k2); eassumption|apply and_means; assumption].
      - pose proof (tx_shape _ _ _ H1) as S1. pose proof (tx_shape _ _ _ H2) as S2. unfold shaped in *.
        destruct (xor_shape a b) as (_ & Es & Ht).
        { destruct k1; try discriminate; cbn in S1; try (rewrite S1; reflexivity);
            destruct (sh a); discriminate || reflexivity. }
        { destruct k2; try discriminate; cbn in S2; try (rewrite S2; reflexivity);
            destruct (sh b); discriminate || reflexivity. }
        destruct (Ht HT) as [T1 T2]. destruct (IH1 T1) as (P1 & E1 & M1). destruct (IH2 T2) as (P2 & E2 & M2).
        eexists. rewrite Es. split; [apply (expr_xor leaf up join true k1 k2); eassumption|apply xor_means; assumption].
      - pose proof (tx_shape _ _ _ H1) as S1. pose proof (tx_shape _ _ _ H2) as S2. unfold shaped in *.
        destruct (or_shape a b) as (_ & Es & Ht).
        destruct (Ht HT) as (T1 & T2 & N1 & N2). destruct (IH1 T1) as (P1 & E1 & M1). destruct (IH2 T2) as (P2 & E2 & M2).
        eexists. rewrite Es. split; [apply (expr_or leaf up join true k1 k2); try eassumption|apply or_means; assumption].
        + destruct k1; try reflexivity; try discriminate. contradiction.
        + destruct k2; try reflexivity; try discriminate. contradiction.
    Qed.
  End Meaning.
End Texts.

(** ** tokens *)
Lemma tok_slift_reads : forall x, treads (fun y => y = x) (slift (tok x)) /\ treads (fun y => y = x) (slift (ws (tok x))).
Proof.
  intros x. split; intros s i u r s' E; unfold slift in E.
  - destruct (tok x i) as [[v r1]|] eqn:F; [|discriminate]. injection E as _ <- _. apply tok_inv in F. subst i.
    exists [], x, []. repeat split; constructor.
  - destruct (ws (tok x) i) as [[v r1]|] eqn:F; [|discriminate]. injection E as _ <- _.
    apply ws_tok_inv in F as (w1 & w2 & W1 & W2 & -> & _). exists w1, x, w2. auto.
Qed.

Lemma xor_slift_reads : treads xor_token (slift (alt (tok (lit "^")) (tok (lit "XOR")))).
Proof.
  intros s i u r s' E. unfold slift, alt in E.
  destruct (tok (lit "^") i) as [[v r1]|] eqn:F.
  - injection E as _ <- _. apply tok_inv in F. subst i. exists [], (lit "^"), []. repeat split; constructor.
  - destruct (tok (lit "XOR") i) as [[v r1]|] eqn:G; [|discriminate]. injection E as _ <- _.
    apply tok_inv in G. subst i. exists [], (lit "XOR"), []. repeat split; constructor.
Qed.

Definition is_leaf (k : kind) : bool := match k with KNeg | KPlain => true | _ => false end.
Definition is_neg (k : kind) : bool := match k with KNeg | KLoose => true | _ => false end.
Definition is_kneg (k : kind) : bool := match k with KNeg => true | _ => false end.

Ltac kinds := let k := fresh "k" in intros k; destruct k; discriminate || reflexivity.

(** ** the last character of a condition *)
Definition ends (t : bytes) : Prop := exists c t', t = t' ++ [c] /\ is_space c = false.

Lemma ends_app : forall x t, ends t -> ends (x ++ t).
Proof. intros x t H. apply end_app. exact H. Qed.

Lemma list_ends : forall t vs, list_text t vs -> ends t.
Proof.
  intros t vs [w1 ts vs' tc w2 _ _ _ _]. repeat apply ends_app. exists 93, []. split; reflexivity.
Qed.

Lemma number_ends : forall t n, number_text t n -> ends t.
Proof.
  intros t n (Hn & Hd & _). destruct (exists_last Hn) as (t' & c & E). exists c, t'. split; [exact E|].
  subst t. rewrite Forall_app in Hd. destruct Hd as [_ Hd]. inversion Hd as [|? ? Hc _]. subst.
  unfold digits in Hc. cbn in Hc. unfold is_space.
  repeat (destruct Hc as [<- | Hc]; [reflexivity|]). contradiction.
Qed.

Lemma condition_ends : forall O t P, condition_text O t P -> ends t.
Proof.
  intros O t P [k H]. destruct H as [tq q tc C w1 top op w2 ts v Hq Hc W1 Ho W2 Hs
    |tq q tc C w1 w2 tn V Hq Hc W1 W2 Hn|tq q tc C w1 top neg w2 tn V Hq Hc W1 Ho W2 Hn
    |tq q tc C w1 top neg w2 ts re Hq Hc W1 Ho W2 Hs Hr|tq q tc C w1 top neg w2 tl res Hq Hc W1 Ho W2 Hl Hr
    |w1 tc C w2 top op w3 tn n W1 Hc W2 Ho W3 Hn]; repeat apply ends_app.
  - apply (string_end _ _ Hs).
  - destruct Hn as [t v Hs|t vs Hl]; [apply (string_end _ _ Hs)|apply (list_ends _ _ Hl)].
  - destruct Hn as [t v ch Hs _|t vs Hl]; [apply (string_end _ _ Hs)|apply (list_ends _ _ Hl)].
  - apply (string_end _ _ Hs).
  - apply (list_ends _ _ Hl).
  - apply (number_ends _ _ Hn).
Qed.

Lemma exists_ends : forall t P, exists_text t P -> ends t.
Proof. intros t P [t' C _]. apply ends_app. exists 63, []. split; reflexivity. Qed.

Section Sound.
  Variable O : oracles.

  (** ** subfield matchers *)
  Inductive slt : kind -> bytes -> subfield_matcher -> Prop :=
  | slt_exists : forall t P sg, exists_text t P -> is_exists sg = true -> sing_means O sg P ->
      singleton_display sg = t -> slt KNeg t (SMSingleton sg)
  | slt_cond : forall t P sg v1 v2, sorted_text O (sort_of sg) t P -> is_exists sg = false -> sing_means O sg P ->
      blanks v1 -> blanks_after (sort_of sg) t v2 -> singleton_display sg = v1 ++ t ++ v2 ->
      slt KPlain t (SMSingleton sg).

  Definition stx : kind -> bytes -> subfield_matcher -> Prop := tx slt SMGroup SMNot sm_and sm_xor sm_or.
  Let sreads := preads slt SMGroup SMNot sm_and sm_xor sm_or.

  Lemma sub_singleton_reads : sreads is_leaf (sub_singleton O).
  Proof.
    intros s i a r s' E. unfold sub_singleton, slift, pmap in E.
    destruct (parse_singleton O i) as [[m r1]|] eqn:F; [|discriminate]. injection E as <- <- _.
    apply singleton_inv in F as [(w1 & t & w2 & P & v1 & v2 & W1 & W2 & -> & Ht & B & Hx & Hm & V1 & V2 & Hv & Ed)
                                |(t & P & -> & Ht & Hx & Hm & Ed)].
    - exists KPlain, w1, t, w2. split; [reflexivity|]. split; [exact W1|]. split; [exact W2|].
      split; [reflexivity|]. apply tx_leaf; [reflexivity|]. apply (slt_cond t P m v1 v2); try assumption.
      destruct Hv as [-> | ->]; [exact B|apply after_none].
    - exists KNeg, [], t, []. split; [reflexivity|]. split; [constructor|]. split; [constructor|].
      split; [reflexivity|]. apply tx_leaf; [reflexivity|]. apply (slt_exists t P m); assumption.
  Qed.

  Lemma sub_exists_reads : sreads is_neg (slift (pmap SMSingleton parse_exists)).
  Proof.
    intros s i a r s' E. unfold slift, pmap in E.
    destruct (parse_exists i) as [[m r1]|] eqn:F; [|discriminate]. injection E as <- <- _.
    apply (exists_inv O) in F as (t & P & -> & Ht & Hx & Hm & Ed).
    exists KNeg, [], t, []. split; [reflexivity|]. split; [constructor|]. split; [constructor|].
    split; [reflexivity|]. apply tx_leaf; [reflexivity|]. apply (slt_exists t P m); assumption.
  Qed.

  Lemma close_reads : treads (fun x => x = lit ")") (slift (ws (ch 41))).
  Proof.
    intros s i u r s' E. unfold slift in E. destruct (ws (ch 41) i) as [[x r1]|] eqn:F; [|discriminate].
    injection E as _ <- _. apply ws_ch_inv in F as (w1 & w2 & W1 & W2 & -> & _).
    exists w1, (lit ")"), w2. auto.
  Qed.

  Lemma sub_inc_reads : forall s i u r s', sub_inc s i = (POk u r, s') -> r = i.
  Proof.
    intros s i u r s' E. unfold sub_inc in E. cbv zeta in E. destruct (256 <=? lv_sub s + 1); [discriminate|].
    injection E as _ <- _. reflexivity.
  Qed.

  Lemma sreads_weaken : forall K K' p, (forall k, K k = true -> K' k = true) -> sreads K p -> sreads K' p.
  Proof. intros K K' p HK H. apply (preads_weaken _ _ _ _ _ _ K); assumption. Qed.

  Lemma sub_composite_reads : forall g t, sreads is_group g -> sreads is_not t ->
    sreads alone (sub_composite O g t).
  Proof.
    intros g t Hg Ht.
    apply (composite_reads slt SMGroup SMNot sm_and sm_xor sm_or)
      with (atoms := salt g (salt (sub_singleton O) t))
           (tok_and := slift (tok (lit "&&")))
           (tok_xor := slift (alt (tok (lit "^")) (tok (lit "XOR")))) (tok_or := slift (tok (lit "||"))).
    - apply tok_slift_reads.
    - apply xor_slift_reads.
    - apply tok_slift_reads.
    - apply preads_alt; [|apply preads_alt].
      + apply (sreads_weaken is_group); [kinds|exact Hg].
      + apply (sreads_weaken is_leaf); [kinds|exact sub_singleton_reads].
      + apply (sreads_weaken is_not); [kinds|exact Ht].
  Qed.

  Lemma sub_gn_reads : forall f, sreads is_group (fst (sub_gn O f)) /\ sreads is_not (snd (sub_gn O f)).
  Proof.
    induction f as [|f [IH1 IH2]]; [split; apply preads_fuel|]. rewrite gn_S. cbn [fst snd]. split.
    - apply group_reads.
      + exact sub_inc_reads.
      + exact close_reads.
      + apply preads_alt; [apply sub_composite_reads; assumption|].
        apply preads_alt; [|apply preads_alt].
        * apply (sreads_weaken is_leaf); [kinds|exact sub_singleton_reads].
        * apply (sreads_weaken is_not); [kinds|exact IH2].
        * apply (sreads_weaken is_group); [kinds|exact IH1].
    - apply not_reads.
      apply preads_alt; [|apply preads_alt].
      + apply (sreads_weaken is_group); [kinds|exact IH1].
      + apply (sreads_weaken is_neg); [kinds|exact sub_exists_reads].
      + apply (sreads_weaken is_not); [kinds|exact IH2].
  Qed.

  Lemma subfield_reads : sreads alone (parse_subfield_matcher O).
  Proof.
    intros s i a r s' E. unfold parse_subfield_matcher in E.
    destruct (sub_gn_reads (S (length i))) as [H1 H2]. destruct (sub_gn O (S (length i))) as [g t].
    cbn [fst snd] in *.
    destruct (salt (sub_composite O g t) (salt (sub_singleton O) (salt g t)) s i) as [[a1 r1| |] s1] eqn:F;
      try discriminate. injection E as <- <- <-. revert s i a1 r1 s1 F.
    change (sreads alone (salt (sub_composite O g t) (salt (sub_singleton O) (salt g t)))).
    apply preads_alt; [apply sub_composite_reads; assumption|].
    apply preads_alt; [|apply preads_alt].
    - apply (sreads_weaken is_leaf); [kinds|exact sub_singleton_reads].
    - apply (sreads_weaken is_group); [kinds|exact H1].
    - apply (sreads_weaken is_not); [kinds|exact H2].
  Qed.

  Inductive btx : bytes -> subfield_matcher -> Prop :=
  | btx_intro : forall k w1 e w2 m, alone k = true -> stx k e m -> blanks w1 -> blanks w2 ->
      btx (lit "{" ++ w1 ++ e ++ w2 ++ lit "}") m.

  Lemma braced_reads : forall s i m r s', s_braced O s i = (POk m r, s') ->
    exists w1 t w2, blanks w1 /\ blanks w2 /\ i = w1 ++ t ++ w2 ++ r /\ btx t m.
  Proof.
    intros s i m r s' E. unfold s_braced, sdelim in E. unfold sbind at 1, slift at 1 in E.
    destruct (ws (ch 123) i) as [[x r1]|] eqn:E1; [|discriminate]. unfold sbind at 1 in E.
    destruct (parse_subfield_matcher O s r1) as [[b r3| |] s3] eqn:E3; try discriminate.
    unfold sbind, sret, slift in E. destruct (ws (ch 125) r3) as [[y r4]|] eqn:E4; [|discriminate].
    injection E as <- <- <-.
    apply ws_ch_inv in E1 as (w1 & w2 & W1 & W2 & -> & _).
    apply subfield_reads in E3 as (k & w3 & c & w4 & Hk & W3 & W4 & -> & He).
    apply ws_ch_inv in E4 as (w5 & w6 & W5 & W6 & -> & _).
    exists w1, (lit "{" ++ (w2 ++ w3) ++ c ++ (w4 ++ w5) ++ lit "}"), w6.
    split; [exact W1|]. split; [exact W6|]. split.
    - rewrite <- !app_assoc. reflexivity.
    - apply (btx_intro k (w2 ++ w3) c (w4 ++ w5)); try assumption; apply blanks_app; assumption.
  Qed.

  (** ** field matchers *)
  Definition about (t : tag_matcher) (o : occ_matcher) (tt : bytes) (T : bytes -> Prop)
      (to : bytes) (S : option bytes -> Prop) : Prop :=
    tag_matcher_text tt T /\ occ_matcher_text to S /\ (forall f, tag_occ t o f <-> tagged T S f)
    /\ tag_matcher_text (tm_display t) T /\ exists S', occ_matcher_text (om_display o) S' /\ forall x, S' x <-> S x.

  Inductive flt : kind -> bytes -> field_matcher -> Prop :=
  | flt_exists : forall tm o tt T to S w, about tm o tt T to S -> blanks w ->
      flt KNeg (tt ++ to ++ w ++ lit "?") (FMSingleton (FExists tm o))
  | flt_dot_exists : forall tq q tm o tt T to S t P sg v,
      quant_text false tq q -> about tm o tt T to S -> exists_text t P -> is_exists sg = true ->
      sing_means O sg P -> blanks v ->
      flt KPlain (tq ++ tt ++ to ++ lit "." ++ t)
        (FMSingleton (FSubfields q tm o (SMSingleton sg) (v ++ tq ++ tt ++ to ++ lit "." ++ t)))
  | flt_dot : forall tq q tm o tt T to S w t P sg v,
      quant_text false tq q -> about tm o tt T to S -> blanks w -> condition_text O t P -> is_exists sg = false ->
      sing_means O sg P -> blanks v ->
      flt KPlain (tq ++ tt ++ to ++ lit "." ++ w ++ t)
        (FMSingleton (FSubfields q tm o (SMSingleton sg) (v ++ tq ++ tt ++ to ++ lit "." ++ w ++ t)))
  | flt_loose : forall tq q tm o tt T to S w1 w2 t P sg v,
      tight_quant tq q -> about tm o tt T to S -> blanks w1 -> blanks w2 -> exists_text t P ->
      is_exists sg = true -> sing_means O sg P -> blanks v ->
      flt KLoose (tq ++ tt ++ to ++ w1 ++ lit "." ++ w2 ++ t)
        (FMSingleton (FSubfields q tm o (SMSingleton sg) (v ++ tq ++ tt ++ to ++ w1 ++ lit "." ++ w2 ++ t)))
  | flt_braced : forall tq q tm o tt T to S w t m v1 v2,
      quant_text false tq q -> about tm o tt T to S -> blanks w -> btx t m -> blanks v1 -> blanks v2 ->
      flt KNeg (tq ++ tt ++ to ++ w ++ t)
        (FMSingleton (FSubfields q tm o m (v1 ++ (tq ++ tt ++ to ++ w ++ t) ++ v2)))
  | flt_card : forall w1 tm o tt T w2 to S w3 top op w4 tn n v,
      blanks w1 -> about tm o tt T to S -> blanks w2 -> blanks w3 ->
      In (top, op) num_ops -> blanks w4 -> number_text tn n -> blanks v ->
      flt KPlain (lit "#" ++ w1 ++ tt ++ w2 ++ to ++ w3 ++ top ++ w4 ++ tn)
        (FMCard tm o None op n (v ++ lit "#" ++ w1 ++ tt ++ w2 ++ to ++ w3 ++ top ++ w4 ++ tn))
  | flt_card_braced : forall w1 tm o tt T w2 to S w3 t m w5 top op w4 tn n v,
      blanks w1 -> about tm o tt T to S -> blanks w2 -> blanks w3 -> btx t m -> blanks w5 ->
      In (top, op) num_ops -> blanks w4 -> number_text tn n -> blanks v ->
      flt KPlain (lit "#" ++ w1 ++ tt ++ w2 ++ to ++ w3 ++ t ++ w5 ++ top ++ w4 ++ tn)
        (FMCard tm o (Some m) op n
           (v ++ lit "#" ++ w1 ++ tt ++ w2 ++ to ++ w3 ++ t ++ w5 ++ top ++ w4 ++ tn)).

  Definition ftx : kind -> bytes -> field_matcher -> Prop := tx flt FMGroup FMNot fm_and fm_xor fm_or.
  Let freads := preads flt FMGroup FMNot fm_and fm_xor fm_or.

  Lemma freads_weaken : forall K K' p, (forall k, K k = true -> K' k = true) -> freads K p -> freads K' p.
  Proof. intros K K' p HK H. apply (preads_weaken _ _ _ _ _ _ K); assumption. Qed.

  Lemma occ_read : forall i o r, parse_occ_matcher i = Some (o, r) ->
    exists to S, i = to ++ r /\ occ_matcher_text to S /\ (forall x, om_is_match o x = true <-> S x)
      /\ exists S', occ_matcher_text (om_display o) S' /\ forall x, S' x <-> S x.
  Proof.
    intros i o r H. apply parse_occ_matcher_inv in H as [Hv H].
    assert (HD : occ_matcher_text (om_display o) (om_set o)).
    { apply occ_matcher_new_text. apply parse_all_ok. rewrite <- (app_nil_r (om_display o)).
      apply parse_occ_matcher_display; [exact Hv|exact I]. }
    destruct H as [->|[-> ->]].
    - exists (om_display o), (om_set o). split; [reflexivity|]. split; [exact HD|].
      split; [intros x; apply om_is_match_set|]. exists (om_set o). split; [exact HD|reflexivity].
    - exists (lit "/00"), (om_set OMNone). split; [reflexivity|]. split; [|split; [intros x; apply om_is_match_set|]].
      + apply occ_matcher_new_text. apply parse_all_ok. rewrite <- (app_nil_r (lit "/00")).
        apply parse_occ_matcher_zero. exact I.
      + exists (om_set OMNone). split; [exact HD|reflexivity].
  Qed.

  Lemma tag_occ_read : forall i m r1 o r, parse_tag_matcher i = Some (m, r1) -> parse_occ_matcher r1 = Some (o, r) ->
    exists tt T to S, i = tt ++ to ++ r /\ about m o tt T to S.
  Proof.
    intros i m r1 o r H1 H2. apply parse_tag_matcher_inv in H1 as (-> & T & HT & Hm).
    apply occ_read in H2 as (to & S & -> & HS & Ho & HD). exists (tm_display m), T, to, S.
    split; [reflexivity|]. split; [exact HT|]. split; [exact HS|]. split; [|split; [exact HT|exact HD]].
    intros f. unfold tag_occ, tagged. rewrite Hm, Ho. reflexivity.
  Qed.

  (** optional quantifier before a tag: nothing but blanks and the quantifier *)
  Lemma tag_quant_read : forall i q r1, opt (ws parse_quantifier) i = Some (q, r1) ->
    exists w0 tq, blanks w0 /\ quant_text false tq (quant_default q) /\ i = w0 ++ tq ++ r1.
  Proof.
    intros i q r1 H. apply (opt_ws_quant_inv false) in H as [[-> ->]|(w0 & tq & W0 & Hq & -> & _)].
    - exists [], []. split; [constructor|]. split; [apply quant_none|reflexivity].
    - exists w0, tq. auto.
  Qed.

  Let f_read (K : kind -> bool) := is_read flt FMGroup FMNot fm_and fm_xor fm_or K.

  Lemma read_weaken : forall K K' i a r, (forall k, K k = true -> K' k = true) -> f_read K i a r -> f_read K' i a r.
  Proof.
    intros K K' i a r HK (k & w1 & c & w2 & Hk & HR). exists k, w1, c, w2. split; [apply HK; exact Hk|exact HR].
  Qed.

  Lemma leaf_read : forall (K : kind -> bool) k w1 c w2 r a, K k = true -> is_atom k = true -> blanks w1 -> blanks w2 ->
    flt k c a -> f_read K (w1 ++ c ++ w2 ++ r) a r.
  Proof.
    intros K k w1 c w2 r a HK Ha W1 W2 Hf. exists k, w1, c, w2. split; [exact HK|]. split; [exact W1|].
    split; [exact W2|]. split; [reflexivity|]. apply tx_leaf; assumption.
  Qed.

  Lemma f_exists_reads : forall i m r, parse_f_exists i = Some (m, r) -> f_read is_kneg i (FMSingleton m) r.
  Proof.
    intros i m r H. unfold parse_f_exists, terminated, ws in H.
    destruct (skip_ws_split i) as (w0 & W0 & E0). destruct (skip_ws i) as [|c i'] eqn:Es; [discriminate|].
    destruct (parse_tag_matcher (c :: i')) as [[t r1]|] eqn:E1; [|discriminate].
    destruct (parse_occ_matcher r1) as [[o r2]|] eqn:E2; [|discriminate].
    destruct (ch 63 (skip_ws r2)) as [[x r3]|] eqn:E3; [|discriminate]. injection H as <- <-.
    apply ch_inv in E3 as [E3 _]. destruct (skip_ws_split r2) as (w & W & Er). rewrite E3 in Er.
    destruct (tag_occ_read _ _ _ _ _ E1 E2) as (tt & T & to & S & Et & Hm).
    replace i with (w0 ++ (tt ++ to ++ w ++ lit "?") ++ [] ++ r3).
    - apply (leaf_read _ KNeg); try reflexivity; try assumption; [constructor|].
      apply (flt_exists t o tt T to S); assumption.
    - rewrite E0, Et, Er. rewrite <- !app_assoc. reflexivity.
  Qed.

  Lemma bracket_reads : freads is_kneg (bracket O).
  Proof.
    intros s i a r s' E. unfold bracket, smap, parse_f_bracket, staken in E.
    destruct (sbind _ _ s i) as [[x r1| |] s1] eqn:F; try discriminate.
    destruct x as [[[q t] o] m]. injection E as <- <- <-.
    unfold sbind at 1, slift at 1 in F. destruct (opt (ws parse_quantifier) i) as [[q' r2]|] eqn:E1; [|discriminate].
    unfold sbind at 1, slift at 1 in F. destruct (parse_tag_matcher r2) as [[t' r3]|] eqn:E2; [|discriminate].
    unfold sbind at 1, slift at 1 in F. destruct (parse_occ_matcher r3) as [[o' r4]|] eqn:E3; [|discriminate].
    unfold smap in F. destruct (s_braced O s r4) as [[m' r5| |] s2] eqn:E4; try discriminate.
    injection F as <- <- <- <- <- <-.
    destruct (tag_quant_read _ _ _ E1) as (w0 & tq & W0 & Hq & ->).
    destruct (tag_occ_read _ _ _ _ _ E2 E3) as (tt & T & to & S & -> & Hm).
    destruct (braced_reads _ _ _ _ _ E4) as (w1 & tb & w2 & W1 & W2 & -> & Hb).
    replace (w0 ++ tq ++ tt ++ to ++ w1 ++ tb ++ w2 ++ r5) with (w0 ++ (tq ++ tt ++ to ++ w1 ++ tb) ++ w2 ++ r5)
      by (rewrite <- !app_assoc; reflexivity).
    apply (leaf_read is_kneg KNeg); try reflexivity; try assumption.
    rewrite taken3. apply (flt_braced tq (quant_default q') t' o' tt T to S w1 tb m' w0 w2); assumption.
  Qed.

  Lemma f_dot_reads : forall i m r, parse_f_dot O i = Some (m, r) -> f_read is_leaf i (FMSingleton m) r.
  Proof.
    intros i m r H. unfold parse_f_dot in H.
    destruct (opt (ws parse_quantifier) i) as [[q r1]|] eqn:E1; [|discriminate].
    destruct (parse_tag_matcher r1) as [[t r2]|] eqn:E2; [|discriminate].
    destruct (parse_occ_matcher r2) as [[o r3]|] eqn:E3; [|discriminate].
    destruct (ch 46 r3) as [[x r4]|] eqn:E4; [|discriminate].
    destruct (parse_singleton O r4) as [[sm r5]|] eqn:E5; [|discriminate]. injection H as <- <-.
    destruct (tag_quant_read _ _ _ E1) as (w0 & tq & W0 & Hq & ->).
    destruct (tag_occ_read _ _ _ _ _ E2 E3) as (tt & T & to & S & -> & Hm).
    apply ch_inv in E4 as [-> _].
    apply singleton_inv in E5 as [(w1 & tc & w2 & P & v1 & v2 & W1 & W2 & -> & Ht & _ & Hx & HP & _)
                                |(tc & P & -> & Ht & Hx & HP & _)].
    - replace (w0 ++ tq ++ tt ++ to ++ 46 :: w1 ++ tc ++ w2 ++ r5)
        with (w0 ++ (tq ++ tt ++ to ++ lit "." ++ w1 ++ tc) ++ w2 ++ r5)
        by (rewrite <- !app_assoc; reflexivity).
      apply (leaf_read is_leaf KPlain); try reflexivity; try assumption.
      rewrite taken3. rewrite (app_assoc w0). rewrite trim_end_padded; [|exact W2|].
      + apply (flt_dot tq (quant_default q) t o tt T to S w1 tc P sm w0); try assumption. eexists. exact Ht.
      + repeat apply ends_app. apply (condition_ends O _ P). eexists. exact Ht.
    - replace (w0 ++ tq ++ tt ++ to ++ 46 :: tc ++ r5)
        with (w0 ++ (tq ++ tt ++ to ++ lit "." ++ tc) ++ [] ++ r5)
        by (rewrite <- !app_assoc; reflexivity).
      apply (leaf_read is_leaf KPlain); try reflexivity; try assumption; [constructor|].
      rewrite taken3. rewrite (app_assoc w0). rewrite trim_end_padded; [|constructor|].
      + apply (flt_dot_exists tq (quant_default q) t o tt T to S tc P sm w0); assumption.
      + repeat apply ends_app. apply (exists_ends _ _ Ht).
  Qed.

  Lemma f_singleton_reads : freads is_leaf (f_singleton O).
  Proof.
    intros s i a r s' E. unfold f_singleton, smap in E.
    destruct (parse_f_singleton O s i) as [[m r1| |] s1] eqn:F; try discriminate. injection E as <- <- <-.
    unfold parse_f_singleton, salt, slift in F.
    destruct (parse_f_exists i) as [[m2 r2]|] eqn:E1.
    { injection F as -> -> _. apply (read_weaken is_kneg); [kinds|]. apply f_exists_reads. exact E1. }
    destruct (parse_f_dot O i) as [[m2 r2]|] eqn:E2.
    { injection F as -> -> _. apply f_dot_reads. exact E2. }
    assert (E3 : bracket O s i = (POk (FMSingleton m) r1, s1)) by (unfold bracket, smap; rewrite F; reflexivity).
    apply (read_weaken is_kneg); [kinds|]. apply (bracket_reads _ _ _ _ _ E3).
  Qed.

  Lemma f_exists2_reads : freads is_neg (slift f_exists).
  Proof.
    intros s i a r s' E. unfold slift, f_exists, alt, pmap in E.
    destruct (parse_f_exists i) as [[m1 r1]|] eqn:E0.
    { injection E as <- <- _. apply (read_weaken is_kneg); [kinds|]. apply f_exists_reads. exact E0. }
    destruct (opt parse_quantifier i) as [[q r1]|] eqn:E1; [|discriminate].
    destruct (parse_tag_matcher r1) as [[t r2]|] eqn:E2; [|discriminate].
    destruct (parse_occ_matcher r2) as [[o r3]|] eqn:E3; [|discriminate].
    destruct (ws (ch 46) r3) as [[x r4]|] eqn:E4; [|discriminate].
    destruct (parse_exists r4) as [[sm r5]|] eqn:E5; [|discriminate]. injection E as <- <- _.
    destruct (tag_occ_read _ _ _ _ _ E2 E3) as (tt & T & to & S & -> & Hm).
    apply ws_ch_inv in E4 as (w1 & w2 & W1 & W2 & -> & _).
    apply (exists_inv O) in E5 as (tc & P & -> & Ht & Hx & HP & _).
    assert (Hq : exists tq, tight_quant tq (quant_default q) /\ i = tq ++ tt ++ to ++ w1 ++ 46 :: w2 ++ tc ++ r5).
    { unfold opt in E1. destruct (parse_quantifier i) as [[q' r']|] eqn:F.
      - injection E1 as <- ->. apply quantifier_inv in F as [[-> ->]|[-> ->]].
        + exists (lit "ALL"). split; [apply tight_all|reflexivity].
        + exists (lit "ANY"). split; [apply tight_any|reflexivity].
      - injection E1 as <- <-. exists []. split; [apply tight_none|reflexivity]. }
    destruct Hq as (tq & Hq & ->).
    replace (tq ++ tt ++ to ++ w1 ++ 46 :: w2 ++ tc ++ r5)
      with ([] ++ (tq ++ tt ++ to ++ w1 ++ lit "." ++ w2 ++ tc) ++ [] ++ r5)
      by (cbn [app]; rewrite <- !app_assoc; reflexivity).
    apply (leaf_read is_neg KLoose); try reflexivity; try constructor.
    rewrite taken3. rewrite app_nil_r.
    apply (flt_loose tq (quant_default q) t o tt T to S w1 w2 tc P sm []); try assumption. constructor.
  Qed.

  (** read as a count, with blanks in front only *)
  Definition card_read (i : bytes) (a : field_matcher) (r : bytes) : Prop :=
    exists w0 c, blanks w0 /\ i = w0 ++ c ++ [] ++ r /\ flt KPlain c a.
  Lemma card_leaf : forall w0 c r a, flt KPlain c a -> blanks w0 -> card_read (w0 ++ c ++ [] ++ r) a r.
  Proof. intros w0 c r a H W. exists w0, c. auto. Qed.

  Lemma f_card_inv : forall s i a r s', parse_f_card O s i = (POk a r, s') -> card_read i a r.
  Proof.
    intros s i a r s' E. unfold parse_f_card, staken in E.
    destruct (spreceded _ _ s i) as [[x r1| |] s1] eqn:F; try discriminate.
    destruct x as [[[[t o] m] op] v]. injection E as <- <- <-. unfold spreceded in F.
    unfold sbind at 1, slift at 1 in F. destruct (ws (ch 35) i) as [[x r2]|] eqn:E1; [|discriminate].
    unfold sbind at 1, slift at 1 in F. destruct (ws parse_tag_matcher r2) as [[t' r3]|] eqn:E2; [|discriminate].
    unfold sbind at 1, slift at 1 in F. destruct (ws parse_occ_matcher r3) as [[o' r4]|] eqn:E3; [|discriminate].
    unfold sbind at 1 in F. unfold sopt in F.
    assert (HB : exists m' r5 s2, (exists w1 tb w2, blanks w1 /\ blanks w2 /\ r4 = w1 ++ tb ++ w2 ++ r5 /\
          match m' with
          | None => w1 = [] /\ tb = [] /\ w2 = []
          | Some sm => btx tb sm
          end)
        /\ sbind (slift (pverify is_usize_applicable (ws parse_rel_op))) (fun op =>
             smap (fun v => (t', o', m', op, v)) (slift parse_usize)) s2 r5 = (POk (t, o, m, op, v) r1, s1)).
    { destruct (s_braced O s r4) as [[sm r5| |] s2] eqn:E4; try discriminate.
      - exists (Some sm), r5, s2. split; [|exact F].
        destruct (braced_reads _ _ _ _ _ E4) as (w1 & tb & w2 & W1 & W2 & Eb & Hb).
        exists w1, tb, w2. auto.
      - exists None, r4, s2. split; [|exact F]. exists [], [], []. repeat split; constructor. }
    clear F. destruct HB as (m' & r5 & s2 & (w5 & tb & w6 & W5 & W6 & -> & HM) & F).
    unfold sbind at 1, slift at 1 in F.
    destruct (pverify is_usize_applicable (ws parse_rel_op) r5) as [[op' r6]|] eqn:E5; [|discriminate].
    unfold smap, slift in F. destruct (parse_usize r6) as [[v' r7]|] eqn:E6; [|discriminate].
    injection F as <- <- <- <- <- <- <-.
    apply ws_ch_inv in E1 as (w0 & w1 & W0 & W1 & -> & _).
    apply ws_rel_inv in E5 as (w7 & w8 & top & W7 & W8 & -> & Ha & _ & S2 & _).
    apply usize_inv in E6 as (tn & -> & Hn & _).
    unfold ws in E2. destruct (skip_ws_split r2) as (w2 & W2 & Er2).
    destruct (parse_tag_matcher (skip_ws r2)) as [[t2 r8]|] eqn:E7; [|discriminate]. injection E2 as <- <-.
    apply parse_tag_matcher_inv in E7 as (E7 & T & HT & Hm). rewrite E7 in Er2.
    unfold ws in E3. rewrite skip_ws_idem in E3. destruct (skip_ws_split r8) as (w3 & W3 & Er8).
    destruct (parse_occ_matcher (skip_ws r8)) as [[o2 r9]|] eqn:E8; [|discriminate]. injection E3 as <- E9.
    apply occ_read in E8 as (to & S & E8 & HS & Ho & HD). destruct (skip_ws_split r9) as (w4 & W4 & Er9).
    rewrite E9 in Er9. rewrite E8, Er9 in Er8. rewrite Er8 in Er2. rewrite Er2.
    assert (HTS : about t2 o2 (tm_display t2) T to S).
    { split; [exact HT|]. split; [exact HS|]. split; [|split; [exact HT|exact HD]].
      intros f. unfold tag_occ, tagged. rewrite Hm, Ho. reflexivity. }
    destruct m' as [sm|].
    - match goal with |- card_read ?x _ _ => replace x with
        (w0 ++ (lit "#" ++ (w1 ++ w2) ++ tm_display t2 ++ w3 ++ to ++ (w4 ++ w5) ++ tb ++ (w6 ++ w7) ++ top ++ w8 ++ tn)
         ++ [] ++ r7) by (rewrite <- !app_assoc; reflexivity) end.
      apply card_leaf; [|assumption].
      rewrite taken3. rewrite app_nil_r.
      apply (flt_card_braced (w1 ++ w2) t2 o2 (tm_display t2) T w3 to S (w4 ++ w5) tb sm (w6 ++ w7) top op' w8 tn v' w0);
        try assumption; try (apply blanks_app; assumption). apply S2. exact Ha.
    - destruct HM as (-> & -> & ->). cbn [app].
      match goal with |- card_read ?x _ _ => replace x with
        (w0 ++ (lit "#" ++ (w1 ++ w2) ++ tm_display t2 ++ w3 ++ to ++ (w4 ++ w7) ++ top ++ w8 ++ tn)
         ++ [] ++ r7) by (rewrite <- !app_assoc; reflexivity) end.
      apply card_leaf; [|assumption].
      rewrite taken3. rewrite app_nil_r.
      apply (flt_card (w1 ++ w2) t2 o2 (tm_display t2) T w3 to S (w4 ++ w7) top op' w8 tn v' w0);
        try assumption; try (apply blanks_app; assumption). apply S2. exact Ha.
  Qed.

  Lemma f_card_reads : freads is_leaf (parse_f_card O).
  Proof.
    intros s i a r s' E. apply f_card_inv in E as (w0 & c & W0 & -> & Hf).
    apply (leaf_read is_leaf KPlain); try reflexivity; try assumption. constructor.
  Qed.

  Lemma f_composite_reads : forall g t, freads is_group g -> freads is_not t ->
    freads alone (f_composite O g t).
  Proof.
    intros g t Hg Ht.
    apply (composite_reads flt FMGroup FMNot fm_and fm_xor fm_or)
      with (atoms := f_atoms O g t)
           (tok_and := slift (ws (tok (lit "&&"))))
           (tok_xor := slift (alt (tok (lit "^")) (tok (lit "XOR")))) (tok_or := slift (ws (tok (lit "||")))).
    - apply tok_slift_reads.
    - apply xor_slift_reads.
    - apply tok_slift_reads.
    - unfold f_atoms. apply preads_alt; [|apply preads_alt; [|apply preads_alt; [|apply preads_alt]]].
      + apply (freads_weaken is_group); [kinds|exact Hg].
      + apply (freads_weaken is_leaf); [kinds|exact f_card_reads].
      + apply (freads_weaken is_leaf); [kinds|exact f_singleton_reads].
      + apply (freads_weaken is_not); [kinds|exact Ht].
      + apply (freads_weaken is_neg); [kinds|exact f_exists2_reads].
  Qed.

  Lemma f_close_reads : treads (fun x => x = lit ")") f_close.
  Proof.
    intros s i u r s' E. unfold f_close in E. destruct (ws (ch 41) i) as [[x r1]|] eqn:F; [|discriminate].
    injection E as _ <- _. apply ws_ch_inv in F as (w1 & w2 & W1 & W2 & -> & _).
    exists w1, (lit ")"), w2. auto.
  Qed.

  Lemma field_inc_reads : forall s i u r s', field_inc s i = (POk u r, s') -> r = i.
  Proof.
    intros s i u r s' E. unfold field_inc in E. cbv zeta in E. destruct (256 <=? lv_field s + 1); [discriminate|].
    injection E as _ <- _. reflexivity.
  Qed.

  Lemma field_gn_reads : forall f, freads is_group (fst (field_gn O f)) /\ freads is_not (snd (field_gn O f)).
  Proof.
    induction f as [|f [IH1 IH2]]; [split; apply preads_fuel|]. rewrite fgn_S. cbn [fst snd]. split.
    - apply group_reads.
      + exact field_inc_reads.
      + exact f_close_reads.
      + apply preads_alt; [apply f_composite_reads; assumption|].
        apply preads_alt; [|apply preads_alt; [|apply preads_alt]].
        * apply (freads_weaken is_leaf); [kinds|exact f_singleton_reads].
        * apply (freads_weaken is_not); [kinds|exact IH2].
        * apply (freads_weaken is_leaf); [kinds|exact f_card_reads].
        * apply (freads_weaken is_group); [kinds|exact IH1].
    - apply not_reads.
      apply preads_alt; [|apply preads_alt; [|apply preads_alt]].
      + apply (freads_weaken is_group); [kinds|exact IH1].
      + apply (freads_weaken is_kneg); [kinds|exact bracket_reads].
      + apply (freads_weaken is_neg); [kinds|exact f_exists2_reads].
      + apply (freads_weaken is_not); [kinds|exact IH2].
  Qed.

  Lemma field_reads : freads alone (parse_field_matcher O).
  Proof.
    intros s i a r s' E. unfold parse_field_matcher in E.
    destruct (field_gn_reads (S (length i))) as [H1 H2]. destruct (field_gn O (S (length i))) as [g t].
    cbn [fst snd] in *.
    destruct (sws (salt (f_composite O g t) (salt g (salt t (salt (f_singleton O) (parse_f_card O))))) s i)
      as [[a1 r1| |] s1] eqn:F; try discriminate. injection E as <- <- <-. revert s i a1 r1 s1 F.
    change (freads alone (sws (salt (f_composite O g t) (salt g (salt t (salt (f_singleton O) (parse_f_card O))))))).
    apply preads_sws.
    apply preads_alt; [apply f_composite_reads; assumption|].
    apply preads_alt; [|apply preads_alt; [|apply preads_alt]].
    - apply (freads_weaken is_group); [kinds|exact H1].
    - apply (freads_weaken is_not); [kinds|exact H2].
    - apply (freads_weaken is_leaf); [kinds|exact f_singleton_reads].
    - apply (freads_weaken is_leaf); [kinds|exact f_card_reads].
  Qed.

  Lemma field_new_reads : forall s t m s', field_matcher_new O s t = (Some (Some m), s') ->
    exists k w1 e w2, alone k = true /\ blanks w1 /\ blanks w2 /\ t = w1 ++ e ++ w2 /\ ftx k e m.
  Proof.
    intros s t m s' H. unfold field_matcher_new, sparse_all in H.
    destruct (parse_field_matcher O s t) as [[a [|c r]| |] s1] eqn:E; try discriminate.
    injection H as -> _. apply field_reads in E as (k & w1 & e & w2 & Hk & W1 & W2 & -> & He).
    exists k, w1, e, w2. rewrite app_nil_r. auto.
  Qed.

  Lemma sub_new_reads : forall s t m s', subfield_matcher_new O s t = (Some (Some m), s') ->
    exists k w1 e w2, alone k = true /\ blanks w1 /\ blanks w2 /\ t = w1 ++ e ++ w2 /\ stx k e m.
  Proof.
    intros s t m s' H. unfold subfield_matcher_new, sparse_all in H.
    destruct (parse_subfield_matcher O s t) as [[a [|c r]| |] s1] eqn:E; try discriminate.
    injection H as -> _. apply subfield_reads in E as (k & w1 & e & w2 & Hk & W1 & W2 & -> & He).
    exists k, w1, e, w2. rewrite app_nil_r. auto.
  Qed.

  (** ** meanings *)
  Lemma sub_group_means : forall a P, means (sub_holds O) a P -> means (sub_holds O) (SMGroup a) P.
  Proof. intros a P H. exact H. Qed.
  Lemma sub_not_means : forall a P, means (sub_holds O) a P -> means (sub_holds O) (SMNot a) (fun ci l => ~ P ci l).
  Proof.
    intros a P H ci sfs. unfold sub_holds. cbn [sm_holds]. specialize (H ci sfs). unfold sub_holds in H.
    rewrite H. reflexivity.
  Qed.
  Lemma field_group_means : forall a P, means (field_holds O) a P -> means (field_holds O) (FMGroup a) P.
  Proof. intros a P H. exact H. Qed.
  Lemma field_not_means : forall a P, means (field_holds O) a P -> means (field_holds O) (FMNot a) (fun ci l => ~ P ci l).
  Proof.
    intros a P H ci fs. unfold field_holds. cbn [fm_holds]. specialize (H ci fs). unfold field_holds in H.
    rewrite H. reflexivity.
  Qed.

  Lemma slt_means : forall k t m, slt k t m -> exists P, sub_leaf O k t P 0 /\ means (sub_holds O) m P.
  Proof.
    intros k t m [t' P sg Ht _ Hm _|t' P sg v1 v2 Ht _ Hm _ _ _]; exists P; (split; [|exact Hm]).
    - apply sub_leaf_exists. exact Ht.
    - apply sub_leaf_cond. eexists. exact Ht.
  Qed.

  Lemma stx_loose : forall k t m, stx k t m -> exists P n, sub_text O false k t P n /\ means (sub_holds O) m P.
  Proof.
    apply (tx_loose slt SMGroup SMNot sm_and sm_xor sm_or (sub_holds O) (sub_leaf O) (fun n => 1 + 8 * n) N.add).
    - apply sub_group_means.
    - apply sub_not_means.
    - apply sub_and_means.
    - apply sub_xor_means.
    - apply sub_or_means.
    - intros k t a H. destruct (slt_means k t a H) as (P & H1 & H2). exists P, 0. auto.
  Qed.

  (** what is needed of the subfield matcher between the braces *)
  Definition braces_ok (b : bool) (m : subfield_matcher) : Prop :=
    forall t, btx t m -> exists P, braced_text O b t P /\ means (sub_holds O) m P.
  Definition inner_ok (b : bool) (a : field_matcher) : Prop :=
    match a with
    | FMSingleton (FSubfields _ _ _ m _) | FMCard _ _ (Some m) _ _ _ => braces_ok b m
    | _ => True
    end.

  Lemma flt_means : forall b k t a, flt k t a -> inner_ok b a ->
    exists P, field_leaf O b k t P 0 /\ means (field_holds O) a P.
  Proof.
    intros b k t a H. destruct H as [tm o tt T to S w (HT & HS & Hm & _) W
      |tq q tm o tt T to S t P sg v Hq (HT & HS & Hm & _) Ht Hx HP V
      |tq q tm o tt T to S w t P sg v Hq (HT & HS & Hm & _) W Ht Hx HP V
      |tq q tm o tt T to S w1 w2 t P sg v Hq (HT & HS & Hm & _) W1 W2 Ht Hx HP V
      |tq q tm o tt T to S w t m v1 v2 Hq (HT & HS & Hm & _) W Ht V1 V2
      |w1 tm o tt T w2 to S w3 top op w4 tn n v W1 (HT & HS & Hm & _) W2 W3 Ho W4 Hn V
      |w1 tm o tt T w2 to S w3 t m w5 top op w4 tn n v W1 (HT & HS & Hm & _) W2 W3 Ht W5 Ho W4 Hn V]; intros HI.
    - eexists. split; [apply (field_exists O b tt T to S w); assumption|].
      intros ci fs. unfold field_holds. cbn [fm_holds fs_holds].
      split; intros (f & Hf & Ht); exists f; (split; [exact Hf|apply Hm; exact Ht]).
    - eexists. split; [apply (field_dot_exists O b tq q tt T to S t P); assumption|].
      apply (subfields_means O (Some q)); [reflexivity|exact Hm|exact HP].
    - eexists. split; [apply (field_dot O b tq q tt T to S w t P); assumption|].
      apply (subfields_means O (Some q)); [reflexivity|exact Hm|exact HP].
    - eexists. split; [apply (field_loose O b tq q tt T to S w1 w2 t P); assumption|].
      apply (subfields_means O (Some q)); [reflexivity|exact Hm|exact HP].
    - destruct (HI t Ht) as (P & Hb & HP).
      eexists. split; [apply (field_braced O b tq q tt T to S w t P); assumption|].
      apply (subfields_means O (Some q)); [reflexivity|exact Hm|exact HP].
    - eexists. split; [apply (field_card O b w1 tt T w2 to S w3 top op w4 tn n); assumption|].
      intros ci fs. unfold field_holds. cbn [fm_holds condition_holds].
      split; intros (k & Hk & Hh); exists k; (split; [|exact Hh]); revert Hk; apply counts_eq; intros f;
        rewrite Hm; tauto.
    - destruct (HI t Ht) as (P & Hb & HP).
      eexists. split; [apply (field_card_braced O b w1 tt T w2 to S w3 t P w5 top op w4 tn n); assumption|].
      intros ci fs. unfold field_holds. cbn [fm_holds condition_holds].
      split; intros (k & Hk & Hh); exists k; (split; [|exact Hh]); revert Hk; apply counts_eq; intros f;
        rewrite Hm; specialize (HP ci (f_subfields f)); unfold sub_holds in HP; rewrite HP; reflexivity.
  Qed.

  Lemma braces_loose : forall m, braces_ok false m.
  Proof.
    intros m t [k w1 e w2 m' Hk He W1 W2]. destruct (stx_loose _ _ _ He) as (P & n & HE & Hm).
    exists P. split; [|exact Hm]. apply (braced_intro O false k w1 e w2 P n); try assumption. discriminate.
  Qed.

  Lemma ftx_loose : forall k t m, ftx k t m -> exists P n, field_expr O false k t P n /\ means (field_holds O) m P.
  Proof.
    apply (tx_loose flt FMGroup FMNot fm_and fm_xor fm_or (field_holds O) (field_leaf O false) N.succ N.max).
    - apply field_group_means.
    - apply field_not_means.
    - apply field_and_means.
    - apply field_xor_means.
    - apply field_or_means.
    - intros k t a H. destruct (flt_means false k t a H) as (P & H1 & H2); [|exists P, 0; auto].
      destruct a as [[tm o|q tm o m raw]|tm o [m|] op v raw| | |]; try exact I; apply braces_loose.
  Qed.

  Lemma field_sound : forall s t m s', field_matcher_new O s t = (Some (Some m), s') ->
    exists P n, record_matcher_text O false t P n /\ means (field_holds O) m P.
  Proof.
    intros s t m s' H. destruct (field_new_reads s t m s' H) as (k & w1 & e & w2 & Hk & W1 & W2 & -> & He).
    destruct (ftx_loose k e m He) as (P & n & HE & Hm). exists P, n. split; [|exact Hm].
    apply (rmt_intro O false k); assumption.
  Qed.
End Sound.

(** * Printed field matchers are read again *)

From Coq Require Import String.
From Verif Require Import Bytes Winnow RecordModel RecordSpec BaseProofs Utf8Model Utf8Spec
  TagOccModel TagOccSpec TagOccProofs StrParserModel StrSpec StrProofs MatcherModel StateParser
  MatcherParserModel MatcherSpec MatcherProofs GrammarSpec GrammarExprProofs GrammarLeafProofs
  GrammarSingletonProofs GrammarCondProofs GrammarSubProofs GrammarFieldLeafProofs GrammarFieldProofs
  GrammarSoundProofs DisplaySpec DisplayProofs.

(** ** what a matcher says about a record is decidable *)
Definition settled (P : Prop) : Prop := P \/ ~ P.

Lemma settled_b : forall (b : bool) (P : Prop), (b = true <-> P) -> settled P.
Proof. intros [] P H; [left; apply H; reflexivity|right; intros X; apply H in X; discriminate]. Qed.

Lemma settled_iff : forall P Q : Prop, (P <-> Q) -> settled P -> settled Q.
Proof. intros P Q H [X|X]; [left; apply H; exact X|right; intros Y; apply X, H; exact Y]. Qed.

Section Settled.
  Variable O : oracles.

  (** quantified over the selected elements of a list *)
  Lemma settled_any : forall A (P sel : A -> Prop) (l : list A), (forall x, settled (P x)) -> (forall x, settled (sel x)) ->
    settled (exists x, (In x l /\ sel x) /\ P x).
  Proof.
    intros A P sel l HP HS. induction l as [|y l IH]; [right; intros (x & [[] _] & _)|].
    destruct IH as [(x & [H1 H2] & H3)|IH]; [left; exists x; cbn; auto|].
    destruct (HP y) as [Hy|Hy]; [destruct (HS y) as [Sy|Sy]|].
    - left. exists y. cbn. auto.
    - right. intros (x & [[->|Hx] H2] & H3); [contradiction|]. apply IH. exists x. auto.
    - right. intros (x & [[->|Hx] H2] & H3); [contradiction|]. apply IH. exists x. auto.
  Qed.

  Lemma settled_all : forall A (P sel : A -> Prop) (l : list A), (forall x, settled (P x)) -> (forall x, settled (sel x)) ->
    settled (forall x, In x l /\ sel x -> P x).
  Proof.
    intros A P sel l HP HS. induction l as [|y l IH]; [left; intros x [[] _]|].
    destruct IH as [IH|IH]; [|right; intros H; apply IH; intros x [Hx Sx]; apply H; cbn; auto].
    destruct (HP y) as [Hy|Hy].
    - left. intros x [[<-|Hx] Sx]; [exact Hy|]. apply IH. auto.
    - destruct (HS y) as [Sy|Sy].
      + right. intros H. apply Hy, H. cbn. auto.
      + left. intros x [[<-|Hx] Sx]; [contradiction|]. apply IH. auto.
  Qed.

  Lemma settled_quant : forall A q (P sel : A -> Prop) (l : list A), (forall x, settled (P x)) -> (forall x, settled (sel x)) ->
    settled (quantified q P (fun x => In x l /\ sel x)).
  Proof.
    intros A [] P sel l HP HS; cbn [quantified]; [apply settled_all; assumption|apply settled_any; assumption].
  Qed.

  Lemma settled_in : forall A (P : A -> Prop) (l : list A), (forall x, settled (P x)) -> settled (exists x, In x l /\ P x).
  Proof.
    intros A P l HP. apply (settled_iff (exists x, (In x l /\ True) /\ P x)).
    - split; intros (x & H); exists x; tauto.
    - apply settled_any; [exact HP|]. intros x. left. exact I.
  Qed.

  Lemma settled_not : forall P, settled P -> settled (~ P).
  Proof. intros P [H|H]; [right; intros X; apply X; exact H|left; exact H]. Qed.
  Lemma settled_neg : forall b P, settled P -> settled (negated_if b P).
  Proof. intros [] P H; [apply settled_not; exact H|exact H]. Qed.
  Lemma settled_and : forall P Q, settled P -> settled Q -> settled (P /\ Q).
  Proof. unfold settled. tauto. Qed.

  Lemma settled_bytes : forall a b : bytes, settled (a = b).
  Proof. intros a b. apply (settled_b (bytes_eqb a b)). apply bytes_eqb_eq. Qed.
  Lemma settled_member : forall (c : byte) l, settled (In c l).
  Proof.
    intros c l. destruct (in_dec N.eq_dec c l) as [H|H]; [left; exact H|right; exact H].
  Qed.
  Lemma settled_true : forall b : bool, settled (b = true).
  Proof. intros []; [left; reflexivity|right; discriminate]. Qed.

  Lemma settled_rel : forall ci op mv v, settled (rel_holds O ci op mv v).
  Proof.
    intros ci op mv v. destruct op; cbn [rel_holds];
      try solve [right; intros []]; try apply settled_not;
      try (apply (settled_b (starts_with (fold_case O ci v) (fold_case O ci mv))); apply starts_with_iff);
      try (apply (settled_b (ends_with (fold_case O ci v) (fold_case O ci mv))); apply ends_with_iff);
      try apply settled_true.
    - apply settled_and; [|apply settled_bytes]. destruct (Nat.eq_dec (length v) (length mv)); [left|right]; assumption.
    - apply settled_and; [|apply settled_bytes]. destruct (Nat.eq_dec (length v) (length mv)); [left|right]; assumption.
  Qed.

  Lemma settled_count : forall op k n, settled (count_holds op k n).
  Proof.
    intros op k n. unfold settled. destruct op; cbn [count_holds]; try solve [right; intros []]; lia.
  Qed.

  Lemma counts_total : forall A (P : A -> Prop), (forall x, settled (P x)) -> forall l, exists k, counts P l k.
  Proof.
    intros A P HP l. induction l as [|x l (k & IH)]; [exists 0; constructor|].
    destruct (HP x) as [H|H]; [exists (k + 1)|exists k]; constructor; assumption.
  Qed.
  Lemma counts_one : forall A (P : A -> Prop) l k, counts P l k -> forall k', counts P l k' -> k = k'.
  Proof.
    intros A P l k H. induction H as [|x l k Hx H IH|x l k Hx H IH]; intros k' H'; inversion H'; subst; try contradiction.
    - reflexivity.
    - f_equal. apply IH. assumption.
    - apply IH. assumption.
  Qed.
  Lemma settled_counts : forall A (P : A -> Prop) l op n, (forall x, settled (P x)) ->
    settled (exists k, counts P l k /\ count_holds op k n).
  Proof.
    intros A P l op n HP. destruct (counts_total A P HP l) as (k & Hk).
    apply (settled_iff (count_holds op k n)); [|apply settled_count]. split.
    - intros H. exists k. auto.
    - intros (k' & Hk' & H). rewrite (counts_one A P l k Hk k' Hk'). exact H.
  Qed.

  Lemma singleton_settled : forall ci m sfs, settled (singleton_holds O ci m sfs).
  Proof.
    intros ci m sfs. destruct m; cbn [singleton_holds].
    - apply (settled_iff (exists x, In x sfs /\ In (sf_code x) codes)); [reflexivity|].
      apply settled_in. intros x. apply settled_member.
    - apply settled_quant; intros s; [apply settled_rel|apply settled_member].
    - apply settled_quant; intros s; [|apply settled_member]. apply settled_in. intros v.
      apply (settled_b (contains_str (fold_case O ci (sf_value s)) (fold_case O ci v))). apply contains_str_iff.
    - apply settled_quant; intros s; [|apply settled_member]. apply settled_neg, settled_true.
    - apply settled_quant; intros s; [|apply settled_member]. apply settled_neg, settled_in. intros re. apply settled_true.
    - apply settled_quant; intros s; [|apply settled_member]. apply settled_neg, settled_in. intros v. apply settled_bytes.
    - apply settled_counts. intros s. apply settled_member.
  Qed.

  Lemma settled_connective : forall op P Q, settled P -> settled Q -> settled (connective op P Q).
  Proof. unfold settled. intros [] P Q [HP|HP] [HQ|HQ]; cbn [connective]; tauto. Qed.

  Lemma sub_settled : forall m ci sfs, settled (sub_holds O m ci sfs).
  Proof.
    unfold sub_holds. induction m as [s|m IH|m IH|l IH1 op r IH2]; intros ci sfs; cbn [sm_holds].
    - apply singleton_settled.
    - apply IH.
    - apply settled_not, IH.
    - apply settled_connective; [apply IH1|apply IH2].
  Qed.

  Lemma tag_occ_settled : forall t o f, settled (tag_occ t o f).
  Proof. intros t o f. apply settled_and; apply settled_true. Qed.

  Lemma field_settled : forall m ci fs, settled (field_holds O m ci fs).
  Proof.
    unfold field_holds. induction m as [s|t o sm op v raw|m IH|m IH|l IH1 op r IH2]; intros ci fs; cbn [fm_holds].
    - destruct s as [t o|q t o sm raw]; cbn [fs_holds].
      + apply settled_in. intros f. apply tag_occ_settled.
      + apply settled_quant; intros f; [apply (sub_settled sm)|apply tag_occ_settled].
    - apply settled_counts. intros f. apply settled_and; [apply tag_occ_settled|].
      destruct sm as [sm|]; cbn [condition_holds]; [apply (sub_settled sm)|left; exact I].
    - apply IH.
    - apply settled_not, IH.
    - apply settled_connective; [apply IH1|apply IH2].
  Qed.
End Settled.

(** ** shapes *)
Fixpoint sm_sh (m : subfield_matcher) : kind :=
  match m with SMComposite l op _ => op_shape op (sm_sh l) | _ => KNeg end.
Fixpoint fm_sh (m : field_matcher) : kind :=
  match m with FMComposite l op _ => op_shape op (fm_sh l) | _ => KNeg end.

Lemma sm_sh_xor : forall m, sm_sh m = KXorN -> sm_xor_after_and m = true.
Proof.
  induction m as [s|m IH|m IH|l IH1 op r IH2]; cbn [sm_sh]; try discriminate.
  destruct op; try discriminate. cbn [op_shape]. intros H.
  destruct l as [| | |l1 op1 l2]; try discriminate. cbn [sm_sh] in *.
  destruct op1; try reflexivity; cbn [op_shape] in *; [discriminate|].
  change (sm_xor_after_and (SMComposite l1 BXor l2) = true). apply IH1.
  destruct (sm_sh l1); try discriminate; reflexivity.
Qed.
Lemma fm_sh_xor : forall m, fm_sh m = KXorN -> fm_xor_after_and m = true.
Proof.
  induction m as [s|t o sm op v raw|m IH|m IH|l IH1 op r IH2]; cbn [fm_sh]; try discriminate.
  destruct op; try discriminate. cbn [op_shape]. intros H.
  destruct l as [| | | |l1 op1 l2]; try discriminate. cbn [fm_sh] in *.
  destruct op1; try reflexivity; cbn [op_shape] in *; [discriminate|].
  change (fm_xor_after_and (FMComposite l1 BXor l2) = true). apply IH1.
  destruct (fm_sh l1); try discriminate; reflexivity.
Qed.

Lemma sm_group_or_xor_eq : forall a, sm_group_or_xor a = grouped SMGroup (is_or (sm_sh a) || is_xor (sm_sh a)) a.
Proof. intros [s|m|m|l [] r]; try reflexivity. cbn. destruct (sm_sh l); reflexivity. Qed.
Lemma sm_group_or_eq : forall a, sm_group_or a = grouped SMGroup (is_or (sm_sh a)) a.
Proof. intros [s|m|m|l [] r]; try reflexivity. cbn. destruct (sm_sh l); reflexivity. Qed.
Lemma fm_group_or_xor_eq : forall a, fm_group_or_xor a = grouped FMGroup (is_or (fm_sh a) || is_xor (fm_sh a)) a.
Proof. intros [s|t o sm op v raw|m|m|l [] r]; try reflexivity. cbn. destruct (fm_sh l); reflexivity. Qed.
Lemma fm_group_or_eq : forall a, fm_group_or a = grouped FMGroup (is_or (fm_sh a)) a.
Proof. intros [s|t o sm op v raw|m|m|l [] r]; try reflexivity. cbn. destruct (fm_sh l); reflexivity. Qed.

Section Printing.
  Variable O : oracles.

  (** ** subfield matchers *)
  Lemma slt_leaf_ok : forall k t m, slt O k t m -> sm_tame m ->
    exists P, sub_leaf O k t P (sm_units m) /\ means (sub_holds O) m P.
  Proof.
    intros k t m H _. assert (E : sm_units m = 0) by (destruct H; reflexivity). rewrite E.
    apply slt_means. exact H.
  Qed.

  Lemma slt_shape : forall k t m, slt O k t m -> is_atom (sm_sh m) = true.
  Proof. intros k t m H. destruct H; reflexivity. Qed.

  Lemma sm_C_shape : forall l op r, sm_sh (SMComposite l op r) = op_shape op (sm_sh l)
    /\ sm_units (SMComposite l op r) = sm_units l + sm_units r
    /\ (sm_tame (SMComposite l op r) -> sm_tame l /\ sm_tame r)
    /\ (sm_tame (SMComposite l op r) -> op = BOr -> sm_sh l <> KXorN /\ sm_sh r <> KXorN).
  Proof.
    intros l op r. split; [reflexivity|]. split; [reflexivity|]. cbn [sm_tame]. split; [tauto|].
    intros (_ & _ & H) E. destruct (H E) as [H1 H2].
    split; intros X; apply sm_sh_xor in X; congruence.
  Qed.

  Lemma stx_strict : forall k t m, stx O k t m -> sm_tame m ->
    exists P, sub_text O true k t P (sm_units m) /\ means (sub_holds O) m P.
  Proof.
    apply (tx_strict (slt O) SMGroup SMNot sm_and sm_xor sm_or (sub_holds O) (sub_leaf O)
             (fun n => 1 + 8 * n) N.add (sub_group_means O) (sub_not_means O) (sub_and_means O)
             (sub_xor_means O) (sub_or_means O) sm_sh sm_tame sm_units slt_shape).
    - intros a. repeat split. intros H. exact H.
    - intros a. repeat split. intros H. exact H.
    - intros a b Ha Hb. unfold sm_and. rewrite !sm_group_or_xor_eq.
      replace (is_or (sm_sh a) || is_xor (sm_sh a)) with false by (destruct (sm_sh a); discriminate || reflexivity).
      replace (is_or (sm_sh b) || is_xor (sm_sh b)) with false by (destruct (sm_sh b); discriminate || reflexivity).
      cbn [grouped]. destruct (sm_C_shape a BAnd b) as (H1 & H2 & H3 & _). auto.
    - intros a b Ha Hb. unfold sm_xor. rewrite !sm_group_or_eq, Ha, Hb. cbn [grouped].
      destruct (sm_C_shape a BXor b) as (H1 & H2 & H3 & _). auto.
    - intros a b. unfold sm_or. destruct (sm_C_shape a BOr b) as (H1 & H2 & H3 & H4).
      split; [exact H1|]. split; [exact H2|]. intros H. destruct (H3 H), (H4 H eq_refl). auto.
    - exact slt_leaf_ok.
  Qed.

  Lemma braces_strict : forall m, sm_tame m -> sm_units m < 32 -> braces_ok O true m.
  Proof.
    intros m Ht Hu t H. revert Ht Hu. destruct H as [k w1 e w2 m' Hk He W1 W2]. intros Ht Hu. destruct (stx_strict _ _ _ He Ht) as (P & HE & Hm).
    exists P. split; [|exact Hm]. apply (braced_intro O true k w1 e w2 P (sm_units m')); auto.
  Qed.

  (** ** field matchers *)
  Lemma flt_leaf_ok : forall k t m, flt O k t m -> fm_tame m ->
    exists P, field_leaf O true k t P (fm_depth m) /\ means (field_holds O) m P.
  Proof.
    intros k t m H Ht. assert (E : fm_depth m = 0) by (destruct H; reflexivity). rewrite E.
    apply flt_means; [exact H|]. destruct m as [[tm o|q tm o sm raw]|tm o [sm|] op v raw| | |]; try exact I;
      destruct Ht; apply braces_strict; assumption.
  Qed.

  Lemma flt_shape : forall k t m, flt O k t m -> is_atom (fm_sh m) = true.
  Proof. intros k t m H. destruct H; reflexivity. Qed.
  Lemma flt_leaf : forall k t m b, flt O k t m -> m <> FMGroup b /\ m <> FMNot b.
  Proof. intros k t m b H. destruct H; split; discriminate. Qed.

  Lemma flt_display : forall k t m, flt O k t m ->
    exists v1 t' v2, blanks v1 /\ blanks v2 /\ fm_display m = v1 ++ t' ++ v2 /\ flt O k t' m.
  Proof.
    intros k t m H. assert (H0 := H). destruct H as [tm o tt T to S w (HT & HS & Hm & HT' & S' & HS' & HE) W
      |tq q tm o tt T to S t P sg v Hq Ha Ht Hx HP V
      |tq q tm o tt T to S w t P sg v Hq Ha W Ht Hx HP V
      |tq q tm o tt T to S w1 w2 t P sg v Hq Ha W1 W2 Ht Hx HP V
      |tq q tm o tt T to S w t m v1 v2 Hq Ha W Ht V1 V2
      |w1 tm o tt T w2 to S w3 top op w4 tn n v W1 Ha W2 W3 Ho W4 Hn V
      |w1 tm o tt T w2 to S w3 t m w5 top op w4 tn n v W1 Ha W2 W3 Ht W5 Ho W4 Hn V].
    - exists [], (tm_display tm ++ om_display o ++ [] ++ lit "?"), [].
      split; [constructor|]. split; [constructor|]. split; [rewrite app_nil_r; reflexivity|].
      apply (flt_exists O tm o (tm_display tm) T (om_display o) S' []); [|constructor].
      split; [exact HT'|]. split; [exact HS'|]. split; [|split; [exact HT'|]].
      + intros f. rewrite Hm. unfold tagged. rewrite HE. reflexivity.
      + exists S'. split; [exact HS'|]. intros x. reflexivity.
    - exists v. eexists. exists []. split; [exact V|]. split; [constructor|]. split; [|exact H0].
      rewrite app_nil_r. reflexivity.
    - exists v. eexists. exists []. split; [exact V|]. split; [constructor|]. split; [|exact H0].
      rewrite app_nil_r. reflexivity.
    - exists v. eexists. exists []. split; [exact V|]. split; [constructor|]. split; [|exact H0].
      rewrite app_nil_r. reflexivity.
    - exists v1. eexists. exists v2. split; [exact V1|]. split; [exact V2|]. split; [|exact H0]. reflexivity.
    - exists v. eexists. exists []. split; [exact V|]. split; [constructor|]. split; [|exact H0].
      rewrite app_nil_r. reflexivity.
    - exists v. eexists. exists []. split; [exact V|]. split; [constructor|]. split; [|exact H0].
      rewrite app_nil_r. reflexivity.
  Qed.

  Lemma fm_C_shape : forall l op r, fm_sh (FMComposite l op r) = op_shape op (fm_sh l)
    /\ fm_depth (FMComposite l op r) = N.max (fm_depth l) (fm_depth r)
    /\ (fm_tame (FMComposite l op r) -> fm_tame l /\ fm_tame r)
    /\ (fm_tame (FMComposite l op r) -> op = BOr -> fm_sh l <> KXorN /\ fm_sh r <> KXorN).
  Proof.
    intros l op r. split; [reflexivity|]. split; [reflexivity|]. cbn [fm_tame]. split; [tauto|].
    intros (_ & _ & H) E. destruct (H E) as [H1 H2].
    split; intros X; apply fm_sh_xor in X; congruence.
  Qed.

  Definition f_formed := formed (flt O) FMGroup FMNot FMComposite fm_sh.
  Definition f_stands := stands (flt O) FMGroup FMNot FMComposite.

  Lemma f_shown : forall m, f_formed m -> f_stands m -> fm_tame m ->
    exists k v1 c v2 P, alone k = true /\ blanks v1 /\ blanks v2 /\ fm_display m = v1 ++ c ++ v2
      /\ field_expr O true k c P (fm_depth m) /\ means (field_holds O) m P.
  Proof.
    intros m Hf Hs Ht.
    destruct (formed_shown (field_holds O) fm_display (flt O) FMGroup FMNot FMComposite
      (field_leaf O true) N.succ N.max fm_sh fm_tame fm_depth) with (a := m) as (_ & H & _); try assumption.
    - exact flt_display.
    - reflexivity.
    - reflexivity.
    - reflexivity.
    - intros a b c. apply N.max_assoc.
    - exact flt_leaf_ok.
    - exact flt_shape.
    - exact flt_leaf.
    - intros a. repeat split. intros H. exact H.
    - intros a. repeat split. intros H. exact H.
    - exact fm_C_shape.
    - apply field_group_means.
    - apply field_not_means.
    - intros l op r ci x. reflexivity.
    - apply field_settled.
    - destruct (H Hs) as (k & v1 & c & v2 & P & Hk & _ & HR). exists k, v1, c, v2, P. split; [exact Hk|exact HR].
  Qed.

  Lemma f_composite_shape : forall a, is_atom (fm_sh a) = false -> exists l op r, a = FMComposite l op r.
  Proof. intros [s|t o sm op v raw|m|m|l op r] H; try discriminate. exists l, op, r. reflexivity. Qed.

  Lemma fm_G_shape : forall a, is_atom (fm_sh (FMGroup a)) = true /\ fm_depth (FMGroup a) = N.succ (fm_depth a)
    /\ (fm_tame (FMGroup a) -> fm_tame a).
  Proof. intros a. repeat split. intros H. exact H. Qed.

  Lemma fm_and_eq : forall a b, fm_and a b =
    FMComposite (grouped FMGroup (is_or (fm_sh a) || is_xor (fm_sh a)) a) BAnd
                (grouped FMGroup (is_or (fm_sh b) || is_xor (fm_sh b)) b).
  Proof. intros a b. unfold fm_and. rewrite !fm_group_or_xor_eq. reflexivity. Qed.
  Lemma fm_xor_eq : forall a b, fm_xor a b =
    FMComposite (grouped FMGroup (is_or (fm_sh a)) a) BXor (grouped FMGroup (is_or (fm_sh b)) b).
  Proof. intros a b. unfold fm_xor. rewrite !fm_group_or_eq. reflexivity. Qed.

  (** "TAG.codes?" without a detached quantifier may be negated *)
  Lemma tight_negs : forall k t q tm o sg raw, flt O k t (FMSingleton (FSubfields q tm o (SMSingleton sg) raw)) ->
    is_exists sg = true -> ~ detached (FMSingleton (FSubfields q tm o (SMSingleton sg) raw)) ->
    exists k' t', is_atom k' = true /\ negatable k' = true
      /\ flt O k' t' (FMSingleton (FSubfields q tm o (SMSingleton sg) raw)).
  Proof.
    intros k t q tm o sg raw H Hx Hd. inversion H as [
      |tq q1 tm1 o1 tt T to S t1 P sg1 v Hq Ha Ht Hx1 HP V E1 E2 E3
      |tq q1 tm1 o1 tt T to S w t1 P sg1 v Hq Ha W Ht Hx1 HP V E1 E2 E3
      |tq q1 tm1 o1 tt T to S w1 w2 t1 P sg1 v Hq Ha W1 W2 Ht Hx1 HP V E1 E2 E3
      |tq q1 tm1 o1 tt T to S w t1 m v1 v2 Hq Ha W Ht V1 V2 E1 E2 E3| |]; subst.
    - exists KLoose, (tq ++ tt ++ to ++ [] ++ lit "." ++ [] ++ t1). split; [reflexivity|]. split; [reflexivity|].
      cbn [app]. apply (flt_loose O tq q tm o tt T to S [] [] t1 P sg v); try assumption; try constructor.
      destruct sg; try discriminate. cbn [detached] in Hd. destruct Hq as [|w W _|w W _].
      + constructor.
      + destruct w as [|c w]; [constructor|]. exfalso. apply Hd.
        exists v, (lit "ALL"), c, (w ++ tt ++ to ++ lit "." ++ t1). inversion W; subst.
        split; [exact V|]. split; [left; reflexivity|]. split; [assumption|]. rewrite <- !app_assoc. reflexivity.
      + destruct w as [|c w]; [constructor|]. exfalso. apply Hd.
        exists v, (lit "ANY"), c, (w ++ tt ++ to ++ lit "." ++ t1). inversion W; subst.
        split; [exact V|]. split; [right; reflexivity|]. split; [assumption|]. rewrite <- !app_assoc. reflexivity.
    - rewrite Hx in Hx1. discriminate.
    - eexists KLoose, _. split; [reflexivity|]. split; [reflexivity|]. exact H.
    - eexists KNeg, _. split; [reflexivity|]. split; [reflexivity|]. exact H.
  Qed.

  Lemma built_formed : forall m, fm_built O (fun a => ~ detached a) m -> f_formed m /\ f_stands m.
  Proof.
    intros m H. induction H as [s e m s' H|a b Ha [Fa _] Hb [Fb _]|a b Ha [Fa _] Hb [Fb _]|a b Ha [Fa _] Hb [Fb _]
      |a b Ha [Fa _] Hb [Fb _]|a b Ha [Fa _] Hb [Fb _]|a b Ha [Fa _] Hb [Fb _]|a Ha [Fa Sa] Hd].
    - destruct (field_new_reads O s e m s' H) as (k & w1 & t & w2 & Hk & W1 & W2 & _ & Ht).
      destruct (tx_formed (flt O) FMGroup FMNot FMComposite N.succ fm_sh fm_tame fm_depth fm_G_shape
        fm_and fm_xor fm_or fm_and_eq fm_xor_eq (fun _ _ => eq_refl) f_composite_shape k t m Ht) as (F & St & _).
      split; [exact F|apply St; exact Hk].
    - split; [apply (and_formed _ _ _ _ _ _ _ _ fm_G_shape _ fm_and_eq f_composite_shape); assumption|].
      apply (and_stands _ _ _ _ _ _ fm_and_eq).
    - change (fm_and_assign a b) with (fm_and a b).
      split; [apply (and_formed _ _ _ _ _ _ _ _ fm_G_shape _ fm_and_eq f_composite_shape); assumption|].
      apply (and_stands _ _ _ _ _ _ fm_and_eq).
    - split; [apply formed_op; try exact I; assumption|]. right. right. right. eexists _, _, _. reflexivity.
    - split; [apply formed_op; try exact I; assumption|]. right. right. right. eexists _, _, _. reflexivity.
    - split; [apply (xor_formed _ _ _ _ _ _ _ _ fm_G_shape _ fm_xor_eq f_composite_shape); assumption|].
      apply (xor_stands _ _ _ _ _ _ fm_xor_eq).
    - change (fm_xor_assign a b) with (fm_xor a b).
      split; [apply (xor_formed _ _ _ _ _ _ _ _ fm_G_shape _ fm_xor_eq f_composite_shape); assumption|].
      apply (xor_stands _ _ _ _ _ _ fm_xor_eq).
    - assert (Grp : f_formed (FMNot (FMGroup a)) /\ f_stands (FMNot (FMGroup a))).
      { split; [|right; right; left; eexists; reflexivity]. apply formed_not.
        - right. left. exists a. reflexivity.
        - apply formed_group; assumption. }
      destruct a as [[tm o|q tm o sm raw]|tm o sm op v raw|a|a|l op r]; cbn [fm_not]; try exact Grp.
      + destruct sm as [sg| | |]; try exact Grp. destruct sg; try exact Grp.
        split; [|right; right; left; eexists; reflexivity]. apply formed_not; [|exact Fa]. left.
        inversion Fa as [k t a Hk Hl E|a St F E|a St F E|l op r F1 F2 H1 H2 E]; subst.
        apply (tight_negs k t); [exact Hl|reflexivity|exact Hd].
      + split; [|right; right; left; eexists; reflexivity]. apply formed_not; [|exact Fa].
        right. left. exists a. reflexivity.
      + split; [|right; right; left; eexists; reflexivity]. apply formed_not; [|exact Fa].
        right. right. exists a. reflexivity.
  Qed.

  Lemma display_reads : forall m s, fm_built O (fun a => ~ detached a) m -> fm_tame m -> fm_depth m < 256 ->
    lv_sub s = 0 -> lv_field s = 0 ->
    exists m', field_matcher_new O s (fm_display m) = (Some (Some m'), s)
      /\ forall ci fs, fm_holds O ci m' fs <-> fm_holds O ci m fs.
  Proof.
    intros m s H Ht Hd S0 S1. destruct (built_formed m H) as [F St].
    destruct (f_shown m F St Ht) as (k & v1 & c & v2 & P & Hk & V1 & V2 & Ed & He & Hm).
    destruct (field_accepts O (fm_display m) P (fm_depth m) s) as (m' & E & Hm'); try assumption.
    - rewrite Ed. apply (rmt_intro O true k); assumption.
    - exists m'. split; [exact E|]. intros ci fs. specialize (Hm ci fs). specialize (Hm' ci fs).
      unfold field_holds in *. rewrite Hm, Hm'. reflexivity.
  Qed.
End Printing.

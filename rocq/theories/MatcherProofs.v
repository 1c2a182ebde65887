(** * Evaluation of matchers: meaning, operators *)

From Coq Require Import String.
From Verif Require Import Bytes Winnow RecordModel TagOccModel MatcherModel MatcherSpec BaseProofs.

Lemma starts_with_iff : forall p s, starts_with s p = true <-> is_prefix p s.
Proof.
  unfold is_prefix. induction p as [|y p IH]; intros s.
  - destruct s; cbn; split; eauto.
  - destruct s as [|x s]; cbn.
    + split; [discriminate|]. intros [t H]. discriminate.
    + rewrite andb_true_iff, N.eqb_eq, IH. split.
      * intros [-> [t ->]]. exists t. reflexivity.
      * intros [t H]. injection H as -> ->. split; [reflexivity|]. exists t. reflexivity.
Qed.

Lemma ends_with_iff : forall p s, ends_with s p = true <-> is_suffix p s.
Proof.
  intros p s. unfold ends_with. rewrite starts_with_iff. unfold is_prefix, is_suffix. split.
  - intros [t H]. exists (rev t). apply (f_equal (@rev N)) in H.
    rewrite rev_app_distr, !rev_involutive in H. exact H.
  - intros [t ->]. exists (rev t). apply rev_app_distr.
Qed.

Lemma contains_str_iff : forall n h, contains_str h n = true <-> is_infix n h.
Proof.
  intros n. unfold is_infix. induction h as [|x h IH]; cbn [contains_str];
    rewrite orb_true_iff, starts_with_iff.
  - split.
    + intros [[t H]|H]; [|discriminate]. exists [], t. exact H.
    + intros (t & u & H). left. destruct t; [|discriminate]. exists u. exact H.
  - rewrite IH. split.
    + intros [[t H]|(t & u & H)]; [exists [], t; exact H|]. exists (x :: t), u. rewrite H. reflexivity.
    + intros (t & u & H). destruct t as [|y t].
      * left. exists u. exact H.
      * right. injection H as -> H. exists t, u. exact H.
Qed.

(** a checked evaluation agrees with a proposition *)
Definition decides (o : option bool) (P : Prop) : Prop :=
  exists b, o = Some b /\ (b = true <-> P).

Lemma decides_some : forall b (P : Prop), (b = true <-> P) -> decides (Some b) P.
Proof. intros b P H. exists b. auto. Qed.

Lemma decides_eq : forall o P Q, decides o P -> (P <-> Q) -> decides o Q.
Proof. intros o P Q (b & Ho & Hb) H. exists b. tauto. Qed.

Lemma any_p_decides : forall A (f : A -> option bool) (P : A -> Prop) l,
  (forall x, In x l -> decides (f x) (P x)) ->
  decides (any_p f l) (exists x, In x l /\ P x).
Proof.
  intros A f P. induction l as [|x l IH]; intros H; cbn [any_p].
  - apply decides_some. split; [discriminate|]. intros (x & [] & _).
  - destruct (H x (or_introl eq_refl)) as (b & -> & Hb). destruct b.
    + apply decides_some. split; [|auto]. intros _. exists x. split; [left; reflexivity|tauto].
    + eapply decides_eq; [apply IH; intros y Hy; apply H; right; exact Hy|].
      split.
      * intros (y & Hy & HP). exists y. split; [right; exact Hy|exact HP].
      * intros (y & [->|Hy] & HP); [|exists y; tauto].
        apply Hb in HP. discriminate.
Qed.

Lemma all_p_decides : forall A (f : A -> option bool) (P : A -> Prop) l,
  (forall x, In x l -> decides (f x) (P x)) ->
  decides (all_p f l) (forall x, In x l -> P x).
Proof.
  intros A f P. induction l as [|x l IH]; intros H; cbn [all_p].
  - apply decides_some. split; [|auto]. intros _ x [].
  - destruct (H x (or_introl eq_refl)) as (b & -> & Hb). destruct b.
    + eapply decides_eq; [apply IH; intros y Hy; apply H; right; exact Hy|].
      split.
      * intros Hl y [->|Hy]; [tauto|auto].
      * intros Hl y Hy. apply Hl. right. exact Hy.
    + apply decides_some. split; [discriminate|]. intros Hl.
      apply Hb. apply Hl. left. reflexivity.
Qed.

Lemma filter_p_decides : forall A (f : A -> option bool) (P : A -> Prop) l,
  (forall x, In x l -> decides (f x) (P x)) ->
  exists sel, filter_p f l = Some sel /\ counts P l (N.of_nat (length sel)).
Proof.
  intros A f P. induction l as [|x l IH]; intros H; cbn [filter_p].
  - exists []. split; [reflexivity|constructor].
  - destruct (H x (or_introl eq_refl)) as (b & -> & Hb).
    destruct IH as (sel & -> & Hc); [intros y Hy; apply H; right; exact Hy|].
    exists (if b then x :: sel else sel). split; [reflexivity|]. destruct b.
    + cbn [length]. rewrite Nat2N.inj_succ, <- N.add_1_r. constructor; tauto.
    + constructor; [|exact Hc]. intros HP. apply Hb in HP. discriminate.
Qed.

Lemma counts_fun : forall A (P : A -> Prop) l n, counts P l n -> forall k, counts P l k -> n = k.
Proof.
  intros A P l n H. induction H as [|x l n Hx H IH|x l n Hx H IH]; intros k Hk;
    inversion Hk; subst; try tauto; auto; f_equal; auto.
Qed.

Lemma quantify_decides : forall A q (f : A -> option bool) (P sel : A -> Prop) l,
  (forall x, In x l <-> sel x) ->
  (forall x, In x l -> decides (f x) (P x)) ->
  decides (quantify q f l) (quantified q P sel).
Proof.
  intros A q f P sel l Hsel H. destruct q; cbn [quantify quantified].
  - eapply decides_eq; [apply all_p_decides with (P := P); exact H|].
    split; intros HP x Hx; apply HP; apply Hsel; exact Hx.
  - eapply decides_eq; [apply any_p_decides with (P := P); exact H|].
    split; intros (x & Hx & HP); exists x; (split; [apply Hsel; exact Hx|exact HP]).
Qed.

Lemma selected_iff : forall codes sfs s,
  In s (filter (code_in codes) sfs) <-> selected codes sfs s.
Proof.
  intros codes sfs s. unfold selected, code_in. rewrite filter_In, mem_byte_In. reflexivity.
Qed.

Lemma filter_counts : forall A (p : A -> bool) (P : A -> Prop) l,
  (forall x, p x = true <-> P x) ->
  counts P l (N.of_nat (length (filter p l))).
Proof.
  intros A p P l H. induction l as [|x l IH]; cbn [filter].
  - constructor.
  - destruct (p x) eqn:E.
    + cbn [length]. rewrite Nat2N.inj_succ, <- N.add_1_r. constructor; [apply H; exact E|exact IH].
    + constructor; [|exact IH]. rewrite <- H. congruence.
Qed.

Lemma count_decides : forall op k n,
  is_usize_applicable op = true -> decides (count_check op k n) (count_holds op k n).
Proof.
  intros op k n H. destruct op; try discriminate; cbn; apply decides_some;
    rewrite ?negb_true_iff, ?N.eqb_eq, ?N.eqb_neq, ?N.leb_le, ?N.ltb_lt; tauto.
Qed.

Section Meaning.
  Variable O : oracles.
  Variable ci : bool.

  Lemma rel_compare_iff : forall mv v,
    rel_compare O ci mv v = true
    <-> length v = length mv /\ fold_case O ci v = fold_case O ci mv.
  Proof.
    intros mv v. unfold rel_compare, fold_case.
    destruct (Nat.eqb (length v) (length mv)) eqn:E; cbn [negb].
    - apply Nat.eqb_eq in E. destruct ci; rewrite bytes_eqb_eq;
        (split; [intros H; split; congruence|intros [_ H]; congruence]).
    - apply Nat.eqb_neq in E. split; [discriminate|tauto].
  Qed.

  Lemma rel_check_decides : forall op mv s,
    is_str_applicable op = true ->
    decides (rel_check O ci op mv s) (rel_holds O ci op mv (sf_value s)).
  Proof.
    intros op mv s H. destruct op; try discriminate; cbn [rel_check rel_holds];
      apply decides_some; unfold rel_starts_with, rel_ends_with, fold_case;
      try (rewrite ?negb_true_iff; destruct ci; rewrite <- ?not_true_iff_false,
             ?starts_with_iff, ?ends_with_iff; reflexivity).
    - apply rel_compare_iff.
    - rewrite negb_true_iff, <- not_true_iff_false, rel_compare_iff. reflexivity.
  Qed.

  Lemma contains_check_iff : forall vs s,
    contains_check O ci vs s = true
    <-> exists v, In v vs /\ is_infix (fold_case O ci v) (fold_case O ci (sf_value s)).
  Proof.
    intros vs s. unfold contains_check, fold_case.
    destruct ci; rewrite existsb_exists; split; intros (v & Hv & H); exists v;
      rewrite contains_str_iff in *; auto.
  Qed.

  Lemma negated_if_iff : forall (inv b : bool) (P : Prop),
    (b = true <-> P) -> (xorb inv b = true <-> negated_if inv P).
  Proof.
    intros inv b P H. destruct inv; cbn [negated_if].
    - rewrite <- H. destruct b; cbn; split; congruence.
    - rewrite xorb_false_l. exact H.
  Qed.

  Lemma in_check_iff : forall vs inv s,
    in_check O ci vs inv s = true
    <-> negated_if inv (exists v, In v vs /\ fold_case O ci (sf_value s) = fold_case O ci v).
  Proof.
    intros vs inv s. unfold in_check.
    match goal with |- context [existsb ?f vs] => set (b := existsb f vs) end.
    assert (Hb : b = true <-> exists v, In v vs /\ fold_case O ci (sf_value s) = fold_case O ci v).
    { subst b. unfold fold_case. destruct ci; rewrite existsb_exists; split;
        intros (v & Hv & H); exists v; rewrite bytes_eqb_eq in *; auto. }
    rewrite <- (negated_if_iff inv b _ Hb). destruct inv, b; cbn; tauto.
  Qed.

  Lemma singleton_decides : forall m sfs,
    singleton_wf O ci m -> decides (singleton_is_match O ci m sfs) (singleton_holds O ci m sfs).
  Proof.
    intros m sfs Hwf. destruct m; cbn [singleton_wf singleton_is_match singleton_holds] in *.
    - apply decides_some. rewrite existsb_exists. unfold selected, code_in.
      split; intros (s & H1 & H2).
      + exists s. rewrite mem_byte_In in H2. auto.
      + exists s. rewrite mem_byte_In. auto.
    - apply quantify_decides; [apply selected_iff|]. intros s _. apply rel_check_decides. exact Hwf.
    - apply quantify_decides; [apply selected_iff|]. intros s _.
      apply decides_some. apply contains_check_iff.
    - rewrite Hwf. apply quantify_decides; [apply selected_iff|]. intros s _.
      apply decides_some. apply negated_if_iff. reflexivity.
    - rewrite Hwf. apply quantify_decides; [apply selected_iff|]. intros s _.
      apply decides_some. apply negated_if_iff. apply existsb_exists.
    - apply quantify_decides; [apply selected_iff|]. intros s _.
      apply decides_some. apply in_check_iff.
    - assert (Hc : counts (fun s => In (sf_code s) codes) sfs
                     (N.of_nat (length (filter (code_in codes) sfs)))).
      { apply filter_counts. intros s. apply mem_byte_In. }
      eapply decides_eq; [apply count_decides; exact Hwf|]. split.
      + intros H. eexists. split; [exact Hc|exact H].
      + intros (k & Hk & H). rewrite (counts_fun _ _ _ _ Hc _ Hk). exact H.
  Qed.

  Lemma connective_decides : forall (op : bool_op) lo ro P Q,
    decides lo P -> decides ro Q ->
    decides (match lo with
             | Some lb =>
               match op with
               | BAnd => if lb then ro else Some false
               | BOr => if lb then Some true else ro
               | BXor => match ro with Some rb => Some (negb (Bool.eqb lb rb)) | None => None end
               end
             | None => None
             end) (connective op P Q).
  Proof.
    intros op lo ro P Q (lb & -> & Hl) (rb & -> & Hr).
    destruct op, lb, rb; cbn; apply decides_some;
      destruct Hl as [Hl Hl'], Hr as [Hr Hr'];
      (split; [intros H|]); try discriminate; auto;
      try (specialize (Hl eq_refl)); try (specialize (Hr eq_refl)); try tauto;
      try (left; split; [assumption|]; intros X; apply Hr' in X; discriminate);
      try (right; split; [|assumption]; intros X; apply Hl' in X; discriminate).
    all: intros X; exfalso;
      repeat match goal with
        | H : _ /\ _ |- _ => destruct H
        | H : _ \/ _ |- _ => destruct H
        end;
      try (assert (false = true) by auto); try discriminate; auto.
  Qed.

  Lemma not_decides : forall o P, decides o P ->
    decides (match o with Some b => Some (negb b) | None => None end) (~ P).
  Proof.
    intros o P (b & -> & Hb). apply decides_some. rewrite negb_true_iff, <- not_true_iff_false, Hb.
    reflexivity.
  Qed.

  Lemma sm_decides : forall m sfs,
    sm_wf O ci m -> decides (sm_is_match O ci m sfs) (sm_holds O ci m sfs).
  Proof.
    induction m as [s|m IH|m IH|l IHl op r IHr]; intros sfs Hwf;
      cbn [sm_wf sm_is_match sm_holds] in *.
    - apply singleton_decides. exact Hwf.
    - apply IH. exact Hwf.
    - apply not_decides. apply IH. exact Hwf.
    - destruct Hwf as [Hl Hr]. apply connective_decides; auto.
  Qed.

  Lemma tag_occ_iff : forall t o f, tag_occ_match t o f = true <-> tag_occ t o f.
  Proof. intros t o f. unfold tag_occ_match, tag_occ. apply andb_true_iff. Qed.

  Lemma fs_decides : forall m fs,
    fs_wf O ci m -> decides (fs_is_match O ci m fs) (fs_holds O ci m fs).
  Proof.
    intros m fs Hwf. destruct m as [t o|q t o sm raw]; cbn [fs_wf fs_is_match fs_holds] in *.
    - apply decides_some. rewrite existsb_exists.
      split; intros (f & Hf & H); exists f; rewrite tag_occ_iff in *; auto.
    - apply quantify_decides.
      + intros f. rewrite filter_In, tag_occ_iff. reflexivity.
      + intros f _. apply sm_decides. exact Hwf.
  Qed.

  Lemma tag_occ_sub_decides : forall t o sm f,
    opt_sm_wf O ci sm ->
    decides (tag_occ_sub_match O ci t o sm f) (tag_occ t o f /\ condition_holds O ci sm f).
  Proof.
    intros t o sm f Hwf. unfold tag_occ_sub_match.
    destruct sm as [m|]; cbn [opt_sm_wf condition_holds] in *.
    - destruct (tag_occ_match t o f) eqn:E.
      + apply tag_occ_iff in E. eapply decides_eq; [apply sm_decides; exact Hwf|]. tauto.
      + apply decides_some. rewrite <- tag_occ_iff. split; [discriminate|]. intros [H _]. congruence.
    - apply decides_some. rewrite tag_occ_iff. tauto.
  Qed.

  Lemma fm_decides : forall m fs,
    fm_wf O ci m -> decides (fm_is_match O ci m fs) (fm_holds O ci m fs).
  Proof.
    induction m as [s|t o sm op v raw|m IH|m IH|l IHl op r IHr]; intros fs Hwf;
      cbn [fm_wf fm_is_match fm_holds] in *.
    - apply fs_decides. exact Hwf.
    - destruct Hwf as [Hop Hsm].
      destruct (filter_p_decides _ (tag_occ_sub_match O ci t o sm)
                  (fun f => tag_occ t o f /\ condition_holds O ci sm f) fs) as (sel & -> & Hc).
      { intros f _. apply tag_occ_sub_decides. exact Hsm. }
      eapply decides_eq; [apply count_decides; exact Hop|]. split.
      + intros H. eexists. split; [exact Hc|exact H].
      + intros (k & Hk & H). rewrite (counts_fun _ _ _ _ Hc _ Hk). exact H.
    - apply IH. exact Hwf.
    - apply not_decides. apply IH. exact Hwf.
    - destruct Hwf as [Hl Hr]. apply connective_decides; auto.
  Qed.

  (** ** Operators *)

  Lemma sm_group_or_xor_eval : forall m sfs,
    sm_is_match O ci (sm_group_or_xor m) sfs = sm_is_match O ci m sfs.
  Proof. intros m sfs. destruct m as [| | |l op r]; try reflexivity. destruct op; reflexivity. Qed.
  Lemma sm_group_or_eval : forall m sfs,
    sm_is_match O ci (sm_group_or m) sfs = sm_is_match O ci m sfs.
  Proof. intros m sfs. destruct m as [| | |l op r]; try reflexivity. destruct op; reflexivity. Qed.

  Lemma sm_not_eval : forall a sfs,
    sm_is_match O ci (sm_not a) sfs
    = match sm_is_match O ci a sfs with Some b => Some (negb b) | None => None end.
  Proof. intros a sfs. destruct a as [s| | |]; [destruct s| | |]; reflexivity. Qed.

  Lemma sm_ops_eval : forall a b sfs x y,
    sm_is_match O ci a sfs = Some x -> sm_is_match O ci b sfs = Some y ->
    sm_is_match O ci (sm_and a b) sfs = Some (x && y)
    /\ sm_is_match O ci (sm_and_assign a b) sfs = Some (x && y)
    /\ sm_is_match O ci (sm_or a b) sfs = Some (x || y)
    /\ sm_is_match O ci (sm_or_assign a b) sfs = Some (x || y)
    /\ sm_is_match O ci (sm_xor a b) sfs = Some (xorb x y)
    /\ sm_is_match O ci (sm_xor_assign a b) sfs = Some (xorb x y)
    /\ sm_is_match O ci (sm_not a) sfs = Some (negb x).
  Proof.
    intros a b sfs x y Ha Hb.
    assert (HA : sm_is_match O ci (sm_and a b) sfs = Some (x && y)).
    { unfold sm_and. cbn [sm_is_match]. rewrite !sm_group_or_xor_eval, Ha, Hb.
      destruct x, y; reflexivity. }
    assert (HX : sm_is_match O ci (sm_xor a b) sfs = Some (xorb x y)).
    { unfold sm_xor. cbn [sm_is_match]. rewrite !sm_group_or_eval, Ha, Hb.
      destruct x, y; reflexivity. }
    assert (HO : sm_is_match O ci (sm_or a b) sfs = Some (x || y)).
    { unfold sm_or. cbn [sm_is_match]. rewrite Ha, Hb. destruct x, y; reflexivity. }
    repeat split; try assumption.
    rewrite sm_not_eval, Ha. reflexivity.
  Qed.

  Lemma fm_group_or_xor_eval : forall m fs,
    fm_is_match O ci (fm_group_or_xor m) fs = fm_is_match O ci m fs.
  Proof. intros m fs. destruct m as [| | | |l op r]; try reflexivity. destruct op; reflexivity. Qed.
  Lemma fm_group_or_eval : forall m fs,
    fm_is_match O ci (fm_group_or m) fs = fm_is_match O ci m fs.
  Proof. intros m fs. destruct m as [| | | |l op r]; try reflexivity. destruct op; reflexivity. Qed.

  Lemma fm_not_eval : forall a fs,
    fm_is_match O ci (fm_not a) fs
    = match fm_is_match O ci a fs with Some b => Some (negb b) | None => None end.
  Proof.
    intros a fs. destruct a as [s|t o sm op v raw|m|m|l op r];
      [destruct s as [t o|q t o sm raw]; [|destruct sm as [ss| | |]; [destruct ss| | |]]| | | |];
      reflexivity.
  Qed.

  Lemma fm_ops_eval : forall a b fs x y,
    fm_is_match O ci a fs = Some x -> fm_is_match O ci b fs = Some y ->
    fm_is_match O ci (fm_and a b) fs = Some (x && y)
    /\ fm_is_match O ci (fm_and_assign a b) fs = Some (x && y)
    /\ fm_is_match O ci (fm_or a b) fs = Some (x || y)
    /\ fm_is_match O ci (fm_or_assign a b) fs = Some (x || y)
    /\ fm_is_match O ci (fm_xor a b) fs = Some (xorb x y)
    /\ fm_is_match O ci (fm_xor_assign a b) fs = Some (xorb x y)
    /\ fm_is_match O ci (fm_not a) fs = Some (negb x).
  Proof.
    intros a b fs x y Ha Hb.
    assert (HA : fm_is_match O ci (fm_and a b) fs = Some (x && y)).
    { unfold fm_and. cbn [fm_is_match]. rewrite !fm_group_or_xor_eval, Ha, Hb.
      destruct x, y; reflexivity. }
    assert (HX : fm_is_match O ci (fm_xor a b) fs = Some (xorb x y)).
    { unfold fm_xor. cbn [fm_is_match]. rewrite !fm_group_or_eval, Ha, Hb.
      destruct x, y; reflexivity. }
    assert (HO : fm_is_match O ci (fm_or a b) fs = Some (x || y)).
    { unfold fm_or. cbn [fm_is_match]. rewrite Ha, Hb. destruct x, y; reflexivity. }
    repeat split; try assumption.
    rewrite fm_not_eval, Ha. reflexivity.
  Qed.

  (** ** == and in *)

  Lemma eq_in_iff : forall v s mv,
    (ci = true -> length (o_lower O v) = length v -> length (o_lower O mv) = length mv ->
     rel_compare O ci mv v = in_check O ci [mv] false (mkSubfield s v)).
  Proof.
    intros v s mv Hci Hv Hmv. unfold rel_compare, in_check. rewrite Hci. cbn [existsb sf_value].
    rewrite orb_false_r.
    destruct (Nat.eqb (length v) (length mv)) eqn:E; cbn [negb].
    - destruct (bytes_eqb (o_lower O v) (o_lower O mv)) eqn:F.
      + apply bytes_eqb_eq in F. rewrite F. apply bytes_eqb_refl.
      + apply bytes_eqb_neq in F. apply bytes_eqb_neq. congruence.
    - symmetry. apply bytes_eqb_neq. intros F. apply Nat.eqb_neq in E. congruence.
  Qed.
End Meaning.

(** option-valued evaluation in terms of the operands, panics included *)
Lemma any_p_ext : forall A (f g : A -> option bool) l,
  (forall x, In x l -> f x = g x) -> any_p f l = any_p g l.
Proof.
  intros A f g. induction l as [|x l IH]; intros H; cbn; [reflexivity|].
  rewrite (H x (or_introl eq_refl)). destruct (g x) as [[|]|]; try reflexivity.
  apply IH. intros y Hy. apply H. right. exact Hy.
Qed.
Lemma all_p_ext : forall A (f g : A -> option bool) l,
  (forall x, In x l -> f x = g x) -> all_p f l = all_p g l.
Proof.
  intros A f g. induction l as [|x l IH]; intros H; cbn; [reflexivity|].
  rewrite (H x (or_introl eq_refl)). destruct (g x) as [[|]|]; try reflexivity.
  apply IH. intros y Hy. apply H. right. exact Hy.
Qed.
Lemma quantify_ext : forall A q (f g : A -> option bool) l,
  (forall x, In x l -> f x = g x) -> quantify q f l = quantify q g l.
Proof. intros A [|] f g l H; [apply all_p_ext|apply any_p_ext]; exact H. Qed.

Lemma quantify_dual : forall A (f : A -> bool) l,
  quantify QAll (fun x => Some (negb (f x))) l
    = match quantify QAny (fun x => Some (f x)) l with Some b => Some (negb b) | None => None end
  /\ quantify QAny (fun x => Some (negb (f x))) l
    = match quantify QAll (fun x => Some (f x)) l with Some b => Some (negb b) | None => None end.
Proof.
  intros A f l. cbn [quantify]. induction l as [|x l [IH1 IH2]]; cbn; [auto|].
  destruct (f x); cbn; auto.
Qed.

Lemma eq_ne_dual : forall O ci codes v raw raw' sfs,
  singleton_is_match O ci (SRelation QAll codes OpNe v raw) sfs
    = match singleton_is_match O ci (SRelation QAny codes OpEq v raw') sfs with
      | Some b => Some (negb b) | None => None end
  /\ singleton_is_match O ci (SRelation QAny codes OpNe v raw) sfs
    = match singleton_is_match O ci (SRelation QAll codes OpEq v raw') sfs with
      | Some b => Some (negb b) | None => None end.
Proof.
  intros O ci codes v raw raw' sfs. cbn [singleton_is_match]. apply quantify_dual.
Qed.

Lemma eq_in_same : forall O ci q codes v raw raw' sfs,
  (ci = false \/
   (length (o_lower O v) = length v
    /\ forall s, In s sfs -> length (o_lower O (sf_value s)) = length (sf_value s))) ->
  singleton_is_match O ci (SRelation q codes OpEq v raw) sfs
    = singleton_is_match O ci (SIn q codes [v] false raw') sfs.
Proof.
  intros O ci q codes v raw raw' sfs H. cbn [singleton_is_match]. apply quantify_ext.
  intros s Hs. apply filter_In in Hs as [Hs _]. cbn [rel_check]. f_equal.
  destruct ci.
  - destruct H as [H|[Hv Hl]]; [discriminate|]. destruct s as [c x]. cbn [sf_value].
    apply eq_in_iff; [reflexivity|apply (Hl _ Hs)|exact Hv].
  - unfold rel_compare, in_check. cbn [existsb]. rewrite orb_false_r.
    destruct (Nat.eqb (length (sf_value s)) (length v)) eqn:E; cbn [negb].
    + destruct (bytes_eqb (sf_value s) v) eqn:F.
      * apply bytes_eqb_eq in F. rewrite F. apply bytes_eqb_refl.
      * apply bytes_eqb_neq in F. apply bytes_eqb_neq. congruence.
    + symmetry. apply bytes_eqb_neq. intros F. apply Nat.eqb_neq in E. congruence.
Qed.

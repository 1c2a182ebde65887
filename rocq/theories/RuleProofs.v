(** * Proofs about rule files *)

From Coq Require Import String ZArith Permutation.
From Verif Require TableSpec.
From Verif Require Import Bytes Winnow RecordModel RecordSpec BaseProofs TagOccModel Utf8Model Utf8Spec Utf8Proofs ByteRecordModel
  MatcherModel MatcherSpec MatcherProofs StateParser MatcherParserModel MatcherParserProofs MatcherExtraProofs PathModel FmtModel
  QueryModel QuerySpec QueryProofs QueryParserProofs QueryExtraProofs BuilderModel CliModel CliSpec CliProofs CliListProofs CheckCodes CheckModel CheckSpec
  CheckProofs CheckRunProofs OptionsModel OptionsSpec OptionsProofs GrammarSpec GrammarFieldProofs GrammarStateProofs QueryGrammarSpec PathGrammarProofs
  QueryTextProofs PrepareModel PrepareSpec PrepareProofs TablePrepareProofs RuleModel RuleSpec.

(** ** Tables *)

Lemma lit_inj_neq : forall a b : bytes, bytes_eqb a b = false -> a <> b.
Proof. intros a b H E. subst b. assert (bytes_eqb a a = true) by (apply bytes_eqb_eq; reflexivity). congruence. Qed.

Lemma entry_in : forall t k v, NoDup (map fst t) -> (entry k t = Some v <-> In (k, v) t).
Proof.
  induction t as [|[k' v'] t IH]; intros k v H; cbn [entry]; [split; [discriminate|intros []]|].
  inversion H as [|? ? Hn Hd]; subst. destruct (bytes_eqb k' k) eqn:E.
  - apply bytes_eqb_eq in E. subst k'. split; [intros E; injection E as ->; left; reflexivity|].
    intros [E|Hi]; [injection E as ->; reflexivity|]. exfalso. apply Hn. apply (in_map fst) in Hi. exact Hi.
  - rewrite (IH k v Hd). split; [right; assumption|]. intros [E'|Hi]; [|exact Hi].
    injection E' as -> ->. exfalso. apply lit_inj_neq in E. auto.
Qed.
Lemma entry_none : forall t k, NoDup (map fst t) -> (entry k t = None <-> forall v, ~ In (k, v) t).
Proof.
  intros t k H. split.
  - intros E v Hi. apply (entry_in t k v H) in Hi. congruence.
  - intros Hn. destruct (entry k t) as [v|] eqn:E; [|reflexivity]. apply (entry_in t k v H) in E. exfalso. eapply Hn; exact E.
Qed.

Lemma default_iff : forall A t k (f : toml -> option A) K d x, NoDup (map fst t) -> (forall v y, f v = Some y <-> K v y) ->
  (or_default (lit k) d f t = Some x <-> setting t k K d x).
Proof.
  intros A t k f K d x H Hf. unfold or_default, setting, silent, gives. destruct (entry (lit k) t) as [v|] eqn:E.
  - pose proof (proj1 (entry_in _ _ _ H) E) as Hi. rewrite Hf. split; [intros HK; left; exists v; auto|].
    intros [(v' & Hi' & HK)|[Hs _]]; [|exfalso; eapply Hs; exact Hi].
    apply (entry_in _ _ _ H) in Hi'. rewrite E in Hi'. injection Hi' as <-. exact HK.
  - pose proof (proj1 (entry_none _ _ H) E) as Hn. split; [intros Ex; injection Ex as <-; right; auto|].
    intros [(v' & Hi' & _)|[_ ->]]; [exfalso; eapply Hn; exact Hi'|reflexivity].
Qed.
Lemma may_iff : forall A t k (f : toml -> option A) K x, NoDup (map fst t) -> (forall v y, f v = Some y <-> K v y) ->
  (may (lit k) f t = Some x <-> optional t k K x).
Proof.
  intros A t k f K x H Hf. unfold may, optional, silent, gives. destruct (entry (lit k) t) as [v|] eqn:E.
  - pose proof (proj1 (entry_in _ _ _ H) E) as Hi. split.
    + destruct (f v) as [y|] eqn:Ef; [|discriminate]. intros Ex. injection Ex as <-. apply Hf in Ef. left. exists v, y. auto.
    + intros [(v' & y & Hi' & HK & ->)|[Hs _]]; [|exfalso; eapply Hs; exact Hi].
      apply (entry_in _ _ _ H) in Hi'. rewrite E in Hi'. injection Hi' as <-. apply Hf in HK. rewrite HK. reflexivity.
  - pose proof (proj1 (entry_none _ _ H) E) as Hn. split; [intros Ex; injection Ex as <-; right; auto|].
    intros [(v' & y & Hi' & _)|[_ ->]]; [exfalso; eapply Hn; exact Hi'|reflexivity].
Qed.
Lemma must_iff : forall A t k (f : toml -> option A) K x, NoDup (map fst t) -> (forall v y, f v = Some y <-> K v y) ->
  (must (lit k) f t = Some x <-> exists v, gives t k v /\ K v x).
Proof.
  intros A t k f K x H Hf. unfold must, gives. destruct (entry (lit k) t) as [v|] eqn:E.
  - pose proof (proj1 (entry_in _ _ _ H) E) as Hi. rewrite Hf. split; [intros HK; exists v; auto|].
    intros (v' & Hi' & HK). apply (entry_in _ _ _ H) in Hi'. rewrite E in Hi'. injection Hi' as <-. exact HK.
  - pose proof (proj1 (entry_none _ _ H) E) as Hn. split; [discriminate|]. intros (v' & Hi' & _). exfalso. eapply Hn; exact Hi'.
Qed.

Lemma text_iff : forall v b, as_text v = Some b <-> text v b.
Proof. intros v b. unfold text. destruct v; cbn; split; intros H; try discriminate; congruence. Qed.
Lemma flag_iff : forall v b, as_bool v = Some b <-> flag v b.
Proof. intros v b. unfold flag. destruct v; cbn; split; intros H; try discriminate; congruence. Qed.
Lemma natural_iff : forall v n, as_usize v = Some n <-> natural v n.
Proof.
  intros v n. unfold natural, as_usize. destruct v as [b|z|x|b|b|l|t]; try (split; intros H; discriminate).
  destruct (z <? 0)%Z eqn:E; split; intros H.
  - discriminate.
  - injection H as ->. apply Z.ltb_lt in E. exfalso. pose proof (N2Z.is_nonneg n). lia.
  - injection H as <-. apply Z.ltb_ge in E. rewrite Z2N.id by exact E. reflexivity.
  - injection H as ->. rewrite N2Z.id. reflexivity.
Qed.
Lemma texts_iff : forall v l, as_texts v = Some l <-> texts v l.
Proof.
  intros v l. unfold texts, as_texts. destruct v as [b|z|x|b|b|a|t]; try (split; intros H; discriminate).
  assert (G : forall a l, map_opt as_text a = Some l <-> a = map TmText l); [|rewrite G; split; congruence].
  clear a l. intros a l. split.
  - revert l. induction a as [|v a IH]; intros l H; cbn [map_opt] in H; [injection H as <-; reflexivity|].
    destruct (as_text v) as [b|] eqn:Ev; [|discriminate]. apply text_iff in Ev. unfold text in Ev. subst v.
    destruct (map_opt as_text a) as [l'|]; [|discriminate]. injection H as <-. cbn [map]. f_equal. apply IH. reflexivity.
  - intros ->. induction l as [|b l IH]; [reflexivity|]. cbn [map map_opt as_text]. rewrite IH. reflexivity.
Qed.
Lemma level_iff : forall v b, as_level v = Some b <-> level v b.
Proof.
  intros v b. unfold as_level, level, levels_allowed. destruct v as [x|z|x|y|x|a|t]; cbn [as_text];
    try (split; [discriminate|intros [H _]; discriminate]).
  destruct (bytes_eqb x (lit "error") || bytes_eqb x (lit "warning") || bytes_eqb x (lit "info")) eqn:E.
  - assert (In x [lit "error"; lit "warning"; lit "info"]).
    { apply orb_true_iff in E as [E|E]; [apply orb_true_iff in E as [E|E]|]; apply bytes_eqb_eq in E; subst x; cbn; auto. }
    split; [intros H1; injection H1 as <-; auto|intros [H1 _]; congruence].
  - split; [discriminate|]. intros [H1 H2]. injection H1 as ->. exfalso.
    destruct H2 as [<-|[<-|[<-|[]]]]; vm_compute in E; discriminate.
Qed.
Lemma mode_iff : forall v b, as_fast v = Some b <-> mode v b.
Proof.
  intros v b. unfold as_fast, mode. destruct v as [x|z|x|y|x|a|t]; cbn [as_text]; try (split; intros H; discriminate).
  destruct (bytes_eqb x (lit "fast")) eqn:E; [|destruct (bytes_eqb x (lit "default")) eqn:E'].
  - apply bytes_eqb_eq in E. subst x. destruct b; split; intros H; try reflexivity; discriminate.
  - apply bytes_eqb_eq in E'. subst x. destruct b; split; intros H; try reflexivity; discriminate.
  - split; [discriminate|]. intros H. injection H as ->. exfalso. destruct b; vm_compute in E, E'; discriminate.
Qed.
Lemma form_iff : forall v nf, (do b <- as_text v; nf_parse b) = Some nf <-> form v nf.
Proof.
  intros v nf. unfold form. destruct v as [x|z|x|y|x|a|t]; cbn [as_text]; try (split; intros H; discriminate). split.
  - intros H. apply nf_parse_some in H. subst x. destruct nf; reflexivity.
  - intros H. injection H as ->. destruct nf; reflexivity.
Qed.
Lemma table_iff : forall v t, match v with TmTable l => Some l | _ => None end = Some t <-> v = TmTable t.
Proof. intros v t. destruct v; split; intros H; try discriminate; congruence. Qed.

(** two fields with expressions *)
Section Visit.
  Context {A B : Type}.
  Variables (k1 k2 : bytes) (f1 : toml -> levels -> presult A) (f2 : toml -> levels -> presult B).
  Hypothesis distinct : bytes_eqb k2 k1 = false.

  (** what the field is in the end *)
  Definition found {A} (f : toml -> levels -> presult A) (k : bytes) (t : keyed) (a a' : option A) : Prop :=
    match entry k t with
    | None => a' = a
    | Some v => exists x s s', f v s = (Some (Some x), s') /\ a' = Some x
    end.

  Lemma keys_differ : bytes_eqb k1 k2 = false.
  Proof.
    destruct (bytes_eqb k1 k2) eqn:E; [|reflexivity]. apply bytes_eqb_eq in E. subst k2.
    assert (bytes_eqb k1 k1 = true) by (apply bytes_eqb_eq; reflexivity). congruence.
  Qed.

  Lemma visit2_out : forall t a b s a' b' s', NoDup (map fst t) ->
    visit2 k1 f1 k2 f2 t a b s = (Some (Some (a', b')), s') -> found f1 k1 t a a' /\ found f2 k2 t b b'.
  Proof.
    induction t as [|[k v] t IH]; intros a b s a' b' s' Hd H; cbn [visit2] in H.
    - injection H as <- <- <-. split; reflexivity.
    - inversion Hd as [|? ? Hn Hd']; subst. unfold found. cbn [entry]. destruct (bytes_eqb k k1) eqn:E1.
      + apply bytes_eqb_eq in E1. subst k. rewrite keys_differ. destruct (f1 v s) as [[[x|]|] s1] eqn:E; try discriminate.
        cbn [and_then] in H. apply IH in H as [H1 H2]; [|exact Hd']. split; [|exact H2].
        exists x, s, s1. split; [exact E|]. unfold found in H1. destruct (entry k1 t) as [w|] eqn:Ew; [|exact H1].
        apply (entry_in _ _ _ Hd') in Ew. exfalso. apply Hn. apply (in_map fst) in Ew. exact Ew.
      + destruct (bytes_eqb k k2) eqn:E2; [|exact (IH _ _ _ _ _ _ Hd' H)].
        apply bytes_eqb_eq in E2. subst k. destruct (f2 v s) as [[[x|]|] s1] eqn:E; try discriminate.
        cbn [and_then] in H. apply IH in H as [H1 H2]; [|exact Hd']. split; [exact H1|].
        exists x, s, s1. split; [exact E|]. unfold found in H2. destruct (entry k2 t) as [w|] eqn:Ew; [|exact H2].
        apply (entry_in _ _ _ Hd') in Ew. exfalso. apply Hn. apply (in_map fst) in Ew. exact Ew.
  Qed.

  (** the values are fine whenever they are given *)
  Definition fine {A} (f : toml -> levels -> presult A) (k : bytes) (t : keyed) (P : A -> Prop) : Prop :=
    forall v, entry k t = Some v -> exists x, f v fresh = (Some (Some x), fresh) /\ P x.
  Definition ended_with {A} (k : bytes) (t : keyed) (P : A -> Prop) (a a' : option A) : Prop :=
    match entry k t with None => a' = a | Some _ => exists x, a' = Some x /\ P x end.

  Lemma visit2_in : forall P Q t a b, NoDup (map fst t) -> fine f1 k1 t P -> fine f2 k2 t Q ->
    exists a' b', visit2 k1 f1 k2 f2 t a b fresh = (Some (Some (a', b')), fresh)
      /\ ended_with k1 t P a a' /\ ended_with k2 t Q b b'.
  Proof.
    intros P Q. induction t as [|[k v] t IH]; intros a b Hd F1 F2; cbn [visit2].
    - exists a, b. repeat split.
    - inversion Hd as [|? ? Hn Hd']; subst. unfold fine in F1, F2. unfold ended_with. cbn [entry] in *.
      destruct (bytes_eqb k k1) eqn:E1.
      + apply bytes_eqb_eq in E1. subst k. rewrite keys_differ in *. destruct (F1 v eq_refl) as (x & -> & Px). cbn [and_then].
        assert (En : entry k1 t = None).
        { apply (entry_none _ _ Hd'). intros w Hw. apply Hn. apply (in_map fst) in Hw. exact Hw. }
        destruct (IH (Some x) b Hd') as (a' & b' & E & H1 & H2); [intros w Hw; congruence|exact F2|].
        exists a', b'. split; [exact E|]. unfold ended_with in H1. rewrite En in H1. subst a'. split; [exists x; auto|exact H2].
      + destruct (bytes_eqb k k2) eqn:E2; [|exact (IH _ _ Hd' F1 F2)].
        apply bytes_eqb_eq in E2. subst k. destruct (F2 v eq_refl) as (x & -> & Px). cbn [and_then].
        assert (En : entry k2 t = None).
        { apply (entry_none _ _ Hd'). intros w Hw. apply Hn. apply (in_map fst) in Hw. exact Hw. }
        destruct (IH a (Some x) Hd') as (a' & b' & E & H1 & H2); [exact F1|intros w Hw; congruence|].
        exists a', b'. split; [exact E|]. unfold ended_with in H2. rewrite En in H2. subst b'. split; [exact H1|exists x; auto].
  Qed.
End Visit.

Section VisitAll.
  Context {A B : Type}.
  Variable f : A -> levels -> presult B.
  Lemma visit_all_out : forall l s ys s', visit_all f l s = (Some (Some ys), s') ->
    Forall2 (fun x y => exists s s', f x s = (Some (Some y), s')) l ys.
  Proof.
    induction l as [|x l IH]; intros s ys s' H; cbn [visit_all] in H; [injection H as <- _; constructor|].
    destruct (f x s) as [[[y|]|] s1] eqn:E; try discriminate. cbn [and_then] in H.
    destruct (visit_all f l s1) as [[[ys1|]|] s2] eqn:E2; try discriminate. cbn [and_then] in H. injection H as <- _.
    constructor; [exists s, s1; exact E|eapply IH; exact E2].
  Qed.
  Lemma visit_all_in : forall l ys, Forall2 (fun x y => f x fresh = (Some (Some y), fresh)) l ys ->
    visit_all f l fresh = (Some (Some ys), fresh).
  Proof.
    intros l ys H. induction H as [|x y l ys Hx H IH]; cbn [visit_all]; [reflexivity|].
    rewrite Hx. cbn [and_then]. rewrite IH. reflexivity.
  Qed.
End VisitAll.

Lemma Forall2_nth_l : forall A B (R : A -> B -> Prop) l m, Forall2 R l m -> forall k x, nth_error l k = Some x ->
  exists y, nth_error m k = Some y /\ R x y.
Proof.
  intros A B R l m H. induction H as [|a b l m Hab H IH]; intros [|k] x E; try discriminate; cbn [nth_error] in *.
  - injection E as <-. exists b. auto.
  - apply IH. exact E.
Qed.
Lemma Forall2_nth_r : forall A B (R : A -> B -> Prop) l m, Forall2 R l m -> forall k y, nth_error m k = Some y ->
  exists x, nth_error l k = Some x /\ R x y.
Proof.
  intros A B R l m H. induction H as [|a b l m Hab H IH]; intros [|k] y E; try discriminate; cbn [nth_error] in *.
  - injection E as <-. exists a. auto.
  - apply IH. exact E.
Qed.

(** ** Checks *)

(** comparing names *)
Ltac kinds := repeat match goal with |- context [bytes_eqb (lit ?a) (lit ?b)] =>
  let v := eval vm_compute in (bytes_eqb (lit a) (lit b)) in change (bytes_eqb (lit a) (lit b)) with v; cbv iota end.

Section Rules.
  Variable T : text_fns.
  Variable lossy : bytes -> bytes.
  Variable oracles_at : N -> oracles.
  Variable int_f64 : Z -> N.
  Variable strptime : bytes -> bytes -> bool.
  Variable is_nf : norm_form -> bytes -> bool.
  Variable holds : bytes -> bytes -> Prop.
  Variable polars : bytes -> bytes -> option table.
  Variable lists : bytes -> option table.
  Hypothesis Hlists : forall n tab, lists n = Some tab <-> exists b, holds n b /\ polars n b = Some tab.
  Hypothesis compile : forall x ci, regexes_compile (oracles_at x) ci.

  Notation Od := (oracles_at strsim_default).
  Notation values_at := (values_at oracles_at).
  Notation options := (options int_f64).
  Notation check_says := (check_says T lossy oracles_at int_f64 strptime is_nf holds polars).

  (** the check of the program for a meaning *)
  Definition check_stands (c : check) (m : check_meaning) : Prop :=
    check_wf c
    /\ match m with
       | Judges P => (forall r v, verdict T lossy c r v <-> P r v)
                     /\ match c with CkLink _ _ _ _ _ => False | _ => True end
       | Links V W K =>
           match c with
           | CkLink Oc ci source target m =>
               (forall r vs, path_lists Oc ci source r vs <-> V r vs)
               /\ (forall r vs, path_lists Oc ci target r vs <-> W r vs)
               /\ (forall r, (forall fm, m = Some fm -> fm_holds Oc ci fm r) <-> K r)
           | _ => False
           end
       end.

  Lemma number_iff : forall v x, as_f64 int_f64 v = Some x <-> number int_f64 v x.
  Proof.
    intros v x. unfold number. destruct v as [b|z|y|b|b|l|t]; cbn [as_f64]; split; intros H; try discriminate;
      try (destruct H as [H|(z' & H & _)]; discriminate).
    - injection H as <-. right. exists z. auto.
    - destruct H as [H|(z' & H & ->)]; [discriminate|]. injection H as ->. reflexivity.
    - injection H as <-. auto.
    - destruct H as [H|(z' & H & _)]; [|discriminate]. injection H as ->. reflexivity.
  Qed.

  Section Table.
    Variable t : keyed.
    Hypothesis Hd : NoDup (map fst t).

    Lemma options_out : forall A (k : oracles -> bool -> presult A) s c s', with_options oracles_at int_f64 t s k = (Some (Some c), s') ->
      exists x ci, options t x ci /\ k (oracles_at x) ci = (Some (Some c), s').
    Proof.
      intros A k s c s' H. unfold with_options in H.
      destruct (or_default (lit "strsim-threshold") strsim_default (as_f64 int_f64) t) as [x|] eqn:E1; [|discriminate].
      destruct (or_default (lit "case-ignore") false as_bool t) as [ci|] eqn:E2; [|discriminate].
      apply (default_iff _ _ _ _ _ _ _ Hd number_iff) in E1. apply (default_iff _ _ _ _ _ _ _ Hd flag_iff) in E2.
      exists x, ci. split; [split; assumption|exact H].
    Qed.
    Lemma options_in : forall A (k : oracles -> bool -> presult A) s x ci, options t x ci ->
      with_options oracles_at int_f64 t s k = k (oracles_at x) ci.
    Proof.
      intros A k s x ci [H1 H2]. unfold with_options.
      apply (default_iff _ _ _ _ _ _ _ Hd number_iff) in H1. apply (default_iff _ _ _ _ _ _ _ Hd flag_iff) in H2.
      rewrite H1, H2. reflexivity.
    Qed.

    Definition path_good x ci (p : path) (V : record -> list bytes -> Prop) : Prop :=
      opt_sm_wf (oracles_at x) ci (p_sub p) /\ forall r vs, path_lists (oracles_at x) ci p r vs <-> V r vs.

    Lemma path_parsed : forall x ci s b p s', path_new (oracles_at x) s b = (Some (Some p), s') ->
      exists F Cs, path_text (oracles_at x) false b F Cs /\ path_good x ci p (path_values_of F Cs ci).
    Proof.
      intros x ci s b p s' E.
      assert (C : path_checked (oracles_at x) p) by (eapply new_checked; [apply path_new_total|exact E]).
      unfold path_new, sparse_all in E. destruct (parse_path (oracles_at x) s b) as [[q [|c r]| |] s2] eqn:Ep; try discriminate.
      injection E as -> ->. destruct (path_read _ _ _ _ _ _ Ep) as (t' & F & Cs & Et & Ht & Hp). rewrite app_nil_r in Et. subst t'.
      exists F, Cs. split; [exact Ht|]. split.
      - destruct (compile x ci) as [R1 R2]. exact (proj1 (path_checked_wf _ ci R1 R2 _ C)).
      - intros r0 vs. apply path_lists_means. exact Hp.
    Qed.
    Lemma path_parses : forall x ci b F Cs, path_text (oracles_at x) true b F Cs ->
      exists p, path_new (oracles_at x) fresh b = (Some (Some p), fresh) /\ path_good x ci p (path_values_of F Cs ci).
    Proof.
      intros x ci b F Cs H. destruct (path_ok _ _ F Cs [] fresh H eq_refl) as (p & E & Hp). rewrite app_nil_r in E.
      assert (En : path_new (oracles_at x) fresh b = (Some (Some p), fresh)) by (unfold path_new, sparse_all; rewrite E; reflexivity).
      exists p. split; [exact En|]. split.
      - destruct (compile x ci) as [R1 R2]. eapply path_checked_wf; [exact R1|exact R2|]. eapply new_checked; [apply path_new_total|exact En].
      - intros r vs. apply path_lists_means. exact Hp.
    Qed.

    Lemma good_iff : forall x ci p V W, path_good x ci p V -> (forall r vs, W r vs <-> V r vs) -> path_good x ci p W.
    Proof. intros x ci p V W [H1 H2] H. split; [exact H1|]. intros r vs. rewrite H2. symmetry. apply H. Qed.

    Lemma text_out : forall A (new : levels -> bytes -> presult A) k s p s', field_with (lit k) new t s = (Some (Some p), s') ->
      exists b, gives t k (TmText b) /\ new s b = (Some (Some p), s').
    Proof.
      intros A new k s p s' H. unfold field_with in H. destruct (entry (lit k) t) as [v|] eqn:E; [|discriminate].
      apply (entry_in _ _ _ Hd) in E. unfold text_with in H. destruct v as [b|z|y|b|b|l|u]; try discriminate. exists b. auto.
    Qed.
    Lemma text_in : forall A (new : levels -> bytes -> presult A) k s b, gives t k (TmText b) -> field_with (lit k) new t s = new s b.
    Proof. intros A new k s b H. apply (entry_in _ _ _ Hd) in H. unfold field_with. rewrite H. reflexivity. Qed.

    Lemma path_out : forall x ci k s p s', field_with (lit k) (path_new (oracles_at x)) t s = (Some (Some p), s') ->
      exists V, values_at false x ci t k V /\ path_good x ci p V.
    Proof.
      intros x ci k s p s' H. apply text_out in H as (b & Hg & H). destruct (path_parsed x ci _ _ _ _ H) as (F & Cs & Ht & Hp).
      exists (path_values_of F Cs ci). split; [exists b, F, Cs; split; [exact Hg|split; [exact Ht|reflexivity]]|exact Hp].
    Qed.
    Lemma path_in : forall x ci k V, values_at true x ci t k V ->
      exists p, field_with (lit k) (path_new (oracles_at x)) t fresh = (Some (Some p), fresh) /\ path_good x ci p V.
    Proof.
      intros x ci k V (b & F & Cs & Hg & Ht & HV). destruct (path_parses x ci _ _ _ Ht) as (p & E & Hp).
      exists p. split; [rewrite (text_in _ _ _ _ _ Hg); exact E|]. exact (good_iff _ _ _ _ _ Hp HV).
    Qed.

    Lemma must_text : forall k b, must (lit k) as_text t = Some b <-> gives t k (TmText b).
    Proof.
      intros k b. rewrite (must_iff _ _ _ _ _ _ Hd text_iff). unfold text. split; [intros (v & H & ->); exact H|eauto].
    Qed.
  End Table.

  Lemma read_one : forall tab col, read_filter_list [tab] col
    = match list_column tab col with Some c => Some (Some (present c ++ [])) | None => None end.
  Proof. intros tab col. unfold read_filter_list, read_tables. destruct (list_column tab col); reflexivity. Qed.
  Lemma present_in : forall cells v, In v (present cells) <-> In (Some v) cells.
  Proof.
    intros cells v. unfold present. rewrite in_flat_map. split.
    - intros ([c|] & Hi & Hv); [|destruct Hv]. destruct Hv as [<-|[]]. exact Hi.
    - intros H. exists (Some v). split; [exact H|left; reflexivity].
  Qed.

  Lemma allow_out : forall t values, tidy (TmTable t) -> allow_values lists t = Some values -> allowed_at holds polars t values.
  Proof.
    intros t values Ht H. inversion Ht as [? Hd Hs| | | | | |]; subst. unfold allow_values in H.
    destruct (must (lit "list") _ t) as [l|] eqn:El; [|discriminate].
    apply (must_iff _ _ _ _ _ _ Hd table_iff) in El as (v & Hv & ->).
    assert (Hl : tidy (TmTable l)) by (rewrite Forall_forall in Hs; exact (Hs _ Hv)). inversion Hl as [? Hd' _| | | | | |]; subst.
    destruct (must (lit "filename") as_text l) as [name|] eqn:En; [|discriminate]. apply (must_text l Hd') in En.
    destruct (must (lit "column") as_text l) as [col|] eqn:Ec; [|discriminate]. apply (must_text l Hd') in Ec.
    destruct (lists name) as [tab|] eqn:Etab; [|discriminate]. apply Hlists in Etab as (content & Hh & Hp).
    rewrite read_one in H. destruct (list_column tab (Some col)) as [cells|] eqn:Ecells; [|discriminate].
    cbn in Ecells. apply column_some in Ecells. injection H as <-.
    exists l, name, col, content, tab, cells. repeat (split; [assumption|]). intros v. rewrite app_nil_r. apply present_in.
  Qed.
  Lemma allow_in : forall t values, tidy (TmTable t) -> allowed_at holds polars t values ->
    exists values', allow_values lists t = Some values' /\ forall v, In v values <-> In v values'.
  Proof.
    intros t values Ht (l & name & col & content & tab & cells & Hl & En & Ec & Hh & Hp & Hc & Hv).
    inversion Ht as [? Hd Hs| | | | | |]; subst.
    assert (Hl' : tidy (TmTable l)) by (rewrite Forall_forall in Hs; exact (Hs _ Hl)). inversion Hl' as [? Hd' _| | | | | |]; subst.
    unfold allow_values.
    assert (E : must (lit "list") (fun v => match v with TmTable l => Some l | _ => None end) t = Some l)
      by (apply (must_iff _ _ _ _ _ _ Hd table_iff); exists (TmTable l); auto).
    rewrite E. apply (must_text l Hd') in En. apply (must_text l Hd') in Ec. rewrite En, Ec.
    assert (Etab : lists name = Some tab) by (apply Hlists; exists content; auto). rewrite Etab, read_one.
    assert (Ecol : list_column tab (Some col) = Some cells) by (apply column_some; exact Hc). rewrite Ecol.
    eexists. split; [reflexivity|]. intros v. rewrite Hv, app_nil_r. symmetry. apply present_in.
  Qed.

  Lemma list_verdict_iff : forall l l' vs v, (forall x, In x l <-> In x l') -> list_verdict lossy l vs v -> list_verdict lossy l' vs v.
  Proof.
    intros l l' vs v H (bad & Hp & Hv). exists bad. split; [|exact Hv]. eapply picks_weaken; [|exact Hp].
    intros x. split; intros N Hi; apply N, H; exact Hi.
  Qed.

  (** a verdict on the values of a path *)
  Lemma values_stand : forall x ci p V J c, path_good x ci p V ->
    (forall r v, verdict T lossy c r v <-> exists vs, path_lists (oracles_at x) ci p r vs /\ J vs v) ->
    (check_wf c <-> opt_sm_wf (oracles_at x) ci (p_sub p)) -> match c with CkLink _ _ _ _ _ => False | _ => True end ->
    check_stands c (judges_values V J).
  Proof.
    intros x ci p V J c [W L] Hc Hw Hn. split; [apply Hw; exact W|]. split; [|exact Hn].
    intros r v. rewrite Hc. split; intros (vs & H1 & H2); exists vs; (split; [apply L; exact H1|exact H2]).
  Qed.

  Lemma query_checks : forall x ci q Ms threshold separator, query_stands (oracles_at x) T q Ms ->
    check_stands (CkDuplicates (oracles_at x) ci q threshold separator)
      (Judges (fun r v => exists rows, query_rows Ms (qoptions ci) r rows /\ duplicate_verdict lossy threshold separator rows v)).
  Proof.
    intros x ci q Ms threshold separator [_ H]. destruct (H (qoptions ci) (compile x _)) as [Hw Hr].
    split; [exact Hw|]. split; [|exact I]. intros r v. cbn [verdict].
    split; intros (rows & H1 & H2); exists rows; (split; [apply Hr in H1 || apply Hr; exact H1|exact H2]).
  Qed.

  Lemma stands_wf : forall x ci m P, stands (oracles_at x) m P -> fm_wf (oracles_at x) ci m /\ forall fs, fm_holds (oracles_at x) ci m fs <-> P ci fs.
  Proof.
    intros x ci m P [H1 H2]. destruct (compile x ci) as [R1 R2]. split; [apply fm_checked_wf; assumption|]. apply H2. apply compile.
  Qed.

  Lemma filter_checks : forall x ci m P invert, stands (oracles_at x) m P ->
    check_stands (CkFilter (oracles_at x) ci m invert)
      (Judges (fun r v => let Q := if invert then ~ P ci r else P ci r in (Q /\ v = Some None) \/ (~ Q /\ v = None))).
  Proof.
    intros x ci m P invert H. destruct (stands_wf x ci m P H) as [Hw Hh]. split; [exact Hw|]. split; [|exact I].
    intros r v. cbn [verdict]. cbv zeta. destruct invert; rewrite (Hh r); reflexivity.
  Qed.

  (** *** Reading *)

  Notation read_check := (read_check oracles_at int_f64 strptime is_nf lists).

  Lemma tidy_sub : forall t k v, tidy (TmTable t) -> gives t k v -> tidy v.
  Proof. intros t k v H Hg. inversion H as [? _ Hs| | | | | |]; subst. rewrite Forall_forall in Hs. exact (Hs _ Hg). Qed.

  Lemma source_out : forall x ci v s p s', tidy v -> read_source (oracles_at x) v s = (Some (Some p), s') ->
    exists t V, v = TmTable t /\ values_at false x ci t "path" V /\ path_good x ci p V.
  Proof.
    intros x ci v s p s' Ht H. destruct v as [b|z|y|b|b|l|t]; try discriminate. cbn [read_source] in H.
    inversion Ht as [? Hd _| | | | | |]; subst. destruct (path_out t Hd x ci _ _ _ _ H) as (V & HV & Hp). exists t, V. auto.
  Qed.

  Definition filter_at strict (x : N) (v : toml) (P : meaning field) : Prop :=
    exists b, v = TmText b /\ expression (oracles_at x) strict b P.

  Lemma target_out : forall x ci v s p m s', tidy v -> read_target (oracles_at x) v s = (Some (Some (p, m)), s') ->
    exists t V fs, v = TmTable t /\ values_at false x ci t "path" V /\ path_good x ci p V
      /\ optional t "filter" (filter_at false x) fs
      /\ match m, fs with Some m, Some P => stands (oracles_at x) m P | None, None => True | _, _ => False end.
  Proof.
    intros x ci v s p m s' Ht H. destruct v as [b|z|y|b|b|l|t]; try discriminate. cbn [read_target] in H.
    inversion Ht as [? Hd _| | | | | |]; subst.
    destruct (visit2 (lit "path") (text_with (path_new (oracles_at x))) (lit "filter")
                (text_with (field_matcher_new (oracles_at x))) t None None s) as [[[[a b]|]|] s1] eqn:E; try discriminate.
    cbn [and_then plainly] in H. destruct a as [p'|]; [|discriminate]. injection H as -> -> ->.
    apply visit2_out in E as [H1 H2]; [|reflexivity|exact Hd]. unfold found in H1, H2.
    destruct (entry (lit "path") t) as [v|] eqn:Ep; [|discriminate]. destruct H1 as (p1 & sa & sb & E1 & Ee). injection Ee as <-.
    unfold text_with in E1. destruct v as [b|z|y|b|b|l|u]; try discriminate.
    destruct (path_parsed x ci _ _ _ _ E1) as (F & Cs & Hpt & Hp). apply (entry_in _ _ _ Hd) in Ep.
    exists t, (path_values_of F Cs ci).
    assert (HV : values_at false x ci t "path" (path_values_of F Cs ci)) by (exists b, F, Cs; split; [exact Ep|split; [exact Hpt|reflexivity]]).
    destruct (entry (lit "filter") t) as [v|] eqn:Ef.
    - destruct H2 as (m1 & sc & sd & E2 & ->). unfold text_with in E2. destruct v as [c|z|y|c|c|l|u]; try discriminate.
      destruct (expression_read _ _ _ _ _ E2) as (P & HP & HS). apply (entry_in _ _ _ Hd) in Ef.
      exists (Some P). split; [reflexivity|]. split; [exact HV|]. split; [exact Hp|]. split; [|exact HS].
      left. exists (TmText c), P. split; [exact Ef|]. split; [exists c; auto|reflexivity].
    - subst m. exists None. split; [reflexivity|]. split; [exact HV|]. split; [exact Hp|]. split; [|exact I].
      right. split; [exact (proj1 (entry_none _ _ Hd) Ef)|reflexivity].
  Qed.

  Lemma link_checks : forall x ci p q m V W fs, path_good x ci p V -> path_good x ci q W ->
    match m, fs with Some m, Some P => stands (oracles_at x) m P | None, None => True | _, _ => False end ->
    check_stands (CkLink (oracles_at x) ci p q m) (Links V W (fun r => forall P, fs = Some P -> P ci r)).
  Proof.
    intros x ci p q m V W fs [W1 L1] [W2 L2] Hm. split.
    - split; [exact W1|]. split; [exact W2|]. intros fm ->. destruct fs as [P|]; [|destruct Hm]. apply (stands_wf x ci) in Hm. apply Hm.
    - split; [exact L1|]. split; [exact L2|]. intros r. destruct m as [m|], fs as [P|]; try destruct Hm.
      + destruct (stands_wf x ci m P) as [_ Hh]; [split; assumption|].
        split; intros H' ? E; injection E as <-; apply (Hh r); apply H'; reflexivity.
      + split; intros; discriminate.
  Qed.

  Lemma check_out : forall t s c s', tidy (TmTable t) -> read_check t s = (Some (Some c), s') ->
    exists m, check_says false t m /\ check_stands c m.
  Proof.
    intros t s c s' Ht H. inversion Ht as [? Hd _| | | | | |]; subst. unfold RuleModel.read_check in H.
    destruct (must (lit "check") as_text t) as [kind|] eqn:Ek; [|discriminate]. apply (must_text t Hd) in Ek.
    repeat match type of H with
    | (if bytes_eqb kind ?l then _ else _) = _ =>
        let E := fresh "E" in destruct (bytes_eqb kind l) eqn:E; [apply bytes_eqb_eq in E; subst kind|clear E]
    end.
    - apply options_out in H as (x & ci & Ho & H); [|exact Hd].
      destruct (field_with (lit "path") (path_new (oracles_at x)) t s) as [[[p|]|] s1] eqn:Ep; try discriminate.
      cbn [and_then plainly] in H. destruct (allow_values lists t) as [values|] eqn:Ea; [|discriminate]. injection H as <- _.
      apply (path_out t Hd x ci) in Ep as (V & HV & Hp). apply (allow_out _ _ Ht) in Ea.
      eexists. split; [eapply says_allowed; eassumption|]. eapply values_stand; [exact Hp|reflexivity|reflexivity|exact I].
    - apply options_out in H as (x & ci & Ho & H); [|exact Hd].
      destruct (field_with (lit "path") (path_new (oracles_at x)) t s) as [[[p|]|] s1] eqn:Ep; try discriminate.
      cbn [and_then plainly] in H. destruct (or_default (lit "format") (lit "%Y-%m-%d") as_text t) as [format|] eqn:E1; [|discriminate].
      destruct (or_default (lit "offset") 0 as_usize t) as [offset|] eqn:E2; [|discriminate]. injection H as <- _.
      apply (path_out t Hd x ci) in Ep as (V & HV & Hp). apply (default_iff _ _ _ _ _ _ _ Hd text_iff) in E1.
      apply (default_iff _ _ _ _ _ _ _ Hd natural_iff) in E2.
      eexists. split; [eapply says_datetime; eassumption|]. eapply values_stand; [exact Hp|reflexivity|reflexivity|exact I].
    - apply options_out in H as (x & ci & Ho & H); [|exact Hd].
      destruct (field_with (lit "query") (query_new (oracles_at x)) t s) as [[[q|]|] s1] eqn:Ep; try discriminate.
      cbn [and_then plainly] in H. destruct (or_default (lit "threshold") 2 as_usize t) as [threshold|] eqn:E1; [|discriminate].
      destruct (or_default (lit "separator") (lit "|") as_text t) as [separator|] eqn:E2; [|discriminate]. injection H as <- _.
      apply (text_out t Hd) in Ep as (b & Hb & Eq). destruct (query_read _ T _ _ _ _ Eq) as (Ms & n & Hq & Hm).
      apply (default_iff _ _ _ _ _ _ _ Hd natural_iff) in E1. apply (default_iff _ _ _ _ _ _ _ Hd text_iff) in E2.
      eexists. split; [eapply says_duplicates; [exact Ek|exact Ho|exact Hb|exact Hq|discriminate|exact E1|exact E2]|].
      apply query_checks. eapply stands_of; eassumption.
    - apply options_out in H as (x & ci & Ho & H); [|exact Hd].
      destruct (field_with (lit "filter") (field_matcher_new (oracles_at x)) t s) as [[[m|]|] s1] eqn:Ep; try discriminate.
      cbn [and_then plainly] in H. destruct (or_default (lit "invert-match") false as_bool t) as [invert|] eqn:E1; [|discriminate].
      injection H as <- _. apply (text_out t Hd) in Ep as (b & Hb & Eq). destruct (expression_read _ _ _ _ _ Eq) as (P & HP & HS).
      apply (default_iff _ _ _ _ _ _ _ Hd flag_iff) in E1.
      eexists. split; [eapply says_filter; eassumption|]. apply filter_checks. exact HS.
    - apply options_out in H as (x & ci & Ho & H); [|exact Hd].
      destruct (field_with (lit "path") (path_new (oracles_at x)) t s) as [[[p|]|] s1] eqn:Ep; try discriminate.
      cbn [and_then plainly] in H. destruct (may (lit "prefix") as_text t) as [prefix|] eqn:E1; [|discriminate]. injection H as <- _.
      apply (path_out t Hd x ci) in Ep as (V & HV & Hp). apply (may_iff _ _ _ _ _ _ Hd text_iff) in E1.
      eexists. split; [eapply says_isni; eassumption|]. eapply values_stand; [exact Hp|reflexivity|reflexivity|exact I].
    - apply options_out in H as (x & ci & Ho & H); [|exact Hd].
      destruct (field_with (lit "path") (path_new (oracles_at x)) t s) as [[[p|]|] s1] eqn:Ep; try discriminate.
      cbn [and_then plainly] in H. injection H as <- _. apply (path_out t Hd x ci) in Ep as (V & HV & Hp).
      eexists. split; [eapply says_iso639; eassumption|]. eapply values_stand; [exact Hp|reflexivity|reflexivity|exact I].
    - apply options_out in H as (x & ci & Ho & H); [|exact Hd].
      destruct (field_with (lit "path") (path_new (oracles_at x)) t s) as [[[p|]|] s1] eqn:Ep; try discriminate.
      cbn [and_then plainly] in H. injection H as <- _. apply (path_out t Hd x ci) in Ep as (V & HV & Hp).
      eexists. split; [eapply says_jelc; eassumption|]. eapply values_stand; [exact Hp|reflexivity|reflexivity|exact I].
    - apply options_out in H as (x & ci & Ho & H); [|exact Hd].
      destruct (visit2 (lit "source") (read_source (oracles_at x)) (lit "target") (read_target (oracles_at x)) t None None s)
        as [[[[a b]|]|] s1] eqn:E; try discriminate.
      cbn [and_then plainly] in H. destruct a as [p|]; [|discriminate]. destruct b as [[q m]|]; [|discriminate]. injection H as <- _.
      apply visit2_out in E as [H1 H2]; [|reflexivity|exact Hd]. unfold found in H1, H2.
      destruct (entry (lit "source") t) as [v|] eqn:Es; [|discriminate]. destruct H1 as (p1 & sa & sb & E1 & Ee). injection Ee as <-.
      destruct (entry (lit "target") t) as [v'|] eqn:Et; [|discriminate]. destruct H2 as ([q1 m1] & sc & sd & E2 & Ee). injection Ee as <- <-.
      apply (entry_in _ _ _ Hd) in Es, Et.
      apply (source_out x ci) in E1 as (ts & V & -> & HV & Hp); [|exact (tidy_sub _ "source" _ Ht Es)].
      apply (target_out x ci) in E2 as (tt & W & fs & -> & HW & Hq & Hf & Hm); [|exact (tidy_sub _ "target" _ Ht Et)].
      eexists. split; [eapply says_link; eassumption|]. apply link_checks; assumption.
    - unfold plainly in H. destruct (may (lit "normalization") _ t) as [nf|] eqn:E1; [|discriminate]. injection H as <- _.
      apply (may_iff _ _ _ _ _ _ Hd form_iff) in E1.
      eexists. split; [eapply says_unicode; eassumption|]. split; [exact I|]. split; [|exact I].
      intros r v. cbn [verdict]. destruct nf; reflexivity.
    - discriminate.
  Qed.

  Lemma source_in : forall x ci t V, tidy (TmTable t) -> values_at true x ci t "path" V ->
    exists p, read_source (oracles_at x) (TmTable t) fresh = (Some (Some p), fresh) /\ path_good x ci p V.
  Proof. intros x ci t V Ht H. inversion Ht as [? Hd _| | | | | |]; subst. apply path_in; assumption. Qed.

  Lemma target_in : forall x ci t V fs, tidy (TmTable t) -> values_at true x ci t "path" V ->
    optional t "filter" (filter_at true x) fs ->
    exists p m, read_target (oracles_at x) (TmTable t) fresh = (Some (Some (p, m)), fresh) /\ path_good x ci p V
      /\ match m, fs with Some m, Some P => stands (oracles_at x) m P | None, None => True | _, _ => False end.
  Proof.
    intros x ci t V fs Ht (b & F & Cs & Hg & Hpt & HV) Hf. inversion Ht as [? Hd _| | | | | |]; subst. cbn [read_target].
    pose proof (proj2 (entry_in _ _ _ Hd) Hg) as Eg.
    destruct (visit2_in (lit "path") (lit "filter") (text_with (path_new (oracles_at x))) (text_with (field_matcher_new (oracles_at x)))
                eq_refl (fun p => path_good x ci p V)
                (fun m => match fs with Some P => stands (oracles_at x) m P | None => False end) t None None Hd) as (a' & b' & E & H1 & H2).
    - intros v Ev. rewrite Eg in Ev. injection Ev as <-. destruct (path_parses x ci _ _ _ Hpt) as (p & Ep & Hp).
      exists p. split; [exact Ep|exact (good_iff _ _ _ _ _ Hp HV)].
    - intros v Ev. destruct Hf as [(v' & P & Hg' & (c & -> & HP) & ->)|[Hn _]].
      + apply (entry_in _ _ _ Hd) in Hg'. rewrite Ev in Hg'. injection Hg' as ->.
        exact (expression_accepted _ _ _ fresh HP (conj eq_refl eq_refl)).
      + exfalso. eapply Hn. apply (entry_in _ _ _ Hd). exact Ev.
    - rewrite E. cbn [and_then plainly]. unfold ended_with in H1, H2. rewrite Eg in H1. destruct H1 as (p & -> & Hp).
      exists p, b'. split; [reflexivity|]. split; [exact Hp|]. destruct (entry (lit "filter") t) as [v|] eqn:Ev.
      + destruct H2 as (m & -> & Hm). exact Hm.
      + subst b'. destruct Hf as [(v' & P & Hg' & _)|[_ ->]]; [|exact I].
        exfalso. eapply (proj1 (entry_none _ _ Hd) Ev). exact Hg'.
  Qed.

  Lemma gives_text : forall t k a b, NoDup (map fst t) -> gives t k (TmText a) -> gives t k (TmText b) -> a = b.
  Proof. intros t k a b Hd H1 H2. apply (entry_in _ _ _ Hd) in H1, H2. congruence. Qed.

  Lemma check_in : forall t m, tidy (TmTable t) -> check_says true t m ->
    exists c, read_check t fresh = (Some (Some c), fresh) /\ check_stands c m.
  Proof.
    intros t m Ht H. inversion Ht as [? Hd _| | | | | |]; subst.
    destruct H as
      [x ci V values Hk Ho HV Ha
      |x ci V format offset Hk Ho HV H1 H2
      |x ci b Ms n threshold separator Hk Ho Hb Hq Hn H1 H2
      |x ci b P invert Hk Ho Hb HP H1
      |x ci V prefix Hk Ho HV H1
      |x ci V Hk Ho HV
      |x ci V Hk Ho HV
      |x ci ts tt V W fs Hk Ho Hs Htt HV HW Hf
      |nf Hk H1]; unfold RuleModel.read_check; apply (must_text t Hd) in Hk; rewrite Hk; kinds.
    - rewrite (options_in t Hd _ _ _ x ci Ho). destruct (path_in t Hd x ci _ _ HV) as (p & Ep & Hp). rewrite Ep. cbn [and_then plainly].
      destruct (allow_in _ _ Ht Ha) as (values' & Ea & Hv). rewrite Ea. eexists. split; [reflexivity|].
      eapply values_stand; [exact Hp| |reflexivity|exact I]. intros r v. cbn [verdict].
      split; intros (vs & Hl & Hj); exists vs; (split; [exact Hl|]); (eapply list_verdict_iff; [|exact Hj]); intros y; rewrite Hv; reflexivity.
    - rewrite (options_in t Hd _ _ _ x ci Ho). destruct (path_in t Hd x ci _ _ HV) as (p & Ep & Hp). rewrite Ep. cbn [and_then plainly].
      apply (default_iff _ _ _ _ _ _ _ Hd text_iff) in H1. apply (default_iff _ _ _ _ _ _ _ Hd natural_iff) in H2. rewrite H1, H2.
      eexists. split; [reflexivity|]. eapply values_stand; [exact Hp|reflexivity|reflexivity|exact I].
    - rewrite (options_in t Hd _ _ _ x ci Ho). rewrite (text_in t Hd _ _ _ _ _ Hb).
      destruct (query_ok _ T _ Ms n fresh Hq eq_refl (Hn eq_refl)) as (q & Eq & Hm). rewrite Eq. cbn [and_then plainly].
      apply (default_iff _ _ _ _ _ _ _ Hd natural_iff) in H1. apply (default_iff _ _ _ _ _ _ _ Hd text_iff) in H2. rewrite H1, H2.
      eexists. split; [reflexivity|]. apply query_checks. eapply stands_of; eassumption.
    - rewrite (options_in t Hd _ _ _ x ci Ho). rewrite (text_in t Hd _ _ _ _ _ Hb).
      destruct (expression_accepted _ _ _ fresh HP (conj eq_refl eq_refl)) as (m & Em & Hm). rewrite Em. cbn [and_then plainly].
      apply (default_iff _ _ _ _ _ _ _ Hd flag_iff) in H1. rewrite H1.
      eexists. split; [reflexivity|]. apply filter_checks. exact Hm.
    - rewrite (options_in t Hd _ _ _ x ci Ho). destruct (path_in t Hd x ci _ _ HV) as (p & Ep & Hp). rewrite Ep. cbn [and_then plainly].
      apply (may_iff _ _ _ _ _ _ Hd text_iff) in H1. rewrite H1.
      eexists. split; [reflexivity|]. eapply values_stand; [exact Hp|reflexivity|reflexivity|exact I].
    - rewrite (options_in t Hd _ _ _ x ci Ho). destruct (path_in t Hd x ci _ _ HV) as (p & Ep & Hp). rewrite Ep. cbn [and_then plainly].
      eexists. split; [reflexivity|]. eapply values_stand; [exact Hp|reflexivity|reflexivity|exact I].
    - rewrite (options_in t Hd _ _ _ x ci Ho). destruct (path_in t Hd x ci _ _ HV) as (p & Ep & Hp). rewrite Ep. cbn [and_then plainly].
      eexists. split; [reflexivity|]. eapply values_stand; [exact Hp|reflexivity|reflexivity|exact I].
    - rewrite (options_in t Hd _ _ _ x ci Ho). pose proof (proj2 (entry_in _ _ _ Hd) Hs) as Es. pose proof (proj2 (entry_in _ _ _ Hd) Htt) as Et.
      destruct (source_in x ci _ _ (tidy_sub _ _ _ Ht Hs) HV) as (p & Ep & Hp).
      destruct (target_in x ci _ _ _ (tidy_sub _ _ _ Ht Htt) HW Hf) as (q & m & Eq & Hq & Hm).
      destruct (visit2_in (lit "source") (lit "target") (read_source (oracles_at x)) (read_target (oracles_at x)) eq_refl
                  (fun y => y = p) (fun y => y = (q, m)) t None None Hd) as (a' & b' & E & H1 & H2).
      + intros v Ev. rewrite Es in Ev. injection Ev as <-. exists p. auto.
      + intros v Ev. rewrite Et in Ev. injection Ev as <-. exists (q, m). auto.
      + rewrite E. cbn [and_then plainly]. unfold ended_with in H1, H2. rewrite Es in H1. rewrite Et in H2.
        destruct H1 as (? & -> & ->), H2 as (? & -> & ->). eexists. split; [reflexivity|]. apply link_checks; assumption.
    - apply (may_iff _ _ _ _ _ _ Hd form_iff) in H1. unfold plainly. rewrite H1.
      eexists. split; [reflexivity|]. split; [exact I|]. split; [|exact I]. intros r v. cbn [verdict]. destruct nf; reflexivity.
  Qed.

  (** ** Rules and rule sets *)

  Notation rule_says := (rule_says T lossy oracles_at int_f64 strptime is_nf holds polars).
  Notation read_rule := (read_rule oracles_at int_f64 strptime is_nf lists).

  Definition rule_stands (ru : rule) (m : rule_meaning) : Prop :=
    ru_id ru = rm_id m /\ ru_level ru = rm_level m /\ ru_tags ru = rm_tags m
    /\ ru_state ru = no_links /\ check_stands (ru_check ru) (rm_check m).

  Lemma rule_out : forall x s ru s', tidy (snd x) -> read_rule x s = (Some (Some ru), s') ->
    exists m, rule_says false x m /\ rule_stands ru m.
  Proof.
    intros [id v] s ru s' Ht H. unfold RuleModel.read_rule in H. cbn [fst snd] in *. destruct v as [b|z|y|b|b|l|t]; try discriminate.
    inversion Ht as [? Hd _| | | | | |]; subst.
    destruct (may (lit "description") as_text t) as [description|] eqn:E1; [|discriminate].
    destruct (may (lit "link") as_text t) as [link|] eqn:E2; [|discriminate].
    destruct (may (lit "tags") as_texts t) as [tags|] eqn:E3; [|discriminate].
    destruct (or_default (lit "level") (lit "error") as_level t) as [level|] eqn:E4; [|discriminate].
    apply (may_iff _ _ _ _ _ _ Hd text_iff) in E1, E2. apply (may_iff _ _ _ _ _ _ Hd texts_iff) in E3.
    apply (default_iff _ _ _ _ _ _ _ Hd level_iff) in E4.
    destruct (read_check t s) as [[[c|]|] s1] eqn:Ec; try discriminate. cbn [and_then plainly] in H. injection H as <- _.
    destruct (check_out _ _ _ _ Ht Ec) as (m & Hm & Hs).
    exists (mkRM id level tags m). split; [eapply rule_entry; try eassumption; reflexivity|]. repeat split; try reflexivity; apply Hs.
  Qed.

  Lemma rule_in : forall x m, tidy (snd x) -> rule_says true x m ->
    exists ru, read_rule x fresh = (Some (Some ru), fresh) /\ rule_stands ru m.
  Proof.
    intros x m Ht H. destruct H as [id t m description link H1 H2 H3 H4 Ei Hc]. cbn [snd] in Ht.
    inversion Ht as [? Hd _| | | | | |]; subst.
    apply (may_iff _ _ _ _ _ _ Hd text_iff) in H1, H2. apply (may_iff _ _ _ _ _ _ Hd texts_iff) in H3.
    apply (default_iff _ _ _ _ _ _ _ Hd level_iff) in H4. destruct (check_in _ _ Ht Hc) as (c & Ec & Hs).
    unfold RuleModel.read_rule. cbn [fst snd]. rewrite H1, H2, H3, H4, Ec. cbn [and_then plainly].
    eexists. split; [reflexivity|]. split; [reflexivity|]. split; [reflexivity|]. split; [reflexivity|]. split; [reflexivity|exact Hs].
  Qed.

  Variable hash_order : list rule -> list rule.
  Hypothesis Hhash : forall l, Permutation (hash_order l) l.

  Notation set_says := (set_says T lossy oracles_at int_f64 strptime is_nf holds polars).
  Notation read_set := (read_set oracles_at int_f64 strptime is_nf lists hash_order).

  Definition set_stands (rs : rule_set) (m : set_meaning) : Prop :=
    (forall r, in_scope Od rs r <-> sm_scope m r) /\ (forall fm, rs_scope rs = Some fm -> fm_wf Od false fm)
    /\ rs_fast rs = sm_fast m /\ Forall2 rule_stands (rs_rules rs) (sm_rules m).

  Lemma reorder : forall (rules : list rule) ms rules', Forall2 rule_stands rules ms -> Permutation rules' rules ->
    exists ms', Forall2 rule_stands rules' ms' /\ Permutation ms ms'.
  Proof.
    intros rules ms rules' H Hp. revert ms H. induction Hp as [|a l l' Hp IH|a b l|l l' l'' Hp1 IH1 Hp2 IH2]; intros ms H.
    - inversion H; subst. exists []. split; constructor.
    - inversion H as [|? y ? ys Hy Hys]; subst. destruct (IH ys Hys) as (ms' & H1 & H2). exists (y :: ms'). split; constructor; assumption.
    - inversion H as [|? y ? ys Hy Hys]; subst. inversion Hys as [|? y' ? ys' Hy' Hys']; subst.
      exists (y' :: y :: ys'). split; [constructor; [assumption|constructor; assumption]|constructor].
    - destruct (IH2 ms H) as (ms1 & H1 & P1). destruct (IH1 ms1 H1) as (ms2 & H2 & P2). exists ms2. split; [exact H2|].
      eapply Permutation_trans; eassumption.
  Qed.

  Lemma scope_stands : forall scope fs rules fast, match scope, fs with Some m, Some P => stands Od m P | None, None => True | _, _ => False end ->
    let rs := mkRuleSet scope fast rules in
    (forall r, in_scope Od rs r <-> forall P, fs = Some P -> P false r) /\ (forall fm, rs_scope rs = Some fm -> fm_wf Od false fm).
  Proof.
    intros scope fs rules fast H rs. unfold in_scope. cbn [rs_scope rs]. destruct scope as [m|], fs as [P|]; try destruct H.
    - destruct (stands_wf strsim_default false m P) as [Hw Hh]; [split; assumption|]. split.
      + intros r. split; intros H' ? E; injection E as <-; apply (Hh r); apply H'; reflexivity.
      + intros fm E. injection E as <-. exact Hw.
    - split; [intros r; split; intros; discriminate|discriminate].
  Qed.

  Lemma set_out : forall v s rs s', tidy v -> read_set v s = (Some (Some rs), s') ->
    exists m, set_says false v m /\ set_stands rs m.
  Proof.
    intros v s rs s' Ht H. unfold RuleModel.read_set in H. destruct v as [b|z|y|b|b|l|t]; try discriminate.
    inversion Ht as [? Hd Hs| | | | | |]; subst.
    destruct (or_default (lit "termination") false as_fast t) as [fast|] eqn:Ef; [|discriminate].
    apply (default_iff _ _ _ _ _ _ _ Hd mode_iff) in Ef.
    match type of H with and_then ?X _ = _ => destruct X as [[[[a b]|]|] s1] eqn:E; try discriminate end.
    cbn [and_then plainly fst snd] in H. injection H as <- _.
    apply visit2_out in E as [H1 H2]; [|reflexivity|exact Hd]. unfold found in H1, H2.
    assert (HS : exists fs, optional t "scope" (filter_at false strsim_default) fs
                   /\ match a, fs with Some m, Some P => stands Od m P | None, None => True | _, _ => False end).
    { destruct (entry (lit "scope") t) as [v|] eqn:Ev.
      - destruct H1 as (m & sa & sb & Em & ->). unfold text_with in Em. destruct v as [c|z|y|c|c|l|u]; try discriminate.
        destruct (expression_read _ _ _ _ _ Em) as (P & HP & Hm). apply (entry_in _ _ _ Hd) in Ev.
        exists (Some P). split; [|exact Hm]. left. exists (TmText c), P. split; [exact Ev|]. split; [exists c; auto|reflexivity].
      - subst a. exists None. split; [|exact I]. right. split; [exact (proj1 (entry_none _ _ Hd) Ev)|reflexivity]. }
    assert (HR : exists rules ms, setting t "rule" (fun v l => v = TmTable l) [] rules /\ Forall2 (rule_says false) rules ms
                   /\ Forall2 rule_stands (match b with Some l => l | None => [] end) ms).
    { destruct (entry (lit "rule") t) as [v|] eqn:Ev.
      - destruct H2 as (l & sa & sb & El & ->). destruct v as [c|z|y|c|c|l'|u]; try discriminate.
        apply (entry_in _ _ _ Hd) in Ev. apply visit_all_out in El.
        pose proof (tidy_sub _ "rule" _ Ht Ev) as Hu. inversion Hu as [? _ Hus| | | | | |]; subst.
        assert (G : exists ms, Forall2 (rule_says false) u ms /\ Forall2 rule_stands l ms).
        { clear Hu Ev. induction El as [|x ru u l (sc & sd & Ex) El IH]; [exists []; split; constructor|].
          inversion Hus as [|? ? Hx Hu]; subst. destruct (rule_out _ _ _ _ Hx Ex) as (m & Hm & Hr).
          destruct (IH Hu) as (ms & G1 & G2). exists (m :: ms). split; constructor; assumption. }
        destruct G as (ms & G1 & G2). exists u, ms. split; [left; exists (TmTable u); auto|]. auto.
      - subst b. exists [], []. split; [right; split; [exact (proj1 (entry_none _ _ Hd) Ev)|reflexivity]|]. split; constructor. }
    destruct HS as (fs & HS & Hm), HR as (rules & ms & HR & HF & HG).
    destruct (reorder _ _ _ HG (Hhash _)) as (ms' & HG' & HP).
    destruct (scope_stands a fs (hash_order (match b with Some l => l | None => [] end)) fast Hm) as [K1 K2].
    exists (mkSM (fun r => forall P, fs = Some P -> P false r) fast ms').
    split; [eapply set_document; try eassumption; reflexivity|]. split; [exact K1|]. split; [exact K2|]. split; [reflexivity|exact HG'].
  Qed.

  Lemma set_in : forall v m, tidy v -> set_says true v m ->
    exists rs m', read_set v fresh = (Some (Some rs), fresh) /\ set_says true v m' /\ set_stands rs m'.
  Proof.
    intros v m Ht H. destruct H as [t scope rules ms fast m HS Hf HR HF Em1 Em2 Hp].
    inversion Ht as [? Hd Hs| | | | | |]; subst.
    pose proof (proj2 (default_iff _ _ _ _ _ _ _ Hd mode_iff) Hf) as Ef. unfold RuleModel.read_set. rewrite Ef.
    assert (Hrules : Forall (fun x => tidy (snd x)) rules).
    { destruct HR as [(v & Hv & ->)|[_ ->]]; [|constructor].
      pose proof (tidy_sub _ "rule" _ Ht Hv) as Hu. inversion Hu; assumption. }
    assert (G : exists l, visit_all read_rule rules fresh = (Some (Some l), fresh) /\ Forall2 rule_stands l ms).
    { clear HR Hp. assert (G : exists l, Forall2 (fun x y => read_rule x fresh = (Some (Some y), fresh)) rules l /\ Forall2 rule_stands l ms).
      { induction HF as [|x m0 rules ms Hx HF IH]; [exists []; split; constructor|]. inversion Hrules as [|? ? Ht1 Ht2]; subst.
        destruct (rule_in _ _ Ht1 Hx) as (ru & E & Hr). destruct (IH Ht2) as (l & G1 & G2). exists (ru :: l). split; constructor; assumption. }
      destruct G as (l & G1 & G2). exists l. split; [apply visit_all_in; exact G1|exact G2]. }
    destruct G as (l & El & HG).
    match goal with |- context [visit2 ?k1 ?f1 ?k2 ?f2 t None None fresh] =>
      destruct (visit2_in k1 k2 f1 f2 eq_refl (fun m => match scope with Some P => stands Od m P | None => False end)
                  (fun y => y = l) t None None Hd) as (a' & b' & E & H1 & H2) end.
    - intros v Ev. destruct HS as [(v' & P & Hg & (c & -> & HP) & ->)|[Hn _]].
      + apply (entry_in _ _ _ Hd) in Hg. rewrite Ev in Hg. injection Hg as ->.
        exact (expression_accepted _ _ _ fresh HP (conj eq_refl eq_refl)).
      + exfalso. eapply Hn. apply (entry_in _ _ _ Hd). exact Ev.
    - intros v Ev. destruct HR as [(v' & Hg & ->)|[Hn _]].
      + apply (entry_in _ _ _ Hd) in Hg. rewrite Ev in Hg. injection Hg as ->. exists l. auto.
      + exfalso. eapply Hn. apply (entry_in _ _ _ Hd). exact Ev.
    - rewrite E. cbn [and_then plainly fst snd].
      assert (Eb : match b' with Some l => l | None => [] end = l).
      { unfold ended_with in H2. destruct (entry (lit "rule") t) as [v|] eqn:Ev; [destruct H2 as (? & -> & ->); reflexivity|].
        subst b'. destruct HR as [(v' & Hg & _)|[_ ->]]; [exfalso; eapply (proj1 (entry_none _ _ Hd) Ev); exact Hg|].
        cbn in El. injection El as <-. reflexivity. }
      rewrite Eb. destruct (reorder _ _ _ HG (Hhash l)) as (ms' & HG' & HP).
      assert (Hm : match a', scope with Some m, Some P => stands Od m P | None, None => True | _, _ => False end).
      { unfold ended_with in H1. destruct (entry (lit "scope") t) as [v|] eqn:Ev; [destruct H1 as (m1 & -> & Hm1); exact Hm1|].
        subst a'. destruct HS as [(v' & P & Hg & _)|[_ ->]]; [|exact I]. exfalso. eapply (proj1 (entry_none _ _ Hd) Ev); exact Hg. }
      destruct (scope_stands a' scope (hash_order l) (sm_fast m) Hm) as [K1 K2].
      exists (mkRuleSet a' (sm_fast m) (hash_order l)), (mkSM (fun r => forall P, scope = Some P -> P false r) (sm_fast m) ms').
      split; [reflexivity|]. split; [eapply set_document; try eassumption; reflexivity|].
      split; [exact K1|]. split; [exact K2|]. split; [reflexivity|exact HG'].
  Qed.

  (** ** Rule files *)

  Variable get : bytes -> option bytes.
  Hypothesis Hget : forall n b, get n = Some b <-> holds n b.
  Variable from_toml : bytes -> option toml.
  Hypothesis Htidy : forall b v, from_toml b = Some v -> tidy v.
  Variable normal : bytes -> bytes.
  Variable patterns : list bytes -> option (bytes -> bool).

  Notation file_says := (fun strict => file_says T lossy oracles_at int_f64 strptime is_nf holds polars strict from_toml normal).
  Notation rules_say := (fun strict => rules_say T lossy oracles_at int_f64 strptime is_nf holds polars strict from_toml normal patterns).
  Notation set_new := (set_new oracles_at int_f64 strptime is_nf lists hash_order from_toml normal).
  Notation rules_prepare := (rules_prepare oracles_at int_f64 strptime is_nf lists hash_order from_toml normal patterns).

  Lemma file_out : forall n s rs s', set_new (get n) s = (Some (Some rs), s') -> exists m, file_says false n m /\ set_stands rs m.
  Proof.
    intros n s rs s' H. unfold RuleModel.set_new in H. destruct (get n) as [b|] eqn:Eb; [|discriminate]. apply Hget in Eb.
    destruct (utf8_valid b) eqn:Eu; [|discriminate]. apply utf8_valid_iff in Eu.
    destruct (from_toml (normal b)) as [v|] eqn:Ev; [|discriminate].
    destruct (set_out _ _ _ _ (Htidy _ _ Ev) H) as (m & Hm & Hs). exists m. split; [exists b, v; auto|exact Hs].
  Qed.
  Lemma file_in : forall n m, file_says true n m ->
    exists rs m', set_new (get n) fresh = (Some (Some rs), fresh) /\ file_says true n m' /\ set_stands rs m'.
  Proof.
    intros n m (b & v & Hb & Hu & Hv & Hm). destruct (set_in _ _ (Htidy _ _ Hv) Hm) as (rs & m' & E & Hm' & Hs).
    exists rs, m'. split; [|split; [exists b, v; auto|exact Hs]]. unfold RuleModel.set_new.
    apply Hget in Hb. rewrite Hb. apply utf8_valid_iff in Hu. rewrite Hu, Hv. exact E.
  Qed.

  Lemma picks_transfer : forall A B (R : A -> B -> Prop) P Q l ms, Forall2 R l ms -> (forall x y, R x y -> (P x <-> Q y)) ->
    forall l', picks P (fun x => x) l l' -> exists ms', picks Q (fun y => y) ms ms' /\ Forall2 R l' ms'.
  Proof.
    intros A B R P Q l ms H HP. induction H as [|x y l ms Hx H IH]; intros l' Hl; inversion Hl; subst.
    - exists []. split; constructor.
    - destruct (IH _ ltac:(eassumption)) as (ms' & K1 & K2). exists (y :: ms'). split; [|constructor; assumption].
      constructor; [apply (HP _ _ Hx); assumption|exact K1].
    - destruct (IH _ ltac:(eassumption)) as (ms' & K1 & K2). exists ms'. split; [|exact K2].
      constructor; [|exact K1]. rewrite <- (HP _ _ Hx). assumption.
  Qed.

  Lemma wanted_chosen : forall re tags ru m, rule_stands ru m -> (rule_wanted re str_trim tags ru <-> rule_chosen re tags m).
  Proof.
    intros re tags ru m (E1 & _ & E2 & _). unfold rule_wanted, rule_chosen. rewrite E1, E2.
    split; intros [H1 H2]; (split; [exact H1|]); intros b Eb; destruct (H2 b Eb) as (items & ts & x & i & H3 & H4 & H5 & H6 & H7);
      exists items, ts, x, i; repeat (split; [assumption|]).
    - apply str_trim_iff. symmetry. exact H7.
    - symmetry. apply str_trim_iff. exact H7.
  Qed.

  Lemma in_scope_rules : forall scope fast rules rules' r,
    in_scope Od (mkRuleSet scope fast rules) r <-> in_scope Od (mkRuleSet scope fast rules') r.
  Proof. reflexivity. Qed.

  Lemma select_stands : forall re tags sets all, Forall2 set_stands sets all ->
    exists left chosen,
      Forall2 (fun m m' => sm_scope m' = sm_scope m /\ sm_fast m' = sm_fast m
                 /\ picks (rule_chosen re tags) (fun x => x) (sm_rules m) (sm_rules m')) all left
      /\ picks (fun m => sm_rules m <> []) (fun m => m) left chosen
      /\ Forall2 set_stands (select_rules re str_trim tags sets) chosen.
  Proof.
    intros re tags sets all H. destruct (select_rules_spec re str_trim tags sets) as (mid & H1 & H2).
    assert (G : exists left, Forall2 (fun m m' => sm_scope m' = sm_scope m /\ sm_fast m' = sm_fast m
                 /\ picks (rule_chosen re tags) (fun x => x) (sm_rules m) (sm_rules m')) all left /\ Forall2 set_stands mid left).
    { clear H2. revert mid H1. induction H as [|rs m sets all Hm H IH]; intros mid H1; inversion H1 as [|? rs' ? mid' Hr Hrest]; subst.
      - exists []. split; constructor.
      - destruct (IH _ Hrest) as (left & G1 & G2). destruct Hr as (E1 & E2 & Hp). destruct Hm as (M1 & M2 & M3 & M4).
        destruct (picks_transfer _ _ _ _ _ _ _ M4 (wanted_chosen re tags) _ Hp) as (rules' & P1 & P2).
        exists (mkSM (sm_scope m) (sm_fast m) rules' :: left). split; constructor; try assumption.
        + repeat (split; [reflexivity|]). exact P1.
        + unfold set_stands, in_scope in *. rewrite E1, E2. cbn [sm_scope sm_fast sm_rules]. auto. }
    destruct G as (left & G1 & G2).
    destruct (picks_transfer _ _ set_stands (fun rs => rs_rules rs <> []) (fun m => sm_rules m <> []) _ _ G2) with (l' := select_rules re str_trim tags sets)
      as (chosen & C1 & C2); [|exact H2|].
    { intros rs m (_ & _ & _ & HF). destruct HF; split; congruence. }
    exists left, chosen. auto.
  Qed.

  Lemma prepare_out : forall files filter tags s sets s', rules_prepare (map get files) filter tags s = (Some (Some sets), s') ->
    exists chosen, rules_say false files filter tags chosen /\ Forall2 set_stands sets chosen.
  Proof.
    intros files filter tags s sets s' H. unfold RuleModel.rules_prepare in H.
    destruct (visit_all set_new (map get files) s) as [[[all|]|] s1] eqn:E; try discriminate. cbn [and_then plainly] in H.
    apply visit_all_out in E.
    assert (G : exists ms, Forall2 (file_says false) files ms /\ Forall2 set_stands all ms).
    { clear H. revert all E. induction files as [|n files IH]; intros all E; inversion E as [|? rs ? rest (sa & sb & Ea) Er]; subst.
      - exists []. split; constructor.
      - destruct (file_out _ _ _ _ Ea) as (m & Hm & Hs). destruct (IH _ Er) as (ms & G1 & G2). exists (m :: ms). split; constructor; assumption. }
    destruct G as (ms & G1 & G2).
    assert (R : exists re, match filter with [] => re = None | _ => exists f, patterns filter = Some f /\ re = Some f end
                /\ sets = select_rules re str_trim tags all).
    { destruct filter as [|p ps]; [injection H as <- _; exists None; auto|].
      destruct (patterns (p :: ps)) as [f|] eqn:Ef; [|discriminate]. injection H as <- _. exists (Some f). split; [exists f; auto|reflexivity]. }
    destruct R as (re & R1 & ->). destruct (select_stands re tags all ms G2) as (left & chosen & L1 & L2 & L3).
    exists chosen. split; [|exact L3]. exists re, ms, left. auto.
  Qed.

  Lemma prepare_in : forall files filter tags chosen, rules_say true files filter tags chosen ->
    exists sets chosen', rules_prepare (map get files) filter tags fresh = (Some (Some sets), fresh)
      /\ rules_say true files filter tags chosen' /\ Forall2 set_stands sets chosen'.
  Proof.
    intros files filter tags chosen (re & ms & left & R & HF & _).
    assert (G : exists all ms', visit_all set_new (map get files) fresh = (Some (Some all), fresh)
              /\ Forall2 (file_says true) files ms' /\ Forall2 set_stands all ms').
    { clear R. assert (G : exists all ms', Forall2 (fun x y => set_new x fresh = (Some (Some y), fresh)) (map get files) all
              /\ Forall2 (file_says true) files ms' /\ Forall2 set_stands all ms').
      { induction HF as [|n m files ms Hn HF IH]; [exists [], []; repeat split; constructor|].
        destruct (file_in _ _ Hn) as (rs & m' & E & Hm & Hs). destruct IH as (all & ms' & G1 & G2 & G3).
        exists (rs :: all), (m' :: ms'). cbn [map]. repeat split; constructor; assumption. }
      destruct G as (all & ms' & G1 & G2 & G3). exists all, ms'. split; [apply visit_all_in; exact G1|auto]. }
    destruct G as (all & ms' & G1 & G2 & G3). destruct (select_stands re tags all ms' G3) as (left' & chosen' & L1 & L2 & L3).
    exists (select_rules re str_trim tags all), chosen'. split; [|split; [exists re, ms', left'; auto|exact L3]].
    unfold RuleModel.rules_prepare. rewrite G1. cbn [and_then plainly]. destruct filter as [|p ps]; [rewrite R; reflexivity|].
    destruct R as (f & -> & ->). reflexivity.
  Qed.

  (** ** What the rules do *)

  Lemma judged_iff : forall c m r v, check_stands c m -> (verdict T lossy c r v <-> judged m r v).
  Proof.
    intros c m r v [_ H]. destruct m as [P|V W K]; [apply H|]. destruct c; try destruct H. reflexivity.
  Qed.

  Lemma rows_iff : forall fast r rules ms rows, Forall2 rule_stands rules ms ->
    (rules_rows T lossy fast r rules rows <-> meant_rows fast r ms rows).
  Proof.
    intros fast r rules ms rows H. revert rows. induction H as [|ru m rules ms Hr H IH]; intros rows.
    - split; intros Hr; inversion Hr; constructor.
    - destruct Hr as (E1 & E2 & _ & _ & Hc). split; intros Hr; inversion Hr; subst.
      + apply mr_pass; [apply (judged_iff _ _ _ _ Hc); assumption|apply IH; assumption].
      + rewrite E1, E2. apply mr_flag; [apply (judged_iff _ _ _ _ Hc); assumption|assumption|reflexivity|apply IH; assumption].
      + rewrite E1, E2. apply mr_stop; [apply (judged_iff _ _ _ _ Hc); assumption|assumption|reflexivity].
      + apply rr_pass; [apply (judged_iff _ _ _ _ Hc); assumption|apply IH; assumption].
      + rewrite <- E1, <- E2. apply rr_flag; [apply (judged_iff _ _ _ _ Hc); assumption|assumption|reflexivity|apply IH; assumption].
      + rewrite <- E1, <- E2. apply rr_stop; [apply (judged_iff _ _ _ _ Hc); assumption|assumption|reflexivity].
  Qed.

  Lemma set_rows_iff : forall r rs m rows, set_stands rs m -> (set_rows Od T lossy r rs rows <-> meant_set_rows r m rows).
  Proof.
    intros r rs m rows (H1 & _ & H2 & H3). unfold set_rows, meant_set_rows. rewrite (H1 r), H2, (rows_iff _ _ _ _ _ H3). reflexivity.
  Qed.

  Lemma picks_iff : forall A B (P Q : A -> Prop) (f : A -> B) l out, (forall x, P x <-> Q x) -> (picks P f l out <-> picks Q f l out).
  Proof.
    intros A B P Q f l out H. split; apply picks_weaken; [exact H|]. intros x. symmetry. apply H.
  Qed.

  Lemma reached_iff : forall rs m k r, set_stands rs m -> (reached Od T lossy rs k r <-> gets m k r).
  Proof.
    intros rs m k r (H1 & _ & H2 & H3). unfold reached, gets. rewrite (H1 r), H2.
    assert (G : (forall j ru, (j < k)%nat -> nth_error (rs_rules rs) j = Some ru -> verdict T lossy (ru_check ru) r None)
                <-> (forall j x, (j < k)%nat -> nth_error (sm_rules m) j = Some x -> judged (rm_check x) r None)); [|rewrite G; reflexivity].
    split; intros H j x Hj Ex.
    - destruct (Forall2_nth_r _ _ _ _ _ H3 _ _ Ex) as (ru & Er & (_ & _ & _ & _ & Hc)). apply (judged_iff _ _ _ _ Hc). eapply H; eassumption.
    - destruct (Forall2_nth_l _ _ _ _ _ H3 _ _ Ex) as (y & Ey & (_ & _ & _ & _ & Hc)). apply (judged_iff _ _ _ _ Hc). eapply H; eassumption.
  Qed.

  Lemma dangling_iff : forall Oc ci source target m V W K recs checked id d,
    (forall r vs, path_lists Oc ci source r vs <-> V r vs) -> (forall r vs, path_lists Oc ci target r vs <-> W r vs) ->
    (forall r, (forall fm, m = Some fm -> fm_holds Oc ci fm r) <-> K r) ->
    (dangling Oc ci source target m recs checked id d <-> lost V W K recs checked id d).
  Proof.
    intros Oc ci source target m V W K recs checked id d HV HW HK. unfold dangling, references, lost.
    assert (G : forall v, ~ is_target Oc ci target m recs v <-> ~ known W K recs v).
    { intros v. unfold is_target, known. split; intros N (r & vs & H1 & H2 & H3 & H4); apply N; exists r, vs;
        (split; [exact H1|]); (split; [apply HW; exact H2|]); (split; [exact H3|]); apply HK; exact H4. }
    assert (F : forall rs vss, Forall2 (path_lists Oc ci source) rs vss <-> Forall2 V rs vss).
    { intros rs vss. split; intros H; induction H; constructor; try assumption; apply HV; assumption. }
    split.
    - intros (refs & (rs & vss & H1 & H2 & ->) & H3). exists rs, vss. split; [exact H1|]. split; [apply F; exact H2|].
      eapply picks_iff; [|exact H3]. intros v. symmetry. apply G.
    - intros (rs & vss & H1 & H2 & H3). exists (concat vss). split; [exists rs, vss; split; [exact H1|split; [apply F; exact H2|reflexivity]]|].
      eapply picks_iff; [|exact H3]. exact G.
  Qed.

  Lemma rule_final_iff : forall recs rs m k ru x rows, set_stands rs m -> rule_stands ru x ->
    (rule_final Od T lossy recs rs k ru rows <-> meant_rule_final lossy recs m k x rows).
  Proof.
    intros recs rs m k ru x rows Hs (E1 & E2 & _ & _ & [_ Hc]). unfold rule_final, meant_rule_final. rewrite E1, E2.
    destruct (rm_check x) as [P|V W K].
    - destruct Hc as [_ Hc]. destruct (ru_check ru); try destruct Hc; reflexivity.
    - destruct (ru_check ru) as [| | | | | | |Oc ci source target fm|]; try contradiction.
      destruct Hc as (HV & HW & HK).
      split; intros (checked & out & H1 & [H2 H2'] & H3); exists checked, out; (split; [|split; [|exact H3]]).
      + eapply picks_iff; [|exact H1]. intros r. symmetry. apply reached_iff. exact Hs.
      + split; [exact H2|]. intros id msg. rewrite H2'. split; intros (d & D1 & D2); exists d; (split; [|exact D2]);
          apply (dangling_iff _ _ _ _ _ _ _ _ recs checked id d HV HW HK); exact D1.
      + eapply picks_iff; [|exact H1]. intros r. apply reached_iff. exact Hs.
      + split; [exact H2|]. intros id msg. rewrite H2'. split; intros (d & D1 & D2); exists d; (split; [|exact D2]);
          apply (dangling_iff _ _ _ _ _ _ _ _ recs checked id d HV HW HK); exact D1.
  Qed.

  Lemma set_final_iff : forall recs rs m rows, set_stands rs m ->
    (set_final Od T lossy recs rs rows <-> meant_set_final lossy recs m rows).
  Proof.
    intros recs rs m rows Hs. pose proof Hs as (_ & _ & _ & HF). unfold set_final, meant_set_final.
    assert (HL : length (rs_rules rs) = length (sm_rules m)) by (clear Hs; induction HF; cbn; congruence). rewrite HL.
    split; intros (parts & H1 & H2 & ->); exists parts; (split; [exact H1|]); (split; [|reflexivity]); intros k x part Ex Ep.
    - destruct (Forall2_nth_r _ _ _ _ _ HF _ _ Ex) as (ru & Er & Hr). apply (rule_final_iff _ _ _ _ _ _ _ Hs Hr). eapply H2; eassumption.
    - destruct (Forall2_nth_l _ _ _ _ _ HF _ _ Ex) as (y & Ey & Hr). apply (rule_final_iff _ _ _ _ _ _ _ Hs Hr). eapply H2; eassumption.
  Qed.

  Lemma stands_set_wf : forall rs m, set_stands rs m -> set_wf Od rs.
  Proof.
    intros rs m (_ & H1 & _ & HF). split; [exact H1|]. induction HF as [|ru x l ms (_ & _ & _ & E & [Hw _]) HF IH]; constructor; auto.
  Qed.
End Rules.

(** the default threshold is the double nearest to 0.8 *)
Lemma default_threshold :
  strsim_default / 2 ^ 52 = 1022
  /\ forall k, 2 ^ 52 <= k < 2 ^ 53 ->
       (Z.abs (5 * Z.of_N (2 ^ 52 + strsim_default mod 2 ^ 52) - 4 * 2 ^ 53) <= Z.abs (5 * Z.of_N k - 4 * 2 ^ 53))%Z.
Proof.
  split; [vm_compute; reflexivity|]. intros k _.
  change (Z.abs (5 * Z.of_N (2 ^ 52 + strsim_default mod 2 ^ 52) - 4 * 2 ^ 53))%Z with 2%Z.
  change (4 * 2 ^ 53)%Z with 36028797018963968%Z. lia.
Qed.

(** * Proofs about the code lists of the check command *)

From Coq Require Import String Permutation.
From Verif Require Import Bytes RecordModel RecordSpec BaseProofs ConvertCounterexamples MatcherModel MatcherSpec PathModel FmtModel QueryModel QuerySpec QueryProofs CliModel CliSpec CliProofs CliChunkProofs TableSpec
  CheckCodes CheckModel CheckSpec CheckProofs CheckVerdictProofs CheckCounterexamples CodesSpec.

(** a decider for [In] that computes *)
Definition has (x : bytes) (l : list bytes) : bool := existsb (bytes_eqb x) l.

Lemma has_In : forall x l, has x l = true <-> In x l.
Proof.
  intros x l. unfold has. rewrite existsb_exists. split.
  - intros (y & Hy & E). apply bytes_eqb_eq in E. subst. exact Hy.
  - intros H. exists x. split; [exact H|]. apply bytes_eqb_eq. reflexivity.
Qed.

Definition inb (c : N) (l : bytes) : bool := existsb (N.eqb c) l.

Lemma inb_In : forall c l, inb c l = true -> In c l.
Proof.
  intros c l H. apply existsb_exists in H. destruct H as (y & Hy & E). apply N.eqb_eq in E. subst. exact Hy.
Qed.

Definition jel_shaped (v : bytes) : bool :=
  match v with
  | [a; b] => inb a capitals && inb b figures
  | [a; b; c] => inb a capitals && inb b figures && inb c figures
  | _ => false
  end.
Definition iso_shaped (v : bytes) : bool :=
  match v with
  | [a; b; c] => inb a smalls && inb b smalls && inb c smalls
  | _ => false
  end.

Lemma jel_all_shaped : forallb jel_shaped jel_codes = true.
Proof. vm_compute. reflexivity. Qed.
Lemma iso_all_shaped : forallb iso_shaped iso639_codes = true.
Proof. vm_compute. reflexivity. Qed.

Lemma jel_shape : forall v, In v jel_codes -> jel_category v \/ jel_full v.
Proof.
  intros v H. pose proof (proj1 (forallb_forall _ _) jel_all_shaped v H) as S.
  destruct v as [|a [|b [|c [|? ?]]]]; try discriminate S; cbn in S;
    repeat rewrite Bool.andb_true_iff in S.
  - destruct S as [A B]. left. exists a, b. auto using inb_In.
  - destruct S as [[A B] C]. right. exists [a; b], c. split; [reflexivity|]. split; [|auto using inb_In].
    exists a, b. auto using inb_In.
Qed.

Lemma iso_shape : forall v, In v iso639_codes -> iso639_text v.
Proof.
  intros v H. pose proof (proj1 (forallb_forall _ _) iso_all_shaped v H) as S.
  destruct v as [|a [|b [|c [|? ?]]]]; try discriminate S; cbn in S;
    repeat rewrite Bool.andb_true_iff in S.
  destruct S as [[A B] C]. exists a, b, c. auto using inb_In.
Qed.

Fixpoint distinct (l : list bytes) : bool :=
  match l with [] => true | x :: l' => negb (has x l') && distinct l' end.

Lemma distinct_NoDup : forall l, distinct l = true -> NoDup l.
Proof.
  induction l as [|x l IH]; intros H; [constructor|]. cbn in H. apply Bool.andb_true_iff in H. destruct H as [A B].
  constructor; [|auto]. intros I. apply has_In in I. rewrite I in A. discriminate.
Qed.

Lemma iso_distinct : NoDup iso639_codes.
Proof. apply distinct_NoDup. vm_compute. reflexivity. Qed.

(** the one code whose category is not listed *)
Definition orphan : bytes := lit "Z00".

Definition cat_listed (v : bytes) : bool :=
  match v with
  | [a; b; c] => has [a; b] jel_codes || bytes_eqb v orphan
  | _ => true
  end.
Lemma jel_cats : forallb cat_listed jel_codes = true.
Proof. vm_compute. reflexivity. Qed.

Lemma jel_category_listed : forall c d, In (c ++ [d]) jel_codes -> jel_category c ->
  (In c jel_codes <-> c ++ [d] <> orphan).
Proof.
  intros c d H (a & b & -> & _ & _). cbn [app] in *.
  pose proof (proj1 (forallb_forall _ _) jel_cats _ H) as S. cbn [cat_listed] in S.
  split.
  - intros I E. injection E as -> -> ->.
    assert (F : has [90; 48] jel_codes = false) by (vm_compute; reflexivity).
    apply has_In in I. congruence.
  - intros N. apply Bool.orb_true_iff in S. destruct S as [S|S]; [apply has_In; exact S|].
    apply bytes_eqb_eq in S. contradiction.
Qed.

Lemma orphan_listed : In orphan jel_codes.
Proof. apply has_In. vm_compute. reflexivity. Qed.
Lemma orphan_category : ~ In (lit "Z0") jel_codes.
Proof. intros H. apply has_In in H. vm_compute in H. discriminate. Qed.

(** every category has a code *)
Definition has_child (v : bytes) : bool :=
  match v with
  | [a; b] => existsb (fun d => has [a; b; d] jel_codes) figures
  | _ => true
  end.
Lemma jel_children : forallb has_child jel_codes = true.
Proof. vm_compute. reflexivity. Qed.

Lemma jel_category_used : forall c, In c jel_codes -> jel_category c -> exists d, In (c ++ [d]) jel_codes.
Proof.
  intros c H (a & b & -> & _ & _). pose proof (proj1 (forallb_forall _ _) jel_children _ H) as S.
  cbn [has_child] in S. apply existsb_exists in S. destruct S as (d & _ & S). exists d. apply has_In. exact S.
Qed.

(** a value of another shape is reported *)
Lemma code_checks_flag : forall T lossy, (forall v, lossy v = [] <-> v = []) ->
  forall freq_order, (forall l, Permutation (freq_order l) l) -> forall O ci p r vs v,
  opt_sm_wf O ci (p_sub p) -> path_lists O ci p r vs -> In v vs -> v <> [] ->
  (~ jel_category v -> ~ jel_full v -> exists text, run_check T lossy freq_order (CkJel O ci p) r = Some (true, Some text))
  /\ (~ iso639_text v -> exists text, run_check T lossy freq_order (CkIso639 O ci p) r = Some (true, Some text)).
Proof.
  intros T lossy Hl fo Hf O ci p r vs v W P I N.
  assert (K : forall c allowed,
    (c = CkAllow O ci p allowed \/ (c = CkIso639 O ci p /\ allowed = iso639_codes) \/ (c = CkJel O ci p /\ allowed = jel_codes)) ->
    ~ In v allowed -> exists text, run_check T lossy fo c r = Some (true, Some text)).
  { intros c allowed Hc Na.
    pose proof (picks_filter bytes bytes (fun x => ~ In x allowed) (fun x => x) (fun v => negb (mem_bytes v allowed)) vs) as K.
    rewrite map_id in K.
    assert (HK : forall x, In x vs -> negb (mem_bytes x allowed) = true <-> ~ In x allowed).
    { intros x _. rewrite Bool.negb_true_iff, <- mem_bytes_In. destruct (mem_bytes x allowed); split; congruence. }
    specialize (K HK).
    assert (Iv : In v (filter (fun v => negb (mem_bytes v allowed)) vs)).
    { apply filter_In. split; [exact I|]. apply HK; assumption. }
    assert (Nb : filter (fun v => negb (mem_bytes v allowed)) vs <> [[]]).
    { intros E. rewrite E in Iv. destruct Iv as [Iv|[]]. congruence. }
    destruct (list_flagged T lossy Hl fo Hf c O ci p allowed r vs _ Hc W P K Nb) as (flag & msg & E & [_ F] & G).
    rewrite (F (ex_intro _ v (conj I Na))) in *. destruct (G eq_refl) as (text & -> & _). eauto. }
  split.
  - intros A B. eapply K; [right; right; split; reflexivity|]. intros J. destruct (jel_shape v J); contradiction.
  - intros A. eapply K; [right; left; split; reflexivity|]. intros J. exact (A (iso_shape v J)).
Qed.

(** the effect on a check *)
Lemma category_refuted : forall T lossy freq_order O ci, (forall v, lossy v = [] <-> v = []) ->
  (forall l, Permutation (freq_order l) l) ->
  exists p r r' c d text, jel_category c /\ In d figures
    /\ path_lists O ci p r [c ++ [d]] /\ path_lists O ci p r' [c]
    /\ run_check T lossy freq_order (CkJel O ci p) r = Some (false, None)
    /\ run_check T lossy freq_order (CkJel O ci p) r' = Some (true, Some text).
Proof.
  intros T lossy fo O ci Hl Hf.
  set (c := lit "Z0"). set (d := 48). set (r := [cx_field "012A" None (c ++ [d])]). set (r' := [cx_field "012A" None c]).
  assert (V : path_lists O ci cx_path r [c ++ [d]]) by apply cx_values.
  assert (V' : path_lists O ci cx_path r' [c]) by apply cx_values.
  destruct (list_flagged T lossy Hl fo Hf (CkJel O ci cx_path) O ci cx_path jel_codes r _ []
    (or_intror (or_intror (conj eq_refl eq_refl))) I V) as (flag & msg & E & [F _] & _); [|discriminate|].
  { apply (picks_no (fun x => ~ In x jel_codes) (fun x => x)); [|constructor]. intros N. exact (N orphan_listed). }
  destruct (list_flagged T lossy Hl fo Hf (CkJel O ci cx_path) O ci cx_path jel_codes r' _ [c]
    (or_intror (or_intror (conj eq_refl eq_refl))) I V') as (flag' & msg' & E' & [_ F'] & G'); [|discriminate|].
  { apply (picks_yes (fun x => ~ In x jel_codes) (fun x => x)); [exact orphan_category|constructor]. }
  rewrite (F' (ex_intro _ c (conj (or_introl eq_refl) orphan_category))) in *. destruct (G' eq_refl) as (text & -> & _).
  exists cx_path, r, r', c, d, text. split; [exists 90, 48; vm_compute; tauto|]. split; [vm_compute; tauto|].
  split; [exact V|]. split; [exact V'|]. split; [|exact E'].
  destruct flag.
  - destruct (F eq_refl) as (v & [<-|[]] & N). destruct (N orphan_listed).
  - clear - E. cbn [run_check] in *. unfold list_check in *. generalize dependent jel_codes. intros l.
    destruct (record_path O ci cx_path r); [|discriminate]. destruct (message_of _ _); [reflexivity|discriminate].
Qed.

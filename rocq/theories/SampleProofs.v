(** * The chances of being sampled *)

From Coq Require Import String.
From Verif Require Import Bytes Winnow RecordModel RecordSpec BaseProofs RecordProofs TagOccModel Utf8Model
  ByteRecordModel ByteRecordSpec ByteRecordProofs ReaderModel ReaderProofs MatcherModel MatcherSpec
  MatcherProofs PathModel QuerySpec QueryProofs QueryExtraProofs CliModel CliSpec CliProofs
  CliCommandProofs CliOutputProofs CliRangeProofs SampleSpec.

(** ** Counting *)

Definition count {A} (g : A -> bool) (l : list A) : nat := length (filter g l).

Lemma count_flat_map : forall A B (g : B -> bool) (f : A -> list B) l,
  count g (flat_map f l) = list_sum (map (fun d => count g (f d)) l).
Proof.
  intros A B g f l. unfold count. induction l as [|d l IH]; [reflexivity|].
  cbn [flat_map map list_sum fold_right]. rewrite filter_app, app_length, IH. reflexivity.
Qed.

Lemma count_map : forall A B (g : B -> bool) (f : A -> B) l, count g (map f l) = count (fun x => g (f x)) l.
Proof.
  intros A B g f l. unfold count. induction l as [|d l IH]; [reflexivity|].
  cbn [map filter]. destruct (g (f d)); cbn [length]; rewrite IH; reflexivity.
Qed.

Lemma count_none : forall A (g : A -> bool) l, (forall x, g x = false) -> count g l = 0%nat.
Proof.
  intros A g l H. unfold count. induction l as [|d l IH]; [reflexivity|].
  cbn [filter]. rewrite H. exact IH.
Qed.

Lemma sum_ext : forall (f g : nat -> nat) c l, (forall d, In d l -> (c * f d = g d)%nat) ->
  (c * list_sum (map f l) = list_sum (map g l))%nat.
Proof.
  intros f g c l. induction l as [|d l IH]; intros H; cbn [map list_sum fold_right]; [lia|].
  fold (list_sum (map f l)). fold (list_sum (map g l)).
  rewrite Nat.mul_add_distr_l, IH by (intros; apply H; right; assumption).
  rewrite H by (left; reflexivity). reflexivity.
Qed.

Lemma sum_const : forall x l, list_sum (map (fun _ : nat => x) l) = (length l * x)%nat.
Proof.
  intros x l. induction l as [|d l IH]; [reflexivity|]. cbn [map list_sum fold_right length].
  fold (list_sum (map (fun _ : nat => x) l)). rewrite IH. reflexivity.
Qed.

Lemma sum_but_one : forall x p a n, (a <= p < a + n)%nat ->
  list_sum (map (fun d => if Nat.eqb d p then 0%nat else x) (seq a n)) = ((n - 1) * x)%nat.
Proof.
  intros x p a n. revert a. induction n as [|n IH]; intros a H; [lia|].
  cbn [seq map list_sum fold_right].
  fold (list_sum (map (fun d => if Nat.eqb d p then 0%nat else x) (seq (S a) n))).
  destruct (Nat.eqb_spec a p) as [->|N].
  - rewrite (map_ext_in _ (fun _ => x)).
    + rewrite sum_const, seq_length. cbn. rewrite Nat.sub_0_r. reflexivity.
    + intros d Hd. apply in_seq in Hd. destruct (Nat.eqb_spec d p); [lia|reflexivity].
  - rewrite IH by lia. replace (S n - 1)%nat with (S (n - 1)) by lia. cbn. reflexivity.
Qed.

Lemma sum_below : forall x s a n, (a <= s <= a + n)%nat ->
  list_sum (map (fun d => if Nat.ltb d s then x else 0%nat) (seq a n)) = ((s - a) * x)%nat.
Proof.
  intros x s a n. revert a. induction n as [|n IH]; intros a H.
  - cbn. replace (s - a)%nat with 0%nat by lia. reflexivity.
  - cbn [seq map list_sum fold_right].
    fold (list_sum (map (fun d => if Nat.ltb d s then x else 0%nat) (seq (S a) n))).
    destruct (Nat.ltb_spec a s) as [L|L].
    + rewrite IH by lia. replace (s - a)%nat with (S (s - S a)) by lia. cbn. reflexivity.
    + rewrite (map_ext_in _ (fun _ => 0%nat)).
      * rewrite sum_const. replace (s - a)%nat with 0%nat by lia. lia.
      * intros d Hd. apply in_seq in Hd. destruct (Nat.ltb_spec d s); [lia|reflexivity].
Qed.

Lemma all_draws_length : forall k n, length (all_draws n (S k)) = (n * length (all_draws (S n) k))%nat.
Proof.
  intros k n. cbn [all_draws]. rewrite <- (seq_length n 0) at 2. generalize (seq 0 n) as l.
  induction l as [|d l IH]; [reflexivity|]. cbn [flat_map length].
  rewrite app_length, map_length, IH. reflexivity.
Qed.

Lemma all_draws_size : forall k n v, In v (all_draws n k) -> length v = k.
Proof.
  induction k as [|k IH]; intros n v H; cbn [all_draws] in H.
  - destruct H as [<-|[]]. reflexivity.
  - apply in_flat_map in H as (d & _ & H). apply in_map_iff in H as (w & <- & H). cbn. f_equal. eapply IH. exact H.
Qed.

(** ** The positions in the reservoir *)

Section Positions.
  Variable s : nat.

  (** one record more, the [n]th *)
  Definition put (n : nat) (idx : list nat) (d : nat) : list nat :=
    if Nat.ltb d s then list_set idx d n else idx.

  Fixpoint final (n : nat) (idx : list nat) (v : list nat) : list nat :=
    match v with
    | [] => idx
    | d :: v' => final (S n) (put n idx d) v'
    end.

  Definition mem (j : nat) (idx : list nat) : bool := existsb (Nat.eqb j) idx.

  Lemma mem_iff : forall j idx, mem j idx = true <-> In j idx.
  Proof.
    intros j idx. unfold mem. rewrite existsb_exists. split.
    - intros (x & H & E). apply Nat.eqb_eq in E. subst. exact H.
    - intros H. exists j. split; [exact H|apply Nat.eqb_refl].
  Qed.

  Definition hits (j n k : nat) (idx : list nat) : nat := count (fun v => mem j (final n idx v)) (all_draws n k).

  Lemma put_In : forall n idx d j, In j (put n idx d) -> j = n \/ In j idx.
  Proof.
    intros n idx d j. unfold put. destruct (Nat.ltb d s); [|auto]. apply list_set_In.
  Qed.

  Lemma final_In : forall v n idx j, In j (final n idx v) -> In j idx \/ (n <= j)%nat.
  Proof.
    induction v as [|d v IH]; intros n idx j H; cbn [final] in H; [auto|].
    apply IH in H as [H|H]; [|right; lia]. apply put_In in H as [->|H]; auto.
  Qed.

  Lemma hits_gone : forall j n k idx, ~ In j idx -> (j < n)%nat -> hits j n k idx = 0%nat.
  Proof.
    intros j n k idx Hi Hj. apply count_none. intros v. destruct (mem j (final n idx v)) eqn:E; [|reflexivity].
    apply mem_iff in E. apply final_In in E as [E|E]; [contradiction|lia].
  Qed.

  Lemma hits_step : forall j n k idx,
    hits j n (S k) idx = list_sum (map (fun d => hits j (S n) k (put n idx d)) (seq 0 n)).
  Proof.
    intros j n k idx. unfold hits. cbn [all_draws]. rewrite count_flat_map. f_equal. apply map_ext.
    intros d. rewrite count_map. reflexivity.
  Qed.

  (** replacing another position keeps [j] *)
  Lemma list_set_other : forall (l : list nat) i x j p, nth_error l p = Some j -> i <> p -> In j (list_set l i x).
  Proof.
    induction l as [|y l IH]; intros [|i] x j [|p] H N; cbn in *; try discriminate; try contradiction.
    - right. eapply nth_error_In. exact H.
    - injection H as ->. left. reflexivity.
    - right. eapply IH; [exact H|lia].
  Qed.

  Lemma list_set_same : forall (l : list nat) i x, (i < length l)%nat -> In x (list_set l i x).
  Proof.
    induction l as [|y l IH]; intros [|i] x H; cbn [length list_set] in *; [lia|lia|left; reflexivity|].
    right. apply IH. lia.
  Qed.

  Lemma list_set_removes : forall (l : list nat) p x j, NoDup l -> nth_error l p = Some j -> x <> j ->
    ~ In j (list_set l p x).
  Proof.
    induction l as [|y l IH]; intros [|p] x j ND H N; cbn in *; try discriminate; inversion ND; subst.
    - injection H as ->. intros [?|?]; contradiction.
    - intros [->|Hin].
      + apply nth_error_In in H. contradiction.
      + eapply IH; eauto.
  Qed.

  Record good (n : nat) (idx : list nat) : Prop := {
    good_nodup : NoDup idx;
    good_length : length idx = s;
    good_below : Forall (fun i => (i < n)%nat) idx }.

  Lemma put_good : forall n idx d, good n idx -> good (S n) (put n idx d).
  Proof.
    intros n idx d [ND L B]. rewrite Forall_forall in B. unfold put. destruct (Nat.ltb_spec d s); split.
    - apply list_set_NoDup; [exact ND|]. intros H1. apply B in H1. lia.
    - rewrite list_set_length. exact L.
    - apply Forall_forall. intros i Hi. apply list_set_In in Hi as [->|Hi]; [lia|]. apply B in Hi. lia.
    - exact ND.
    - exact L.
    - apply Forall_forall. intros i Hi. apply B in Hi. lia.
  Qed.

  (** a record in the reservoir *)
  Lemma hits_in : forall k n idx j, good n idx -> (s <= n)%nat -> In j idx ->
    ((n + k - 1) * hits j n k idx = (n - 1) * length (all_draws n k))%nat.
  Proof.
    induction k as [|k IH]; intros n idx j G Hn Hj.
    - unfold hits, count. cbn [all_draws filter final]. rewrite (proj2 (mem_iff j idx) Hj). cbn [length].
      rewrite Nat.add_0_r. reflexivity.
    - destruct (In_nth_error _ _ Hj) as [p Hp].
      assert (Lp : (p < s)%nat).
      { rewrite <- (good_length _ _ G). apply nth_error_Some. rewrite Hp. discriminate. }
      assert (Bj : (j < n)%nat).
      { assert (B := good_below _ _ G). rewrite Forall_forall in B. auto. }
      rewrite hits_step, all_draws_length.
      replace (n + S k - 1)%nat with (S n + k - 1)%nat by lia.
      rewrite (sum_ext _ (fun d => if Nat.eqb d p then 0%nat else ((S n - 1) * length (all_draws (S n) k))%nat)).
      + rewrite sum_but_one by lia. replace (S n - 1)%nat with n by lia. reflexivity.
      + intros d Hd. apply in_seq in Hd. destruct (Nat.eqb_spec d p) as [->|N].
        * rewrite hits_gone; [lia| |lia]. unfold put. destruct (Nat.ltb_spec p s); [|lia].
          eapply list_set_removes; [exact (good_nodup _ _ G)|exact Hp|lia].
        * apply IH; [apply put_good; exact G|lia|]. unfold put. destruct (Nat.ltb_spec d s); [|exact Hj].
          eapply list_set_other; eauto.
  Qed.

  (** a record still to be read *)
  Lemma hits_later : forall k n idx j, good n idx -> (s <= n)%nat -> (n <= j < n + k)%nat ->
    ((n + k - 1) * hits j n k idx = s * length (all_draws n k))%nat.
  Proof.
    induction k as [|k IH]; intros n idx j G Hn Hj; [lia|].
    assert (Hi : ~ In j idx).
    { intros H. assert (B := good_below _ _ G). rewrite Forall_forall in B. apply B in H. lia. }
    rewrite hits_step, all_draws_length.
    replace (n + S k - 1)%nat with (S n + k - 1)%nat by lia.
    destruct (Nat.eq_dec j n) as [->|N].
    - rewrite (sum_ext _ (fun d => if Nat.ltb d s then ((S n - 1) * length (all_draws (S n) k))%nat else 0%nat)).
      + rewrite sum_below by lia. replace (S n - 1)%nat with n by lia. rewrite Nat.sub_0_r. reflexivity.
      + intros d Hd. assert (P := put_good n idx d G). unfold put in *. destruct (Nat.ltb_spec d s) as [L|L].
        * apply hits_in; [exact P|lia|]. apply list_set_same. rewrite (good_length _ _ G). exact L.
        * rewrite hits_gone; [lia|exact Hi|lia].
    - rewrite (sum_ext _ (fun _ => (s * length (all_draws (S n) k))%nat)).
      + rewrite sum_const, seq_length. lia.
      + intros d _. apply IH; [apply put_good; exact G|lia|lia].
  Qed.

  Lemma seq_good : good s (seq 0 s).
  Proof.
    split; [apply seq_NoDup|apply seq_length|]. apply Forall_forall. intros i H. apply in_seq in H. lia.
  Qed.

  (** ** The run *)

  Variable recs : list byte_record.
  Let wr (i : nat) : bytes := br_write (nth i recs (mkBR None [])).

  Lemma skipn_cons_nth : forall A (d : A) l i, (i < length l)%nat -> skipn i l = nth i l d :: skipn (S i) l.
  Proof.
    intros A d l. induction l as [|x l IH]; intros i H; cbn in H; [lia|].
    destruct i as [|i]; [reflexivity|]. cbn [skipn nth]. apply IH. lia.
  Qed.

  (** the first records *)
  Lemma fill : forall draw k n, (n + k <= length recs)%nat -> (n + k <= s)%nat ->
    fold_left (sample_act draw (N.of_nat s)) (firstn k (skipn n recs)) (N.of_nat n, map wr (seq 0 n))
    = (N.of_nat (n + k), map wr (seq 0 (n + k))).
  Proof.
    intros draw k. induction k as [|k IH]; intros n H1 H2.
    - cbn [firstn fold_left]. rewrite Nat.add_0_r. reflexivity.
    - rewrite (skipn_cons_nth _ (mkBR None [])) by lia. cbn [firstn fold_left sample_act].
      destruct (N.ltb_spec (N.of_nat n) (N.of_nat s)); [|lia].
      replace (N.of_nat n + 1) with (N.of_nat (S n)) by lia.
      replace (map wr (seq 0 n) ++ [br_write (nth n recs (mkBR None []))]) with (map wr (seq 0 (S n))).
      + rewrite IH by lia. replace (n + S k)%nat with (S n + k)%nat by lia. reflexivity.
      + rewrite seq_S, map_app. reflexivity.
  Qed.

  (** the others *)
  Lemma replace_all : forall v0 v n idx, (s <= n)%nat -> skipn (n - s) v0 = v -> (n + length v = length recs)%nat ->
    fold_left (sample_act (draw_of s v0) (N.of_nat s)) (skipn n recs) (N.of_nat n, map wr idx)
    = (N.of_nat (length recs), map wr (final n idx v)).
  Proof.
    intros v0 v. induction v as [|d v IH]; intros n idx Hn Hv Hl; cbn [length] in Hl.
    - rewrite skipn_all2 by lia. cbn [fold_left final]. do 2 f_equal. lia.
    - rewrite (skipn_cons_nth _ (mkBR None [])) by lia. cbn [fold_left sample_act].
      destruct (N.ltb_spec (N.of_nat n) (N.of_nat s)); [lia|].
      assert (L : (n - s < length v0)%nat).
      { assert (E := f_equal (@length nat) Hv). rewrite skipn_length in E. cbn [length] in E. lia. }
      rewrite (skipn_cons_nth _ 0%nat) in Hv by exact L. injection Hv as Hd Hv.
      assert (D : draw_of s v0 (N.of_nat n) = N.of_nat d).
      { unfold draw_of. rewrite Nat2N.id, Hd. reflexivity. }
      rewrite D. replace (N.of_nat n + 1) with (N.of_nat (S n)) by lia. rewrite Nat2N.id.
      cbn [final]. unfold put.
      rewrite <- (IH (S n) (if Nat.ltb d s then list_set idx d n else idx)); [|lia| |lia].
      + do 2 f_equal. destruct (Nat.ltb_spec d s), (N.ltb_spec (N.of_nat d) (N.of_nat s)); try lia; [|reflexivity].
        rewrite <- list_set_map. reflexivity.
      + replace (S n - s)%nat with (S (n - s)) by lia. exact Hv.
  Qed.

  Lemma sampled : forall v, (s + length v = length recs)%nat ->
    fold_left (sample_act (draw_of s v) (N.of_nat s)) recs (0, [])
    = (N.of_nat (length recs), map wr (final s (seq 0 s) v)).
  Proof.
    intros v H. rewrite <- (firstn_skipn s recs) at 1. rewrite fold_left_app.
    assert (E := fill (draw_of s v) s 0 ltac:(lia) ltac:(lia)). cbn [skipn seq map Nat.add] in E.
    change (N.of_nat 0) with 0 in E. rewrite E. apply replace_all; [lia| |lia].
    rewrite Nat.sub_diag. reflexivity.
  Qed.
End Positions.

Lemma final_good : forall s v n idx, good s n idx -> good s (n + length v) (final s n idx v).
Proof.
  intros s. induction v as [|d v IH]; intros n idx G; cbn [final length].
  - rewrite Nat.add_0_r. exact G.
  - replace (n + S (length v))%nat with (S n + length v)%nat by lia. apply IH, put_good, G.
Qed.

Lemma selects_one_line : forall O Od skip o files recs e, selects O Od skip o files recs e -> Forall one_line recs.
Proof.
  intros O Od skip o files recs e (all & sel & e0 & Hr & Hc & Hl).
  assert (F := reads_one_line _ _ _ _ Hr). rewrite Forall_forall in *. intros x Hx. apply F.
  eapply chosen_In; [exact Hc|]. eapply limited_incl; eassumption.
Qed.

Lemma sample_chances : forall O Od size skip o files recs j r, opts_wf O Od o ->
  selects O Od skip o files recs None -> NoDup recs ->
  (0 < size < length recs)%nat -> nth_error recs j = Some r ->
  exists hits,
    picks (fun v => exists sample out, drawn (N.of_nat size) recs sample /\ lines_of sample out
             /\ sample_run O Od (draw_of size v) (N.of_nat size) skip o files = Some (Done out) /\ In r sample)
      (fun v => v) (all_draws size (length recs - size)) hits
    /\ ((length recs - 1) * length hits
        = (if Nat.ltb j size then size - 1 else size) * length (all_draws size (length recs - size)))%nat.
Proof.
  intros O Od size skip o files recs j r W Hs ND Hsz Hj.
  set (m := length recs) in *. set (k := (m - size)%nat).
  set (g := fun v => mem j (final size size (seq 0 size) v)).
  exists (map (fun v => v) (filter g (all_draws size k))). split.
  2:{ rewrite map_length. fold (count g (all_draws size k)). fold (hits size j size k (seq 0 size)).
      replace (m - 1)%nat with (size + k - 1)%nat by lia.
      assert (Lj : (j < m)%nat) by (apply nth_error_Some; rewrite Hj; discriminate).
      destruct (Nat.ltb_spec j size).
      - apply hits_in; [apply seq_good|lia|]. apply in_seq. lia.
      - apply hits_later; [apply seq_good|lia|lia]. }
  apply picks_filter. intros v Hv. apply all_draws_size in Hv. unfold g. rewrite mem_iff.
  destruct (sample_run_fold O Od (draw_of size v) (N.of_nat size) skip o files W) as (recs' & e & Hs' & R).
  destruct (selects_fun _ _ _ _ _ _ _ Hs _ _ Hs') as [<- <-]. clear Hs'.
  rewrite (sampled size recs) in R by (unfold k, m in *; lia). cbn [ended finish_with snd] in R.
  set (idx := final size size (seq 0 size) v) in *.
  assert (G : good size m idx).
  { replace m with (size + length v)%nat by lia. apply final_good, seq_good. }
  set (at_ := fun i => nth i recs (mkBR None [])).
  assert (F := selects_from_line _ _ _ _ _ _ _ Hs).
  assert (B := good_below _ _ _ G). rewrite Forall_forall in B.
  assert (F' : Forall from_line (map at_ idx)).
  { rewrite Forall_forall in *. intros x Hx. apply in_map_iff in Hx as (i & <- & Hi). apply F, nth_In. auto. }
  change (map (fun i => br_write (nth i recs (mkBR None []))) idx) with (map (fun i => br_write (at_ i)) idx) in R.
  rewrite <- (map_map at_ br_write), sample_write_lines in R by exact F'.
  assert (Rj : r = at_ j).
  { unfold at_. symmetry. apply nth_error_nth. exact Hj. }
  assert (Lo := lines_of_flat _ F').
  split.
  - intros H. exists (map at_ idx), (flat_map br_write (map at_ idx)). split; [|split; [exact Lo|split; [exact R|]]].
    + exists idx. split; [exact (good_nodup _ _ _ G)|]. split.
      * assert (BB := good_below _ _ _ G). clear -BB. induction BB; cbn; constructor; auto.
        apply nth_error_nth'. assumption.
      * rewrite map_length, (good_length _ _ _ G). fold m. lia.
    + rewrite Rj. apply in_map. exact H.
  - intros (sample & out & (idx' & ND' & Hidx & _) & Hl & R' & Hin). rewrite R in R'. injection R' as <-.
    assert (OL : Forall one_line recs) by (eapply selects_one_line; exact Hs).
    assert (I1 : forall x, In x sample -> In x recs).
    { intros x Hx. clear -Hidx Hx. induction Hidx as [|i y l l' Hy _ IH]; [destruct Hx|].
      destruct Hx as [<-|Hx]; [eapply nth_error_In; exact Hy|auto]. }
    assert (O1 : Forall one_line sample).
    { rewrite Forall_forall in *. auto. }
    assert (O2 : Forall one_line (map at_ idx)).
    { rewrite Forall_forall in *. intros x Hx. apply in_map_iff in Hx as (i & <- & Hi). apply OL, nth_In. auto. }
    assert (E1 := reads_back true [] _ _ O1 Hl). assert (E2 := reads_back true [] _ _ O2 Lo).
    destruct (reads_fun _ _ _ _ E1 _ _ E2) as [-> _].
    apply in_map_iff in Hin as (i & Hi & Ii). rewrite Rj in Hi.
    assert (i = j) as ->; [|exact Ii].
    eapply (proj1 (NoDup_nth recs (mkBR None []))); [exact ND|apply B; exact Ii| |exact Hi].
    apply nth_error_Some. rewrite Hj. discriminate.
Qed.

(** * Proofs about describe *)

From Coq Require Import String Sorted Permutation.
From Verif Require Import Bytes Winnow RecordModel RecordSpec BaseProofs TagOccModel TagOccProofs
  ByteRecordModel ByteRecordSpec ByteRecordProofs ReaderModel MatcherModel MatcherSpec MatcherProofs
  PathModel FmtModel QueryModel QuerySpec QueryProofs QueryExtraProofs CliModel CliSpec CliProofs
  CliCommandProofs CliOutputProofs CliRangeProofs CliChunkProofs TableModel TableSpec TableProofs FrequencyProofs.

(** ** Counting codes *)

Definition code_ok (m : code_counts) : Prop := Forall (fun e => 0 < snd e) m.

Lemma code_inc_ok : forall c m, code_ok m -> code_ok (code_inc c m).
Proof.
  intros c m H. induction H as [|[c' n] m Hn H IH]; cbn; [repeat constructor|].
  destruct (c' =? c); constructor; cbn in *; try assumption; lia.
Qed.

Lemma code_inc_get : forall c m x, code_get x (code_inc c m) = code_get x m + (if N.eq_dec c x then 1 else 0).
Proof.
  intros c. induction m as [|[c' n] m IH]; intros x; cbn.
  - destruct (N.eqb_spec c x); destruct (N.eq_dec c x); congruence.
  - destruct (N.eqb_spec c' c) as [E|E]; cbn; destruct (N.eqb_spec c' x) as [D|D]; destruct (N.eq_dec c x) as [F|F];
      try congruence; try lia; apply IH || (rewrite IH; destruct (N.eq_dec c x); congruence).
Qed.

Lemma code_get_In : forall m x, code_ok m -> (In x (map fst m) <-> 0 < code_get x m).
Proof.
  intros m x H. induction H as [|[c' n] m Hn H IH]; cbn; [split; [intros []|lia]|].
  destruct (N.eqb_spec c' x) as [E|E]; [cbn in Hn; tauto|]. rewrite <- IH. split; [|auto]. intros [?|?]; [congruence|assumption].
Qed.

Lemma codes_fold : forall sfs m, code_ok m ->
  code_ok (fold_left (fun m s => code_inc (sf_code s) m) sfs m)
  /\ forall x, code_get x (fold_left (fun m s => code_inc (sf_code s) m) sfs m)
     = code_get x m + N.of_nat (count_occ N.eq_dec (map sf_code sfs) x).
Proof.
  induction sfs as [|s sfs IH]; intros m H; cbn [fold_left map count_occ].
  - split; [exact H|]. intros x. lia.
  - destruct (IH (code_inc (sf_code s) m) (code_inc_ok _ _ H)) as [I1 I2]. split; [exact I1|].
    intros x. rewrite I2, code_inc_get. destruct (N.eq_dec (sf_code s) x); lia.
Qed.

(** ** Counting tags *)

Fixpoint tag_get (t : tag_counts) (g : bytes) (c : N) : N :=
  match t with
  | [] => 0
  | (g', m) :: t' => if bytes_eqb g' g then code_get c m else tag_get t' g c
  end.

Definition tags_ok (t : tag_counts) : Prop := NoDup (map fst t) /\ Forall (fun e => code_ok (snd e)) t.

Lemma tag_add_In : forall f t x, In x (map fst (tag_add f t)) <-> x = f_tag f \/ In x (map fst t).
Proof.
  intros f. induction t as [|[g m] t IH]; intros x; cbn; [intuition|].
  destruct (bytes_eqb g (f_tag f)) eqn:E; cbn.
  - apply bytes_eqb_eq in E. subst. intuition.
  - rewrite IH. intuition.
Qed.

Lemma tag_add_ok : forall f t, tags_ok t -> tags_ok (tag_add f t).
Proof.
  intros f t [N F]. induction t as [|[g m] t IH]; cbn.
  - split; cbn; [constructor; [intros []|constructor]|]. constructor; [|constructor]. cbn. apply codes_fold. constructor.
  - cbn in N. inversion N as [|? ? N1 N2]; subst. inversion F as [|? ? F1 F2]; subst.
    destruct (bytes_eqb g (f_tag f)) eqn:E.
    + split; cbn; [constructor; assumption|]. constructor; [cbn; apply codes_fold; exact F1|exact F2].
    + destruct (IH N2 F2) as [I1 I2]. split; cbn.
      * constructor; [|exact I1]. intros H. apply tag_add_In in H as [->|H]; [|contradiction].
        rewrite bytes_eqb_refl in E. discriminate.
      * constructor; assumption.
Qed.

Definition in_field (f : field) (g : bytes) (c : N) : nat :=
  if list_eq_dec N.eq_dec (f_tag f) g then count_occ N.eq_dec (map sf_code (f_subfields f)) c else 0%nat.

Lemma tag_add_get : forall f t g c, tags_ok t ->
  tag_get (tag_add f t) g c = tag_get t g c + N.of_nat (in_field f g c).
Proof.
  intros f t g c [_ F]. unfold in_field. induction t as [|[g' m] t IH]; cbn.
  - destruct (list_eq_dec N.eq_dec (f_tag f) g) as [E|E].
    + rewrite (proj2 (bytes_eqb_eq _ _) E). rewrite (proj2 (codes_fold (f_subfields f) [] ltac:(constructor))). reflexivity.
    + rewrite (proj2 (bytes_eqb_neq _ _) E). reflexivity.
  - inversion F as [|? ? F1 F2]; subst. destruct (bytes_eqb g' (f_tag f)) eqn:Eg; cbn.
    + apply bytes_eqb_eq in Eg. subst g'. destruct (list_eq_dec N.eq_dec (f_tag f) g) as [E|E].
      * rewrite (proj2 (bytes_eqb_eq _ _) E). rewrite (proj2 (codes_fold (f_subfields f) m F1)). reflexivity.
      * rewrite (proj2 (bytes_eqb_neq _ _) E). lia.
    + destruct (bytes_eqb g' g) eqn:Eg2; [|apply IH; exact F2].
      destruct (list_eq_dec N.eq_dec (f_tag f) g) as [E|E]; [|lia]. subst g. congruence.
Qed.

Lemma tags_fold : forall fs t, tags_ok t ->
  tags_ok (fold_left (fun t f => tag_add f t) fs t)
  /\ (forall g c, tag_get (fold_left (fun t f => tag_add f t) fs t) g c
                  = tag_get t g c + N.of_nat (occurrences fs g c))
  /\ (forall g, In g (map fst (fold_left (fun t f => tag_add f t) fs t))
                <-> In g (map fst t) \/ exists f, In f fs /\ f_tag f = g).
Proof.
  induction fs as [|f fs IH]; intros t H; cbn [fold_left].
  - split; [exact H|]. split; [intros g c; cbn; lia|]. intros g. split; [auto|]. intros [?|(f & [] & _)]; assumption.
  - destruct (IH (tag_add f t) (tag_add_ok f t H)) as (I1 & I2 & I3). split; [exact I1|]. split.
    + intros g c. rewrite I2, tag_add_get by exact H.
      change (occurrences (f :: fs) g c) with (in_field f g c + occurrences fs g c)%nat. lia.
    + intros g. rewrite I3, tag_add_In. split.
      * intros [[->|K]|(f' & K1 & K2)]; [right; exists f; cbn; auto|auto|right; exists f'; cbn; auto].
      * intros [K|(f' & [<-|K1] & K2)]; [auto|left; left; congruence|right; exists f'; auto].
Qed.

Lemma tag_get_In : forall t g m, tags_ok t -> In (g, m) t -> forall c, tag_get t g c = code_get c m.
Proof.
  intros t g m [N _] Hin c. induction t as [|[g' m'] t IH]; [destruct Hin|].
  cbn in N. inversion N as [|? ? N1 N2]; subst. cbn. destruct Hin as [E|Hin].
  - injection E as -> ->. rewrite bytes_eqb_refl. reflexivity.
  - destruct (bytes_eqb g' g) eqn:E; [|auto]. apply bytes_eqb_eq in E. subst g'.
    exfalso. apply N1. apply (in_map fst) in Hin. exact Hin.
Qed.

Lemma occurrences_pos : forall fs g c, (0 < occurrences fs g c)%nat <->
  exists f s, In f fs /\ f_tag f = g /\ In s (f_subfields f) /\ sf_code s = c.
Proof.
  intros fs g c. induction fs as [|f fs IH]; [cbn; split; [lia|intros (f & s & [] & _)]|].
  change (occurrences (f :: fs) g c) with (in_field f g c + occurrences fs g c)%nat.
  assert (Hf : (0 < in_field f g c)%nat <-> f_tag f = g /\ exists s, In s (f_subfields f) /\ sf_code s = c).
  { unfold in_field. destruct (list_eq_dec N.eq_dec (f_tag f) g) as [E|E]; [|split; [lia|intros [? _]; contradiction]].
    change (0 < count_occ N.eq_dec (map sf_code (f_subfields f)) c)%nat
      with (count_occ N.eq_dec (map sf_code (f_subfields f)) c > 0)%nat.
    rewrite <- count_occ_In, in_map_iff.
    split; [intros (s & H1 & H2)|intros (_ & s & H1 & H2)]; eauto. }
  split.
  - intros H. destruct (Nat.eq_dec (in_field f g c) 0) as [E|E].
    + destruct (proj1 IH) as (f' & s & H1 & H2); [lia|]. exists f', s. cbn. auto.
    + destruct (proj1 Hf) as (H1 & s & H2 & H3); [lia|]. exists f, s. cbn. auto.
  - intros (f' & s & [<-|H1] & H2 & H3 & H4).
    + assert (0 < in_field f g c)%nat by (apply Hf; eauto). lia.
    + assert (0 < occurrences fs g c)%nat by (apply IH; eauto 6). lia.
Qed.

(** ** The table *)

Lemma dedup_codes_sorted : forall l, StronglySorted N.le l ->
  StronglySorted N.lt (dedup_codes l) /\ forall x, In x (dedup_codes l) <-> In x l.
Proof.
  induction 1 as [|v l Hs IH Hf]; [split; [constructor|tauto]|].
  destruct IH as [IH1 IH2]. destruct l as [|w l]; [split; [repeat constructor|tauto]|].
  change (dedup_codes (v :: w :: l)) with (if v =? w then dedup_codes (w :: l) else v :: dedup_codes (w :: l)).
  destruct (N.eqb_spec v w) as [E|E].
  - subst w. split; [exact IH1|]. intros x. rewrite IH2. cbn. intuition.
  - split.
    + constructor; [exact IH1|]. rewrite Forall_forall in *. intros x Hx. apply IH2 in Hx.
      inversion Hs as [|? ? Hs' Hf']; subst. rewrite Forall_forall in Hf'.
      assert (Hvw : v <= w) by (apply Hf; left; reflexivity).
      destruct Hx as [<-|Hx]; [lia|]. specialize (Hf' x Hx). lia.
    + intros x. cbn [In]. rewrite IH2. cbn. tauto.
Qed.

Lemma sort_codes : forall l, StronglySorted N.lt (dedup_codes (sort_by N.compare l))
  /\ forall x, In x (dedup_codes (sort_by N.compare l)) <-> In x l.
Proof.
  intros l. destruct (dedup_codes_sorted (sort_by N.compare l)) as [H1 H2].
  - apply sort_by_sorted.
    + intros x y H. destruct (N.compare_spec x y); [lia|lia|congruence].
    + intros x y H. apply N.compare_gt_iff in H. lia.
    + intros x y z. lia.
  - split; [exact H1|]. intros x. rewrite H2.
    split; apply Permutation_in; [|apply Permutation_sym]; apply sort_by_perm.
Qed.

Lemma sort_rows : forall l : list (bytes * list N), NoDup (map fst l) ->
  StronglySorted (fun a b => bytes_cmp (fst a) (fst b) = Lt) (sort_by (fun a b => bytes_cmp (fst a) (fst b)) l).
Proof.
  intros l Nd. set (cmp := fun a b : bytes * list N => bytes_cmp (fst a) (fst b)).
  assert (S : StronglySorted (fun a b : bytes * list N => vle (fst a) (fst b)) (sort_by cmp l)).
  { apply sort_by_sorted.
    - intros x y H. exact H.
    - intros x y H. unfold cmp in H. unfold vle. rewrite bytes_cmp_antisym, H. discriminate.
    - intros x y z. apply vle_trans. }
  assert (N' : NoDup (map fst (sort_by cmp l))).
  { eapply Permutation_NoDup; [|exact Nd]. apply Permutation_map. symmetry. apply sort_by_perm. }
  clearbody cmp. clear Nd. induction S as [|x k S IH F]; [constructor|].
  cbn in N'. inversion N' as [|? ? N1 N2]; subst. constructor; [apply IH; exact N2|].
  rewrite Forall_forall in *. intros y Hy. destruct (vle_cases _ _ (F y Hy)) as [E|E]; [|exact E].
  exfalso. apply N1. rewrite E. apply in_map. exact Hy.
Qed.

Lemma describe_table_describes : forall order fs, (forall t, Permutation (order t) t) ->
  let '(codes, rows) := describe_table order (fold_left (fun t f => tag_add f t) fs []) in
  describes fs codes rows.
Proof.
  intros order fs Hp. destruct (tags_fold fs []) as (K & G & I); [split; constructor|].
  set (t := fold_left (fun t f => tag_add f t) fs []) in *. unfold describe_table.
  assert (P := Hp t). set (t' := order t) in *.
  assert (K' : tags_ok t').
  { destruct K as [K1 K2]. split.
    - eapply Permutation_NoDup; [|exact K1]. apply Permutation_map. symmetry. exact P.
    - eapply Permutation_Forall; [symmetry; exact P|exact K2]. }
  destruct (sort_codes (flat_map (fun e : bytes * code_counts => map fst (snd e)) t')) as [S1 S2].
  set (codes := dedup_codes (sort_by N.compare (flat_map (fun e => map fst (snd e)) t'))) in *.
  assert (Pr := sort_by_perm (fun a b : bytes * list N => bytes_cmp (fst a) (fst b))
                  (map (fun e => (fst e, map (fun c => code_get c (snd e)) codes)) t')).
  assert (Hget : forall g m, In (g, m) t' -> forall c, code_get c m = N.of_nat (occurrences fs g c)).
  { intros g m Hin c. apply (Permutation_in _ P) in Hin. rewrite <- (tag_get_In t g m K Hin c), G. reflexivity. }
  split; [exact S1|]. split; [|split; [|split]].
  - intros c. etransitivity; [exact (S2 c)|]. rewrite in_flat_map. split.
    + intros ([g m] & Hin & Hc). cbn [snd] in Hc.
      assert (M : code_ok m). { destruct K' as [_ K2]. rewrite Forall_forall in K2. apply (K2 _ Hin). }
      apply (code_get_In m c M) in Hc. rewrite (Hget g m Hin) in Hc.
      destruct (proj1 (occurrences_pos fs g c)) as (f & s & H1 & _ & H3 & H4); [lia|]. eauto.
    + intros (f & s & H1 & H2 & H3).
      assert (Hg : In (f_tag f) (map fst t')).
      { apply (Permutation_in _ (Permutation_map fst (Permutation_sym P))). apply I. right. eauto. }
      apply in_map_iff in Hg as ([g m] & Eg & Hin). exists (g, m). split; [exact Hin|]. cbn [fst snd] in *. subst g.
      assert (M : code_ok m). { destruct K' as [_ K2]. rewrite Forall_forall in K2. apply (K2 _ Hin). }
      apply (code_get_In m c M). rewrite (Hget _ m Hin).
      assert (0 < occurrences fs (f_tag f) c)%nat by (apply occurrences_pos; eauto 6). lia.
  - apply sort_rows. rewrite map_map. cbn [fst]. apply K'.
  - intros g.
    assert (E : In g (map fst (sort_by (fun a b : bytes * list N => bytes_cmp (fst a) (fst b))
                 (map (fun e => (fst e, map (fun c => code_get c (snd e)) codes)) t'))) <-> In g (map fst t')).
    { assert (Q : Permutation (map fst (sort_by (fun a b : bytes * list N => bytes_cmp (fst a) (fst b))
                 (map (fun e => (fst e, map (fun c => code_get c (snd e)) codes)) t'))) (map fst t')).
      { etransitivity; [apply Permutation_map; exact Pr|]. rewrite map_map. reflexivity. }
      split; apply Permutation_in; [exact Q|symmetry; exact Q]. }
    rewrite E.
    assert (E2 : In g (map fst t') <-> In g (map fst t)).
    { split; apply Permutation_in; apply Permutation_map; [exact P|symmetry; exact P]. }
    rewrite E2, I. cbn. split; [intros [[]|?]; assumption|auto].
  - intros g cells Hin. apply (Permutation_in _ Pr) in Hin. apply in_map_iff in Hin as ([g' m] & E & Hin).
    cbn [fst snd] in E. injection E as -> <-. apply map_ext. intros c. apply Hget. exact Hin.
Qed.

Lemma describe_fold : forall discard keep recs s,
  fold_left (fun (s : N * tag_counts) r =>
    (fst s + 1, fold_left (fun t f => tag_add f t) (br_record (br_keep keep (br_discard discard r))) (snd s))) recs s
  = (fst s + N.of_nat (length recs),
     fold_left (fun t f => tag_add f t)
       (concat (map (fun r => br_record (br_keep keep (br_discard discard r))) recs)) (snd s)).
Proof.
  intros discard keep. induction recs as [|r recs IH]; intros s; cbn [fold_left map concat length].
  - destruct s. cbn. rewrite N.add_0_r. reflexivity.
  - rewrite IH, fold_left_app. cbn [fst snd]. f_equal. lia.
Qed.

Lemma describe_exact : forall O Od order discard keep skip o files,
  (forall t, Permutation (order t) t) -> opts_wf O Od o ->
  exists recs e fss codes rows, selects O Od skip o files recs e
    /\ Forall2 (edited_fields discard keep) recs fss
    /\ describes (concat fss) codes rows
    /\ describe_run O Od order discard keep skip o files
       = Some (match e with None => Done (codes, rows) | Some err => Failed ([], []) err end).
Proof.
  intros O Od order discard keep skip o files Hp W.
  set (act := fun (s : N * tag_counts) r =>
    (fst s + 1, fold_left (fun t f => tag_add f t) (br_record (br_keep keep (br_discard discard r))) (snd s))).
  destruct (run_selects _ O Od skip o
             (fun s r => if limit_reached (fo_limit o) (fst s + 1) then Halt (act s r) else Next (act s r))
             act fst files (0, []) W) as (recs & e & Hs & He); try reflexivity.
  set (fss := map (fun r => br_record (br_keep keep (br_discard discard r))) recs).
  assert (D := describe_table_describes order (concat fss) Hp).
  destruct (describe_table order (fold_left (fun t f => tag_add f t) (concat fss) [])) as [codes rows] eqn:Ed.
  exists recs, e, fss, codes, rows. split; [exact Hs|]. split; [|split; [exact D|]].
  - unfold fss. clear. induction recs as [|r recs IH]; cbn; constructor; [|exact IH].
    exact (run_edits_effect [EDiscard discard; EKeep keep] r).
  - unfold describe_run. etransitivity; [exact (f_equal (finish_with _ _) He)|].
    destruct e as [err|]; [reflexivity|]. cbn [ended finish_with]. do 2 f_equal.
    unfold act. rewrite describe_fold. cbn [snd]. fold fss. exact Ed.
Qed.

Lemma Selected_fun : forall A (P : A -> Prop) l a b, Selected P l a -> Selected P l b -> a = b.
Proof.
  intros A P l a b H. revert b. induction H; intros b' K; inversion K; subst; try contradiction; try reflexivity.
  - f_equal. auto.
  - auto.
Qed.

Lemma same_nth : forall A (l k : list A), length l = length k ->
  (forall i, (i < length l)%nat -> nth_error l i = nth_error k i) -> l = k.
Proof.
  induction l as [|x l IH]; intros [|y k] L E; try discriminate; [reflexivity|].
  assert (E0 := E 0%nat ltac:(cbn; lia)). injection E0 as <-. f_equal. apply IH; [injection L as L; exact L|].
  intros i Hi. apply (E (S i)). cbn. lia.
Qed.

Lemma edit_effect_fun : forall e l a b, edit_effect e l a -> edit_effect e l b -> a = b.
Proof.
  intros e l a b H K. destruct H as [f l a (keep & L & E & ->)|l|p l a Hp H|l|p l a Hp H]; inversion K; subst;
    try contradiction; try reflexivity; try (eapply Selected_fun; eassumption).
  match goal with H : exists _, _ |- _ => destruct H as (keep' & L' & E' & ->) end.
  assert (keep = keep') as <-; [|reflexivity].
  apply same_nth; [congruence|]. intros i Hi. rewrite L in Hi.
  destruct (nth_error l i) as [x|] eqn:Ex; [|apply nth_error_None in Ex; lia].
  rewrite (E _ _ Ex), (E' _ _ Ex). reflexivity.
Qed.

Lemma edits_effect_fun : forall es l a b, edits_effect es l a -> edits_effect es l b -> a = b.
Proof.
  intros es l a b H. revert b. induction H as [l|e es l l' l'' H1 H2 IH]; intros b K; inversion K; subst; [reflexivity|].
  match goal with H : edit_effect e l ?x |- _ => rewrite <- (edit_effect_fun _ _ _ _ H1 H) in * end. auto.
Qed.

Lemma describes_fun : forall fs codes rows codes' rows', describes fs codes rows -> describes fs codes' rows' ->
  codes = codes' /\ rows = rows'.
Proof.
  intros fs codes rows codes' rows' (H1 & H2 & H3 & H4 & H5) (K1 & K2 & K3 & K4 & K5).
  assert (codes = codes') as <-.
  { apply (sorted_unique _ N.lt); try assumption; [intros x; lia|intros x y z; lia|].
    intros x. rewrite H2, K2. reflexivity. }
  split; [reflexivity|].
  apply (sorted_unique _ (fun a b => bytes_cmp (fst a) (fst b) = Lt)); try assumption.
  - intros x H. rewrite bytes_cmp_refl in H. discriminate.
  - intros x y z. apply bytes_cmp_lt_trans.
  - assert (S : forall a b, (forall t, In t (map fst a) <-> exists f, In f fs /\ f_tag f = t) ->
               (forall t, In t (map fst b) <-> exists f, In f fs /\ f_tag f = t) ->
               (forall t cells, In (t, cells) a -> cells = map (fun c => N.of_nat (occurrences fs t c)) codes) ->
               (forall t cells, In (t, cells) b -> cells = map (fun c => N.of_nat (occurrences fs t c)) codes) ->
               forall x, In x a -> In x b).
    { intros a b A1 B1 A2 B2 [t cells] Hx. assert (Ht := in_map fst _ _ Hx). cbn in Ht.
      apply A1, B1, in_map_iff in Ht as ([t' cells'] & E & Hy). cbn in E. subst t'.
      rewrite (A2 _ _ Hx), <- (B2 _ _ Hy). exact Hy. }
    intros x. split; apply S; assumption.
Qed.

Lemma describe_order_free : forall O Od order order' discard keep skip o files,
  (forall t, Permutation (order t) t) -> (forall t, Permutation (order' t) t) -> opts_wf O Od o ->
  describe_run O Od order discard keep skip o files = describe_run O Od order' discard keep skip o files.
Proof.
  intros O Od order order' discard keep skip o files Hp Hp' W.
  destruct (describe_exact O Od order discard keep skip o files Hp W) as (recs & e & fss & codes & rows & H1 & H2 & H3 & ->).
  destruct (describe_exact O Od order' discard keep skip o files Hp' W) as (recs' & e' & fss' & codes' & rows' & K1 & K2 & K3 & ->).
  destruct (selects_fun _ _ _ _ _ _ _ H1 _ _ K1) as [<- <-].
  assert (fss' = fss) as ->.
  { eapply Forall2_det; [|exact K2|exact H2]. intros r a b A B. exact (edits_effect_fun _ _ _ _ A B). }
  destruct (describes_fun _ _ _ _ _ H3 K3) as [<- <-]. reflexivity.
Qed.

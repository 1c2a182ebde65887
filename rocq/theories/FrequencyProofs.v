(** * Proofs about frequency *)

From Coq Require Import String Sorted Permutation.
From Verif Require Import Bytes Winnow RecordModel RecordSpec BaseProofs TagOccModel TagOccProofs
  ByteRecordModel ByteRecordSpec ByteRecordProofs ReaderModel MatcherModel MatcherSpec MatcherProofs
  PathModel FmtModel QueryModel QuerySpec QueryProofs QueryExtraProofs CliModel CliSpec CliProofs
  CliCommandProofs CliOutputProofs CliRangeProofs CliChunkProofs TableModel TableSpec TableProofs.

(** ** Sorting *)

Section Sorting.
  Context {A : Type}.
  Variable cmp : A -> A -> comparison.
  Variable R : A -> A -> Prop.
  Hypothesis R_le : forall x y, cmp x y <> Gt -> R x y.
  Hypothesis R_gt : forall x y, cmp x y = Gt -> R y x.
  Hypothesis R_trans : forall x y z, R x y -> R y z -> R x z.

  Lemma insert_by_perm : forall x l, Permutation (insert_by cmp x l) (x :: l).
  Proof.
    intros x. induction l as [|y l IH]; cbn; [reflexivity|].
    destruct (cmp x y); try reflexivity. rewrite IH. constructor.
  Qed.

  Lemma sort_by_perm : forall l, Permutation (sort_by cmp l) l.
  Proof.
    induction l as [|x l IH]; [reflexivity|]. unfold sort_by in *. cbn [fold_right].
    rewrite insert_by_perm. constructor. exact IH.
  Qed.

  Lemma insert_by_sorted : forall x l, StronglySorted R l -> StronglySorted R (insert_by cmp x l).
  Proof.
    intros x l H. induction H as [|y l Hs IH Hf]; cbn; [repeat constructor|].
    assert (Le : cmp x y <> Gt -> StronglySorted R (x :: y :: l)).
    { intros E. constructor; [constructor; assumption|]. constructor; [apply R_le; exact E|].
      eapply Forall_impl; [|exact Hf]. intros z Hz. eapply R_trans; [apply R_le; exact E|exact Hz]. }
    destruct (cmp x y) eqn:E; [apply Le; discriminate|apply Le; discriminate|].
    constructor; [exact IH|]. rewrite Forall_forall in *. intros z Hz.
    apply (Permutation_in _ (insert_by_perm x l)) in Hz as [<-|Hz]; [apply R_gt; exact E|auto].
  Qed.

  Lemma sort_by_sorted : forall l, StronglySorted R (sort_by cmp l).
  Proof. induction l as [|x l IH]; [constructor|]. apply insert_by_sorted. exact IH. Qed.
End Sorting.

Lemma sorted_strict : forall A (R S : A -> A -> Prop) l,
  (forall x y, R x y -> x <> y -> S x y) -> NoDup l -> StronglySorted R l -> StronglySorted S l.
Proof.
  intros A R S l H N K. induction K as [|x l Hs IH Hf]; [constructor|].
  inversion N as [|? ? Nx Nl]; subst. constructor; [auto|]. rewrite Forall_forall in *. intros y Hy.
  apply H; [auto|]. intros ->. contradiction.
Qed.

(** ** The order of the table *)

Lemma row_cmp_eq : forall a b, row_cmp a b = Eq -> a = b.
Proof.
  induction a as [|x a IH]; destruct b as [|y b]; cbn; try discriminate; [reflexivity|].
  destruct (bytes_cmp x y) eqn:E; try discriminate. intros H. apply bytes_cmp_eq in E. f_equal; auto.
Qed.
Lemma row_cmp_lt : forall a b, row_cmp a b = Lt -> row_lt a b.
Proof.
  induction a as [|x a IH]; destruct b as [|y b]; cbn; try discriminate; [constructor|].
  destruct (bytes_cmp x y) eqn:E; try discriminate; intros H.
  - apply bytes_cmp_eq in E. subst. apply rl_next. auto.
  - apply rl_here. exact E.
Qed.
Lemma row_cmp_gt : forall a b, row_cmp a b = Gt -> row_lt b a.
Proof.
  induction a as [|x a IH]; destruct b as [|y b]; cbn; try discriminate; [constructor|].
  destruct (bytes_cmp x y) eqn:E; try discriminate; intros H.
  - apply bytes_cmp_eq in E. subst. apply rl_next. auto.
  - apply rl_here. rewrite bytes_cmp_antisym, E. reflexivity.
Qed.
Lemma row_lt_trans : forall a b, row_lt a b -> forall c, row_lt b c -> row_lt a c.
Proof.
  induction 1 as [y b|x y a b Hxy|x a b H IH]; intros c K; inversion K; subst; try (constructor; fail).
  - apply rl_here. eapply bytes_cmp_lt_trans; eassumption.
  - apply rl_here. exact Hxy.
  - apply rl_here. assumption.
  - apply rl_next. auto.
Qed.
Lemma row_lt_irrefl : forall a, ~ row_lt a a.
Proof.
  induction a as [|x a IH]; intros H; inversion H; subst; [|auto].
  rewrite bytes_cmp_refl in *. discriminate.
Qed.

Definition ranks_eq (rev : bool) (a b : list bytes * N) : Prop := a = b \/ ranks rev a b.

Lemma freq_cmp_le : forall rev a b, freq_cmp rev a b <> Gt -> ranks_eq rev a b.
Proof.
  intros rev [k n] [k' n']. unfold freq_cmp, ranks_eq, ranks. cbn [fst snd].
  destruct rev; [destruct (N.compare_spec n n') as [E|E|E]|destruct (N.compare_spec n' n) as [E|E|E]];
    intros H; try (right; left; exact E); try congruence;
    subst; (destruct (row_cmp k k') eqn:Ec; [left; f_equal; apply row_cmp_eq; exact Ec|right; right; split; [reflexivity|apply row_cmp_lt; exact Ec]|congruence]).
Qed.
Lemma freq_cmp_gt : forall rev a b, freq_cmp rev a b = Gt -> ranks_eq rev b a.
Proof.
  intros rev [k n] [k' n']. unfold freq_cmp, ranks_eq, ranks. cbn [fst snd].
  destruct rev; [destruct (N.compare_spec n n') as [E|E|E]|destruct (N.compare_spec n' n) as [E|E|E]];
    intros H; try (right; left; exact E); try congruence;
    subst; right; right; split; try reflexivity; apply row_cmp_gt; exact H.
Qed.
Lemma ranks_trans : forall rev a b c, ranks rev a b -> ranks rev b c -> ranks rev a c.
Proof.
  intros rev [k n] [k' n'] [k'' n'']. unfold ranks. cbn [fst snd].
  intros [H|[-> H]] [K|[-> K]]; try (left; destruct rev; lia).
  right. split; [reflexivity|]. eapply row_lt_trans; eassumption.
Qed.
Lemma ranks_eq_trans : forall rev a b c, ranks_eq rev a b -> ranks_eq rev b c -> ranks_eq rev a c.
Proof.
  intros rev a b c [->|H] [->|K]; try (left; reflexivity); try (right; assumption).
  right. eapply ranks_trans; eassumption.
Qed.

(** ** Counting *)

(** the frequency stored in a table *)
Fixpoint ftable_get (t : ftable) (k : list bytes) : N :=
  match t with
  | [] => 0
  | (k', n) :: t' => if row_eqb k' k then n else ftable_get t' k
  end.

Definition ftable_ok (t : ftable) : Prop := NoDup (map fst t) /\ Forall (fun e => 0 < snd e /\ ~ blank (fst e)) t.

Lemma ftable_inc_In : forall k t x, In x (map fst (ftable_inc k t)) <-> x = k \/ In x (map fst t).
Proof.
  intros k. induction t as [|[k' n] t IH]; intros x; cbn.
  - intuition.
  - destruct (row_eqb k' k) eqn:E; cbn.
    + apply row_eqb_eq in E. subst. intuition.
    + rewrite IH. intuition.
Qed.

Lemma ftable_inc_ok : forall k t, ~ blank k -> ftable_ok t -> ftable_ok (ftable_inc k t).
Proof.
  intros k t B [N F]. induction t as [|[k' n] t IH]; cbn.
  - split; cbn; [constructor; [intros []|constructor]|]. constructor; [cbn; split; [lia|exact B]|constructor].
  - cbn in N. inversion N as [|? ? N1 N2]; subst. inversion F as [|? ? F1 F2]; subst. cbn in F1.
    destruct (row_eqb k' k) eqn:E.
    + split; cbn; [constructor; assumption|]. constructor; [cbn; split; [lia|tauto]|exact F2].
    + destruct (IH N2 F2) as [I1 I2]. split; cbn.
      * constructor; [|exact I1]. intros H. apply ftable_inc_In in H as [->|H]; [|contradiction].
        rewrite (proj2 (row_eqb_eq _ _) eq_refl) in E. discriminate.
      * constructor; [exact F1|exact I2].
Qed.

Lemma ftable_inc_get : forall k t x,
  ftable_get (ftable_inc k t) x = ftable_get t x + (if row_dec k x then 1 else 0).
Proof.
  intros k. induction t as [|[k' n] t IH]; intros x; cbn.
  - destruct (row_eqb k x) eqn:E; destruct (row_dec k x) as [D|D]; try reflexivity.
    + apply row_eqb_eq in E. contradiction.
    + apply row_eqb_eq in D. congruence.
  - destruct (row_eqb k' k) eqn:E; cbn.
    + apply row_eqb_eq in E. subst k'. destruct (row_eqb k x) eqn:E2; destruct (row_dec k x) as [D|D]; try lia.
      * apply row_eqb_eq in E2. contradiction.
      * apply row_eqb_eq in D. congruence.
    + destruct (row_eqb k' x) eqn:E2; [|apply IH].
      destruct (row_dec k x) as [D|D]; [|lia]. subst. congruence.
Qed.

Lemma ftable_get_In : forall t k n, ftable_ok t -> (In (k, n) t <-> n = ftable_get t k /\ 0 < n).
Proof.
  intros t k n [N F]. induction t as [|[k' m] t IH]; cbn.
  - split; [intros []|lia].
  - cbn in N. inversion N as [|? ? N1 N2]; subst. inversion F as [|? ? F1 F2]; subst. cbn in F1.
    destruct (row_eqb k' k) eqn:E.
    + apply row_eqb_eq in E. subst k'. split.
      * intros [H|H]; [injection H as <-; split; [reflexivity|tauto]|].
        exfalso. apply N1. apply (in_map fst) in H. exact H.
      * intros [-> _]. left. reflexivity.
    + rewrite <- (IH N2 F2). split; [|auto]. intros [H|H]; [|exact H]. injection H as <- <-.
      rewrite (proj2 (row_eqb_eq _ _) eq_refl) in E. discriminate.
Qed.

Lemma freq_loop_ok : forall unique rows seen t, ftable_ok t -> ftable_ok (freq_loop unique rows seen t).
Proof.
  intros unique. induction rows as [|key rows IH]; intros seen t H; cbn [freq_loop]; [exact H|].
  rewrite not_blank_any. destruct (forallb is_nil key) eqn:E; cbn [negb]; [apply IH; exact H|].
  assert (B : ~ blank key) by (intros B; apply blank_iff in B; congruence).
  destruct (unique && existsb (row_eqb key) seen); apply IH; [exact H|]. apply ftable_inc_ok; assumption.
Qed.

Lemma row_mem : forall k l, existsb (row_eqb k) l = true <-> In k l.
Proof.
  intros k l. rewrite existsb_exists. split.
  - intros (x & Hx & E). apply row_eqb_eq in E. subst. exact Hx.
  - intros H. exists k. split; [exact H|apply row_eqb_eq; reflexivity].
Qed.

Lemma freq_loop_get : forall unique rows seen t x, ~ blank x ->
  ftable_get (freq_loop unique rows seen t) x
  = ftable_get t x
    + N.of_nat (if unique then if in_dec row_dec x seen then 0 else Nat.min 1 (count_occ row_dec rows x)
                else count_occ row_dec rows x).
Proof.
  intros unique rows seen t x B. revert seen t. induction rows as [|key rows IH]; intros seen t; cbn [freq_loop].
  - cbn [count_occ]. destruct unique; [destruct (in_dec row_dec x seen)|]; cbn; lia.
  - rewrite not_blank_any. cbn [count_occ]. destruct (forallb is_nil key) eqn:E; cbn [negb].
    + rewrite IH. destruct (row_dec key x) as [->|D]; [|reflexivity].
      exfalso. apply B. apply blank_iff. exact E.
    + destruct unique; cbn [andb].
      * destruct (existsb (row_eqb key) seen) eqn:Es.
        { apply row_mem in Es. rewrite IH. destruct (in_dec row_dec x seen) as [Hi|Hi]; [reflexivity|].
          destruct (row_dec key x) as [->|D]; [contradiction|reflexivity]. }
        { rewrite IH, ftable_inc_get. destruct (row_dec key x) as [->|D].
          - assert (Hn : ~ In x seen). { intros H. apply row_mem in H. congruence. }
            destruct (in_dec row_dec x (x :: seen)) as [_|H]; [|exfalso; apply H; left; reflexivity].
            destruct (in_dec row_dec x seen) as [H|_]; [contradiction|]. cbn [Nat.min]. lia.
          - destruct (in_dec row_dec x (key :: seen)) as [H|H]; destruct (in_dec row_dec x seen) as [K|K]; try lia.
            + destruct H; [congruence|contradiction].
            + exfalso. apply H. right. exact K. }
      * rewrite IH, ftable_inc_get. destruct (row_dec key x); lia.
Qed.

Lemma frequency_cons : forall unique rows rss k,
  frequency unique (rows :: rss) k
  = ((if unique then Nat.min 1 (count_occ row_dec rows k) else count_occ row_dec rows k)
     + frequency unique rss k)%nat.
Proof. reflexivity. Qed.

Section Frequency.
  Variables O Od : oracles.
  Variable T : text_fns.
  Variable lossy : bytes -> bytes.
  Variable order : ftable -> ftable.
  Hypothesis order_perm : forall t, Permutation (order t) t.
  Variable c : freq_cmd.
  Hypothesis query_ok : query_wf O (fq_qo c) (fq_query c).

  Definition freq_rec (r : byte_record) : outcome :=
    rows_or_nil (record_query O T (fq_qo c) (fq_query c) (br_record r)).
  Definition freq_act (s : N * ftable) (r : byte_record) : N * ftable :=
    (fst s + 1, freq_loop (fq_unique c) (freq_rec r) [] (snd s)).

  Lemma freq_fold : forall recs s, ftable_ok (snd s) ->
    ftable_ok (snd (fold_left freq_act recs s))
    /\ forall x, ~ blank x ->
       ftable_get (snd (fold_left freq_act recs s)) x
       = ftable_get (snd s) x + N.of_nat (frequency (fq_unique c) (map freq_rec recs) x).
  Proof.
    induction recs as [|r recs IH]; intros s H; cbn [fold_left map].
    - split; [exact H|]. intros x _. cbn. lia.
    - destruct (IH (freq_act s r)) as [I1 I2]; [apply freq_loop_ok; exact H|].
      split; [exact I1|]. intros x B. rewrite (I2 x B). unfold freq_act at 1. cbn [snd].
      rewrite freq_loop_get by exact B. rewrite frequency_cons.
      destruct (fq_unique c); [destruct (in_dec row_dec x []) as [[]|_]|]; rewrite Nnat.Nat2N.inj_add; lia.
  Qed.

  Lemma freq_table_listed : forall recs,
    frequencies (fq_unique c) (fq_reverse c) (map freq_rec recs)
      (sort_by (freq_cmp (fq_reverse c)) (order (snd (fold_left freq_act recs (0, []))))).
  Proof.
    intros recs. destruct (freq_fold recs (0, [])) as [K G]; [split; constructor|].
    set (t := snd (fold_left freq_act recs (0, []))) in *.
    assert (P : Permutation (sort_by (freq_cmp (fq_reverse c)) (order t)) t).
    { rewrite sort_by_perm. apply order_perm. }
    split.
    - apply (sorted_strict _ (ranks_eq (fq_reverse c))).
      + intros x y [->|H] Hn; [congruence|exact H].
      + eapply Permutation_NoDup; [symmetry; exact P|]. destruct K as [N _]. eapply NoDup_map_inv. exact N.
      + apply sort_by_sorted; [apply freq_cmp_le|apply freq_cmp_gt|apply ranks_eq_trans].
    - intros k n. split.
      + intros H. apply (Permutation_in _ P) in H. assert (B : ~ blank k).
        { destruct K as [_ F]. rewrite Forall_forall in F. apply F in H. tauto. }
        apply (ftable_get_In t k n K) in H as [-> H]. split; [exact B|]. split; [|exact H].
        rewrite (G k B). reflexivity.
      + intros (B & E & Hn). apply (Permutation_in _ (Permutation_sym P)). apply (ftable_get_In t k n K).
        split; [|exact Hn]. rewrite (G k B). exact E.
  Qed.

  Lemma freq_run_fold : forall skip o files, opts_wf O Od o ->
    exists recs e, selects O Od skip o files recs e
      /\ run_loop (on_result skip (freq_body O Od T c o)) (0, []) files
         = Some (ended (fold_left freq_act recs (0, [])) e).
  Proof.
    intros skip o files W. unfold freq_body.
    apply (run_selects _ O Od skip o _ freq_act fst files (0, []) W).
    - intros s r. destruct (query_rows_exist O T (fq_qo c) (fq_query c) r query_ok) as (rows & E & _).
      unfold freq_act, freq_rec. rewrite E. reflexivity.
    - intros s r. reflexivity.
    - reflexivity.
  Qed.

  (** *** Output *)

  (** the entries written: the first ones until the number is reached or one is
      below the threshold *)
  Fixpoint freq_cut (i : N) (l : ftable) : ftable :=
    match l with
    | [] => []
    | e :: rest =>
        if (0 <? fq_num c) && (fq_num c <=? i) then []
        else if snd e <? fq_threshold c then []
        else e :: freq_cut (i + 1) rest
    end.

  Lemma freq_write_cut : forall w l i out, fits (w + 1) out -> Forall (fun e => length (fst e) = w) l ->
    freq_write lossy c i l out = (out ++ map (freq_row lossy c) (freq_cut i l), false).
  Proof.
    intros w. induction l as [|e l IH]; intros i out F W; cbn [freq_write freq_cut].
    - cbn. rewrite app_nil_r. reflexivity.
    - inversion W as [|? ? We Wl]; subst.
      destruct ((0 <? fq_num c) && (fq_num c <=? i)); [cbn; rewrite app_nil_r; reflexivity|].
      destruct (snd e <? fq_threshold c); [cbn; rewrite app_nil_r; reflexivity|].
      assert (L : length (freq_row lossy c e) = (length (fst e) + 1)%nat).
      { unfold freq_row. rewrite app_length, map_length. reflexivity. }
      rewrite (csv_write_fits (length (fst e) + 1)) by assumption.
      rewrite IH; [cbn [map]; rewrite <- app_assoc; reflexivity| |assumption].
      apply Forall_app. split; [exact F|]. constructor; [exact L|constructor].
  Qed.

  Lemma freq_cut_prefix : forall l i, exists rest, l = freq_cut i l ++ rest.
  Proof.
    induction l as [|e l IH]; intros i; cbn [freq_cut]; [exists []; reflexivity|].
    destruct ((0 <? fq_num c) && (fq_num c <=? i)); [eexists; reflexivity|].
    destruct (snd e <? fq_threshold c); [eexists; reflexivity|].
    destruct (IH (i + 1)) as [rest E]. exists rest. cbn. f_equal. exact E.
  Qed.

  (** without entries below the threshold *)
  Lemma freq_cut_all : forall l i, Forall (fun e => fq_threshold c <= snd e) l -> i <= fq_num c \/ fq_num c = 0 ->
    first_num (if fq_num c =? 0 then 0 else fq_num c - i) l (freq_cut i l)
    \/ (0 < fq_num c /\ fq_num c = i /\ freq_cut i l = []).
  Proof.
    induction l as [|e l IH]; intros i F Hi; cbn [freq_cut].
    - left. unfold first_num. destruct (N.eqb_spec (fq_num c) 0) as [E|E]; [left; auto|].
      destruct (N.eq_dec (fq_num c) i) as [D|D]; [left|right].
      + split; [lia|reflexivity].
      + split; [lia|]. split; [cbn; lia|]. exists []. reflexivity.
    - inversion F as [|? ? Fe Fl]; subst. destruct (N.ltb_spec 0 (fq_num c)) as [Hn|Hn]; cbn [andb].
      + destruct (N.leb_spec (fq_num c) i) as [Hl|Hl]; [right; split; [lia|]; split; [lia|reflexivity]|].
        destruct (N.ltb_spec (snd e) (fq_threshold c)) as [Ht|_]; [lia|].
        destruct (N.eqb_spec (fq_num c) 0) as [E|E]; [lia|].
        destruct (IH (i + 1) Fl) as [H|(H0 & H1 & H2)]; [lia| |].
        * left. right. split; [lia|]. destruct H as [[H1 H2]|(H1 & H2 & rest & H3)].
          { (* the number is reached *)
            destruct l as [|e' l'].
            - cbn. split; [lia|]. exists []. reflexivity.
            - exfalso. assert (fq_num c = i + 1) by lia.
              cbn [freq_cut] in H2. destruct (N.ltb_spec 0 (fq_num c)); [|lia].
              destruct (N.leb_spec (fq_num c) (i + 1)); [|lia]. cbn [andb] in H2. discriminate. }
          { cbn [length]. split; [lia|]. exists rest. cbn. f_equal. exact H3. }
        * left. right. split; [lia|]. rewrite H2. cbn [length]. split; [lia|]. exists l. reflexivity.
      + destruct (N.ltb_spec (snd e) (fq_threshold c)) as [Ht|_]; [lia|].
        destruct (N.eqb_spec (fq_num c) 0) as [E|E]; [|lia].
        destruct (IH (i + 1) Fl) as [H|(H0 & H1 & H2)]; [lia| |lia].
        left. left. split; [reflexivity|]. destruct H as [[_ ->]|(H1 & _)]; [reflexivity|lia].
  Qed.

  (** descending: everything below the threshold comes last *)
  Lemma freq_cut_desc : forall l l' i, StronglySorted (ranks false) l ->
    picks (fun e => fq_threshold c <= snd e) (fun e => e) l l' ->
    freq_cut i l = freq_cut i l'.
  Proof.
    intros l l' i S H. revert i S. induction H as [|e l l' HP H IH|e l l' HP H IH]; intros i S.
    - reflexivity.
    - inversion S; subst. cbn [freq_cut]. destruct ((0 <? fq_num c) && (fq_num c <=? i)); [reflexivity|].
      destruct (snd e <? fq_threshold c); [reflexivity|]. f_equal. apply IH. assumption.
    - inversion S as [|? ? S1 S2]; subst.
      assert (l' = []) as ->.
      { clear IH S S1. induction H as [|x l l' HQ H IH|x l l' HQ H IH]; [reflexivity| |].
        - exfalso. inversion S2 as [|? ? S3 _]; subst. destruct S3 as [S3|[S3 _]]; lia.
        - inversion S2; subst. auto. }
      cbn [freq_cut]. destruct ((0 <? fq_num c) && (fq_num c <=? i)); [reflexivity|].
      destruct (N.ltb_spec (snd e) (fq_threshold c)); [reflexivity|lia].
  Qed.

  (** ascending: the loop ends at once if an entry is below the threshold *)
  Lemma freq_cut_asc : forall l i, StronglySorted (ranks true) l ->
    Exists (fun e => snd e < fq_threshold c) l -> freq_cut i l = [].
  Proof.
    intros l i S H. destruct S as [|e l S1 S2]; [inversion H|].
    assert (He : snd e < fq_threshold c).
    { inversion H as [? ? H1|? ? H1]; subst; [exact H1|]. apply Exists_exists in H1 as (x & Hx & Lx).
      rewrite Forall_forall in S2. destruct (S2 x Hx) as [K|[K _]]; lia. }
    cbn [freq_cut]. destruct ((0 <? fq_num c) && (fq_num c <=? i)); [reflexivity|].
    destruct (N.ltb_spec (snd e) (fq_threshold c)); [reflexivity|lia].
  Qed.
End Frequency.

Lemma frequency_occurs : forall unique rss k, (0 < frequency unique rss k)%nat -> In k (concat rss).
Proof.
  intros unique rss k. induction rss as [|rows rss IH]; intros H; [cbn in H; lia|].
  rewrite frequency_cons in H. cbn [concat]. apply in_app_iff.
  destruct (Nat.eq_dec (count_occ row_dec rows k) 0) as [E|E].
  - right. apply IH. rewrite E in H. destruct unique; cbn in H; exact H.
  - left. apply (count_occ_In row_dec). lia.
Qed.

Lemma first_num_id : forall A (l : list A), first_num 0 l l.
Proof. intros. left. auto. Qed.

Lemma frequencies_width : forall O T c unique rev recs l, query_wf O (fq_qo c) (fq_query c) ->
  frequencies unique rev (map (freq_rec O T c) recs) l ->
  Forall (fun e => length (fst e) = query_columns (fq_query c)) l.
Proof.
  intros O T c unique rev recs l W [_ H]. apply Forall_forall. intros [k n] Hin.
  apply H in Hin as (_ & -> & Hn). assert (Hk := frequency_occurs unique (map (freq_rec O T c) recs) k ltac:(lia)).
  assert (F := query_rows_width O T (fq_qo c) (fq_query c) recs W). rewrite Forall_forall in F.
  apply F. exact Hk.
Qed.

Lemma picks_prefix_Forall : forall A (P : A -> Prop) l, Forall P l -> picks P (fun x => x) l l.
Proof. induction 1; [constructor|]. apply (picks_yes _ (fun x => x)); assumption. Qed.

Section Outputs.
  Variables O Od : oracles.
  Variable T : text_fns.
  Variable lossy : bytes -> bytes.
  Variable order : ftable -> ftable.
  Variable c : freq_cmd.

  Lemma freq_rows_written : forall l,
    Forall2 (written_frequency (fun v => fq_nf c (lossy v))) l (map (freq_row lossy c) l).
  Proof.
    induction l as [|e l IH]; cbn; constructor; [|exact IH]. exists (dec (snd e)). split; [apply dec_spec|reflexivity].
  Qed.

  Lemma freq_run_output : forall skip o files, (forall t, Permutation (order t) t) ->
    opts_wf O Od o -> query_wf O (fq_qo c) (fq_query c) ->
    header_fits (fq_header c) (query_columns (fq_query c) + 1) ->
    exists recs e rss l, selects O Od skip o files recs e
      /\ Forall2 (query_rows O T (fq_qo c) (fq_query c)) recs rss
      /\ frequencies (fq_unique c) (fq_reverse c) rss l
      /\ freq_run O Od T lossy order c skip o files
         = Some (match e with
                 | None => Done (header_rows (fq_header c) ++ map (freq_row lossy c) (freq_cut c 0 l), false)
                 | Some err => Failed ([], false) err
                 end).
  Proof.
    intros skip o files Hp W Wq Wh. destruct (freq_run_fold O Od T c Wq skip o files W) as (recs & e & Hs & He).
    exists recs, e, (map (freq_rec O T c) recs).
    exists (sort_by (freq_cmp (fq_reverse c)) (order (snd (fold_left (freq_act O T c) recs (0, []))))).
    assert (L := freq_table_listed O T order Hp c recs).
    split; [exact Hs|]. split; [apply query_rows_list; exact Wq|]. split; [exact L|].
    unfold freq_run. etransitivity; [exact (f_equal (finish_with _ _) He)|].
    destruct e as [err|]; [reflexivity|]. cbn [ended finish_with]. do 2 f_equal. unfold freq_output.
    rewrite (freq_write_cut lossy c (query_columns (fq_query c))).
    - f_equal.
    - destruct (fq_header c) as [h|] eqn:Eh; cbn; [|constructor]. constructor; [apply Wh; reflexivity|constructor].
    - eapply frequencies_width; [exact Wq|exact L].
  Qed.

  (** a header of another width: the first row is refused *)
  Lemma freq_write_refused : forall h w l, length h <> (w + 1)%nat -> Forall (fun e => length (fst e) = w) l ->
    freq_write lossy c 0 l [h] = ([h], match l with [] => false | e :: _ => fq_threshold c <=? snd e end).
  Proof.
    intros h w l Hh W. destruct l as [|e l]; cbn [freq_write]; [reflexivity|]. inversion W as [|? ? We _]; subst.
    replace ((0 <? fq_num c) && (fq_num c <=? 0)) with false by (destruct (N.ltb_spec 0 (fq_num c)), (N.leb_spec (fq_num c) 0); cbn; auto; lia).
    destruct (N.ltb_spec (snd e) (fq_threshold c)) as [Ht|Ht].
    - destruct (N.leb_spec (fq_threshold c) (snd e)); [lia|reflexivity].
    - destruct (N.leb_spec (fq_threshold c) (snd e)); [|lia]. unfold csv_write, freq_row.
      rewrite app_length, map_length. cbn [length]. destruct (Nat.eqb_spec (length h) (length (fst e) + 1)); [contradiction|reflexivity].
  Qed.

  Lemma freq_header_refused : forall skip o files h, (forall t, Permutation (order t) t) ->
    opts_wf O Od o -> query_wf O (fq_qo c) (fq_query c) ->
    fq_header c = Some h -> length h <> (query_columns (fq_query c) + 1)%nat ->
    exists recs e rss l, selects O Od skip o files recs e
      /\ Forall2 (query_rows O T (fq_qo c) (fq_query c)) recs rss
      /\ frequencies (fq_unique c) (fq_reverse c) rss l
      /\ freq_run O Od T lossy order c skip o files
         = Some (match e with
                 | None => Done ([h], match l with [] => false | first :: _ => fq_threshold c <=? snd first end)
                 | Some err => Failed ([], false) err
                 end).
  Proof.
    intros skip o files h Hp W Wq Eh Wh. destruct (freq_run_fold O Od T c Wq skip o files W) as (recs & e & Hs & He).
    exists recs, e, (map (freq_rec O T c) recs).
    exists (sort_by (freq_cmp (fq_reverse c)) (order (snd (fold_left (freq_act O T c) recs (0, []))))).
    assert (L := freq_table_listed O T order Hp c recs).
    split; [exact Hs|]. split; [apply query_rows_list; exact Wq|]. split; [exact L|].
    unfold freq_run. etransitivity; [exact (f_equal (finish_with _ _) He)|].
    destruct e as [err|]; [reflexivity|]. cbn [ended finish_with]. do 2 f_equal. unfold freq_output. rewrite Eh. cbn [csv_header].
    eapply freq_write_refused; [exact Wh|]. eapply frequencies_width; [exact Wq|exact L].
  Qed.

  Lemma freq_exact_desc : forall skip o files, (forall t, Permutation (order t) t) ->
    opts_wf O Od o -> query_wf O (fq_qo c) (fq_query c) ->
    header_fits (fq_header c) (query_columns (fq_query c) + 1) -> fq_reverse c = false ->
    exists recs e rss l reaching listed rows, selects O Od skip o files recs e
      /\ Forall2 (query_rows O T (fq_qo c) (fq_query c)) recs rss
      /\ frequencies (fq_unique c) false rss l
      /\ picks (fun e => fq_threshold c <= snd e) (fun e => e) l reaching
      /\ first_num (fq_num c) reaching listed
      /\ Forall2 (written_frequency (fun v => fq_nf c (lossy v))) listed rows
      /\ freq_run O Od T lossy order c skip o files
         = Some (match e with
                 | None => Done (header_rows (fq_header c) ++ rows, false)
                 | Some err => Failed ([], false) err
                 end).
  Proof.
    intros skip o files Hp W Wq Wh Hr.
    destruct (freq_run_output skip o files Hp W Wq Wh) as (recs & e & rss & l & H1 & H2 & H3 & H4).
    rewrite Hr in H3.
    destruct (filter_p_picks _ (fun e => fq_threshold c <= snd e) (fun e => Some (fq_threshold c <=? snd e)) l)
      as (reaching & _ & Hl).
    { intros x _. apply decides_some. apply N.leb_le. }
    exists recs, e, rss, l, reaching, (freq_cut c 0 reaching), (map (freq_row lossy c) (freq_cut c 0 reaching)).
    split; [exact H1|]. split; [exact H2|]. split; [exact H3|]. split; [exact Hl|]. split; [|split].
    - destruct (freq_cut_all c reaching 0) as [H|(H & H' & _)]; [| |destruct (fq_num c =? 0) eqn:E|lia].
      + apply Forall_forall. intros x Hx. apply (picks_id_In _ _ _ _ Hl) in Hx. tauto.
      + lia.
      + apply N.eqb_eq in E. rewrite E in *. exact H.
      + rewrite N.sub_0_r in H. exact H.
    - apply freq_rows_written.
    - rewrite H4. rewrite (freq_cut_desc c l reaching 0 (proj1 H3) Hl). reflexivity.
  Qed.

  Lemma freq_exact_asc : forall skip o files, (forall t, Permutation (order t) t) ->
    opts_wf O Od o -> query_wf O (fq_qo c) (fq_query c) ->
    header_fits (fq_header c) (query_columns (fq_query c) + 1) -> fq_reverse c = true ->
    exists recs e rss l listed rows, selects O Od skip o files recs e
      /\ Forall2 (query_rows O T (fq_qo c) (fq_query c)) recs rss
      /\ frequencies (fq_unique c) true rss l
      /\ (Forall (fun e => fq_threshold c <= snd e) l -> first_num (fq_num c) l listed)
      /\ (~ Forall (fun e => fq_threshold c <= snd e) l -> listed = [])
      /\ Forall2 (written_frequency (fun v => fq_nf c (lossy v))) listed rows
      /\ freq_run O Od T lossy order c skip o files
         = Some (match e with
                 | None => Done (header_rows (fq_header c) ++ rows, false)
                 | Some err => Failed ([], false) err
                 end).
  Proof.
    intros skip o files Hp W Wq Wh Hr.
    destruct (freq_run_output skip o files Hp W Wq Wh) as (recs & e & rss & l & H1 & H2 & H3 & H4).
    rewrite Hr in H3.
    exists recs, e, rss, l, (freq_cut c 0 l), (map (freq_row lossy c) (freq_cut c 0 l)).
    split; [exact H1|]. split; [exact H2|]. split; [exact H3|]. split; [|split; [|split]].
    - intros F. destruct (freq_cut_all c l 0 F) as [H|(H & H' & _)]; [lia| |lia].
      destruct (fq_num c =? 0) eqn:E; [apply N.eqb_eq in E; rewrite E in *; exact H|].
      rewrite N.sub_0_r in H. exact H.
    - intros F. apply freq_cut_asc; [exact (proj1 H3)|].
      destruct (Exists_dec (fun e => snd e < fq_threshold c) l) as [H|H]; [|exact H|].
      + intros x. destruct (snd x <? fq_threshold c) eqn:K; [left; apply N.ltb_lt; exact K|].
        right. apply N.ltb_ge in K. lia.
      + exfalso. apply F. apply Forall_forall. intros x Hx.
        destruct (N.lt_ge_cases (snd x) (fq_threshold c)) as [K|K]; [|exact K].
        exfalso. apply H. apply Exists_exists. eauto.
    - apply freq_rows_written.
    - exact H4.
  Qed.
End Outputs.

(** a strictly sorted list is determined by its members *)
Lemma sorted_unique : forall A (R : A -> A -> Prop), (forall x, ~ R x x) -> (forall x y z, R x y -> R y z -> R x z) ->
  forall l k, StronglySorted R l -> StronglySorted R k -> (forall x, In x l <-> In x k) -> l = k.
Proof.
  intros A R Irr Tr l k Hl. revert k. induction Hl as [|x l Hl IH Fx]; intros k Hk E.
  - destruct k as [|y k]; [reflexivity|]. exfalso. apply (E y). left. reflexivity.
  - destruct Hk as [|y k Hk Fy]; [exfalso; apply (E x); left; reflexivity|].
    rewrite Forall_forall in Fx, Fy.
    assert (x = y) as <-.
    { destruct (proj1 (E x)) as [H|H]; [left; reflexivity|congruence|].
      destruct (proj2 (E y)) as [K|K]; [left; reflexivity|congruence|].
      exfalso. apply (Irr x). eapply Tr; [apply Fx; exact K|apply Fy; exact H]. }
    f_equal. apply IH; [exact Hk|]. intros z. split; intros Hz.
    + destruct (proj1 (E z)) as [<-|H]; [right; exact Hz| |exact H]. exfalso. apply (Irr x). apply Fx. exact Hz.
    + destruct (proj2 (E z)) as [<-|H]; [right; exact Hz| |exact H]. exfalso. apply (Irr x). apply Fy. exact Hz.
Qed.

Lemma ranks_irrefl : forall rev a, ~ ranks rev a a.
Proof. intros rev [k n] [H|[_ H]]; [destruct rev; cbn in H; lia|]. exact (row_lt_irrefl _ H). Qed.

Lemma frequencies_fun : forall unique rev rss l k,
  frequencies unique rev rss l -> frequencies unique rev rss k -> l = k.
Proof.
  intros unique rev rss l k [S1 M1] [S2 M2].
  apply (sorted_unique _ (ranks rev)); auto using ranks_irrefl.
  - apply ranks_trans.
  - intros [a n]. rewrite M1, M2. reflexivity.
Qed.

(** ** --reverse with --threshold *)

Definition rev_cmd : freq_cmd :=
  mkFreq one_value_query (mkQueryOptions false (lit "|") false false) false 0 2 true None (fun v => v).
Definition rev_recs : list byte_record := [one_value (lit "1"); one_value (lit "2"); one_value (lit "1")].

Lemma freq_reverse_loses : forall O Od T lossy order, (forall t, Permutation (order t) t) ->
  exists c files recs rss k,
    query_wf O (fq_qo c) (fq_query c) /\ fq_num c = 0 /\ fq_reverse c = true
    /\ selects O Od false open_opts files recs None
    /\ Forall2 (query_rows O T (fq_qo c) (fq_query c)) recs rss
    /\ ~ blank k /\ fq_threshold c <= N.of_nat (frequency (fq_unique c) rss k)
    /\ freq_run O Od T lossy order c false open_opts files = Some (Done ([], false)).
Proof.
  intros O Od T lossy order Hp.
  assert (Hl : Forall one_line rev_recs).
  { unfold rev_recs. repeat (apply Forall_cons || apply Forall_nil); apply one_value_line;
      apply Forall_forall; intros c Hc; cbn in Hc; destruct Hc as [<-|[]]; cbn; auto 20. }
  set (out := flat_map br_write rev_recs).
  assert (Hs : selects O Od false open_opts [(lit "f", out)] rev_recs None).
  { apply selects_open; [exact Hl|]. apply lines_of_flat. eapply Forall_impl; [|exact Hl]. exact one_line_from. }
  assert (Wq : query_wf O (fq_qo rev_cmd) (fq_query rev_cmd)).
  { split; [discriminate|]. repeat constructor. discriminate. }
  set (rss := [[[lit "1"]]; [[lit "2"]]; [[lit "1"]]]).
  assert (Hrows : Forall2 (query_rows O T (fq_qo rev_cmd) (fq_query rev_cmd)) rev_recs rss).
  { exact (query_rows_list O T (fq_qo rev_cmd) (fq_query rev_cmd) rev_recs Wq). }
  exists rev_cmd, [(lit "f", out)], rev_recs, rss, [lit "1"].
  split; [exact Wq|]. split; [reflexivity|]. split; [reflexivity|]. split; [exact Hs|]. split; [exact Hrows|].
  split; [intros H; inversion H; discriminate|]. split; [vm_compute; discriminate|].
  destruct (freq_exact_asc O Od T lossy order rev_cmd false open_opts [(lit "f", out)] Hp (open_opts_wf O Od) Wq)
    as (recs & e & rss' & l & listed & rows & H1 & H2 & H3 & _ & H5 & H6 & ->).
  { intros h H. discriminate. }
  { reflexivity. }
  destruct (selects_fun _ _ _ _ _ _ _ Hs _ _ H1) as [<- <-].
  assert (rss' = rss) as ->.
  { eapply Forall2_det; [|exact H2|exact Hrows]. intros; eapply query_rows_fun; eassumption. }
  assert (listed = []) as ->.
  { apply H5. intros F. rewrite Forall_forall in F.
    assert (Hi : In ([lit "2"], 1) l).
    { apply H3. split; [intros H; inversion H; discriminate|]. split; [vm_compute; reflexivity|lia]. }
    specialize (F _ Hi). cbn in F. lia. }
  inversion H6. reflexivity.
Qed.

(** ** The order in which the table is traversed does not matter *)

Lemma freq_order_free : forall O Od T lossy order order' c skip o files,
  (forall t, Permutation (order t) t) -> (forall t, Permutation (order' t) t) ->
  opts_wf O Od o -> query_wf O (fq_qo c) (fq_query c) ->
  header_fits (fq_header c) (query_columns (fq_query c) + 1) ->
  freq_run O Od T lossy order c skip o files = freq_run O Od T lossy order' c skip o files.
Proof.
  intros O Od T lossy order order' c skip o files Hp Hp' W Wq Wh.
  destruct (freq_run_output O Od T lossy order c skip o files Hp W Wq Wh) as (recs & e & rss & l & H1 & H2 & H3 & ->).
  destruct (freq_run_output O Od T lossy order' c skip o files Hp' W Wq Wh) as (recs' & e' & rss' & l' & K1 & K2 & K3 & ->).
  destruct (selects_fun _ _ _ _ _ _ _ H1 _ _ K1) as [<- <-].
  assert (rss' = rss) as ->.
  { eapply Forall2_det; [|exact K2|exact H2]. intros; eapply query_rows_fun; eassumption. }
  rewrite (frequencies_fun _ _ _ _ _ H3 K3). reflexivity.
Qed.

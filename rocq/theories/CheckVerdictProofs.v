(** * The verdicts of the checks *)

From Coq Require Import String Permutation.
From Verif Require Import Bytes Winnow RecordModel RecordSpec BaseProofs TagOccModel Utf8Model Utf8Spec Utf8Proofs
  ByteRecordModel MatcherModel MatcherSpec MatcherProofs PathModel FmtModel QueryModel QuerySpec
  QueryProofs QueryExtraProofs CliModel CliSpec CliProofs TableModel TableSpec TableProofs CheckCodes CheckModel CheckSpec
  CheckProofs.

(** flag and message *)
Definition flag_of (v : option (option bytes)) : bool * option bytes :=
  match v with None => (false, None) | Some m => (true, m) end.

Lemma join_joined : forall sep l, l <> [] -> joined sep l (join sep l).
Proof.
  intros sep. induction l as [|x [|y l] IH]; intros H; [congruence|constructor|].
  change (join sep (x :: y :: l)) with (x ++ sep ++ join sep (y :: l)). constructor. apply IH. discriminate.
Qed.

Lemma joined_fun : forall sep l a, joined sep l a -> forall b, joined sep l b -> a = b.
Proof. induction 1; intros b H'; inversion H'; subst; [reflexivity|]. f_equal. f_equal. auto. Qed.

Lemma joined_join : forall sep l a, joined sep l a -> a = join sep l.
Proof.
  intros sep l a H. eapply joined_fun; [exact H|]. apply join_joined. inversion H; discriminate.
Qed.

Lemma map_not_nil : forall A B (f : A -> B) l, l <> [] -> map f l <> [].
Proof. intros A B f [|x l] H; [congruence|discriminate]. Qed.

Section Verdict.
  Variable T : text_fns.
  Variable lossy : bytes -> bytes.
  Hypothesis lossy_nil : forall v, lossy v = [] <-> v = [].
  Variable freq_order : list (bytes * N) -> list (bytes * N).
  Hypothesis freq_perm : forall l, Permutation (freq_order l) l.

  Lemma message_names : forall l, l <> [] -> names lossy l (message_of lossy l).
  Proof. intros l H. apply join_joined. apply map_not_nil. exact H. Qed.

  Lemma message_nil : forall l, message_of lossy l = [] <-> l = [] \/ l = [[]].
  Proof.
    intros l. unfold message_of. destruct l as [|x [|y l]]; cbn [map].
    - cbn. tauto.
    - change (join (lit ", ") [lossy x]) with (lossy x). rewrite lossy_nil. split; [intros ->; auto|].
      intros [H|H]; [discriminate|congruence].
    - split; [|intros [H|H]; discriminate]. intros H. exfalso.
      apply (f_equal (@length byte)) in H. cbn [join] in H. rewrite !app_length in H. cbn in H. lia.
  Qed.

  Lemma value_check_verdict : forall bad (P : bytes -> Prop) vs, (forall x, bad x = true <-> P x) ->
    exists v, value_verdict lossy P vs v /\ value_check lossy bad vs = flag_of v.
  Proof.
    intros bad P vs H. unfold value_check, value_verdict.
    pose proof (picks_filter bytes bytes P (fun x => x) bad vs (fun x _ => H x)) as K. rewrite map_id in K.
    destruct (filter bad vs) as [|x l] eqn:E.
    - exists None. split; [|reflexivity]. exists []. auto.
    - exists (Some (Some (message_of lossy (x :: l)))). split; [|reflexivity]. exists (x :: l). split; [exact K|].
      right. split; [discriminate|]. eexists. split; [apply message_names; discriminate|reflexivity].
  Qed.

  Lemma list_check_verdict : forall O ci p allowed r, opt_sm_wf O ci (p_sub p) ->
    exists vs v, path_lists O ci p r vs /\ list_verdict lossy allowed vs v
      /\ list_check lossy O ci p allowed r = Some (flag_of v).
  Proof.
    intros O ci p allowed r W. destruct (record_path_lists O ci p r W) as (vs & H1 & H2).
    exists vs. unfold list_check. rewrite H1. cbn -[message_of].
    pose proof (picks_filter bytes bytes (fun x => ~ In x allowed) (fun x => x) (fun v => negb (mem_bytes v allowed)) vs) as K.
    rewrite map_id in K.
    assert (HK : forall x, In x vs -> negb (mem_bytes x allowed) = true <-> ~ In x allowed).
    { intros x _. rewrite Bool.negb_true_iff, <- mem_bytes_In. destruct (mem_bytes x allowed); split; congruence. }
    specialize (K HK). set (l := filter _ vs) in *.
    destruct (message_of lossy l) as [|c m] eqn:E.
    - exists None. split; [exact H2|]. split; [|reflexivity]. exists l. split; [exact K|].
      left. split; [apply message_nil; exact E|reflexivity].
    - exists (Some (Some (c :: m))). split; [exact H2|]. split; [|reflexivity]. exists l. split; [exact K|].
      right. assert (N1 : l <> []) by (intros X; rewrite (proj2 (message_nil l)) in E by auto; discriminate).
      assert (N2 : l <> [[]]) by (intros X; rewrite (proj2 (message_nil l)) in E by auto; discriminate).
      split; [exact N1|]. split; [exact N2|]. exists (c :: m). split; [|reflexivity]. rewrite <- E. apply message_names. exact N1.
  Qed.

  Lemma date_ok_iff : forall parses offset v,
    (N.of_nat (length v) <=? offset) || negb (parses (skipn (N.to_nat offset) v)) = true
    <-> ~ date_ok parses offset v.
  Proof.
    intros parses offset v. unfold date_ok. destruct (N.leb_spec (N.of_nat (length v)) offset) as [L|L]; cbn.
    - split; [|reflexivity]. intros _ (a & b & -> & E & Hb & _). rewrite app_length in L. destruct b; [congruence|cbn in L; lia].
    - rewrite Bool.negb_true_iff. split.
      + intros E (a & b & -> & L1 & Hb & Hp). rewrite <- L1, Nnat.Nat2N.id, skipn_app, skipn_all, Nat.sub_diag in E.
        cbn in E. congruence.
      + intros H. destruct (parses (skipn (N.to_nat offset) v)) eqn:E; [|reflexivity]. exfalso. apply H.
        exists (firstn (N.to_nat offset) v), (skipn (N.to_nat offset) v).
        split; [symmetry; apply firstn_skipn|]. rewrite firstn_length. split; [lia|]. split; [|exact E].
        intros X. apply (f_equal (@length byte)) in X. rewrite skipn_length in X. cbn in X. lia.
  Qed.

  (** *** Duplicates *)

  Definition freqs_ok (texts : list bytes) (m : list (bytes * N)) : Prop :=
    NoDup (map fst m)
    /\ forall k n, In (k, n) m <-> In k texts /\ n = N.of_nat (count_occ text_dec texts k).

  Lemma freq_inc_keys : forall x m k, In k (map fst (freq_inc x m)) <-> k = x \/ In k (map fst m).
  Proof.
    intros x. induction m as [|[k' n'] m IH]; intros k; cbn; [intuition|].
    destruct (bytes_eqb k' x) eqn:E; cbn.
    - apply bytes_eqb_eq in E. subst. intuition.
    - rewrite IH. intuition.
  Qed.

  Lemma freq_inc_nodup : forall x m, NoDup (map fst m) -> NoDup (map fst (freq_inc x m)).
  Proof.
    intros x. induction m as [|[k' n'] m IH]; intros N; cbn; [repeat constructor; intros []|].
    cbn in N. inversion N as [|? ? N1 N2]; subst. destruct (bytes_eqb k' x) eqn:E; cbn; constructor; auto.
    rewrite freq_inc_keys. intros [->|H]; [|contradiction]. rewrite bytes_eqb_refl in E. discriminate.
  Qed.

  Lemma freq_inc_In : forall x m k n, NoDup (map fst m) -> In (k, n) (freq_inc x m) <->
    (k <> x /\ In (k, n) m) \/ (k = x /\ ((~ In x (map fst m) /\ n = 1) \/ exists n', In (x, n') m /\ n = n' + 1)).
  Proof.
    intros x. induction m as [|[k' n'] m IH]; intros k n N; cbn [freq_inc].
    - cbn. split.
      + intros [E|[]]. injection E as <- <-. right. auto.
      + intros [[_ []]|[-> [[_ ->]|(? & [] & _)]]]. auto.
    - cbn in N. inversion N as [|? ? N1 N2]; subst. destruct (bytes_eqb k' x) eqn:E.
      + apply bytes_eqb_eq in E. subst k'. cbn. split.
        * intros [E|H].
          -- injection E as <- <-. right. split; [reflexivity|]. right. exists n'. auto.
          -- left. split; [|auto]. intros ->. apply N1. apply (in_map fst) in H. exact H.
        * intros [[D [E|H]]|[-> [[D _]|(n0 & [E|H] & ->)]]].
          -- congruence.
          -- auto.
          -- exfalso. apply D. auto.
          -- left. congruence.
          -- exfalso. apply N1. apply (in_map fst) in H. exact H.
      + assert (D0 : k' <> x) by (intros ->; rewrite bytes_eqb_refl in E; discriminate).
        cbn [In]. rewrite (IH k n N2). cbn [map fst In]. split.
        * intros [Eq|[[D H]|[-> [[D ->]|(n0 & H & ->)]]]].
          -- injection Eq as <- <-. auto.
          -- auto.
          -- right. split; [reflexivity|]. left. split; [|reflexivity]. intros [X|X]; [congruence|contradiction].
          -- right. split; [reflexivity|]. right. exists n0. auto.
        * intros [[D [Eq|H]]|[-> [[D ->]|(n0 & [Eq|H] & ->)]]].
          -- auto.
          -- auto.
          -- right. right. split; [reflexivity|]. left. split; [|reflexivity]. intros X. apply D. auto.
          -- congruence.
          -- right. right. split; [reflexivity|]. right. exists n0. auto.
  Qed.

  Lemma freqs_step : forall texts m x, freqs_ok texts m -> freqs_ok (texts ++ [x]) (freq_inc x m).
  Proof.
    intros texts m x [N H]. split; [apply freq_inc_nodup; exact N|]. intros k n.
    rewrite freq_inc_In by exact N. rewrite in_app_iff, count_occ_app. cbn [count_occ In].
    destruct (text_dec x k) as [->|D].
    - split.
      + intros [[X _]|[_ [[Hn ->]|(n' & Hn & ->)]]]; [congruence| |].
        * split; [auto|]. assert (count_occ text_dec texts k = 0%nat) as ->; [|reflexivity].
          apply count_occ_not_In. intros X. apply Hn. apply (in_map fst (_) (k, N.of_nat (count_occ text_dec texts k))).
          apply H. auto.
        * apply H in Hn as [Hn1 ->]. split; [auto|]. lia.
      + intros [_ ->]. right. split; [reflexivity|]. destruct (in_dec text_dec k texts) as [Hi|Hi].
        * right. eexists. split; [apply H; split; [exact Hi|reflexivity]|]. lia.
        * left. split.
          -- intros X. apply in_map_iff in X as ([k0 n0] & E & X). cbn in E. subst k0. apply H in X as [X _]. contradiction.
          -- assert (count_occ text_dec texts k = 0%nat) as ->; [|reflexivity]. apply count_occ_not_In. exact Hi.
    - rewrite H. split.
      + intros [[_ [H1 ->]]|[X _]]; [|congruence]. split; [auto|]. f_equal. lia.
      + intros [[H1|[X|[]]] ->]; [|congruence]. left. split; [congruence|]. split; [exact H1|]. f_equal. lia.
  Qed.

  Lemma dup_freqs_general : forall sep rows m texts0,
    Forall (fun row : list bytes => row <> []) rows -> freqs_ok texts0 m ->
    exists texts, row_texts lossy sep rows texts
      /\ freqs_ok (texts0 ++ texts)
           (fold_left (fun m row =>
              let values := map lossy row in
              if forallb (fun v => match v with [] => true | _ => false end) values then m
              else freq_inc (join sep values) m) rows m).
  Proof.
    intros sep. induction rows as [|row rows IH]; intros m texts0 F Hm; cbn [fold_left].
    - exists []. rewrite app_nil_r. split; [|exact Hm]. exists []. split; constructor.
    - inversion F as [|? ? F1 F2]; subst. cbn zeta.
      change (fun v : list N => match v with [] => true | _ :: _ => false end) with is_nil.
      destruct (forallb is_nil (map lossy row)) eqn:E.
      + destruct (IH m texts0 F2 Hm) as (texts & (kept & K1 & K2) & H). exists texts. split; [|exact H].
        exists kept. split; [|exact K2]. constructor; [|exact K1]. apply blank_iff in E. tauto.
      + destruct (IH _ _ F2 (freqs_step texts0 m (join sep (map lossy row)) Hm)) as (texts & (kept & K1 & K2) & H).
        exists (join sep (map lossy row) :: texts). split.
        * exists (row :: kept). split.
          -- apply (picks_yes (fun row0 => ~ blank (map lossy row0)) (fun row0 => row0)); [|exact K1].
             intros B. apply blank_iff in B. congruence.
          -- constructor; [|exact K2]. apply join_joined. apply map_not_nil. exact F1.
        * rewrite <- app_assoc in H. exact H.
  Qed.

  Lemma query_columns_pos : forall O qo q, query_wf O qo q -> (0 < query_columns q)%nat.
  Proof.
    intros O qo q [N F]. unfold query_columns. destruct (q_fragments q) as [|fr l]; [congruence|].
    apply Forall_inv in F. cbn [map list_sum fold_right]. change (fold_right Nat.add 0%nat) with list_sum.
    assert (0 < columns fr)%nat; [|lia]. destruct fr as [| p | ]; cbn; try lia.
    destruct F as [_ F]. destruct (p_codes p); [congruence|cbn; lia].
  Qed.

  Lemma dup_check_verdict : forall O ci q threshold sep r, query_wf O (qoptions ci) q ->
    exists rows v, query_rows O T (qoptions ci) q (mkBR None r) rows /\ duplicate_verdict lossy threshold sep rows v
      /\ dup_check T lossy freq_order O ci q threshold sep r = Some (flag_of v).
  Proof.
    intros O ci q threshold sep r W. destruct (query_rows_exist O T (qoptions ci) q (mkBR None r) W) as (rows & H1 & H2 & H3).
    exists rows. unfold dup_check. change (mkQueryOptions ci (lit "|") false false) with (qoptions ci).
    cbn [br_record] in H1. rewrite H1. cbn zeta beta.
    assert (F : Forall (fun row : list bytes => row <> []) rows).
    { eapply Forall_impl; [|exact H3]. intros row L ->. pose proof (query_columns_pos O (qoptions ci) q W). cbn in L. lia. }
    destruct (dup_freqs_general sep rows [] [] F) as (texts & Ht & Hm).
    { split; [constructor|]. intros k n. cbn. tauto. }
    change (freqs_ok ([] ++ texts) (dup_freqs lossy sep rows)) in Hm. destruct Hm as [Nd Hm]. cbn [app] in Hm.
    set (fr := filter (fun e => threshold <=? snd e) (dup_freqs lossy sep rows)).
    assert (Hk : forall k, In k (map fst fr) <-> In k texts /\ threshold <= N.of_nat (count_occ text_dec texts k)).
    { intros k. rewrite in_map_iff. split.
      - intros ([k' n] & E & X). cbn in E. subst k'. apply filter_In in X as [X L]. apply Hm in X as [X ->].
        apply N.leb_le in L. auto.
      - intros [X L]. exists (k, N.of_nat (count_occ text_dec texts k)). split; [reflexivity|]. apply filter_In.
        split; [apply Hm; auto|]. apply N.leb_le. exact L. }
    assert (Nk : NoDup (map fst fr)).
    { subst fr. revert Nd. clear. generalize (dup_freqs lossy sep rows) as m. induction m as [|[k n] l IH]; cbn; intros Nd; [constructor|].
      inversion Nd as [|? ? N1 N2]; subst. destruct (threshold <=? n); [|auto]. cbn. constructor; [|auto].
      intros X. apply N1. apply in_map_iff in X as (e & E & X). apply filter_In in X as [X _]. apply in_map_iff. eauto. }
    pose proof (Permutation_map fst (freq_perm fr)) as Pm.
    destruct fr as [|e l] eqn:Ef.
    - exists None. split; [exact H2|]. split; [|reflexivity]. exists texts, []. split; [exact Ht|]. split; [constructor|].
      split; [exact Hk|]. auto.
    - eexists (Some (Some _)). split; [exact H2|]. split; [|reflexivity].
      exists texts, (map fst (freq_order (e :: l))). split; [exact Ht|].
      split; [eapply Permutation_NoDup; [apply Permutation_sym; exact Pm|exact Nk]|]. split.
      + intros k. rewrite <- Hk. split; apply Permutation_in; [exact Pm|apply Permutation_sym; exact Pm].
      + right. assert (X : map fst (freq_order (e :: l)) <> []).
        { intros X. rewrite X in Pm. apply Permutation_nil in Pm. discriminate Pm. }
        split; [exact X|]. eexists. split; [apply join_joined; exact X|reflexivity].
  Qed.

  (** *** All checks *)

  Lemma concat_map_flat : forall A B (f : A -> list B) l, concat (map f l) = flat_map f l.
  Proof. intros. symmetry. apply flat_map_concat_map. Qed.

  Lemma run_check_verdict : forall c r, check_wf c ->
    exists v, verdict T lossy c r v /\ run_check T lossy freq_order c r = Some (flag_of v).
  Proof.
    intros c r W. destruct c as [O ci p l|O ci p f off|O ci q th sep|O ci m inv|O ci p pre|O ci p|O ci p|O ci s t m|nf];
      cbn [verdict run_check check_wf] in *.
    - destruct (list_check_verdict O ci p l r W) as (vs & v & H1 & H2 & H3). eauto.
    - destruct (record_path_lists O ci p r W) as (vs & H1 & H2). rewrite H1.
      destruct (value_check_verdict _ _ vs (date_ok_iff f off)) as (v & H3 & H4). exists v. rewrite H4. eauto.
    - destruct (dup_check_verdict O ci q th sep r W) as (rows & v & H1 & H2 & H3). eauto.
    - destruct (decides_cases _ _ (fm_decides O ci m r W)) as [[H1 H2]|[H1 H2]]; unfold rm_is_match; rewrite H1; destruct inv; cbn.
      + exists None. split; [right; split; [tauto|reflexivity]|reflexivity].
      + exists (Some None). split; [left; split; [tauto|reflexivity]|reflexivity].
      + exists (Some None). split; [left; split; [tauto|reflexivity]|reflexivity].
      + exists None. split; [right; split; [tauto|reflexivity]|reflexivity].
    - destruct (record_path_lists O ci p r W) as (vs & H1 & H2). rewrite H1.
      destruct (value_check_verdict _ _ vs (isni_reports_iff pre)) as (v & H3 & H4). exists v. rewrite H4. eauto.
    - destruct (list_check_verdict O ci p iso639_codes r W) as (vs & v & H1 & H2 & H3). eauto.
    - destruct (list_check_verdict O ci p jel_codes r W) as (vs & v & H1 & H2 & H3). eauto.
    - exists None. auto.
    - assert (V : record_validate r = true <-> record_utf8 r).
      { rewrite record_validate_iff. unfold record_utf8. split; intros H; [intros f s|]; eauto. }
      destruct (record_validate r).
      + assert (U : record_utf8 r) by (apply V; reflexivity). destruct nf as [f|].
        * destruct (value_check_verdict (fun v => negb (f v)) (fun x => f x <> true)
                      (concat (map (fun f => map sf_value (f_subfields f)) r))) as (v & H1 & H2).
          { intros x. destruct (f x); cbn; split; congruence. }
          exists v. split; [right; auto|]. rewrite concat_map_flat in H2. unfold all_values. rewrite H2. reflexivity.
        * exists None. split; [right; auto|reflexivity].
      + exists (Some None). split; [|reflexivity]. left. split; [|reflexivity]. intros H. apply V in H. discriminate.
  Qed.

  Lemma value_verdict_excl : forall P vs m, value_verdict lossy P vs None -> value_verdict lossy P vs (Some m) -> False.
  Proof.
    intros P vs m (l & H1 & [[-> _]|[_ (? & _ & X)]]) (l' & H1' & [[_ X']|[Nl _]]); try discriminate.
    apply Nl. eapply picks_fun; eassumption.
  Qed.

  Lemma list_verdict_excl : forall a vs m, list_verdict lossy a vs None -> list_verdict lossy a vs (Some m) -> False.
  Proof.
    intros a vs m (l & H1 & [[H2 _]|(_ & _ & ? & _ & X)]) (l' & H1' & [[_ X']|(N1 & N2 & _)]); try discriminate.
    assert (l = l') by (eapply picks_fun; eassumption). subst. tauto.
  Qed.

  Lemma duplicate_texts_fun : forall sep rows a b, row_texts lossy sep rows a -> row_texts lossy sep rows b -> a = b.
  Proof.
    intros sep rows a b (k & H1 & H2) (k' & H1' & H2'). assert (k = k') by (eapply picks_fun; eassumption). subst k'.
    refine (Forall2_det _ _ (fun row t => joined sep (map lossy row) t) _ _ _ _ H2 H2').
    intros x y z Hy Hz. eapply joined_fun; [exact Hy|exact Hz].
  Qed.

  Lemma duplicate_verdict_excl : forall th sep rows m, duplicate_verdict lossy th sep rows None ->
    duplicate_verdict lossy th sep rows (Some m) -> False.
  Proof.
    intros th sep rows m (t & k & H1 & H2 & H3 & [[-> _]|[_ (? & _ & X)]])
      (t' & k' & H1' & H2' & H3' & [[_ X']|[Nk _]]); try discriminate.
    assert (t = t') by (eapply duplicate_texts_fun; eassumption). subst t'.
    destruct k' as [|x k']; [congruence|]. destruct (proj2 (H3 x) (proj1 (H3' x) (or_introl eq_refl))).
  Qed.

  Lemma verdict_excl : forall c r m, verdict T lossy c r None -> verdict T lossy c r (Some m) -> False.
  Proof.
    intros c r m. destruct c as [O ci p l|O ci p f off|O ci q th sep|O ci fm inv|O ci p pre|O ci p|O ci p|O ci s t fm|nf];
      cbn [verdict].
    1, 6, 7: intros (vs & H1 & H2) (vs' & H1' & H2'); rewrite (path_lists_fun _ _ _ _ _ H1' _ H1) in H2'; eapply list_verdict_excl; eassumption.
    1, 4: intros (vs & H1 & H2) (vs' & H1' & H2'); rewrite (path_lists_fun _ _ _ _ _ H1' _ H1) in H2'; eapply value_verdict_excl; eassumption.
    - intros (rs & H1 & H2) (rs' & H1' & H2'). assert (rs = rs') by (eapply query_rows_fun; eassumption). subst rs'.
      eapply duplicate_verdict_excl; eassumption.
    - intros [[_ X]|[H _]] [[H' _]|[_ X']]; try discriminate. contradiction.
    - intros _ X. discriminate X.
    - intros [[_ X]|[H1 H2]] [[H1' X']|[H1' H2']]; try discriminate; try contradiction.
      destruct nf; [|discriminate]. eapply value_verdict_excl; eassumption.
  Qed.

  (** *** Duplicates are rows if the texts determine the rows *)

  Lemma count_map_inj : forall A B (da : forall x y : A, {x = y} + {x <> y}) (db : forall x y : B, {x = y} + {x <> y})
    (R : A -> B -> Prop) l t, Forall2 R l t ->
    (forall x y a, In x l -> In y l -> R x a -> R y a -> x = y) ->
    (forall x a b, R x a -> R x b -> a = b) ->
    forall x a, In x l -> R x a -> count_occ db t a = count_occ da l x.
  Proof.
    intros A B da db R l t H Inj Fn x a Hx Ha.
    assert (G : forall l t, Forall2 R l t -> (forall y, In y l -> forall b, R y b -> R x b -> y = x) ->
      count_occ db t a = count_occ da l x).
    { clear l t H Inj Hx. induction 1 as [|y b l t Hy H IH]; intros Inj; [reflexivity|]. cbn.
      rewrite IH by (intros; eapply Inj; [right; eassumption|eassumption..]).
      destruct (db b a) as [->|D], (da y x) as [->|E]; try reflexivity.
      - exfalso. apply E. eapply Inj; [left; reflexivity|exact Hy|exact Ha].
      - exfalso. apply D. eapply Fn; eassumption. }
    apply G; [exact H|]. intros y Hy b H1 H2. eapply Inj; eassumption.
  Qed.

  Lemma picks_count : forall A (dec : forall x y : A, {x = y} + {x <> y}) P l out, picks P (fun x => x) l out ->
    forall x, P x -> count_occ dec out x = count_occ dec l x.
  Proof.
    induction 1 as [|y l out Hy H IH|y l out Hy H IH]; intros x Hx; cbn; [reflexivity| |].
    - rewrite (IH x Hx). reflexivity.
    - destruct (dec y x) as [->|]; [contradiction|]. auto.
  Qed.

  (** flagged iff a row occurs that often, provided different rows have
      different texts *)
  Lemma duplicate_rows : forall th sep rows v, duplicate_verdict lossy th sep rows v ->
    (forall a b t, In a rows -> In b rows -> joined sep (map lossy a) t -> joined sep (map lossy b) t -> a = b) ->
    (v <> None <-> exists row, In row rows /\ ~ blank row /\ th <= N.of_nat (count_occ row_dec rows row)).
  Proof.
    intros th sep rows v (texts & keys & (kept & K1 & K2) & N & Hk & Hv) Inj.
    assert (B : forall row, blank (map lossy row) <-> blank row).
    { intros row. unfold blank. rewrite Forall_map. split; apply Forall_impl; intros x; apply lossy_nil. }
    assert (C : forall row t, In row kept -> joined sep (map lossy row) t ->
      count_occ text_dec texts t = count_occ row_dec rows row).
    { intros row t Hin Ht. rewrite <- (picks_count _ row_dec _ _ _ K1 row) by (exact (proj2 (proj1 (picks_id_In _ _ _ _ K1 row) Hin))).
      eapply count_map_inj with (R := fun row t => joined sep (map lossy row) t); try eassumption.
      - intros x y a Hx Hy Hxa Hya. eapply Inj; [exact (proj1 (proj1 (picks_id_In _ _ _ _ K1 x) Hx))|exact (proj1 (proj1 (picks_id_In _ _ _ _ K1 y) Hy))|exact Hxa|exact Hya].
      - intros x a b Ha Hb. eapply joined_fun; eassumption. }
    assert (FK : forall row, In row kept -> exists t, In t texts /\ joined sep (map lossy row) t).
    { clear - K2. induction K2 as [|x t l ts H K IH]; intros row; [intros []|]. intros [<-|Hin]; [exists t; cbn; auto|].
      destruct (IH row Hin) as (t' & H1 & H2). exists t'. cbn. auto. }
    assert (FT : forall t, In t texts -> exists row, In row kept /\ joined sep (map lossy row) t).
    { clear - K2. induction K2 as [|x t l ts H K IH]; intros t'; [intros []|]. intros [<-|Hin]; [exists x; cbn; auto|].
      destruct (IH t' Hin) as (row & H1 & H2). exists row. cbn. auto. }
    assert (E : v <> None <-> exists k, In k keys).
    { destruct Hv as [[-> ->]|[Nk (m & _ & ->)]].
      - split; [congruence|]. intros [k []].
      - split; [|discriminate]. intros _. destruct keys as [|k ?]; [congruence|]. exists k. cbn. auto. }
    rewrite E. split.
    - intros [k Hin]. apply Hk in Hin as [Hin L]. destruct (FT k Hin) as (row & H1 & H2). exists row.
      rewrite (C row k H1 H2) in L. apply (picks_id_In _ _ _ _ K1) in H1 as [H1 H3]. rewrite B in H3. auto.
    - intros (row & H1 & H2 & L). rewrite <- B in H2.
      assert (Hin : In row kept) by (apply (picks_id_In _ _ _ _ K1); auto).
      destruct (FK row Hin) as (t & Ht & Hj). exists t. apply Hk. split; [exact Ht|]. rewrite (C row t Hin Hj). exact L.
  Qed.
End Verdict.

(** *** Separators that do not occur *)

Lemma split_first : forall (c : byte) (a b x y : bytes), ~ In c a -> ~ In c b -> a ++ c :: x = b ++ c :: y -> a = b /\ x = y.
Proof.
  intros c. induction a as [|h a IH]; intros [|k b] x y Ha Hb E; cbn in E.
  - injection E as ->. auto.
  - injection E as -> _. exfalso. apply Hb. cbn. auto.
  - injection E as -> _. exfalso. apply Ha. cbn. auto.
  - injection E as -> E. cbn in Ha, Hb. destruct (IH b x y) as [-> ->]; tauto.
Qed.

(** texts of rows whose cells lack the first byte of the separator *)
Lemma joined_inj : forall c sep a b t, joined (c :: sep) a t -> joined (c :: sep) b t ->
  Forall (fun v => ~ In c v) a -> Forall (fun v => ~ In c v) b -> a = b.
Proof.
  intros c sep a b t H. revert b. induction H as [x|x y l t H IH]; intros b Hb Fa Fb.
  - inversion Hb as [z Ez|z y l t' Hb' Ez Et]; subst; [reflexivity|].
    exfalso. apply Forall_inv in Fa. apply Fa. apply in_or_app. right. left. reflexivity.
  - inversion Hb as [z Ez Et|z y' l' t' Hb' Ez Et]; subst.
    + exfalso. apply Forall_inv in Fb. apply Fb. apply in_or_app. right. left. reflexivity.
    + pose proof (Forall_inv Fa) as Fx. pose proof (Forall_inv Fb) as Fz. cbn beta in Fx, Fz.
      apply (split_first c z x (sep ++ t') (sep ++ t) Fz Fx) in Et as [-> Et].
      apply app_inv_head in Et. subst t'. f_equal. apply IH; [exact Hb'|exact (Forall_inv_tail Fa)|exact (Forall_inv_tail Fb)].
Qed.

(** the duplicates check at the level of rows: one column, or a separator whose
    first byte occurs in no cell *)
Lemma duplicates_flagged : forall T lossy freq_order O ci q th sep r rows,
  (forall v, lossy v = [] <-> v = []) -> (forall l, Permutation (freq_order l) l) ->
  query_wf O (qoptions ci) q -> query_rows O T (qoptions ci) q (mkBR None r) rows ->
  Forall (Forall (fun v => lossy v = v)) rows ->
  query_columns q = 1%nat \/ (exists c s, sep = c :: s /\ Forall (Forall (fun v => ~ In c v)) rows) ->
  exists flag msg, run_check T lossy freq_order (CkDuplicates O ci q th sep) r = Some (flag, msg)
    /\ (flag = true <-> exists row, In row rows /\ ~ blank row /\ th <= N.of_nat (count_occ row_dec rows row)).
Proof.
  intros T lossy freq_order O ci q th sep r rows Hl Hf W Hr L S.
  destruct (run_check_verdict T lossy Hl freq_order Hf (CkDuplicates O ci q th sep) r W) as (v & (rows' & Hr' & Hv) & E).
  assert (Er : rows' = rows) by (eapply query_rows_fun; eassumption). rewrite Er in Hv. clear rows' Hr' Er.
  exists (fst (flag_of v)), (snd (flag_of v)). rewrite E. split; [destruct (flag_of v); reflexivity|].
  rewrite <- (duplicate_rows lossy Hl th sep rows v Hv).
  - destruct v; cbn; split; congruence.
  - assert (ML : forall row, In row rows -> map lossy row = row).
    { intros row Hin. rewrite Forall_forall in L. specialize (L row Hin). clear - L.
      induction L as [|x l E L IH]; cbn; congruence. }
    intros a b t Ha Hb Ja Jb. rewrite (ML a Ha) in Ja. rewrite (ML b Hb) in Jb.
    destruct S as [S|(c & s & -> & S)].
    + assert (Wd : forall row, In row rows -> length row = 1%nat).
      { intros row Hin. rewrite <- S. destruct (query_rows_exist O T (qoptions ci) q (mkBR None r) W) as (rows' & _ & H2 & H3).
        rewrite (query_rows_fun _ _ _ _ _ _ _ Hr H2) in Hin. rewrite Forall_forall in H3. apply H3. exact Hin. }
      pose proof (Wd a Ha) as La. pose proof (Wd b Hb) as Lb.
      destruct a as [|x [|x' a]]; cbn in La; try discriminate La. destruct b as [|y [|y' b]]; cbn in Lb; try discriminate Lb.
      inversion Ja; subst. inversion Jb; subst. reflexivity.
    + rewrite Forall_forall in S. eapply joined_inj; [exact Ja|exact Jb|apply S; exact Ha|apply S; exact Hb].
Qed.

(** * Proofs about the whole program: two runs of one command *)

From Coq Require Import String ZArith Lia Permutation.
From Verif Require Import Bytes BaseProofs Winnow RecordModel TagOccModel Utf8Model ByteRecordModel ReaderModel
  MatcherModel StateParser MatcherParserModel BuilderModel PathModel FmtModel QueryModel CliModel TableModel
  ExplodeModel CheckModel ConvertModel CsvModel OptionsModel OptionsSpec ConfigModel PrepareModel IoModel IoSpec WriteSpec DiskModel DirModel RuleModel
  MainModel DiskSpec RuleSpec MainSpec DiskProofs CliChunkProofs MainProofs.
From Verif Require DirSpec.

(** ** Loops with states that are related *)

Section Related.
  Context {S : Type}.
  Variable R : S -> S -> Prop.

  Definition same_end (x y : io_ending S) : Prop :=
    match x, y with
    | IDone a, IDone b | IStopped a, IStopped b => R a b
    | IFailed a er, IFailed b er' => er = er' /\ R a b
    | IPanicked, IPanicked => True
    | _, _ => False
    end.

  Definition same_ends (x y : option (io_ending S)) : Prop :=
    match x, y with
    | None, None => True
    | Some x, Some y => same_end x y
    | _, _ => False
    end.

  Variable body : S -> byte_record -> io_ending S.
  Hypothesis Hbody : forall a b r, R a b -> same_end (body a r) (body b r).

  Lemma reader_loop_related : forall skip fuel a b rd, R a b ->
    same_ends (io_reader_loop (fun s => s) body skip fuel a rd) (io_reader_loop (fun s => s) body skip fuel b rd).
  Proof.
    intros skip. induction fuel as [|fuel IH]; intros a b rd H; [exact I|]. cbn [io_reader_loop].
    destruct (io_next_byte_record rd) as [[[r|er]|] rd'].
    - pose proof (Hbody a b r H) as X. destruct (body a r), (body b r); try contradiction; try exact X.
      apply IH. exact X.
    - destruct (pica_skip er skip); [apply IH; exact H|]. split; [reflexivity|exact H].
    - exact H.
  Qed.

  Lemma files_loop_related : forall skip files a b, R a b ->
    same_ends (io_files_loop (fun s => s) body skip a files) (io_files_loop (fun s => s) body skip b files).
  Proof.
    intros skip. induction files as [|[n [reads|k]] files IH]; intros a b H; [exact H| |split; [reflexivity|exact H]].
    cbn [io_files_loop]. set (rd := io_reader_new reads (Some n)). set (fuel := Datatypes.S (source_size (io_inner rd))).
    pose proof (reader_loop_related skip fuel a b rd H) as X.
    destruct (io_reader_loop (fun s => s) body skip fuel a rd) as [[]|], (io_reader_loop (fun s => s) body skip fuel b rd) as [[]|];
      try contradiction; try exact X. apply IH. exact X.
  Qed.

  Variable gz_dec : bytes -> list piece.
  Variable view : S -> disk.

  Lemma live_loop_related : forall skip names stdin a b,
    (forall a b n, R a b -> In n names -> disk_get (view a) n = disk_get (view b) n) -> R a b ->
    same_ends (live_files_loop gz_dec view body skip a stdin names) (live_files_loop gz_dec view body skip b stdin names).
  Proof.
    intros skip. induction names as [|n names IH]; intros stdin a b Hv H; [exact H|]. cbn [live_files_loop].
    rewrite (inputs_twice gz_dec [n] (view a) (view b) stdin).
    2:{ intros m [<-|[]]. apply Hv; [exact H|left; reflexivity]. }
    pose proof (files_loop_related skip (inputs gz_dec (view b) stdin [n]) a b H) as X.
    destruct (io_files_loop (fun s => s) body skip a (inputs gz_dec (view b) stdin [n])) as [[]|],
             (io_files_loop (fun s => s) body skip b (inputs gz_dec (view b) stdin [n])) as [[]|];
      try contradiction; try exact X.
    apply IH; [|exact X]. intros a' b' m Hab Hm. apply Hv; [exact Hab|right; exact Hm].
  Qed.

  Lemma guarded_related : forall sel (f : S -> byte_record -> io_ending S),
    (forall a b r, R a b -> same_end (f a r) (f b r)) ->
    forall a b r, R a b -> same_end (io_guarded sel f a r) (io_guarded sel f b r).
  Proof. intros sel f Hf a b r H. unfold io_guarded. destruct (sel (br_record r)) as [[]|]; [apply Hf; exact H|exact H|exact I]. Qed.
End Related.

Section Commands.
  Variable gz_enc : bytes -> bytes.
  Variable gz_dec : bytes -> list piece.
  Variable writable : bytes -> bool.
  Variable A : bytes -> Prop.
  Variables w1 w2 : world.
  Hypothesis Hstdin : w_stdin w1 = w_stdin w2.

  Notation get w n := (disk_get (w_disk w) n).
  Notation done := (same_done A).
  Notation pair := (pair A w1 w2).
  Notation both := (both A w1 w2).
  Notation agree names := (forall n, In n names -> disk_get (w_disk w1) n = disk_get (w_disk w2) n).

  Lemma start : pair w1 w2.
  Proof. split; [apply done_refl|exact Hstdin]. Qed.

  Lemma pair_agree : forall v1 v2 n, pair v1 v2 -> get w1 n = get w2 n -> get v1 n = get v2 n.
  Proof. intros v1 v2 n [H _] E. exact (done_agree A w1 w2 v1 v2 H n E). Qed.

  Lemma flushed_twice : forall o t v1 v2, (forall n, out_name o = Some n -> get v1 n = get v2 n) -> pair v1 v2 ->
    pair (with_disk v1 (flushed gz_enc o t (w_disk v1))) (with_disk v2 (flushed gz_enc o t (w_disk v2)))
    /\ tie v1 v2 (with_disk v1 (flushed gz_enc o t (w_disk v1))) (with_disk v2 (flushed gz_enc o t (w_disk v2))).
  Proof.
    intros o t v1 v2 E [H Es]. unfold flushed. destruct (out_name o) as [n|] eqn:En.
    - rewrite (E n eq_refl). split; [split; [apply done_set; exact H|exact Es]|]. apply tie_set. reflexivity.
    - split; [split; [destruct v1, v2; exact H|exact Es]|]. intros m Hm. exact Hm.
  Qed.

  Lemma live_end_twice : forall {S} (R : S -> S -> Prop) close x y v1 v2, same_ends R x y -> done w1 v1 w2 v2 ->
    (forall a b, R a b -> done w1 (with_disk v1 (close a)) w2 (with_disk v2 (close b))) ->
    both (live_end close x v1) (live_end close y v2).
  Proof.
    intros S R close x y v1 v2 X Hd Hc. unfold live_end. destruct x as [x|], y as [y|]; try contradiction; [|exact I].
    destruct x as [a|a|a er|], y as [b|b|b er'|]; try contradiction; cbn [same_ends same_end] in X.
    - split; [reflexivity|apply Hc; exact X].
    - split; [reflexivity|apply Hc; exact X].
    - destruct X as [<- X]. destruct er; try match goal with k : io_kind |- _ => destruct k end; (split; [reflexivity|apply Hc; exact X]).
    - split; [reflexivity|exact Hd].
  Qed.

  Variables O Od : oracles.
  Variable transform : bytes -> bytes.

  Notation no_append o := (out_append o = false).

  Lemma not_appended : forall o, out_append o = false -> allowed A o.
  Proof. intros o H n _ E. congruence. Qed.

  (** *** split *)

  Definition split_pair (a b : dsplit) : Prop :=
    ds_chunks a = ds_chunks b /\ ds_count a = ds_count b /\ ds_open a = ds_open b
    /\ pair (with_disk w1 (ds_disk a)) (with_disk w2 (ds_disk b))
    /\ (forall o t n, ds_open a = Some (o, t) -> out_name o = Some n -> disk_get (ds_disk a) n = disk_get (ds_disk b) n).

  Lemma split_close_twice : forall a b, split_pair a b -> pair (with_disk w1 (split_close gz_enc a)) (with_disk w2 (split_close gz_enc b)).
  Proof.
    intros a b (H1 & H2 & H3 & H4 & H5). unfold split_close. rewrite <- H3. destruct (ds_open a) as [[o t]|]; [|exact H4].
    destruct (flushed_twice o t (with_disk w1 (ds_disk a)) (with_disk w2 (ds_disk b)) (fun n => H5 o t n eq_refl) H4) as [X _]. exact X.
  Qed.

  Lemma open_new_twice : forall o d1 d2, out_append o = false -> pair (with_disk w1 d1) (with_disk w2 d2) ->
    match open_output writable o d1, open_output writable o d2 with
    | Some d1', Some d2' => pair (with_disk w1 d1') (with_disk w2 d2')
        /\ (forall n, out_name o = Some n -> disk_get d1' n = disk_get d2' n)
        /\ (forall n, disk_get d1 n = disk_get d2 n -> disk_get d1' n = disk_get d2' n)
    | None, None => True
    | _, _ => False
    end.
  Proof.
    intros o d1 d2 Ho [H Es]. unfold open_output. rewrite Ho. destruct (out_name o) as [n|] eqn:En.
    - destruct (writable n); [|exact I]. split; [split; [apply (done_set A w1 w2 (with_disk w1 d1) (with_disk w2 d2) n []); exact H|exact Es]|].
      split; [intros m Em; injection Em as <-; rewrite !disk_get_same; reflexivity|].
      exact (tie_set (with_disk w1 d1) (with_disk w2 d2) n [] [] (fun _ => eq_refl)).
    - split; [split; assumption|]. split; [intros n E; discriminate|auto].
  Qed.

  Lemma split_body_twice : forall gzip outdir template size o a b r, split_pair a b ->
    same_end split_pair (split_disk_body gz_enc writable O Od gzip outdir template size o a r)
      (split_disk_body gz_enc writable O Od gzip outdir template size o b r).
  Proof.
    intros gzip outdir template size o a b r H. unfold split_disk_body. revert a b r H. apply guarded_related.
    intros a b r H. pose proof H as (H1 & H2 & H3 & H4 & H5).
    assert (forall a' b', split_pair a' b' -> forall p q,
      p = mkDSplit (ds_chunks a') (ds_count a' + 1) (option_map (fun x => (fst x, snd x ++ br_write r)) (ds_open a')) (ds_disk a') ->
      q = mkDSplit (ds_chunks b') (ds_count b' + 1) (option_map (fun x => (fst x, snd x ++ br_write r)) (ds_open b')) (ds_disk b') ->
      same_end split_pair
        (if limit_reached (fo_limit o) (ds_count p) then IStopped p else IDone p)
        (if limit_reached (fo_limit o) (ds_count q) then IStopped q else IDone q)) as Hw.
    { intros a' b' (K1 & K2 & K3 & K4 & K5) p q -> ->. cbn [ds_count]. rewrite <- K2.
      assert (split_pair
        (mkDSplit (ds_chunks a') (ds_count a' + 1) (option_map (fun x => (fst x, snd x ++ br_write r)) (ds_open a')) (ds_disk a'))
        (mkDSplit (ds_chunks b') (ds_count a' + 1) (option_map (fun x => (fst x, snd x ++ br_write r)) (ds_open b')) (ds_disk b'))) as K.
      { repeat split; cbn [ds_chunks ds_count ds_open ds_disk].
        - exact K1.
        - rewrite K3. reflexivity.
        - apply K4.
        - apply K4.
        - apply K4.
        - intros o' t n E En. destruct (ds_open a') as [[o'' t']|]; [|discriminate]. injection E as <- <-. exact (K5 o'' t' n eq_refl En). }
      destruct (limit_reached (fo_limit o) (ds_count a' + 1)); exact K. }
    rewrite <- H2, <- H1. destruct ((0 <? ds_count a) && (u32 (ds_count a) mod size =? 0)).
    - pose proof (split_close_twice a b H) as Hc.
      pose proof (open_new_twice (chunk_output gzip outdir template (u32 (ds_chunks a + 1))) _ _ eq_refl Hc) as X.
      destruct (open_output writable (chunk_output gzip outdir template (u32 (ds_chunks a + 1))) (split_close gz_enc a)) as [d1|],
               (open_output writable (chunk_output gzip outdir template (u32 (ds_chunks a + 1))) (split_close gz_enc b)) as [d2|];
        try contradiction.
      + destruct X as (X1 & X2 & X3). eapply Hw; [|reflexivity|reflexivity]. repeat split; cbn [ds_chunks ds_count ds_open ds_disk].
        * apply X1.
        * apply X1.
        * apply X1.
        * intros o' t n E En. injection E as <- <-. exact (X2 n En).
      + split; [reflexivity|]. repeat split; cbn [ds_chunks ds_count ds_open ds_disk].
        * apply Hc.
        * apply Hc.
        * apply Hc.
        * intros o' t n E. discriminate.
    - eapply Hw; [exact H|reflexivity|rewrite H1, H2; reflexivity].
  Qed.

  Lemma split_twice : forall a gzip outdir dir_ok template size skip names, agree names ->
    both (split_on_disk gz_enc gz_dec writable O Od transform a gzip outdir dir_ok template size skip names w1)
         (split_on_disk gz_enc gz_dec writable O Od transform a gzip outdir dir_ok template size skip names w2).
  Proof.
    intros a gzip outdir dir_ok template size skip names Hn. unfold split_on_disk.
    apply prepared_twice; [constructor|exact start|]. intros o _. destruct dir_ok; [|split; [reflexivity|apply done_refl]].
    cbv zeta. set (t := template_or template gzip).
    assert (pair (with_disk w1 (w_disk w1)) (with_disk w2 (w_disk w2))) as H0.
    { split; [|exact Hstdin]. pose proof (done_refl A w1 w2) as X. destruct w1, w2. exact X. }
    pose proof (open_new_twice (chunk_output gzip outdir t 0) _ _ eq_refl H0) as X.
    destruct (open_output writable (chunk_output gzip outdir t 0) (w_disk w1)) as [d1|],
             (open_output writable (chunk_output gzip outdir t 0) (w_disk w2)) as [d2|]; try contradiction.
    - destruct X as (X1 & X2 & X3). rewrite <- Hstdin. eapply live_end_twice with (R := split_pair).
      + apply live_loop_related.
        * intros x y r Hxy. apply split_body_twice. exact Hxy.
        * intros x y n (_ & _ & _ & Hp & _) Hin. exact (pair_agree _ _ n Hp (Hn n Hin)).
        * repeat split; cbn [ds_chunks ds_count ds_open ds_disk]; try apply X1. intros o' t' n E En. injection E as <- <-. exact (X2 n En).
      + apply done_refl.
      + intros x y Hxy. apply split_close_twice. exact Hxy.
    - split; [reflexivity|apply done_refl].
  Qed.

  (** *** partition *)

  Variable lossy : bytes -> bytes.
  Variable writer_order : list (bytes * bytes) -> list (bytes * bytes).

  Definition part_pair (file : bytes -> output) (a b : dpart) : Prop :=
    fst a = fst b /\ pair (with_disk w1 (snd a)) (with_disk w2 (snd b))
    /\ (forall v t n, In (v, t) (snd (fst a)) -> out_name (file v) = Some n -> disk_get (snd a) n = disk_get (snd b) n).

  Lemma writer_write_keys : forall v data l x, In x (writer_write v data l) -> fst x = v \/ exists t, In (fst x, t) l.
  Proof.
    intros v data l x H. apply (in_map fst) in H. apply writer_write_In in H. destruct H as [H|H]; [left; exact H|right].
    apply in_map_iff in H. destruct H as [[k t] [E H]]. cbn [fst] in E. subst k. exists t. exact H.
  Qed.

  Lemma existsb_key : forall v (l : list (bytes * bytes)), existsb (fun w => bytes_eqb (fst w) v) l = true -> exists t, In (v, t) l.
  Proof.
    intros v l H. apply existsb_exists in H. destruct H as [[k t] [Hin E]]. apply bytes_eqb_eq in E. cbn in E. subst k. exists t. exact Hin.
  Qed.

  Lemma part_values_twice : forall file limit data vs a b, (forall v, out_append (file v) = false) -> part_pair file a b ->
    let x := part_disk_values (fun v => open_output writable (file v)) limit data vs a in
    let y := part_disk_values (fun v => open_output writable (file v)) limit data vs b in
    snd x = snd y /\ part_pair file (fst x) (fst y).
  Proof.
    intros file limit data vs a b Hf. revert a b. induction vs as [|v vs IH]; intros a b H; [split; [reflexivity|exact H]|].
    destruct H as (H1 & H2 & H3). cbn [part_disk_values]. rewrite <- H1.
    destruct (existsb (fun w => bytes_eqb (fst w) v) (snd (fst a))) eqn:Ee.
    - cbn [fst snd].
      assert (part_pair file ((fst (fst a) + 1, writer_write v data (snd (fst a))), snd a)
                ((fst (fst a) + 1, writer_write v data (snd (fst a))), snd b)) as K.
      { split; [reflexivity|]. split; [exact H2|]. cbn [fst snd]. intros u t n Hin En.
        destruct (writer_write_keys _ _ _ _ Hin) as [Hk|[t' Hk]]; cbn [fst] in Hk.
        - subst u. destruct (existsb_key v _ Ee) as [t' Hk]. exact (H3 v t' n Hk En).
        - exact (H3 u t' n Hk En). }
      destruct (limit_reached limit (fst (fst a) + 1)); [split; [reflexivity|exact K]|]. apply IH. exact K.
    - pose proof (open_new_twice (file v) _ _ (Hf v) H2) as X.
      destruct (open_output writable (file v) (snd a)) as [d1|], (open_output writable (file v) (snd b)) as [d2|]; try contradiction.
      + destruct X as (X1 & X2 & X3). cbn [fst snd].
        assert (part_pair file ((fst (fst a) + 1, writer_write v data (snd (fst a))), d1)
                  ((fst (fst a) + 1, writer_write v data (snd (fst a))), d2)) as K.
        { split; [reflexivity|]. split; [exact X1|]. cbn [fst snd]. intros u t n Hin En.
          destruct (writer_write_keys _ _ _ _ Hin) as [Hk|[t' Hk]]; cbn [fst] in Hk.
          - subst u. exact (X2 n En).
          - apply X3. exact (H3 u t' n Hk En). }
        destruct (limit_reached limit (fst (fst a) + 1)); [split; [reflexivity|exact K]|]. apply IH. exact K.
      + split; [reflexivity|]. split; [exact H1|]. split; [exact H2|]. exact H3.
  Qed.

  Lemma part_close_twice : forall gzip outdir template l v1 v2,
    (forall v t n, In (v, t) l -> out_name (value_output lossy gzip outdir template v) = Some n -> get v1 n = get v2 n) ->
    pair v1 v2 ->
    pair (with_disk v1 (fold_left (fun d x => flushed gz_enc (value_output lossy gzip outdir template (fst x)) (snd x) d) l (w_disk v1)))
         (with_disk v2 (fold_left (fun d x => flushed gz_enc (value_output lossy gzip outdir template (fst x)) (snd x) d) l (w_disk v2))).
  Proof.
    intros gzip outdir template. induction l as [|[v t] l IH]; intros v1 v2 E H; cbn [fold_left fst snd].
    - destruct H as [H Es]. split; [destruct v1, v2; exact H|exact Es].
    - destruct (flushed_twice (value_output lossy gzip outdir template v) t v1 v2) as [H' T];
        [intros n En; exact (E v t n (or_introl eq_refl) En)|exact H|].
      specialize (IH _ _ (fun u t' n Hin En => T n (E u t' n (or_intror Hin) En)) H'). exact IH.
  Qed.

  Lemma partition_twice : forall a p gzip outdir dir_ok template skip names, (forall l, Permutation (writer_order l) l) -> agree names ->
    both (partition_on_disk gz_enc gz_dec writable O Od transform lossy writer_order a p gzip outdir dir_ok template skip names w1)
         (partition_on_disk gz_enc gz_dec writable O Od transform lossy writer_order a p gzip outdir dir_ok template skip names w2).
  Proof.
    intros a p gzip outdir dir_ok template skip names Hp Hn. unfold partition_on_disk.
    apply prepared_twice; [constructor|exact start|]. intros o _. destruct dir_ok; [|split; [reflexivity|apply done_refl]].
    cbv zeta. set (t := template_or template gzip). rewrite <- Hstdin.
    assert (pair (with_disk w1 (w_disk w1)) (with_disk w2 (w_disk w2))) as H0.
    { split; [|exact Hstdin]. pose proof (done_refl A w1 w2) as X. destruct w1, w2. exact X. }
    eapply live_end_twice with (R := part_pair (value_output lossy gzip outdir t)).
    - apply live_loop_related.
      + unfold partition_disk_body. apply guarded_related. intros x y r Hxy.
        destruct (record_path O (fo_ci o) p (br_record r)) as [values|]; [|exact I].
        destruct (part_values_twice (value_output lossy gzip outdir t) (fo_limit o) (br_write r) (dedup (sort_values values)) x y
                    (fun v => eq_refl) Hxy) as [E K].
        destruct (part_disk_values _ _ _ _ x) as [x' q], (part_disk_values _ _ _ _ y) as [y' q']. cbn [fst snd] in E, K. subst q'.
        destruct q as [[]|]; [exact K|exact K|split; [reflexivity|exact K]].
      + intros x y n (_ & Hd & _) Hin. exact (pair_agree _ _ n Hd (Hn n Hin)).
      + split; [reflexivity|]. split; [exact H0|]. cbn. intros v t' n [].
    - apply done_refl.
    - intros x y (E & Hd & Hf). unfold partition_close. rewrite <- E.
      apply (part_close_twice gzip outdir t (writer_order (snd (fst x))) (with_disk w1 (snd x)) (with_disk w2 (snd y))); [|exact Hd].
      intros v t' n Hin En. apply (Hf v t' n); [|exact En]. exact (Permutation_in _ (Hp _) Hin).
  Qed.
End Commands.

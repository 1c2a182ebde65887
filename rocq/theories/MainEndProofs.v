(** * Proofs about the whole program: which files a run changes, runs again and in
      another order *)

From Coq Require Import String ZArith Lia Permutation.
From Verif Require Import Bytes BaseProofs Winnow RecordModel TagOccModel Utf8Model ByteRecordModel ReaderModel
  MatcherModel StateParser MatcherParserModel BuilderModel PathModel FmtModel QueryModel CliModel TableModel
  ExplodeModel CheckModel ConvertModel CsvModel OptionsModel OptionsSpec OptionsProofs ConfigModel ConfigSpec ConfigProofs
  PrepareModel IoModel IoSpec WriteSpec DiskModel DirModel RuleModel
  MainModel DiskSpec RuleSpec MainSpec HaltSpec DiskProofs DiskCommandProofs DirLoopProofs DirSplitProofs DirCommandProofs
  RuleEndProofs HaltProofs MainProofs MainTwiceProofs MainUseProofs MainDependProofs.
From Verif Require DirSpec.

(** ** partition leaves the other files alone, whatever the regular expressions are *)

Section Partition.
  Variable gz_enc : bytes -> bytes.
  Variable gz_dec : bytes -> list piece.
  Variable writable : bytes -> bool.
  Variables O Od : oracles.
  Variable transform : bytes -> bytes.
  Variable lossy : bytes -> bytes.
  Variable writer_order : list (bytes * bytes) -> list (bytes * bytes).

  Lemma partition_leaves : forall a p gzip outdir dir_ok template skip names w c w',
    partition_on_disk gz_enc gz_dec writable O Od transform lossy writer_order a p gzip outdir dir_ok template skip names w
      = Some (c, w') ->
    forall n, (forall v, ~ DirSpec.file_for template gzip outdir (lossy v) n) ->
    disk_get (w_disk w') n = disk_get (w_disk w) n.
  Proof.
    intros a p gzip outdir dir_ok template skip names w c w' H n Hn. unfold partition_on_disk in H.
    set (t := template_or template gzip) in *.
    assert (HN : forall v, path_join outdir (partition_name lossy t v) <> n).
    { intros v E. apply (Hn v). apply file_for_path. symmetry. exact E. }
    assert (HO : forall v d d', open_output writable (value_output lossy gzip outdir t v) d = Some d' -> disk_get d' n = disk_get d n).
    { intros v d d' Ho. unfold open_output, value_output, builder_output in Ho. cbn [out_name out_append] in Ho.
      destruct (writable _); [|discriminate]. injection Ho as <-. apply disk_get_other.
      exact (HN v). }
    destruct (fst (opts_prepare O Od transform a)) as [[o|]|]; cbn [prepared] in H;
      [|injection H as _ <-; reflexivity|discriminate].
    destruct dir_ok; [|injection H as _ <-; reflexivity].
    set (P := fun s : dpart => disk_get (snd s) n = disk_get (w_disk w) n).
    assert (HP : forall s r, P s -> end_holds P (partition_disk_body writable O Od lossy gzip outdir t p o s r)).
    { intros s r Hs. unfold partition_disk_body, io_guarded. destruct (opts_select O Od o (br_record r)) as [[|]|]; [|exact Hs|exact I].
      destruct (record_path O (fo_ci o) p (br_record r)) as [values|]; [|exact I].
      set (vs := dedup (sort_values values)). clearbody vs. clear H.
      assert (HV : P (fst (part_disk_values (fun v => open_output writable (value_output lossy gzip outdir t v)) (fo_limit o) (br_write r) vs s))).
      { revert s Hs. induction vs as [|v vs IH]; intros s Hs; cbn [part_disk_values]; [exact Hs|]. cbv zeta.
        destruct (if existsb (fun w => bytes_eqb (fst w) v) (snd (fst s)) then Some (snd s)
                  else open_output writable (value_output lossy gzip outdir t v) (snd s)) as [d|] eqn:Ed; [|exact Hs].
        assert (Hd : disk_get d n = disk_get (w_disk w) n).
        { destruct (existsb _ _); [injection Ed as <-; exact Hs|]. rewrite (HO _ _ _ Ed). exact Hs. }
        destruct (limit_reached _ _); [exact Hd|]. apply IH. exact Hd. }
      destruct (part_disk_values _ _ _ _ _) as [s' [[|]|]]; exact HV. }
    destruct (live_files_loop _ _ _ _ _ _ _) as [x|] eqn:E; [|discriminate].
    pose proof (live_invariant P _ skip HP _ _ _ _ _ _ (eq_refl : P ((0, []), w_disk w)) E) as Hx.
    assert (HC : forall s, P s -> disk_get (partition_close gz_enc lossy writer_order gzip outdir t s) n = disk_get (w_disk w) n).
    { intros s Hs. unfold partition_close. generalize (writer_order (snd (fst s))). intros l.
      assert (HF : forall d, disk_get d n = disk_get (w_disk w) n ->
        disk_get (fold_left (fun d x => flushed gz_enc (value_output lossy gzip outdir t (fst x)) (snd x) d) l d) n = disk_get (w_disk w) n).
      { induction l as [|y l IH]; intros d Hd; [exact Hd|]. cbn [fold_left]. apply IH. unfold flushed, value_output, builder_output.
        cbn [out_name]. rewrite disk_get_other; [exact Hd|]. intros X. exact (HN _ X). }
      exact (HF _ Hs). }
    unfold live_end in H. destruct x as [s|s|s er|]; cbn [end_holds] in Hx;
      try (destruct (main_status _); injection H as _ <-; [exact (HC s Hx)|reflexivity]).
    injection H as _ <-. reflexivity.
  Qed.
End Partition.

(** ** One run *)

Section Run.
  Variable e : env.

  Lemma config_changes : forall a c c', config_decide a c = DSave c' -> exists name v, changes a name v.
  Proof.
    intros a c c' H. unfold config_decide in H.
    destruct (bytes_eqb (ca_name a) (lit "skip-invalid")) eqn:E1; cbn [negb andb] in H.
    - apply bytes_eqb_eq in E1. destruct (ca_value a) as [w|] eqn:Ev.
      + destruct (bool_parse w) as [b|] eqn:Eb; [|discriminate].
        exists (lit "skip-invalid"), (Some w). split; [exact E1|]. split; [left; reflexivity|].
        split; [exact Ev|]. apply skip_valid. exists b. exact Eb.
      + destruct (ca_unset a) eqn:Eu; [|destruct (ca_get a || negb false && negb (ca_set a)); discriminate].
        exists (lit "skip-invalid"), None. split; [exact E1|]. split; [left; reflexivity|]. auto.
    - destruct (bytes_eqb (ca_name a) (lit "normalization")) eqn:E2; cbn [negb andb] in H; [|discriminate].
      apply bytes_eqb_eq in E2. destruct (ca_value a) as [w|] eqn:Ev.
      + destruct (nf_parse w) as [b|] eqn:Eb; [|discriminate].
        exists (lit "normalization"), (Some w). split; [exact E2|]. split; [right; reflexivity|].
        split; [exact Ev|]. apply norm_valid. exists b. exact Eb.
      + destruct (ca_unset a) eqn:Eu; [|destruct (ca_get a || negb false && negb (ca_set a)); discriminate].
        exists (lit "normalization"), None. split; [exact E2|]. split; [right; reflexivity|]. auto.
  Qed.

  Lemma place_name : forall i, snd (place e i) = config_name e i.
  Proof. intros i. unfold place, config_name. destruct (in_config i); [reflexivity|]. destruct (e_home e); reflexivity. Qed.

  (** what config leaves in its file: nothing new, or a saved configuration *)
  Lemma config_file_after : forall from_toml p fate a f x f', config_main from_toml p fate a f = (x, f') ->
    f' = f \/ (exists name v, changes a name v).
  Proof.
    intros from_toml p fate a f x f' H. unfold config_main in H. destruct (config_start from_toml p f) as [c| |];
      [|injection H as _ <-; left; reflexivity..].
    destruct (config_decide a c) as [| |out|c'] eqn:Ed; [injection H as _ <-; left; reflexivity..|].
    right. exact (config_changes a c c' Ed).
  Qed.

  Lemma execute_leaves : forall c k w x w', execute e c k w = Some (x, w') ->
    forall cfg n, ~ may_change e (mkInvocation cfg k) n -> disk_get (w_disk w') n = disk_get (w_disk w) n.
  Proof.
    intros c k w x w' H cfg n Hn.
    assert (Ho : ~ In n (output_names k)) by (intros X; apply Hn; apply mc_output; exact X).
    destruct k; cbn [execute output_names] in *.
    - apply (others_unchanged _ _ _ _ _ _ _ _ _ _ _ _ _ _ _ _ _ _ _ _ _ _ _ _ _ _ _ _ H). intros ->. apply Ho. left. reflexivity.
    - exact (concat_frame _ _ _ _ _ _ _ _ _ _ _ _ _ _ _ H n Ho).
    - discriminate.
    - exact (convert_frame _ _ _ _ _ _ _ _ _ _ _ _ _ H n Ho).
    - exact (count_frame _ _ _ _ _ _ _ _ _ _ _ _ _ _ _ H n Ho).
    - exact (describe_frame _ _ _ _ _ _ _ _ _ _ _ _ _ _ _ _ _ _ _ H n Ho).
    - exact (explode_frame _ _ _ _ _ _ _ _ _ _ _ _ _ _ _ _ _ H n Ho).
    - exact (filter_frame _ _ _ _ _ _ _ _ _ _ _ _ _ _ H n Ho).
    - exact (freq_frame _ _ _ _ _ _ _ _ _ _ _ _ _ _ _ _ _ _ _ _ _ _ _ H n Ho).
    - exact (hash_frame _ _ _ _ _ _ _ _ _ _ _ _ _ _ _ _ _ _ H n Ho).
    - exact (invalid_frame _ _ _ _ _ _ _ _ H n Ho).
    - apply (partition_leaves _ _ _ _ _ _ _ _ _ _ _ _ _ _ _ _ _ _ _ H). intros v X. apply Hn.
      exact (mc_value e (mkInvocation cfg _) o p gzip outdir template names v n eq_refl X).
    - exact (print_frame _ _ _ _ _ _ _ _ _ _ _ _ _ _ H n Ho).
    - exact (sample_frame _ _ _ _ _ _ _ _ _ _ _ _ _ _ _ _ H n Ho).
    - exact (select_frame _ _ _ _ _ _ _ _ _ _ _ _ _ _ _ _ _ _ _ _ _ _ _ H n Ho).
    - exact (slice_frame _ _ _ _ _ _ _ _ _ _ _ _ _ _ _ _ _ _ H n Ho).
    - apply (split_frame _ _ _ _ _ _ _ _ _ _ _ _ _ _ _ _ _ H). intros k X. apply Hn.
      exact (mc_chunk e (mkInvocation cfg _) o gzip outdir template size names k n eq_refl X).
  Qed.

  Lemma run_leaves : forall i w x w', run e i w = Some (x, w') ->
    forall n, ~ may_change e i n -> disk_get (w_disk w') n = disk_get (w_disk w) n.
  Proof.
    intros [cfg k] w x w' H n Hn. unfold run in H. cbn [in_command] in H.
    assert (G : forall k', k' = k -> (let '(p, m) := place e (mkInvocation cfg k) in
        match config_start (e_config_toml e) p (file_on (w_disk w) m) with
        | LConfig c => execute e c k' w | LFails => Some (CRefused, w) | LPanics => Some (CPanicked, w) end) = Some (x, w') ->
        disk_get (w_disk w') n = disk_get (w_disk w) n).
    { intros k' -> Hk. destruct (place e _) as [p m]. destruct (config_start _ _ _) as [c| |].
      - exact (execute_leaves c k w x w' Hk cfg n Hn).
      - injection Hk as _ <-. reflexivity.
      - injection Hk as _ <-. reflexivity. }
    destruct k; try exact (G _ eq_refl H).
    clear G. injection H as H. unfold run_config in H.
    pose proof (place_name (mkInvocation cfg (KConfig a))) as Hp. destruct (place e _) as [p m]. cbn [snd] in Hp.
    destruct (config_main _ _ _ _ _) as [y f] eqn:Em.
    assert (HD : disk_get (w_disk (match m, f with Some m, FHolds b => with_disk w (disk_set (w_disk w) m b) | _, _ => w end)) n
                 = disk_get (w_disk w) n).
    { destruct m as [m|]; [|reflexivity]. destruct f as [| |b] eqn:Ef; try reflexivity. cbn [with_disk w_disk].
      destruct (list_eq_dec N.eq_dec m n) as [->|Hd]; [|apply disk_get_other; exact Hd].
      rewrite disk_get_same. destruct (config_file_after _ _ _ _ _ _ _ Em) as [E|(name & v & Hc)].
      - unfold file_on in E. destruct (disk_get (w_disk w) n); congruence.
      - exfalso. apply Hn. exact (mc_config e (mkInvocation cfg _) a name v n eq_refl Hc (eq_sym Hp)). }
    destruct y; injection H as _ <-; cbn [w_disk]; exact HD.
  Qed.

  (** ** Two runs *)

  Hypothesis Horder : forall l, Permutation (e_writer_order e l) l.

  Lemma run_twice : forall i w1 w2, w_stdin w1 = w_stdin w2 ->
    (forall n, needs e i w1 n -> disk_get (w_disk w1) n = disk_get (w_disk w2) n) ->
    both (extends i) w1 w2 (run e i w1) (run e i w2).
  Proof.
    intros [cfg k] w1 w2 Hs Hn. set (i := mkInvocation cfg k) in *.
    assert (HF : file_on (w_disk w1) (snd (place e i)) = file_on (w_disk w2) (snd (place e i))).
    { rewrite place_name. destruct (config_name e i) as [m|] eqn:Em; [|reflexivity]. unfold file_on.
      rewrite (Hn m); [reflexivity|]. exact (nd_config e i w1 m Em). }
    assert (G : both (extends i) w1 w2
        (let '(p, m) := place e i in match config_start (e_config_toml e) p (file_on (w_disk w1) m) with
          | LConfig c => execute e c k w1 | LFails => Some (CRefused, w1) | LPanics => Some (CPanicked, w1) end)
        (let '(p, m) := place e i in match config_start (e_config_toml e) p (file_on (w_disk w2) m) with
          | LConfig c => execute e c k w2 | LFails => Some (CRefused, w2) | LPanics => Some (CPanicked, w2) end)).
    { destruct (place e i) as [p m]. cbn [snd] in HF. rewrite <- HF. destruct (config_start _ _ _) as [c| |].
      - apply execute_twice; [exact Horder|exact Hs|]. intros n X. apply Hn. apply nd_used. exact X.
      - split; [reflexivity|]. apply done_refl.
      - split; [reflexivity|]. apply done_refl. }
    unfold run. change (in_command i) with k.
    destruct k; try exact G.
    clear G. unfold run_config. destruct (place e i) as [p m]. cbn [snd] in HF. rewrite <- HF.
    destruct (config_main _ _ _ _ _) as [y f].
    set (v1 := match m, f with Some n, FHolds b => with_disk w1 (disk_set (w_disk w1) n b) | _, _ => w1 end).
    set (v2 := match m, f with Some n, FHolds b => with_disk w2 (disk_set (w_disk w2) n b) | _, _ => w2 end).
    assert (HD : same_done (extends i) w1 v1 w2 v2).
    { subst v1 v2. destruct m as [m|]; [|apply done_refl]. destruct f as [| |b]; [apply done_refl..|].
      apply done_set. apply done_refl. }
    clearbody v1 v2. destruct y; (split; [reflexivity|]); first [exact HD|apply done_out; exact HD].
  Qed.
End Run.

(** ** Every run ends *)

Lemma execute_ends : forall e c k w, (forall a, k <> KConfig a) -> comes_to_an_end (execute e c k w).
Proof.
  intros e c k w Hk. destruct k; cbn [execute].
  - unfold check_files_on_disk. cbv zeta.
    destruct (disk_rules _ _ _ _ _ _ _ _ _ _ _ _ _ _ _ _) as [rules'|] eqn:E; [|exfalso; revert E; apply rules_never_panic].
    apply check_ends.
  - apply concat_ends.
  - exfalso. exact (Hk a eq_refl).
  - apply convert_ends.
  - apply count_ends.
  - apply describe_ends.
  - apply explode_ends.
  - apply filter_ends.
  - apply freq_ends.
  - apply hash_ends.
  - apply invalid_command_ends.
  - apply partition_ends.
  - apply print_ends.
  - apply sample_ends.
  - apply select_ends.
  - apply slice_ends.
  - apply split_ends.
Qed.

Lemma run_ends : forall e i w, comes_to_an_end (run e i w).
Proof.
  intros e i w. unfold run.
  assert (G : forall k, (forall a, k <> KConfig a) -> comes_to_an_end
      (let '(p, n) := place e i in match config_start (e_config_toml e) p (file_on (w_disk w) n) with
        | LConfig c => execute e c k w | LFails => Some (CRefused, w) | LPanics => Some (CPanicked, w) end)).
  { intros k Hk. destruct (place e i) as [p n]. destruct (config_start _ _ _) as [c| |].
    - apply execute_ends. exact Hk.
    - exists CRefused, w. split; [reflexivity|discriminate].
    - exists CPanicked, w. split; [reflexivity|discriminate]. }
  destruct (in_command i); try (apply G; discriminate).
  unfold run_config. destruct (place e i) as [p n]. destruct (config_main _ _ _ _ _) as [x f].
  destruct x; (eexists _, _; split; [reflexivity|]); try discriminate. intros n0 E. left. congruence.
Qed.

Lemma session_ends : forall steps w, exists cs w', session steps w = Some (cs, w')
  /\ length cs = length steps /\ Forall (fun c => end_status c = Some 0 \/ end_status c = Some 2 \/ end_status c = None) cs.
Proof.
  induction steps as [|[[e i] stdin] steps IH]; intros w; cbn [session].
  - exists [], w. repeat split. constructor.
  - destruct (run_ends e i (mkWorld (w_disk w) stdin (w_stdout w))) as (c & w1 & E & Hc). rewrite E. cbn [fst snd].
    destruct (IH w1) as (cs & w' & E' & Hl & Hcs). rewrite E'. cbn [fst snd]. exists (c :: cs), w'.
    split; [reflexivity|]. split; [cbn [length]; rewrite Hl; reflexivity|]. constructor; [|exact Hcs].
    destruct c as [| |n]; cbn [end_status].
    + right. left. reflexivity.
    + right. right. reflexivity.
    + destruct (Hc n eq_refl) as [->| ->]; auto.
Qed.

(** ** Sessions *)

Lemma session_leaves : forall steps w cs w', session steps w = Some (cs, w') ->
  forall n, (forall e i stdin, In (e, i, stdin) steps -> ~ may_change e i n) ->
  disk_get (w_disk w') n = disk_get (w_disk w) n.
Proof.
  induction steps as [|[[e i] stdin] steps IH]; intros w cs w' H n Hn; cbn [session] in H.
  - injection H as _ <-. reflexivity.
  - destruct (run e i _) as [[c w1]|] eqn:E; [|discriminate]. cbn [snd fst] in H.
    destruct (session steps w1) as [[cs' w2]|] eqn:E'; [|discriminate]. cbn [snd fst] in H. injection H as _ <-.
    rewrite (IH _ _ _ E' n).
    + exact (run_leaves e i _ _ _ E n (Hn e i stdin (or_introl eq_refl))).
    + intros e' i' s' Hin. apply (Hn e' i' s'). right. exact Hin.
Qed.

Lemma both_some : forall A w1 w2 c v1 r2, both A w1 w2 (Some (c, v1)) r2 ->
  exists v2, r2 = Some (c, v2) /\ same_done A w1 v1 w2 v2.
Proof.
  intros A w1 w2 c v1 [[c2 v2]|] H; [|contradiction]. destruct H as [-> H]. exists v2. auto.
Qed.

(** the program run again *)
Lemma run_again : forall e i w c w', (forall l, Permutation (e_writer_order e l) l) ->
  run e i w = Some (c, w') -> appends (in_command i) = false ->
  (forall n, needs e i w n -> ~ may_change e i n) ->
  exists w'', run e i (fed (w_stdin w) w') = Some (c, w'')
    /\ (forall n, disk_get (w_disk w'') n = disk_get (w_disk w') n)
    /\ exists t, w_stdout w' = w_stdout w ++ t /\ w_stdout w'' = w_stdout w' ++ t.
Proof.
  intros e i w c w' Ho H Ha Hn.
  pose proof (run_twice e Ho i w (fed (w_stdin w) w') eq_refl) as T. rewrite H in T.
  destruct (both_some _ _ _ _ _ _ (T (fun n Hd => eq_sym (run_leaves e i w c w' H n (Hn n Hd))))) as (w'' & E & Hd & t & Ht1 & Ht2).
  exists w''. split; [exact E|]. split.
  - intros n. destruct (Hd n) as [[_ H2]|[(x & H1 & H2)|[[X _] _]]].
    + exact H2.
    + congruence.
    + rewrite Ha in X. discriminate.
  - exists t. split; [exact Ht1|exact Ht2].
Qed.

(** two runs in another order *)
Lemma decided : forall (a b : option bytes), ~ a <> b -> a = b.
Proof.
  intros a b H. assert (D : {a = b} + {a <> b}) by (decide equality; apply list_eq_dec; apply N.eq_dec).
  destruct D as [D|D]; [exact D|]. contradiction.
Qed.

Lemma runs_commute : forall e1 i1 s1 e2 i2 s2 w,
  (forall l, Permutation (e_writer_order e1 l) l) -> (forall l, Permutation (e_writer_order e2 l) l) ->
  (forall n, may_change e1 i1 n -> ~ needs e2 i2 (fed s2 w) n /\ ~ may_change e2 i2 n) ->
  (forall n, may_change e2 i2 n -> ~ needs e1 i1 (fed s1 w) n) ->
  exists c1 c2 w12 w21 t1 t2,
    session [(e1, i1, s1); (e2, i2, s2)] w = Some ([c1; c2], w12)
    /\ session [(e2, i2, s2); (e1, i1, s1)] w = Some ([c2; c1], w21)
    /\ (forall n, disk_get (w_disk w12) n = disk_get (w_disk w21) n)
    /\ w_stdout w12 = w_stdout w ++ t1 ++ t2 /\ w_stdout w21 = w_stdout w ++ t2 ++ t1.
Proof.
  intros e1 i1 s1 e2 i2 s2 w O1 O2 H12 H21.
  destruct (run_ends e1 i1 (fed s1 w)) as (c1 & v1 & R1 & _).
  destruct (run_ends e2 i2 (fed s2 w)) as (c2 & v2 & R2 & _).
  assert (F1 : forall n, ~ may_change e1 i1 n -> disk_get (w_disk v1) n = disk_get (w_disk w) n)
    by (exact (run_leaves e1 i1 (fed s1 w) c1 v1 R1)).
  assert (F2 : forall n, ~ may_change e2 i2 n -> disk_get (w_disk v2) n = disk_get (w_disk w) n)
    by (exact (run_leaves e2 i2 (fed s2 w) c2 v2 R2)).
  pose proof (run_twice e2 O2 i2 (fed s2 w) (fed s2 v1) eq_refl) as T2. rewrite R2 in T2.
  destruct (both_some _ _ _ _ _ _ (T2 (fun n Hd => eq_sym (F1 n (fun M => proj1 (H12 n M) Hd))))) as (w12 & E12 & D12 & t2 & P2 & Q2).
  pose proof (run_twice e1 O1 i1 (fed s1 w) (fed s1 v2) eq_refl) as T1. rewrite R1 in T1.
  destruct (both_some _ _ _ _ _ _ (T1 (fun n Hd => eq_sym (F2 n (fun M => H21 n M Hd))))) as (w21 & E21 & D21 & t1 & P1 & Q1).
  exists c1, c2, w12, w21, t1, t2.
  change (session [(e1, i1, s1); (e2, i2, s2)] w) with
    (match run e1 i1 (fed s1 w) with
     | Some r => match (match run e2 i2 (fed s2 (snd r)) with Some r' => Some ([fst r'], snd r') | None => None end) with
                 | Some rs => Some (fst r :: fst rs, snd rs) | None => None end
     | None => None end).
  change (session [(e2, i2, s2); (e1, i1, s1)] w) with
    (match run e2 i2 (fed s2 w) with
     | Some r => match (match run e1 i1 (fed s1 (snd r)) with Some r' => Some ([fst r'], snd r') | None => None end) with
                 | Some rs => Some (fst r :: fst rs, snd rs) | None => None end
     | None => None end).
  rewrite R1, R2. cbn [snd fst]. rewrite E12, E21. cbn [snd fst].
  split; [reflexivity|]. split; [reflexivity|]. split.
  - intros n. apply decided. intros X.
    assert (N1 : ~ ~ may_change e1 i1 n).
    { intros M. apply X. pose proof (run_leaves e1 i1 _ _ _ E21 n M) as Fb. specialize (F1 n M).
      destruct (D12 n) as [[Da Db]|[(z & Da & Db)|(_ & t & Da & Db)]]; cbn [fed w_disk] in *.
      - congruence.
      - congruence.
      - unfold before in *. cbn [fed w_disk] in *. rewrite F1 in Db. congruence. }
    assert (N2 : ~ ~ may_change e2 i2 n).
    { intros M. apply X. pose proof (run_leaves e2 i2 _ _ _ E12 n M) as Fb. specialize (F2 n M).
      destruct (D21 n) as [[Da Db]|[(z & Da & Db)|(_ & t & Da & Db)]]; cbn [fed w_disk] in *.
      - congruence.
      - congruence.
      - unfold before in *. cbn [fed w_disk] in *. rewrite F2 in Db. congruence. }
    apply N1. intros M1. apply N2. exact (proj2 (H12 n M1)).
  - cbn [fed w_stdout] in *. rewrite Q2, P1, Q1, P2. rewrite <- !app_assoc. split; reflexivity.
Qed.

(** ** The configured skip-invalid is the flag *)

Lemma skip_flag : forall e b nf k w, execute e (mkConfig true nf) k w = execute e (mkConfig b nf) (with_skip k) w.
Proof.
  intros e b nf k w. destruct k; try reflexivity;
    cbn [execute with_skip skipping o_skip cf_skip_invalid cf_normalization]; rewrite Bool.orb_true_r; reflexivity.
Qed.

Lemma configured_skip : forall e i a k stdin w w1, (forall l, Permutation (e_writer_order e l) l) ->
  (forall t c, OptionsSpec.file_says t c -> e_config_toml e t = Some c) ->
  in_command i = KConfig a -> changes a (lit "skip-invalid") (Some (lit "true")) ->
  run e i w = Some (CEnded 0, w1) ->
  (forall a', k <> KConfig a') ->
  (forall n, config_name e i = Some n -> ~ uses e (fed stdin w) k n) ->
  exists x v v',
    run e (mkInvocation (in_config i) (with_skip k)) (fed stdin w) = Some (x, v)
    /\ run e (mkInvocation (in_config i) k) (fed stdin w1) = Some (x, v')
    /\ same_done (extends (mkInvocation (in_config i) k)) (fed stdin w) v (fed stdin w1) v'.
Proof.
  intros e i a k stdin w w1 Ho RT Ei Hc H Hk Hu.
  assert (Hr : forall k' u, (forall a', k' <> KConfig a') -> run e (mkInvocation (in_config i) k') u =
     let '(p, n) := place e i in match config_start (e_config_toml e) p (file_on (w_disk u) n) with
        | LConfig c => execute e c k' u | LFails => Some (CRefused, u) | LPanics => Some (CPanicked, u) end).
  { intros k' u Hk'. unfold run. cbn [in_command]. change (place e (mkInvocation (in_config i) k')) with (place e i).
    destruct k'; try reflexivity. exfalso. exact (Hk' a0 eq_refl). }
  assert (Hk2 : forall a', with_skip k <> KConfig a') by (intros a'; destruct k; try discriminate; exact (Hk a')).
  rewrite (Hr k _ Hk), (Hr (with_skip k) _ Hk2). clear Hr.
  unfold run in H. rewrite Ei in H. injection H as H. unfold run_config in H.
  pose proof (place_name e i) as Hp. destruct (place e i) as [p m] eqn:Ep. cbn [snd] in Hp.
  destruct (config_main _ _ _ _ _) as [y f] eqn:Em. unfold config_main in Em.
  destruct (config_start (e_config_toml e) p (file_on (w_disk w) m)) as [c| |] eqn:Es;
    [|injection Em as <- <-; discriminate..].
  destruct (decide_saves a c _ _ Hc) as (c' & Ed & U). rewrite Ed in Em.
  destruct U as [(_ & Un & Us)|[X _]]; [|discriminate].
  assert (Es' : cf_skip_invalid c' = true) by (apply Us; reflexivity).
  destruct c' as [b' nf']. cbn [cf_skip_invalid cf_normalization] in *. subst b' nf'.
  destruct m as [m|]; [|unfold config_save in Em; destruct p; injection Em as <- <-; discriminate].
  destruct (e_writable e m); [|unfold config_save in Em; destruct p; injection Em as <- <-; discriminate].
  assert (Hpn : p <> PNowhere) by (intros ->; cbn in Em; injection Em as <- <-; discriminate).
  replace (config_save p SaveWorks (mkConfig true (cf_normalization c)) (file_on (w_disk w) (Some m)))
    with (true, FHolds (config_toml (mkConfig true (cf_normalization c)))) in Em
    by (destruct p; try reflexivity; contradiction).
  injection Em as <- <-. injection H as <-.
  set (t := config_toml (mkConfig true (cf_normalization c))).
  match goal with |- context [fed stdin ?u] => lazymatch u with w => fail | _ => set (w1 := fed stdin u) end end.
  assert (Ew : w_disk w1 = disk_set (w_disk w) m t) by reflexivity.
  assert (Es1 : config_start (e_config_toml e) p (file_on (w_disk w1) (Some m)) = LConfig (mkConfig true (cf_normalization c))).
  { rewrite Ew. unfold file_on. rewrite disk_get_same. subst t.
    destruct p; try contradiction; cbn [config_start config_from_path]; rewrite toml_utf8, (RT _ _ (config_toml_says _)); reflexivity. }
  change (w_disk (fed stdin w)) with (w_disk w). rewrite Es, Es1.
  destruct c as [b nf]. cbn [cf_normalization] in *. rewrite <- (skip_flag e b nf k (fed stdin w)).
  destruct (execute_ends e (mkConfig true nf) k (fed stdin w) Hk) as (x & v & Ex & _).
  pose proof (execute_twice e Ho (fed stdin w) w1 eq_refl (mkConfig true nf) k) as T. rewrite Ex in *.
  destruct (both_some _ _ _ _ _ _ (T (fun n X => eq_sym (eq_trans (f_equal (fun d => disk_get d n) Ew)
     (disk_get_other _ _ _ _ (fun Y => Hu n (eq_trans (eq_sym Hp) (f_equal Some Y)) X)))))) as (v' & Ev & D).
  exists x, v, v'. split; [reflexivity|]. split; [exact Ev|exact D].
Qed.

Lemma run_depends : forall e i w1 w2 c w1', (forall l, Permutation (e_writer_order e l) l) ->
  w_stdin w1 = w_stdin w2 ->
  (forall n, needs e i w1 n -> disk_get (w_disk w1) n = disk_get (w_disk w2) n) ->
  run e i w1 = Some (c, w1') ->
  exists w2', run e i w2 = Some (c, w2') /\ same_done (extends i) w1 w1' w2 w2'.
Proof.
  intros e i w1 w2 c w1' Ho Hs Hn H. pose proof (run_twice e Ho i w1 w2 Hs Hn) as T. rewrite H in T.
  exact (both_some _ _ _ _ _ _ T).
Qed.

(** * Proofs about concat in parts *)

From Coq Require Import String ZArith Lia.
From Verif Require Import Bytes BaseProofs Winnow RecordModel TagOccModel Utf8Model ByteRecordModel ByteRecordProofs ReaderModel
  MatcherModel MatcherProofs StateParser MatcherParserModel BuilderModel PathModel FmtModel QueryModel CliModel CliProofs TableModel
  ExplodeModel CheckModel ConvertModel CsvModel OptionsModel OptionsSpec ConfigModel PrepareModel
  IoModel IoSpec WriteSpec DiskModel DirModel RuleModel
  MainModel DiskSpec RuleSpec MainSpec PipeSpec DiskProofs PipeProofs PipeInProofs FrontLoop FrontSpec FrontProofs FrontRunProofs LimitProofs PartsSpec.
From Verif Require RunSpec RunProofs.

(** ** The records that are kept *)

Section Keys.
  Variable O : oracles.
  Variables sha lossy : bytes -> bytes.
  Variable unique : option strategy.

  Let body := fun s r => as_io (concat_body O sha lossy unique s r).

  Lemma mem_incl : forall k a b, incl a b -> mem_bytes k a = true -> mem_bytes k b = true.
  Proof. intros k a b H Hk. apply mem_bytes_In. apply H. apply mem_bytes_In. exact Hk. Qed.

  Lemma unique_fold : forall recs seen a b s', fold_end body (seen, a, b) recs = IDone s' ->
    exists kept, incl kept recs /\ snd (fst s') = a ++ flat_map br_write kept
      /\ forall seen2 a2 b2, incl seen seen2 -> fold_end body (seen2, a2, b2) recs = fold_end body (seen2, a2, b2) kept.
  Proof.
    induction recs as [|r recs IH]; intros seen a b s' H.
    - injection H as <-. exists []. split; [apply incl_refl|]. split; [symmetry; apply app_nil_r|]. reflexivity.
    - cbn [fold_end] in H. unfold body at 1, concat_body in H. destruct unique as [st|] eqn:Eu.
      + destruct (record_key O sha lossy st r) as [key|] eqn:Ek; [|discriminate].
        destruct (mem_bytes key seen || bytes_eqb key []) eqn:Em; cbn [as_io] in H; destruct (IH _ _ _ _ H) as (kept & H1 & H2 & H3).
        * exists kept. split; [intros x Hx; right; exact (H1 x Hx)|]. split; [exact H2|]. intros seen2 a2 b2 Hs. cbn [fold_end].
          unfold body at 1, concat_body. rewrite Ek. assert (E : mem_bytes key seen2 || bytes_eqb key [] = true).
          { apply orb_true_iff in Em. apply orb_true_iff. destruct Em as [Em|Em]; [left; exact (mem_incl _ _ _ Hs Em)|right; exact Em]. }
          rewrite E. cbn [as_io]. exact (H3 _ _ _ Hs).
        * exists (r :: kept). split; [intros x [<-|Hx]; [left; reflexivity|right; exact (H1 x Hx)]|].
          split; [rewrite H2; cbn [flat_map]; symmetry; apply app_assoc|]. intros seen2 a2 b2 Hs. cbn [fold_end].
          unfold body at 1 3, concat_body. rewrite Ek. destruct (mem_bytes key seen2 || bytes_eqb key []) eqn:E2; cbn [as_io]; apply H3.
          -- intros x [<-|Hx]; [|exact (Hs x Hx)]. apply mem_bytes_In. apply orb_false_iff in Em. apply orb_true_iff in E2.
             destruct E2 as [E2|E2]; [exact E2|]. rewrite (proj2 Em) in E2. discriminate.
          -- intros x [<-|Hx]; [left; reflexivity|right; exact (Hs x Hx)].
      + cbn [as_io] in H. destruct (IH _ _ _ _ H) as (kept & H1 & H2 & H3).
        exists (r :: kept). split; [intros x [<-|Hx]; [left; reflexivity|right; exact (H1 x Hx)]|].
        split; [rewrite H2; cbn [flat_map]; symmetry; apply app_assoc|]. intros seen2 a2 b2 Hs. cbn [fold_end].
        unfold body at 1 3, concat_body. cbn [as_io]. exact (H3 _ _ _ Hs).
  Qed.
End Keys.

(** ** One part *)

Section Part.
  Variable e : env.
  Variable c : config.
  Variable skip0 : bool.
  Variable unique : option strategy.
  Let skip := skip0 || cf_skip_invalid c.
  Let body := fun s r => as_io (concat_body (default_oracles e) (e_sha e) (e_lossy e) unique s r).

  (** the records read and the records kept *)
  Definition part_is (d : disk) (stdin : bytes) (names : list bytes) (recs kept : list byte_record) : Prop :=
    io_files_loop (fun l => l) snoc skip [] (inputs (e_gz_dec e) d stdin names) = Some (IDone recs)
    /\ incl kept recs /\ forall s, fold_end body s recs = fold_end body s kept.

  Lemma part_done : forall names w w1 t, execute e c (concat_part skip0 unique names) w = Some (CEnded 0, w1) -> w_stdout w1 = w_stdout w ++ t ->
    exists recs kept, part_is (w_disk w) (w_stdin w) names recs kept /\ t = flat_map br_write kept.
  Proof.
    intros names w w1 t H Ht. cbn [concat_part execute] in H. fold skip in H. unfold concat_on_disk in H. cbn in H. rewrite world_eta in H. unfold process_all in H.
    fold body in H. set (files := inputs (e_gz_dec e) (w_disk w) (w_stdin w) names) in *.
    assert (Hb : forall s r, body s r = IPanicked \/ exists s', body s r = IDone s').
    { intros [[n x] y] r. unfold body, concat_body. destruct unique as [st|]; [|right; eexists; reflexivity].
      destruct (record_key _ _ _ st r) as [key|]; [|left; reflexivity]. right. destruct (mem_bytes key n || bytes_eqb key []); eexists; reflexivity. }
    destruct (io_files_loop (fun s : concat_state => s) body skip ([], [], []) files) as [x|] eqn:El; [|discriminate].
    assert (Hx0 : main_status x = Some 0).
    { destruct x as [s|s|s er|]; cbn [main_status] in *; try reflexivity; [|discriminate]. destruct er as [|[]| |]; try discriminate; reflexivity. }
    destruct (files_through skip body Hb files ([], [], []) x) as (s1 & -> & Hc); [intros n k; apply inputs_kind|exact El|exact Hx0|].
    destruct (Hc []) as (recs & Hr). destruct (files_collects _ _ _ _ Hr) as (recs' & E' & _ & Hf). cbn in E'. subst recs'.
    rewrite (Hf _ (fun s => s) body ([], [], [])) in El by (right; reflexivity). injection El as El.
    destruct (unique_fold _ _ _ _ _ _ _ _ _ El) as (kept & H1 & H2 & H3).
    exists recs, kept. split.
    - split; [exact Hr|]. split; [exact H1|]. intros [[s a] b]. apply H3. intros z [].
    - cbn [main_status] in H. injection H as <-. cbn in Ht. rewrite H2 in Ht. apply app_inv_head in Ht. symmetry. exact Ht.
  Qed.

  Lemma loop_app : forall a b l l' l'', io_files_loop (fun l => l) snoc skip l a = Some (IDone l') ->
    io_files_loop (fun l => l) snoc skip l' b = Some l'' -> io_files_loop (fun l => l) snoc skip l (a ++ b) = Some l''.
  Proof.
    induction a as [|[n [reads|k]] a IH]; intros b l l' l'' H H'; cbn [io_files_loop app] in *; cbv zeta in *.
    - injection H as <-. exact H'.
    - destruct (io_reader_loop _ snoc _ _ l _) as [[l1| | |]|]; try discriminate. exact (IH _ _ _ _ H H').
    - discriminate.
  Qed.

  Lemma inputs_app : forall gz_dec d a stdin b, ~ In (lit "-") b ->
    inputs gz_dec d stdin (a ++ b) = inputs gz_dec d stdin a ++ inputs gz_dec d stdin b.
  Proof.
    intros gz_dec d a. assert (N : forall b s1 s2, ~ In (lit "-") b -> inputs gz_dec d s1 b = inputs gz_dec d s2 b).
    { induction b as [|n b IH]; intros s1 s2 H; [reflexivity|]. cbn [inputs]. destruct (bytes_eqb n (lit "-")) eqn:E.
      - apply bytes_eqb_eq in E. subst n. destruct H. left. reflexivity.
      - rewrite (IH s1 s2); [reflexivity|]. intros X. apply H. right. exact X. }
    induction a as [|n a IH]; intros stdin b H; [reflexivity|]. cbn [inputs app]. destruct (bytes_eqb n (lit "-")); rewrite IH by exact H; cbn [app].
    - rewrite (N b [] stdin H). reflexivity.
    - reflexivity.
  Qed.

  Lemma part_app : forall d stdin a b recs1 kept1 recs2 kept2, ~ In (lit "-") b ->
    part_is d stdin a recs1 kept1 -> part_is d stdin b recs2 kept2 -> part_is d stdin (a ++ b) (recs1 ++ recs2) (kept1 ++ kept2).
  Proof.
    intros d stdin a b recs1 kept1 recs2 kept2 Hb (A1 & A2 & A3) (B1 & B2 & B3). split; [|split].
    - rewrite inputs_app by exact Hb. destruct (files_collects _ _ _ _ B1) as (recs' & E' & _ & Hf). cbn in E'. subst recs'.
      eapply loop_app; [exact A1|]. rewrite Hf by (right; reflexivity).
      f_equal. clear. revert recs1. induction recs2 as [|r recs2 IH]; intros recs1; cbn [fold_end snoc]; [rewrite app_nil_r; reflexivity|].
      rewrite IH, <- app_assoc. reflexivity.
    - apply incl_app; [apply incl_appl; exact A2|apply incl_appr; exact B2].
    - intros s. rewrite !fold_end_app, A3. destruct (fold_end body s kept1); auto.
  Qed.

  Lemma parts_is : forall w names ts, Forall2 (fun ns t => exists w1, execute e c (concat_part skip0 unique ns) w = Some (CEnded 0, w1) /\ w_stdout w1 = w_stdout w ++ t) names ts ->
    ~ In (lit "-") (concat (tl names)) ->
    exists recs kept, part_is (w_disk w) (w_stdin w) (concat names) recs kept /\ concat ts = flat_map br_write kept.
  Proof.
    intros w names ts H. assert (E0 : part_is (w_disk w) (w_stdin w) [] [] []) by (split; [reflexivity|]; split; [apply incl_refl|reflexivity]).
    assert (G : forall names ts, Forall2 (fun ns t => exists w1, execute e c (concat_part skip0 unique ns) w = Some (CEnded 0, w1) /\ w_stdout w1 = w_stdout w ++ t) names ts ->
      ~ In (lit "-") (concat names) -> exists recs kept, part_is (w_disk w) (w_stdin w) (concat names) recs kept /\ concat ts = flat_map br_write kept).
    { clear H names ts. intros names ts H. induction H as [|ns t names ts (w1 & Hx & Ht) H IH]; intros Hn; [exists [], []; split; [exact E0|reflexivity]|].
      cbn [concat] in *. destruct IH as (recs2 & kept2 & P2 & T2); [intros X; apply Hn; apply in_or_app; right; exact X|].
      destruct (part_done _ _ _ _ Hx Ht) as (recs1 & kept1 & P1 & ->). exists (recs1 ++ recs2), (kept1 ++ kept2). split.
      - apply part_app; try assumption. intros X. apply Hn. apply in_or_app. right. exact X.
      - rewrite T2, flat_map_app. reflexivity. }
    destruct H as [|ns t names ts (w1 & Hx & Ht) H]; intros Hn; [exists [], []; split; [exact E0|reflexivity]|]. cbn [tl concat] in *.
    destruct (G _ _ H Hn) as (recs2 & kept2 & P2 & T2). destruct (part_done _ _ _ _ Hx Ht) as (recs1 & kept1 & P1 & ->).
    exists (recs1 ++ recs2), (kept1 ++ kept2). split; [apply part_app; assumption|]. rewrite T2, flat_map_app. reflexivity.
  Qed.

  Lemma execute_parts : forall append output tee names ts w,
    Forall2 (fun ns t => exists w1, execute e c (concat_part skip0 unique ns) w = Some (CEnded 0, w1) /\ w_stdout w1 = w_stdout w ++ t) names ts ->
    ~ In (lit "-") (concat (tl names)) -> (forall n, output = Some n \/ tee = Some n -> ~ In n (concat names)) ->
    frel (w_stdin w) (execute e c (KConcat skip0 append output tee unique [lit "-"]) (mkWorld (w_disk w) (concat ts) (w_stdout w)))
      (execute e c (KConcat skip0 append output tee unique (concat names)) w).
  Proof.
    intros append output tee names ts w H Hn Ho. destruct (parts_is w names ts H Hn) as (recs & kept & (P1 & P2 & P3) & ->).
    set (all := concat names) in *. set (v := mkWorld (w_disk w) (flat_map br_write kept) (w_stdout w)).
    assert (Hk : Forall of_line kept).
    { apply Forall_forall. intros r Hr. exact (proj1 (Forall_forall _ _) (good_lines _ _ _ _ _ _ P1) r (P2 r Hr)). }
    assert (Hv : fronted all (w_stdin w) (w_disk w) kept (fun _ => true) v w).
    { split; [|split]; [|destruct w; reflexivity|intros n _; reflexivity].
      enough (filter (fun _ => true) kept = kept) as -> by reflexivity. clear. induction kept; cbn; congruence. }
    cbn [execute]. fold skip. unfold concat_on_disk. destruct (wb_run wb_new [CAppend append]) as [b|]; [|apply (front_end _ _ _ _ _ _ _ Hv)]. cbv zeta.
    apply (open_front (e_gz_enc e) (e_writable e) all (w_stdin w) (w_disk w) kept (fun _ => true)); [|exact Hv|].
    { apply two_spare; intros n E; apply Ho; auto. }
    intros u u' (Hu1 & -> & Hu3). fold body. unfold process_all. change (w_disk (fed (w_stdin w) u)) with (w_disk u). change (w_stdin (fed (w_stdin w) u)) with (w_stdin w).
    assert (Ek : filter (fun _ => true) kept = kept) by (clear; induction kept; cbn; congruence). rewrite Hu1, Ek.
    rewrite (back_any (e_gz_dec e) (w_disk u) kept Hk).
    rewrite (loop_whole (e_gz_dec e) all (w_stdin w) (w_disk w) skip recs P1 _ (fun s => s) body _ (w_disk u) Hu3 (or_intror (fun _ => eq_refl))).
    rewrite P3. destruct (fold_end body _ kept) as [a|a|a er|].
    - split; [reflexivity|]. apply fed_close_all.
    - split; [reflexivity|]. apply fed_close_all.
    - destruct (main_status _); (split; [reflexivity|]); [apply fed_close_all|reflexivity].
    - split; reflexivity.
  Qed.
End Part.

Lemma run_parts : forall e cfg skip unique append output tee names ts w x w2, names <> [] ->
  Forall2 (fun ns t => run_writes e cfg w (concat_part skip unique ns) t) names ts ->
  ~ In (lit "-") (concat (tl names)) -> (forall n, output = Some n \/ tee = Some n -> ~ In n (concat names)) ->
  run e (mkInvocation cfg (KConcat skip append output tee unique [lit "-"])) (mkWorld (w_disk w) (concat ts) (w_stdout w)) = Some (x, w2) ->
  run e (mkInvocation cfg (KConcat skip append output tee unique (concat names))) w = Some (x, fed (w_stdin w) w2).
Proof.
  intros e cfg skip unique append output tee names ts w x w2 Hne H Hn Ho H2.
  assert (exists c, RunSpec.settings e (mkInvocation cfg (concat_part skip unique [])) w c) as (c & Hset).
  { destruct H as [|ns t names ts (w1 & Hx & _) _]; [destruct (Hne eq_refl)|].
    destruct (fun X => RunProofs.run_ended _ _ _ _ _ X Hx) as (c & Hset & _); [reflexivity|]. exists c. eapply settings_same; [reflexivity|exact Hset]. }
  assert (H' : Forall2 (fun ns t => exists w1, execute e c (concat_part skip unique ns) w = Some (CEnded 0, w1) /\ w_stdout w1 = w_stdout w ++ t) names ts).
  { clear - H Hset. induction H as [|ns t names ts (w1 & Hx & Ht) H IH]; constructor; [|exact IH]. exists w1. split; [|exact Ht].
    rewrite (RunProofs.run_settings e (mkInvocation cfg (concat_part skip unique ns)) w c eq_refl) in Hx; [exact Hx|]. eapply settings_same; [reflexivity|exact Hset]. }
  rewrite (RunProofs.run_settings e (mkInvocation cfg (KConcat skip append output tee unique (concat names))) w c eq_refl)
    by (eapply settings_same; [reflexivity|exact Hset]).
  rewrite (RunProofs.run_settings e (mkInvocation cfg (KConcat skip append output tee unique [lit "-"])) _ c eq_refl) in H2
    by (eapply settings_same; [|exact Hset]; reflexivity).
  cbn [in_command] in *. pose proof (execute_parts e c skip unique append output tee names ts w H' Hn Ho) as X. rewrite H2 in X.
  destruct (execute e c (KConcat skip append output tee unique (concat names)) w) as [[y v]|]; [|contradiction]. destruct X as [-> ->]. reflexivity.
Qed.

Lemma run_again : forall e cfg skip unique append output tee names t w x w2,
  run_writes e cfg w (concat_part skip unique names) t -> (forall n, output = Some n \/ tee = Some n -> ~ In n names) ->
  run e (mkInvocation cfg (KConcat skip append output tee unique [lit "-"])) (mkWorld (w_disk w) t (w_stdout w)) = Some (x, w2) ->
  run e (mkInvocation cfg (KConcat skip append output tee unique names)) w = Some (x, fed (w_stdin w) w2).
Proof.
  intros e cfg skip unique append output tee names t w x w2 H Ho H2.
  assert (E1 : concat [names] = names) by (cbn; apply app_nil_r). assert (E2 : concat [t] = t) by (cbn; apply app_nil_r).
  rewrite <- E1 in Ho. rewrite <- E2 in H2. rewrite <- E1. eapply (run_parts e cfg skip unique append output tee [names] [t] w).
  - discriminate.
  - constructor; [exact H|constructor].
  - intros [].
  - exact Ho.
  - exact H2.
Qed.

(** * Proofs about the order of the inputs *)

From Coq Require Import String ZArith Lia Permutation Sorted.
From Verif Require Import Bytes BaseProofs Winnow RecordModel TagOccModel Utf8Model ByteRecordModel ByteRecordProofs ReaderModel
  MatcherModel MatcherProofs StateParser MatcherParserModel BuilderModel PathModel FmtModel QueryModel CliModel CliProofs TableModel
  ExplodeModel CheckModel ConvertModel CsvModel CsvSpec CsvProofs OptionsModel OptionsSpec ConfigModel PrepareModel
  IoModel IoSpec WriteSpec DiskModel DirModel RuleModel
  MainModel DiskSpec RuleSpec MainSpec PipeSpec DiskProofs PipeProofs PipeInProofs FrontLoop FrontSpec FrontProofs FrontRunProofs LimitProofs PartsSpec PartsProofs RecordwiseSpec QuerySpec TableSpec TableProofs
  FrequencyProofs DescribeProofs HaltProofs DiskTableProofs RecordwiseProofs TallySpec TallyProofs ReorderSpec.
From Verif Require RunSpec RunProofs.

(** ** Iteration orders *)

Lemma settings_reordered : forall e fr ta i w c, RunSpec.settings e i w c -> RunSpec.settings (reordered e fr ta) i w c.
Proof.
  intros e fr ta i w c [n t c' H1 H2 H3 H4|n H1 H2|H1|n t H1 H2 H3].
  - eapply RunSpec.se_file; [exact H1|exact H2|exact H3|exact H4].
  - eapply RunSpec.se_missing; [exact H1|exact H2].
  - apply RunSpec.se_nowhere. exact H1.
  - eapply RunSpec.se_illegible; [exact H1|exact H2|exact H3].
Qed.

(** ** Reading *)

Lemma inputs_reorder : forall gz_dec d names names', Permutation names names' -> forall stdin, Permutation (inputs gz_dec d stdin names) (inputs gz_dec d stdin names').
Proof.
  intros gz_dec d names names' P. induction P as [|x l l' P IH|x y l|l l' l'' P1 IH1 P2 IH2]; intros stdin.
  - constructor.
  - cbn [inputs]. destruct (bytes_eqb x (lit "-")); constructor; apply IH.
  - cbn [inputs]. destruct (bytes_eqb x (lit "-")) eqn:Ex; destruct (bytes_eqb y (lit "-")) eqn:Ey; try apply perm_swap.
    apply bytes_eqb_eq in Ex, Ey. subst. apply Permutation_refl.
  - eapply Permutation_trans; [apply IH1|apply IH2].
Qed.

Definition reads (skip : bool) (files : list (bytes * (list piece + io_kind))) (recs : list byte_record) : Prop :=
  io_files_loop (fun l => l) snoc skip [] files = Some (IDone recs).

Lemma snoc_fold : forall rb ra, fold_end snoc ra rb = IDone (ra ++ rb).
Proof. induction rb as [|r rb IH]; intros ra; cbn [fold_end snoc]; [rewrite app_nil_r; reflexivity|]. rewrite IH, <- app_assoc. reflexivity. Qed.

Lemma reads_cons : forall skip f fs recs, reads skip (f :: fs) recs -> exists r1 r2, reads skip [f] r1 /\ reads skip fs r2 /\ recs = r1 ++ r2.
Proof.
  intros skip [n [x|k]] fs recs H; unfold reads in *; cbn [io_files_loop] in *; [|discriminate].
  destruct (io_reader_loop _ _ _ _ _ _) as [[s'|s'|s' er|]|]; try discriminate. destruct (files_collects _ _ _ _ H) as (r2 & -> & _ & Hf).
  exists s', r2. split; [reflexivity|]. split; [|reflexivity]. rewrite Hf by (right; reflexivity). rewrite snoc_fold. reflexivity.
Qed.

Lemma reads_app : forall skip f fs r1 r2, reads skip [f] r1 -> reads skip fs r2 -> reads skip (f :: fs) (r1 ++ r2).
Proof.
  intros skip f fs r1 r2 H1 H2. unfold reads in *. destruct (files_collects _ _ _ _ H2) as (r2' & E & _ & Hf). cbn in E. subst r2'.
  apply (files_app skip [f] fs [] r1 (IDone (r1 ++ r2)) H1). rewrite Hf by (right; reflexivity). rewrite snoc_fold. reflexivity.
Qed.

Lemma reads_reorder : forall skip fs fs', Permutation fs fs' -> forall recs, reads skip fs recs -> exists recs', reads skip fs' recs' /\ Permutation recs recs'.
Proof.
  intros skip fs fs' P. induction P as [|x l l' P IH|x y l|l l' l'' P1 IH1 P2 IH2]; intros recs H.
  - exists recs. split; [exact H|apply Permutation_refl].
  - destruct (reads_cons _ _ _ _ H) as (r1 & r2 & H1 & H2 & ->). destruct (IH r2 H2) as (r2' & H2' & Q). exists (r1 ++ r2').
    split; [apply reads_app; assumption|]. apply Permutation_app_head. exact Q.
  - destruct (reads_cons _ _ _ _ H) as (r1 & r2 & H1 & H2 & ->). destruct (reads_cons _ _ _ _ H2) as (r3 & r4 & H3 & H4 & ->).
    exists (r3 ++ r1 ++ r4). split; [apply reads_app; [exact H3|]; apply reads_app; assumption|]. apply Permutation_app_swap_app.
  - destruct (IH1 _ H) as (r1 & H1 & Q1). destruct (IH2 _ H1) as (r2 & H2 & Q2). exists r2. split; [exact H2|]. eapply Permutation_trans; eassumption.
Qed.

(** ** Loops whose end does not depend on the order *)

Lemma loop_reorder : forall S (body : S -> byte_record -> io_ending S) (s0 : S) (like : S -> S -> Prop),
  (forall s r, body s r = IPanicked \/ exists s', body s r = IDone s') ->
  (forall recs recs' s', Permutation recs recs' -> fold_end body s0 recs = IDone s' -> exists s2, fold_end body s0 recs' = IDone s2 /\ like s2 s') ->
  forall gz_dec skip d stdin names names' x, main_status x = Some 0 -> Permutation names names' ->
    io_files_loop (fun s => s) body skip s0 (inputs gz_dec d stdin names) = Some x ->
    exists s' s2, x = IDone s' /\ io_files_loop (fun s => s) body skip s0 (inputs gz_dec d stdin names') = Some (IDone s2) /\ like s2 s'.
Proof.
  intros S body s0 like Hcases Hsame gz_dec skip d stdin names names' x Hx0 P El.
  destruct (files_through skip body Hcases (inputs gz_dec d stdin names) s0 x) as (s1 & -> & Hc); [intros n k; apply inputs_kind|exact El|exact Hx0|].
  destruct (Hc []) as (recs & Hr). destruct (files_collects _ _ _ _ Hr) as (recs' & E' & _ & Hf). cbn in E'. subst recs'.
  rewrite (Hf _ (fun s => s) body s0) in El by (right; reflexivity). injection El as El.
  destruct (reads_reorder skip _ _ (inputs_reorder gz_dec d _ _ P stdin) recs Hr) as (recs2 & Hr2 & Q).
  destruct (files_collects _ _ _ _ Hr2) as (r' & E' & _ & Hf2). cbn in E'. subst r'.
  destruct (Hsame _ _ _ Q El) as (s2 & F2 & L). exists s1, s2. split; [reflexivity|]. split; [|exact L].
  rewrite (Hf2 _ (fun s => s) body s0) by (right; reflexivity). rewrite F2. reflexivity.
Qed.

Section Reorder.
  Context {S : Type}.
  Variable body : S -> byte_record -> io_ending S.
  Variables (outs outs' : list (output * ((S -> bytes) * (S -> bytes)))) (bad bad' : S -> bool) (s0 : S).
  Hypothesis Hcases : forall s r, body s r = IPanicked \/ exists s', body s r = IDone s'.
  Hypothesis Hsame : forall recs recs' s', Permutation recs recs' -> fold_end body s0 recs = IDone s' ->
    exists s2, fold_end body s0 recs' = IDone s2 /\ (bad' s2 = bad s' /\ map (fun o => (fst o, fst (snd o) s2)) outs' = map (fun o => (fst o, fst (snd o) s')) outs).

  Lemma process_reorder : forall gz_enc gz_dec skip names names' w w1, Permutation names names' ->
    process_all gz_enc gz_dec outs bad (fun s => s) body skip s0 names w = Some (CEnded 0, w1) ->
    process_all gz_enc gz_dec outs' bad' (fun s => s) body skip s0 names' w = Some (CEnded 0, w1).
  Proof.
    intros gz_enc gz_dec skip names names' w w1 P H. unfold process_all in *.
    destruct (io_files_loop (fun s : S => s) body skip s0 (inputs gz_dec (w_disk w) (w_stdin w) names)) as [x|] eqn:El; [|discriminate].
    assert (Hx0 : main_status x = Some 0).
    { destruct x as [s|s|s er|]; cbn [main_status] in *; try reflexivity; [|discriminate]. destruct er as [|[]| |]; try discriminate; reflexivity. }
    destruct (loop_reorder S body s0 (fun s2 s' => bad' s2 = bad s' /\ map (fun o => (fst o, fst (snd o) s2)) outs' = map (fun o => (fst o, fst (snd o) s')) outs)
      Hcases Hsame gz_dec skip _ _ names names' x Hx0 P El) as (s1 & s2 & -> & E2 & Eb & Eo).
    rewrite E2. cbn [main_status] in *. rewrite Eb, Eo. exact H.
  Qed.
End Reorder.

(** ** count *)

Section Count.
  Variables O Od : oracles.
  Variable fo : filter_opts.
  Let body (s : count_state) (r : byte_record) := as_io (count_body O Od fo s r).

  Lemma count_cases : forall s r, body s r = IPanicked \/ exists s', body s r = IDone s'.
  Proof. intros [[a b] d] r. unfold body, count_body, guarded. destruct (opts_select O Od fo (br_record r)) as [[|]|]; cbn [as_io]; eauto. Qed.

  Lemma count_reorder : forall recs recs', Permutation recs recs' -> forall s s', fold_end body s recs = IDone s' -> fold_end body s recs' = IDone s'.
  Proof.
    intros recs recs' P. induction P as [|x l l' P IH|x y l|l l' l'' P1 IH1 P2 IH2]; intros s s' H.
    - exact H.
    - cbn [fold_end] in *. destruct (body s x); try discriminate. apply IH. exact H.
    - cbn [fold_end] in *. rewrite <- H. destruct s as [[a b] d]. unfold body, count_body, guarded in *.
      destruct (opts_select O Od fo (br_record x)) as [[|]|], (opts_select O Od fo (br_record y)) as [[|]|]; cbn [as_io] in *; try reflexivity; try discriminate.
      match goal with |- fold_end _ ?p _ = fold_end _ ?q _ => replace p with q; [reflexivity|] end. f_equal; [f_equal|]; lia.
    - apply IH2. apply IH1. exact H.
  Qed.
End Count.

Lemma run_count_reorder : forall e cfg o append output m names names' w w', Permutation names names' ->
  run e (mkInvocation cfg (KCount o append output m names)) w = Some (CEnded 0, w') ->
  run e (mkInvocation cfg (KCount o append output m names')) w = Some (CEnded 0, w').
Proof.
  intros e cfg o append output m names names' w w' P H. destruct (fun X => RunProofs.run_ended _ _ _ _ _ X H) as (c & Hset & He); [reflexivity|].
  rewrite (RunProofs.run_settings e (mkInvocation cfg (KCount o append output m names')) w c eq_refl) by (eapply settings_same; [reflexivity|exact Hset]).
  cbn [in_command execute] in *. unfold count_on_disk, open_all in *. cbn [app] in *.
  destruct (open_output _ _ _) as [d|] in *; [|discriminate].
  match goal with H : prepared _ _ ?x _ _ = _ |- _ => destruct x as [[fo|]|] end; cbn [prepared] in *; try discriminate.
  eapply process_reorder; [| |exact P|exact He].
  - apply count_cases.
  - intros recs recs' s' Q F. exists s'. split; [exact (count_reorder _ _ fo _ _ Q _ _ F)|]. split; reflexivity.
Qed.

(** ** frequency *)

Lemma frequency_reorder : forall u rss rss' k, Permutation rss rss' -> frequency u rss k = frequency u rss' k.
Proof. intros u rss rss' k P. unfold frequency. induction P; cbn [map list_sum fold_right] in *; try lia; unfold list_sum in *; cbn [fold_right] in *; lia. Qed.

Lemma frequencies_reorder : forall u rev rss rss' l, Permutation rss rss' -> frequencies u rev rss l -> frequencies u rev rss' l.
Proof. intros u rev rss rss' l P [S H]. split; [exact S|]. intros k n. rewrite H, (frequency_reorder u rss rss' k P). reflexivity. Qed.

Lemma filter_reorder : forall A (f : A -> bool) l l', Permutation l l' -> Permutation (filter f l) (filter f l').
Proof.
  intros A f l l' P. induction P as [|x l l' P IH|x y l|l l' l'' P1 IH1 P2 IH2]; cbn [filter].
  - constructor.
  - destruct (f x); [constructor|]; exact IH.
  - destruct (f x), (f y); try apply Permutation_refl. apply perm_swap.
  - eapply Permutation_trans; eassumption.
Qed.

Section Frequency.
  Variables O Od : oracles.
  Variable T : text_fns.
  Variable fo : filter_opts.
  Hypothesis Hl : fo_limit fo = 0.
  Variable c : freq_cmd.
  Let body (s : N * ftable) (r : byte_record) := as_io (freq_body O Od T c fo s r).

  Lemma freq_cases : forall s r, body s r = IPanicked \/ exists s', body s r = IDone s'.
  Proof.
    intros s r. unfold body, freq_body, guarded. destruct (opts_select O Od fo (br_record r)) as [[|]|]; cbn [as_io]; eauto.
    destruct (record_query _ _ _ _ _); cbn [as_io]; [|eauto]. rewrite Hl. cbv zeta. cbn [fst]. change (limit_reached 0 (fst s + 1)) with false. cbn [as_io]. eauto.
  Qed.

  (** the records that do not stop the program *)
  Definition usable (r : byte_record) : Prop :=
    opts_select O Od fo (br_record r) = Some (picked O Od fo r) /\ (picked O Od fo r = true -> record_query O T (fq_qo c) (fq_query c) (br_record r) <> None).

  Lemma freq_step : forall s r, usable r -> body s r = IDone (if picked O Od fo r then freq_act O T c s r else s).
  Proof.
    intros s r [H1 H2]. unfold body, freq_body, guarded. rewrite H1. destruct (picked O Od fo r); [|reflexivity]. unfold freq_act, freq_rec.
    destruct (record_query _ _ _ _ _); [|destruct (H2 eq_refl eq_refl)]. rewrite Hl. cbv zeta. cbn [fst]. change (limit_reached 0 (fst s + 1)) with false. reflexivity.
  Qed.

  Lemma freq_usable : forall recs s s', fold_end body s recs = IDone s' -> Forall usable recs.
  Proof.
    induction recs as [|r recs IH]; intros s s' H; [constructor|]. cbn [fold_end] in H. destruct (body s r) as [s1|s1|s1 er|] eqn:E; try discriminate. constructor; [|exact (IH _ _ H)].
    unfold usable, picked. unfold body, freq_body, guarded in E. destruct (opts_select O Od fo (br_record r)) as [b|]; [|discriminate]. split; [reflexivity|].
    intros ->. destruct (record_query _ _ _ _ _); [discriminate|discriminate E].
  Qed.

  Lemma freq_fold_usable : forall recs s, Forall usable recs -> fold_end body s recs = IDone (fold_left (freq_act O T c) (filter (picked O Od fo) recs) s).
  Proof.
    induction recs as [|r recs IH]; intros s H; [reflexivity|]. inversion H as [|? ? H1 H2]. subst. cbn [fold_end filter]. rewrite freq_step by exact H1.
    rewrite IH by exact H2. destruct (picked O Od fo r); reflexivity.
  Qed.

  Variable lossy : bytes -> bytes.
  Variables order order' : ftable -> ftable.
  Hypothesis Ho : forall t, Permutation (order t) t.
  Hypothesis Ho' : forall t, Permutation (order' t) t.

  Lemma freq_reorder : forall recs recs' s', Permutation recs recs' -> fold_end body (0, []) recs = IDone s' ->
    exists s2, fold_end body (0, []) recs' = IDone s2 /\ freq_output lossy order' c (snd s2) = freq_output lossy order c (snd s').
  Proof.
    intros recs recs' s' P H. pose proof (freq_usable _ _ _ H) as U. rewrite (freq_fold_usable _ _ U) in H. injection H as <-.
    assert (U' : Forall usable recs') by (eapply Permutation_Forall; eassumption). eexists. split; [exact (freq_fold_usable _ _ U')|].
    unfold freq_output. f_equal. eapply frequencies_fun; [exact (freq_table_listed O T order' Ho' c _)|].
    eapply frequencies_reorder; [|exact (freq_table_listed O T order Ho c _)]. apply Permutation_map, filter_reorder, P.
  Qed.
End Frequency.

Lemma run_frequency_reorder : forall e fr ta cfg o q unique num threshold reverse nf tsv output names names' w w', (forall x, Permutation (e_freq_order e x) x) -> (forall x, Permutation (fr x) x) ->
  o_limit o = 0 -> Permutation names names' ->
  run e (mkInvocation cfg (KFrequency o q unique num threshold reverse nf tsv output names)) w = Some (CEnded 0, w') ->
  run (reordered e fr ta) (mkInvocation cfg (KFrequency o q unique num threshold reverse nf tsv output names')) w = Some (CEnded 0, w').
Proof.
  intros e fr ta cfg o q unique num threshold reverse nf tsv output names names' w w' Ho Ho' Hl P H. destruct (fun X => RunProofs.run_ended _ _ _ _ _ X H) as (c & Hset & He); [reflexivity|].
  rewrite (RunProofs.run_settings (reordered e fr ta) (mkInvocation cfg (KFrequency o q unique num threshold reverse nf tsv output names')) w c eq_refl) by (apply settings_reordered; eapply settings_same; [reflexivity|exact Hset]).
  cbn [in_command execute] in *. change (load_columns (reordered e fr ta)) with (load_columns e). change (oracles_for (reordered e fr ta)) with (oracles_for e).
  change (default_oracles (reordered e fr ta)) with (default_oracles e). change (translit (reordered e fr ta)) with (translit e).
  cbn [e_gz_enc e_gz_dec e_writable e_lossy e_text e_numeric e_freq_order reordered]. unfold freq_on_disk in *.
  match goal with H : prepared _ _ ?x _ _ = _ |- _ => destruct x as [[[fo qu]|]|] eqn:E end; cbn [prepared] in *; try discriminate.
  apply table_limit in E. cbn in E. rewrite Hl in E. cbn [fst snd] in *. cbv zeta in *. unfold open_all in *. cbn [app] in *.
  destruct (open_output _ _ _) as [d|] in *; [|discriminate].
  eapply process_reorder; [| |exact P|exact He].
  - intros s r. apply freq_cases. exact E.
  - intros recs recs' s' Q F. destruct (freq_reorder _ _ _ fo E _ (e_lossy e) (e_freq_order e) fr Ho Ho' _ _ _ Q F) as (s2 & F2 & E2). exists s2. split; [exact F2|].
    cbn [map fst snd]. rewrite E2. split; reflexivity.
Qed.

(** ** describe *)

Lemma describes_reorder : forall fs fs' codes rows, Permutation fs fs' -> describes fs codes rows -> describes fs' codes rows.
Proof.
  intros fs fs' codes rows P (H1 & H2 & H3 & H4 & H5). assert (I : forall f, In f fs <-> In f fs') by (intros f; split; apply Permutation_in; [|symmetry]; exact P).
  split; [exact H1|]. split; [|split; [exact H3|split]].
  - intros x. rewrite H2. split; intros (f & s & Hf & R); exists f, s; (split; [apply I; exact Hf|exact R]).
  - intros t. rewrite H4. split; intros (f & Hf & R); exists f; (split; [apply I; exact Hf|exact R]).
  - intros t cells Hin. rewrite (H5 t cells Hin). apply map_ext. intros x. f_equal. unfold occurrences.
    clear - P. unfold list_sum. induction P; cbn [map fold_right] in *; lia.
Qed.

Section Describe.
  Variables O Od : oracles.
  Variables discard keep : list (tag_matcher * occ_matcher).
  Variable fo : filter_opts.
  Hypothesis Hl : fo_limit fo = 0.
  Let body (s : N * tag_counts) (r : byte_record) := as_io (describe_body O Od discard keep fo s r).
  Let act (s : N * tag_counts) (r : byte_record) : N * tag_counts :=
    (fst s + 1, fold_left (fun t f => tag_add f t) (br_record (br_keep keep (br_discard discard r))) (snd s)).

  Lemma describe_step : forall s r, body s r = match opts_select O Od fo (br_record r) with None => IPanicked | Some b => IDone (if b then act s r else s) end.
  Proof.
    intros s r. unfold body, describe_body, guarded. destruct (opts_select O Od fo (br_record r)) as [[|]|]; try reflexivity.
    rewrite Hl. cbv zeta. cbn [fst]. change (limit_reached 0 (fst s + 1)) with false. reflexivity.
  Qed.

  Lemma describe_fold_done : forall recs s s', fold_end body s recs = IDone s' ->
    Forall (fun r => opts_select O Od fo (br_record r) <> None) recs /\ s' = fold_left act (filter (picked O Od fo) recs) s.
  Proof.
    induction recs as [|r recs IH]; intros s s' H; [injection H as <-; split; [constructor|reflexivity]|]. cbn [fold_end filter] in *. rewrite describe_step in H. unfold picked at 1.
    destruct (opts_select O Od fo (br_record r)) as [b|] eqn:E; [|discriminate]. destruct (IH _ _ H) as [H1 H2]. split; [constructor; [rewrite E; discriminate|exact H1]|].
    rewrite H2. destruct b; reflexivity.
  Qed.

  Lemma describe_fold_some : forall recs s, Forall (fun r => opts_select O Od fo (br_record r) <> None) recs -> exists s', fold_end body s recs = IDone s'.
  Proof.
    induction recs as [|r recs IH]; intros s H; [eexists; reflexivity|]. inversion H as [|? ? H1 H2]. subst. cbn [fold_end]. rewrite describe_step.
    destruct (opts_select O Od fo (br_record r)); [|destruct H1; reflexivity]. apply IH. exact H2.
  Qed.

  Variables order order' : tag_counts -> tag_counts.
  Hypothesis Ho : forall t, Permutation (order t) t.
  Hypothesis Ho' : forall t, Permutation (order' t) t.

  Lemma describe_reorder : forall recs recs' s', Permutation recs recs' -> fold_end body (0, []) recs = IDone s' ->
    exists s2, fold_end body (0, []) recs' = IDone s2 /\ describe_table order' (snd s2) = describe_table order (snd s').
  Proof.
    intros recs recs' s' P H. destruct (describe_fold_done _ _ _ H) as [U E]. assert (U' := Permutation_Forall P U).
    destruct (describe_fold_some _ (0, []) U') as (s2 & H2). exists s2. split; [exact H2|]. destruct (describe_fold_done _ _ _ H2) as [_ E2].
    unfold act in E, E2. rewrite describe_fold in E, E2. subst s' s2. cbn [snd].
    set (fs := concat (map _ (filter _ recs))). set (fs' := concat (map _ (filter _ recs'))).
    assert (Q : Permutation fs fs').
    { unfold fs, fs'. rewrite <- !flat_map_concat_map. apply Permutation_flat_map, filter_reorder, P. }
    assert (D := describe_table_describes order fs Ho). assert (D' := describe_table_describes order' fs' Ho').
    destruct (describe_table order (fold_left (fun t f => tag_add f t) fs [])) as [codes rows]. destruct (describe_table order' (fold_left (fun t f => tag_add f t) fs' [])) as [codes' rows'].
    destruct (describes_fun fs' codes' rows' codes rows D' (describes_reorder _ _ _ _ Q D)) as [-> ->]. reflexivity.
  Qed.
End Describe.

Lemma run_describe_reorder : forall e fr ta cfg o discard keep csv tsv output names names' w w', (forall x, Permutation (e_tag_order e x) x) -> (forall x, Permutation (ta x) x) ->
  o_limit o = 0 -> Permutation names names' ->
  run e (mkInvocation cfg (KDescribe o discard keep csv tsv output names)) w = Some (CEnded 0, w') ->
  run (reordered e fr ta) (mkInvocation cfg (KDescribe o discard keep csv tsv output names')) w = Some (CEnded 0, w').
Proof.
  intros e fr ta cfg o discard keep csv tsv output names names' w w' Ho Ho' Hl P H. destruct (fun X => RunProofs.run_ended _ _ _ _ _ X H) as (c & Hset & He); [reflexivity|].
  rewrite (RunProofs.run_settings (reordered e fr ta) (mkInvocation cfg (KDescribe o discard keep csv tsv output names')) w c eq_refl) by (apply settings_reordered; eapply settings_same; [reflexivity|exact Hset]).
  cbn [in_command execute] in *. change (load_opts (reordered e fr ta)) with (load_opts e). change (oracles_for (reordered e fr ta)) with (oracles_for e).
  change (default_oracles (reordered e fr ta)) with (default_oracles e). change (translit (reordered e fr ta)) with (translit e).
  cbn [e_gz_enc e_gz_dec e_writable e_frame e_tag_order reordered]. unfold describe_on_disk in *. destruct (parse_predicates discard) as [dl|]; [|discriminate]. destruct (parse_predicates keep) as [kl|]; [|discriminate]. cbn [prepared fst snd] in *.
  match goal with H : prepared _ _ ?x _ _ = _ |- _ => destruct x as [[fo|]|] eqn:E end; cbn [prepared] in *; try discriminate.
  apply opts_limit in E. cbn in E. rewrite Hl in E.
  destruct (io_files_loop (fun s : N * tag_counts => s) _ _ _ _) as [x|] eqn:El in He; [|discriminate].
  assert (Hx0 : main_status x = Some 0).
  { destruct x as [s|s|s er|]; cbn [main_status] in *; try reflexivity; [|discriminate]. destruct er as [|[]| |]; try discriminate; reflexivity. }
  edestruct (loop_reorder (N * tag_counts) (fun s r => as_io (describe_body (oracles_for e o) (default_oracles e) dl kl fo s r)) (0, [])
    (fun a b => describe_table ta (snd a) = describe_table (e_tag_order e) (snd b))) as (s1 & s2 & Ex & E2 & Et); [| |exact Hx0|exact P|exact El|].
  - intros s r. rewrite describe_step by exact E. destruct (opts_select _ _ _ _); eauto.
  - intros recs recs' s' Q F. exact (describe_reorder _ _ _ _ _ E _ ta Ho Ho' _ _ _ Q F).
  - subst x. rewrite E2. cbn [main_status] in *. rewrite Et. exact He.
Qed.

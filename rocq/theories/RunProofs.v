(** * Proofs about the whole program: what the arguments of a run mean *)

From Coq Require Import String ZArith Lia Permutation.
From Verif Require CliChunkProofs OptionsProofs GrammarSpec IoProofs PrepareProofs TablePrepareProofs CliProofs CliOutputProofs Utf8Proofs.
From Verif Require Import Bytes BaseProofs Winnow RecordModel RecordSpec Utf8Model Utf8Spec ByteRecordModel ByteRecordSpec ReaderModel
  MatcherModel MatcherSpec GrammarSpec
  PathModel FmtModel QueryModel QuerySpec QueryGrammarSpec CliModel CliSpec CheckModel CsvSpec ConvertModel ConvertSpec CsvModel OptionsModel
  ConfigModel PrepareModel PrepareSpec IoModel IoSpec WriteSpec TableSpec DiskModel DiskSpec DiskProofs DiskCommandProofs DiskEndProofs DirModel EndSpec EndProofs EndTableProofs
  DirCommandProofs DirSplitProofs DirPartProofs DirFailProofs RuleModel RuleSpec RuleEndProofs MainModel.
From Verif Require MainSpec DirSpec MainDependProofs.
From Verif Require Import RunSpec.

(** ** The configuration *)

Definition is_config (k : command) : bool := match k with KConfig _ => true | _ => false end.

Lemma run_settings : forall e i w c, is_config (in_command i) = false -> settings e i w c ->
  run e i w = execute e c (in_command i) w.
Proof.
  intros e i w c Hk Hs. unfold run.
  assert (E : let '(p, n) := place e i in config_start (e_config_toml e) p (file_on (w_disk w) n) = LConfig c).
  { unfold place. destruct Hs as [n t c Hn Hg Hu Ht|n Hn Hg|Hn|n t Hn Hg Hu]; unfold MainSpec.config_name in *.
    - apply Utf8Proofs.utf8_valid_iff in Hu. destruct (in_config i) as [m|].
      + injection Hn as ->. cbn. rewrite Hg. cbn. rewrite Hu, Ht. reflexivity.
      + rewrite Hn. cbn. rewrite Hg. cbn. rewrite Hu, Ht. reflexivity.
    - destruct (in_config i) as [m|].
      + injection Hn as ->. cbn. rewrite Hg. reflexivity.
      + rewrite Hn. cbn. rewrite Hg. reflexivity.
    - destruct (in_config i) as [m|]; [discriminate|]. rewrite Hn. reflexivity.
    - rewrite Hn. cbn. rewrite Hg. cbn. destruct (utf8_valid t) eqn:E; [|reflexivity].
      apply Utf8Proofs.utf8_valid_iff in E. contradiction. }
  destruct (place e i) as [p n]. rewrite E. destruct (in_command i); try reflexivity. discriminate.
Qed.

(** a run that does not get to its command *)
Lemma settings_or : forall e i w,
  (exists c, settings e i w c)
  \/ (exists n t, in_config i = None /\ e_home e = Some n /\ disk_get (w_disk w) n = Some t /\ ~ is_utf8 t)
  \/ (exists n t, MainSpec.config_name e i = Some n /\ disk_get (w_disk w) n = Some t /\ is_utf8 t /\ e_config_toml e t = None).
Proof.
  intros e i w. destruct (MainSpec.config_name e i) as [n|] eqn:En; [|left; eexists; apply se_nowhere; exact En].
  destruct (disk_get (w_disk w) n) as [t|] eqn:Eg; [|left; eexists; eapply se_missing; eassumption].
  destruct (utf8_valid t) eqn:Eu.
  - apply Utf8Proofs.utf8_valid_iff in Eu. destruct (e_config_toml e t) as [c|] eqn:Et.
    + left. exists c. eapply se_file; eassumption.
    + right. right. exists n, t. auto.
  - assert (Hu : ~ is_utf8 t) by (intros X; apply Utf8Proofs.utf8_valid_iff in X; congruence).
    unfold MainSpec.config_name in En. destruct (in_config i) as [m|] eqn:Ei.
    + injection En as ->. left. eexists. eapply se_illegible; eassumption.
    + right. left. exists n, t. auto.
Qed.

Lemma run_refused : forall e i w n t, is_config (in_command i) = false ->
  in_config i = None -> e_home e = Some n -> disk_get (w_disk w) n = Some t -> ~ is_utf8 t ->
  run e i w = Some (CRefused, w).
Proof.
  intros e i w n t Hk Hi Hn Hg Hu. unfold run, place. rewrite Hi, Hn. cbn. rewrite Hg. cbn.
  destruct (utf8_valid t) eqn:E; [apply Utf8Proofs.utf8_valid_iff in E; contradiction|].
  destruct (in_command i); try reflexivity. discriminate.
Qed.

Lemma run_panics : forall e i w n t, is_config (in_command i) = false ->
  MainSpec.config_name e i = Some n -> disk_get (w_disk w) n = Some t -> is_utf8 t -> e_config_toml e t = None ->
  run e i w = Some (CPanicked, w).
Proof.
  intros e i w n t Hk Hn Hg Hu Ht. apply Utf8Proofs.utf8_valid_iff in Hu. unfold MainSpec.config_name in Hn. unfold run, place.
  destruct (in_config i) as [m|]; [injection Hn as ->|rewrite Hn]; cbn; rewrite Hg; cbn; rewrite Hu, Ht;
    destruct (in_command i); try reflexivity; discriminate.
Qed.

Lemma run_ended : forall e i w st w', is_config (in_command i) = false -> run e i w = Some (CEnded st, w') ->
  exists c, settings e i w c /\ execute e c (in_command i) w = Some (CEnded st, w').
Proof.
  intros e i w st w' Hk H.
  destruct (settings_or e i w) as [(c & Hc)|[(n & t & H1 & H2 & H3 & H4)|(n & t & H1 & H2 & H3 & H4)]].
  - exists c. split; [exact Hc|]. rewrite <- (run_settings e i w c Hk Hc). exact H.
  - rewrite (run_refused e i w n t) in H by assumption. discriminate.
  - rewrite (run_panics e i w n t) in H by assumption. discriminate.
Qed.

(** ** The lists *)

Lemma lists_loaded : forall e w ns ts, Forall2 (list_in e w) ns ts -> ts = map (load_table e (w_disk w)) ns.
Proof.
  intros e w ns ts H. induction H as [|n t ns ts (b & H1 & H2) _ IH]; [reflexivity|]. cbn [map]. rewrite <- IH.
  unfold load_table. rewrite H1, H2. reflexivity.
Qed.

Lemma no_column : forall col cells, ~ id_column [] col cells.
Proof.
  assert (A : forall n cells, ~ has_column [] n cells).
  { intros n cells (pre & post & E & _). destruct pre; discriminate. }
  intros [n|] cells H; [exact (A _ _ H)|]. destruct H as [H|[_ H]]; exact (A _ _ H).
Qed.

Lemma loaded_lists : forall e w col ns, has_columns (map (load_table e (w_disk w)) ns) col ->
  Forall2 (list_in e w) ns (map (load_table e (w_disk w)) ns).
Proof.
  intros e w col ns H. induction ns as [|n ns IH]; [constructor|]. constructor; [|apply IH; intros t Ht; apply H; right; exact Ht].
  destruct (H (load_table e (w_disk w) n) (or_introl eq_refl)) as (cells & Hc).
  unfold load_table in *. destruct (disk_get (w_disk w) n) as [b|] eqn:Eb; [|destruct (no_column _ _ Hc)].
  destruct (e_polars e n b) as [t|] eqn:Et; [exists b; auto|destruct (no_column _ _ Hc)].
Qed.

Lemma given_loaded : forall e w o a, given e w o a -> a = load_opts e (w_disk w) o.
Proof.
  intros e w o a H. destruct a as [ci limit wh an orr no allow deny col src]. destruct H; cbn in *. subst. unfold load_opts.
  repeat match goal with H : Forall2 _ _ _ |- _ => apply lists_loaded in H; subst end. reflexivity.
Qed.

Lemma loaded_given : forall e w o O Od strict transform M V, opts_say O Od strict transform (load_opts e (w_disk w) o) M V ->
  given e w o (load_opts e (w_disk w) o).
Proof.
  intros e w o O Od strict transform M V H. constructor; try reflexivity; eapply loaded_lists; apply H.
Qed.

Lemma filter_loaded : forall e w c o f names a, given_filter e w c o f names a ->
  a = load_filter e (w_disk w) (o_skip o || cf_skip_invalid c) o f names.
Proof.
  intros e w c o f names a H. destruct a. destruct H; cbn in *. subst. unfold load_filter.
  repeat match goal with H : Forall2 _ _ _ |- _ => apply lists_loaded in H; subst end. reflexivity.
Qed.

Lemma loaded_filter : forall e w c o f names O Od strict transform content M D K V,
  filter_says O Od strict transform content (load_filter e (w_disk w) (o_skip o || cf_skip_invalid c) o f names) M D K V ->
  (forall n, fi_expr_file f = Some n -> disk_get (w_disk w) n <> None) ->
  given_filter e w c o f names (load_filter e (w_disk w) (o_skip o || cf_skip_invalid c) o f names).
Proof.
  intros e w c o f names O Od strict transform content M D K V H Hf. constructor; try reflexivity; [| |exact Hf];
    eapply loaded_lists; apply H.
Qed.

Lemma table_loaded : forall e w o q a, given_table e w o q a -> a = load_columns e (w_disk w) o q.
Proof.
  intros e w o q a H. destruct a. destruct H; cbn in *. subst. unfold load_columns.
  match goal with H : given _ _ _ _ |- _ => apply given_loaded in H; subst end. reflexivity.
Qed.

Lemma loaded_table : forall e w o q O Od strict transform M V, opts_say O Od strict transform (load_opts e (w_disk w) o) M V ->
  given_table e w o q (load_columns e (w_disk w) o q).
Proof.
  intros e w o q O Od strict transform M V H. constructor; try reflexivity. eapply loaded_given. exact H.
Qed.

(** the lists are not the output *)
Lemma opened_lists : forall e w output append o,
  (forall n, output = Some n -> ~ (In n (o_allow o) \/ In n (o_deny o))) ->
  load_opts e (after_open e output append (w_disk w)) o = load_opts e (w_disk w) o.
Proof.
  intros e w output append o H. apply MainDependProofs.load_opts_ext. intros n Hn. unfold after_open, open_output.
  cbn [out_name out_append]. destruct output as [m|]; [|reflexivity]. destruct (e_writable e m); [|reflexivity].
  rewrite disk_get_set. destruct (bytes_eqb m n) eqn:E; [|reflexivity]. apply bytes_eqb_eq in E. subst m.
  destruct (H n eq_refl Hn).
Qed.

Lemma translit_normal : forall e nf, translit e nf = normal e nf.
Proof. intros e [f|]; reflexivity. Qed.

(** ** The commands *)

Lemma seen_skipped : forall ls recs err, seen true ls recs err -> err = None.
Proof. intros ls recs err H. induction H; try reflexivity; try discriminate; auto. Qed.

Lemma every_read : forall cs, exists every, reads true cs every None.
Proof.
  intros cs. destruct (CliProofs.reads_exists true cs) as (every & err & Hr). exists every.
  pose proof Hr as (ls & _ & Hs). apply seen_skipped in Hs. subst err. exact Hr.
Qed.

(** one output that is not used *)
Lemma one_apart : forall e w k cs output names, (forall n, target e k cs n -> ~ MainSpec.uses e w k n) ->
  MainSpec.output_names k = DiskSpec.named output -> MainSpec.input_names k = names ->
  (forall n, output = Some n -> ~ In n names).
Proof.
  intros e w k cs output names Ha Ek En n -> Hn. apply (Ha n).
  - apply tg_output. rewrite Ek. left. reflexivity.
  - apply MainSpec.us_input. rewrite En. exact Hn.
Qed.

Lemma one_lists : forall e w k cs output o, (forall n, target e k cs n -> ~ MainSpec.uses e w k n) ->
  MainSpec.output_names k = DiskSpec.named output -> MainSpec.opts_of k = Some o ->
  (forall n, output = Some n -> ~ (In n (o_allow o) \/ In n (o_deny o))).
Proof.
  intros e w k cs output o Ha Ek Eo n -> Hn. apply (Ha n).
  - apply tg_output. rewrite Ek. left. reflexivity.
  - eapply MainSpec.us_list; [exact Eo|exact Hn].
Qed.

(** from [yields] to the end of the run *)
Lemma yields_ends : forall gz_enc writable X st outs w, yields gz_enc writable X st outs w ->
  (forall n, In n (out_names (map fst outs)) -> writable n = true) ->
  exists w', X = Some (CEnded st, w') /\ received gz_enc outs w w'.
Proof. intros gz_enc writable X st outs w [_ H] Hw. exact (H Hw). Qed.

Lemma two_outputs : forall b output tee (text : bytes),
  out_names (map fst (map (fun o => (builder_output b o, text)) (output :: match tee with Some n => [Some n] | None => [] end)))
  = DiskSpec.named output ++ DiskSpec.named tee.
Proof. intros b [n|] [m|] text; reflexivity. Qed.

Lemma different : forall output tee, NoDup (DiskSpec.named output ++ DiskSpec.named tee) -> forall n, output = Some n -> tee <> Some n.
Proof.
  intros output tee H n -> ->. cbn in H. inversion H as [|x l Hx _]. apply Hx. left. reflexivity.
Qed.

Lemma filter_inputs_are : forall o f append gzip output tee names skip d ns e,
  inputs_of (KFilter o f append gzip output tee names) ns ->
  PrepareSpec.input_names (load_filter e d skip o f names) ns.
Proof.
  intros o f append gzip output tee names skip d ns e H. remember (KFilter o f append gzip output tee names) as k eqn:Ek.
  destruct H as [H|o' f' ap gz out te x E Ex Ef|o' f' ap gz out te ns x E Ex Ef Hn]; rewrite Ek in *.
  - specialize (H _ _ _ _ _ _ _ eq_refl). cbn [MainSpec.input_names]. destruct (fi_expr_file f) as [x|] eqn:Ex.
    + destruct H as [H|H]; [discriminate|]. eapply (inames_none (load_filter e d skip o f names)); [exact Ex|exact H].
    + apply (inames_expr (load_filter e d skip o f names)). exact Ex.
  - injection E as -> -> -> -> -> -> ->. eapply (inames_only (load_filter e d skip o' f' [lit "-"])); [exact Ex|exact Ef|reflexivity].
  - injection E as -> -> -> -> -> -> ->. eapply (inames_more (load_filter e d skip o' f' ns)); [exact Ex|exact Ef|exact Hn].
Qed.

Lemma inputs_used : forall e w k names n, inputs_of k names -> In n names -> MainSpec.uses e w k n.
Proof.
  intros e w k names n H Hn. destruct H as [H|o f ap gz out te x E Ex Ef|o f ap gz out te ns x E Ex Ef Hs].
  - apply MainSpec.us_input. exact Hn.
  - destruct Hn as [<-|[]]. eapply MainSpec.us_expr; [exact E|exact Ex|right; reflexivity].
  - destruct Hn as [<-|Hn]; [eapply MainSpec.us_expr; [exact E|exact Ex|right; reflexivity]|].
    apply MainSpec.us_input. rewrite E. exact Hn.
Qed.

Lemma inputs_plain : forall k names, inputs_of k names -> (forall o f append gzip output tee ns, k <> KFilter o f append gzip output tee ns) ->
  names = MainSpec.input_names k.
Proof.
  intros k names H Hk. destruct H as [H|o f ap gz out te x E Ex Ef|o f ap gz out te ns x E Ex Ef Hs]; [reflexivity|destruct (Hk _ _ _ _ _ _ _ E)..].
Qed.

Lemma records_exist : forall O Od transform a M V skip cs, regexes_compile O (oa_ci a) -> regexes_compile Od false ->
  opts_say O Od true transform a M V -> exists recs err, opts_records a M V skip cs recs err.
Proof.
  intros O Od transform a M V skip cs R Rd H. destruct (to_prepared O Od transform a M V H) as (o & _ & Ho).
  destruct (PrepareProofs.opts_prepared_holds O Od a M V o R Rd Ho) as (W & _ & _ & Hs).
  destruct (CliChunkProofs.split_run_fold O Od [] 1 skip o cs W) as (recs & err & Hr & _). exists recs, err. apply Hs. exact Hr.
Qed.

Lemma picks_shorter : forall A B (P : A -> Prop) (f : A -> B) l out, picks P f l out -> (length out <= length l)%nat.
Proof. intros A B P f l out H. induction H; cbn; lia. Qed.

Lemma records_bound : forall a M V skip cs recs err, opts_records a M V skip cs recs err ->
  exists all e0, reads skip cs all e0 /\ (length recs <= length all)%nat.
Proof.
  intros a M V skip cs recs err (all & sel & e0 & Hr & Hc & Hl). exists all, e0. split; [exact Hr|].
  apply picks_shorter in Hc. destruct Hl as [(_ & -> & _)|(_ & _ & (rest & ->) & _)]; [exact Hc|].
  rewrite app_length in Hc. lia.
Qed.

Section Accepted.
  Variable e : env.
  Hypothesis L : lawful e.
  Variable c : config.
  Variable w : world.
  Variable cs : list (bytes * bytes).

  Let Rx : forall x ci, regexes_compile (e_oracles e x) ci := lw_regex e L.

  Ltac plain P names Ha Hw Hp :=
    let Hi := fresh in
    destruct P as ((names & Hi & Ha) & Hw & Hp);
    apply inputs_plain in Hi; [|intros; discriminate]; cbn [MainSpec.input_names] in Hi; subst names.

  Ltac one_writable Hx :=
    let n := fresh in let Hn := fresh in
    intros n Hn; apply Hx; apply tg_output; cbn [MainSpec.output_names]; exact Hn.

  Ltac finish_one Hx :=
    let n := fresh in let Hn := fresh in
    intros n Hn; apply Hx; apply tg_output; cbn [MainSpec.output_names];
    match goal with |- In _ (named ?o) => destruct o; [exact Hn|destruct Hn] end.

  (** [says] with the arguments as they are loaded *)
  Ltac loads H :=
    let G := fresh in
    destruct H as [G H]; apply given_loaded in G; subst.

  Lemma execute_does : forall k R, says e true c w k R -> proper e w k cs -> covered e c k cs ->
    (forall n, target e k cs n -> e_writable e n = true) ->
    exists st w', execute e c k w = Some (CEnded st, w') /\ R cs st w'.
  Proof.
    intros k R Hs P C Hx. destruct Hs.
    - (* check *)
      plain P ns Ha Hw Hp. rename H into Ho, H0 into Hr. pose proof Ho as [G _]. loads Ho. unfold execute.
      rewrite opened_lists by (apply (one_lists e w _ cs output o Hw); reflexivity). rewrite translit_normal.
      destruct (files_accepted (e_gz_enc e) (e_gz_dec e) (e_writable e) (oracles_for e o) (normal e (cf_normalization c)) (e_lossy e) (e_text e)
        (e_rule_order e) (e_link_order e) (e_oracles e) (e_int_f64 e) (e_strptime e) (e_is_nf e) (e_polars e)
        (e_rules_order e) (e_rules_toml e) (normal e (cf_normalization c)) (e_patterns e) Rx (lw_toml e L) (lw_lossy e L) (lw_rule e L) (lw_link e L) (lw_rules e L)
        (load_opts e (w_disk w) o) (Rx _ _) M V ms0 rules filter tags output (o_skip o || cf_skip_invalid c) names w cs Ho Hr Ha)
        as (ms' & st & text & w' & H1 & H2 & H3 & H4).
      { intros n ->. split; [apply Hx; apply tg_output; left; reflexivity|].
        apply (one_apart e w _ cs (Some n) names Hw); reflexivity. }
      exists st, w'. split; [exact H1|]. exists ms', text. repeat (split; [assumption|]). assumption.
    - (* concat *)
      plain P ns Ha Hw Hp. cbn [covered] in C. unfold execute.
      destruct (concat_full (e_gz_enc e) (e_gz_dec e) (e_writable e) (default_oracles e) (e_sha e) (e_lossy e)
                  append output tee unique (s || cf_skip_invalid c) names w cs Ha) as (st & text & He & Y).
      { apply different. exact Hp. }
      { intros n Hn Hi. apply (Hw n); [apply tg_output; exact Hn|]. apply MainSpec.us_input. exact Hi. }
      { exact C. }
      destruct (yields_ends _ _ _ _ _ _ Y) as (w' & H1 & H2).
      { rewrite two_outputs. one_writable Hx. }
      exists st, w'. split; [exact H1|]. exists text. split; [exact He|exact H2].
    - (* convert *)
      plain P ns Ha Hw Hp. destruct C as [_ C]. unfold execute.
      destruct (CliProofs.reads_exists (s || cf_skip_invalid c) cs) as (recs & err & Hr).
      destruct (convert_full (e_gz_enc e) (e_gz_dec e) (e_writable e) (e_lossy e) (e_esc e) to output (s || cf_skip_invalid c) names w cs recs err
                  (lw_utf8 e L) Ha) as (text & He & Y).
      { apply (one_apart e w _ cs output names Hw); reflexivity. }
      { exact Hr. }
      { intros Ht. exact (C Ht recs err Hr). }
      destruct (yields_ends _ _ _ _ _ _ Y) as (w' & H1 & H2).
      { intros n Hn. apply Hx. apply tg_output. cbn [MainSpec.output_names]. destruct (convert_output_is to output) as [E _].
        cbn in Hn. rewrite E in Hn. rewrite app_nil_r in Hn. exact Hn. }
      eexists _, w'. split; [exact H1|]. exists recs, err, text. auto.
    - (* count *)
      plain P ns Ha Hw Hp. rename H into Ho. loads Ho. unfold execute.
      rewrite opened_lists by (apply (one_lists e w _ cs output o Hw); reflexivity). rewrite translit_normal.
      destruct (count_accepted (e_gz_enc e) (e_gz_dec e) (e_writable e) (oracles_for e o) (default_oracles e) (normal e (cf_normalization c))
                  (load_opts e (w_disk w) o) (Rx _ _) (Rx _ _) M V append output m (o_skip o || cf_skip_invalid c) names w cs Ho Ha)
        as (st & text & He & Y).
      { apply (one_apart e w _ cs output names Hw); reflexivity. }
      destruct (yields_ends _ _ _ _ _ _ Y) as (w' & H1 & H2); [finish_one Hx|].
      exists st, w'. split; [exact H1|]. exists text. split; [exact He|exact H2].
    - (* describe *)
      plain P ns Ha Hw Hp. rename H into Ho. loads Ho. unfold execute. rewrite translit_normal.
      destruct (describe_accepted_format (e_gz_enc e) (e_gz_dec e) (e_writable e) (oracles_for e o) (default_oracles e) (normal e (cf_normalization c))
                  (e_tag_order e) (e_frame e) (load_opts e (w_disk w) o) M V D K discard keep csv tsv output (o_skip o || cf_skip_invalid c) names w cs f
                  (Rx _ _) (Rx _ _) (lw_tag e L) Ho) as [(recs & err & H3 & H4)|(text & He & [(w' & H3 & H4)|((n & -> & Hn) & _)])]; try assumption.
      + exists 2, w. split; [exact H4|]. left. exists recs, err. auto.
      + exists 0, w'. split; [exact H3|]. right. exists text. auto.
      + exfalso. rewrite (Hx n) in Hn; [discriminate|]. apply tg_output. left. reflexivity.
    - (* explode *)
      plain P ns Ha Hw Hp. rename H into Ho. loads Ho. unfold execute.
      rewrite opened_lists by (apply (one_lists e w _ cs output o Hw); reflexivity). rewrite translit_normal.
      destruct (explode_accepted (e_gz_enc e) (e_gz_dec e) (e_writable e) (oracles_for e o) (default_oracles e) (normal e (cf_normalization c))
                  (load_opts e (w_disk w) o) (Rx _ _) (Rx _ _) M V D K discard keep l gzip output (o_skip o || cf_skip_invalid c) names w cs Ho)
        as (st & text & He & Y); try assumption.
      { apply (one_apart e w _ cs output names Hw); reflexivity. }
      destruct (yields_ends _ _ _ _ _ _ Y) as (w' & H1' & H2'); [finish_one Hx|].
      exists st, w'. split; [exact H1'|]. exists text. split; [exact He|exact H2'].
    - (* filter *)
      destruct P as ((ns & Hi & Ha) & Hw & Hp). rename H into G, H0 into Hg, H1 into Hf. pose proof (gf_there _ _ _ _ _ _ _ G) as Ht.
      pose proof (gf_expr_file _ _ _ _ _ _ _ G) as Hef.
      apply filter_loaded in G. subst a. unfold execute. rewrite translit_normal.
      destruct (filter_disk_accepted (e_gz_enc e) (e_gz_dec e) (e_writable e) (oracles_for e o) (default_oracles e) (normal e (cf_normalization c))
                  (load_filter e (w_disk w) (o_skip o || cf_skip_invalid c) o f names) M D K V append gzip output tee w ns cs
                  (Rx _ _) (Rx _ _) Hg Hf) as (all & e0 & sel & recs & err & texts & w' & H1 & H2 & H3 & H4 & H5 & H6); try assumption.
      { eapply filter_inputs_are. exact Hi. }
      { apply different. exact Hp. }
      { intros n Hn. assert (T : target e (KFilter o f append gzip output tee names) cs n) by (apply tg_output; exact Hn).
        split; [apply Hx; exact T|]. split.
        - intros X. apply (Hw n T). eapply inputs_used; eassumption.
        - rewrite Hef. intros X. apply (Hw n T). eapply MainSpec.us_expr; [reflexivity|exact X|left; reflexivity]. }
      exists (status_of err), w'. split; [exact H5|]. exists all, e0, sel, recs, err, texts. auto 10.
    - (* frequency *)
      plain P ns Ha Hw Hp. destruct H as (G & Ho & Ht). pose proof (C true Ms header (ex_intro _ a (conj (gt_query _ _ _ _ _ G) (conj (gt_header _ _ _ _ _ G) Ht)))) as Hf.
      apply table_loaded in G. subst a. unfold execute. rewrite !translit_normal.
      destruct (freq_accepted (e_gz_enc e) (e_gz_dec e) (e_writable e) (oracles_for e o) (default_oracles e) (normal e (cf_normalization c))
                  (e_lossy e) (e_text e) (e_numeric e) (e_freq_order e) (load_columns e (w_disk w) o q) (Rx _ _) (Rx _ _)
                  M V Ms header unique num threshold reverse (normal e nf) tsv output (o_skip o || cf_skip_invalid c) names w cs (lw_freq e L) Ho Ht Hf Ha)
        as (st & text & He & Y).
      { apply (one_apart e w _ cs output names Hw); reflexivity. }
      destruct (yields_ends _ _ _ _ _ _ Y) as (w' & H1' & H2'); [finish_one Hx|].
      exists st, w'. split; [exact H1'|]. exists text. split; [exact He|exact H2'].
    - (* hash *)
      plain P ns Ha Hw Hp. rename H into Ho. loads Ho. unfold execute. rewrite translit_normal.
      destruct (hash_accepted (e_gz_enc e) (e_gz_dec e) (e_writable e) (oracles_for e o) (default_oracles e) (normal e (cf_normalization c))
                  (e_sha e) (e_lossy e) (e_numeric e)
                  (load_opts e (w_disk w) o) (Rx _ _) (Rx _ _) M V output tsv header h1 h2 (o_skip o || cf_skip_invalid c) names w cs Ho)
        as (st & text & He & Y); try assumption.
      { apply (one_apart e w _ cs output names Hw); reflexivity. }
      destruct (yields_ends _ _ _ _ _ _ Y) as (w' & H1' & H2'); [finish_one Hx|].
      exists st, w'. split; [exact H1'|]. exists text. split; [exact He|exact H2'].
    - (* invalid *)
      plain P ns Ha Hw Hp. unfold execute.
      destruct (invalid_full (e_gz_enc e) (e_gz_dec e) (e_writable e) (default_oracles e) output names w cs Ha)
        as (ls & valid & invalid & H1 & H2 & H3 & H4 & Y).
      { apply (one_apart e w _ cs output names Hw); reflexivity. }
      destruct (yields_ends _ _ _ _ _ _ Y) as (w' & H1' & H2'); [finish_one Hx|].
      exists 0, w'. split; [exact H1'|]. exists ls, valid, invalid. auto 10.
    - (* partition *)
      plain P ns Ha Hw Hp. rename H into Ho. loads Ho. destruct C as (Cl & Cw & Cd). destruct (every_read cs) as (every & He).
      unfold execute. rewrite translit_normal, H0.
      destruct (partition_disk_accepted (e_gz_enc e) (e_gz_dec e) (e_writable e) (oracles_for e o) (default_oracles e) (normal e (cf_normalization c))
                  (e_lossy e) (e_writer_order e) (lw_writer e L)
                  (fun v => exists r, In r every /\ has_value (oracles_for e o) (o_ci o) p v (br_record r))
                  (load_opts e (w_disk w) o) M V p gzip outdir template (o_skip o || cf_skip_invalid c) names w cs every
                  (Rx _ _) (Rx _ _) Ho Cl Cw Ha He) as (all & err & sel & w' & H1 & H2 & H3 & H4).
      { intros r v Hr Hv. exists r. auto. }
      { intros v n (r & Hr & Hv) Hn.
        assert (T : target e (KPartition o p gzip outdir template names) cs n) by (eapply tg_value; [reflexivity|eassumption..]).
        split; [apply Hx; exact T|]. intros X. apply (Hw n T). apply MainSpec.us_input. exact X. }
      { intros v u n (r & Hr & Hv) (r' & Hr' & Hu) Hn Hn'. exact (Cd every r r' v u n He Hr Hr' Hv Hu Hn Hn'). }
      exists (status_of err), w'. split; [exact H3|]. exists all, err, sel. auto.
    - (* print *)
      plain P ns Ha Hw Hp. rename H into Ho. loads Ho. unfold execute. rewrite !translit_normal. cbn [covered] in C.
      destruct (CliProofs.reads_exists (o_skip o || cf_skip_invalid c) cs) as (recs & err & Hr).
      destruct (print_accepted (e_gz_enc e) (e_gz_dec e) (e_writable e) (oracles_for e o) (default_oracles e) (normal e (cf_normalization c))
                  (load_opts e (w_disk w) o) (Rx _ _) (Rx _ _) M V (normal e nf) output (o_skip o || cf_skip_invalid c) names w cs recs err Ho Ha)
        as (st & text & He & Y).
      { apply (one_apart e w _ cs output names Hw); reflexivity. }
      { exact Hr. }
      { eapply Forall_impl; [|exact (C recs err Hr)]. intros r X _. exact X. }
      destruct (yields_ends _ _ _ _ _ _ Y) as (w' & H1' & H2'); [finish_one Hx|].
      exists st, w'. split; [exact H1'|]. exists text. split; [exact He|exact H2'].
    - (* sample *)
      plain P ns Ha Hw Hp. rename H into Ho. loads Ho. unfold execute. rewrite translit_normal.
      destruct (sample_accepted (e_gz_enc e) (e_gz_dec e) (e_writable e) (oracles_for e o) (default_oracles e) (normal e (cf_normalization c))
                  (load_opts e (w_disk w) o) (Rx _ _) (Rx _ _) M V gzip output draw size (o_skip o || cf_skip_invalid c) names w cs Ho Ha)
        as (st & text & He & Y).
      { apply (one_apart e w _ cs output names Hw); reflexivity. }
      destruct (yields_ends _ _ _ _ _ _ Y) as (w' & H1' & H2'); [finish_one Hx|].
      exists st, w'. split; [exact H1'|]. exists text. split; [exact He|exact H2'].
    - (* select *)
      plain P ns Ha Hw Hp. destruct H as (G & Ho & Ht). destruct C as [Cq C]. pose proof (C true Ms header (ex_intro _ a (conj (gt_query _ _ _ _ _ G) (conj (gt_header _ _ _ _ _ G) Ht)))) as Hf.
      apply table_loaded in G. subst a. unfold execute. rewrite !translit_normal.
      destruct (select_accepted (e_gz_enc e) (e_gz_dec e) (e_writable e) (oracles_for e o) (default_oracles e) (normal e (cf_normalization c))
                  (e_lossy e) (e_text e) (e_numeric e) (e_hash e) (load_columns e (w_disk w) o q) (Rx _ _) (Rx _ _)
                  M V Ms header unique no_empty (option_map (e_nf e) nf) quote tsv append output (o_skip o || cf_skip_invalid c) names w cs Ho Ht Hf Cq)
        as (st & text & He & Y); try assumption.
      { intros v. apply (lw_numeric e L). }
      { apply (one_apart e w _ cs output names Hw); reflexivity. }
      destruct (yields_ends _ _ _ _ _ _ Y) as (w' & H1' & H2'); [finish_one Hx|].
      exists st, w'. split; [exact H1'|]. exists text. split; [exact He|exact H2'].
    - (* slice *)
      plain P ns Ha Hw Hp. rename H into Ho. loads Ho. unfold execute. rewrite translit_normal. destruct C as [(stop & Cs) Cl].
      destruct (slice_accepted (e_gz_enc e) (e_gz_dec e) (e_writable e) (oracles_for e o) (default_oracles e) (normal e (cf_normalization c))
                  (load_opts e (w_disk w) o) (Rx _ _) (Rx _ _) M V gzip append output start end_ len stop (o_skip o || cf_skip_invalid c) names w cs Ho H0 Ha)
        as (st & text & He & Y); try assumption.
      { apply (one_apart e w _ cs output names Hw); reflexivity. }
      destruct (yields_ends _ _ _ _ _ _ Y) as (w' & H1' & H2'); [finish_one Hx|].
      exists st, w'. split; [exact H1'|]. exists stop, text. split; [exact Cs|]. split; [exact He|exact H2'].
    - (* split *)
      plain P ns Ha Hw Hp. rename H into Ho. loads Ho. destruct C as (Cp & Cz & Cn). unfold execute. rewrite translit_normal, H0.
      destruct (records_exist (oracles_for e o) (default_oracles e) (normal e (cf_normalization c)) (load_opts e (w_disk w) o) M V (o_skip o || cf_skip_invalid c) cs (Rx _ _) (Rx _ _) Ho)
        as (recs & err & Hrr). destruct (records_bound _ _ _ _ _ _ _ Hrr) as (all & e0 & Hr & Hl).
      destruct (split_disk_accepted (e_gz_enc e) (e_gz_dec e) (e_writable e) (oracles_for e o) (default_oracles e) (normal e (cf_normalization c))
                  (load_opts e (w_disk w) o) M V gzip outdir template size (o_skip o || cf_skip_invalid c) names w cs recs err
                  (Rx _ _) (Rx _ _) Ho Cp Cz) as (chunks & fs & w' & H1 & H2 & H3 & H4); try assumption.
      { intros j n Hn. assert (T : target e (KSplit o gzip outdir template size names) cs n) by (eapply tg_chunk; [reflexivity|exact Hn]).
        split; [apply Hx; exact T|]. intros X. apply (Hw n T). apply MainSpec.us_input. exact X. }
      { specialize (Cn _ _ Hr). lia. }
      exists (status_of err), w'. split; [exact H3|]. exists recs, err, chunks, fs. auto.
  Qed.
End Accepted.

Lemma describe_reads_any : forall gz_enc gz_dec writable O Od transform tag_order frame_text a discard keep csv tsv output skip names w cs st w',
  regexes_compile O (oa_ci a) -> regexes_compile Od false -> (forall t, Permutation (tag_order t) t) ->
  available gz_dec (w_disk w) (w_stdin w) names cs ->
  describe_on_disk gz_enc gz_dec writable O Od transform tag_order frame_text a discard keep csv tsv output skip names w = Some (CEnded st, w') ->
  exists M V D K, opts_say O Od false transform a M V /\ fields_option discard D /\ fields_option keep K
    /\ ((exists recs err, opts_records a M V skip cs recs (Some err) /\ st = 2 /\ w' = w)
        \/ (exists text, describe_effect a M V skip cs D K (frame_text (describe_format csv tsv output)) text /\ st = 0
             /\ received gz_enc [(mkOut output false false, text)] w w')
        \/ ((exists n, output = Some n /\ writable n = false) /\ st = 2 /\ w' = w)).
Proof.
  intros gz_enc gz_dec writable O Od transform tag_order frame_text a discard keep csv tsv output skip names w cs st w' R Rd Ht Ha H.
  pose proof H as Hc. unfold describe_on_disk in Hc. apply prepared_ended in Hc as ([ds ks] & E1 & Hc). apply prepared_ended in Hc as (o & Ep & _).
  destruct (parse_predicates discard) as [ds'|] eqn:Ed, (parse_predicates keep) as [ks'|] eqn:Ek; try discriminate.
  injection E1 as -> ->. destruct (PrepareProofs.opts_read O Od transform a o Ep) as (M & V & Hs & Ho).
  destruct (PrepareProofs.fields_read _ _ Ed) as (D & HD & HD'), (PrepareProofs.fields_read _ _ Ek) as (K & HK & HK').
  exists M, V, D, K. repeat (split; [assumption|]).
  destruct (describe_full gz_enc gz_dec writable O Od transform tag_order frame_text a R Rd Ht M V D K ds ks o discard keep csv tsv output skip names w cs Ho Ep Ed Ek HD' HK' Ha)
    as [(recs & err & He & E)|(text & He & [(w2 & E & Hr)|(Hn & E)])]; rewrite E in H; injection H as <- <-.
  - left. exists recs, err. auto.
  - right. left. exists text. auto.
  - right. right. auto.
Qed.

Lemma filter_there : forall gz_enc gz_dec writable O Od transform a append gzip output tee w st w' ns,
  (forall n, output = Some n -> tee <> Some n) -> PrepareSpec.input_names a ns ->
  (forall n, In n (named output ++ named tee) -> ~ In n ns /\ fa_expr_file a <> Some n) ->
  filter_on_disk gz_enc gz_dec writable O Od transform a append gzip output tee w = Some (CEnded st, w') ->
  forall n, fa_expr_file a = Some n -> disk_get (w_disk w) n <> None.
Proof.
  intros gz_enc gz_dec writable O Od transform a append gzip output tee w st w' ns Ht Hn Hd H.
  assert (En : ns = filter_names (match fa_expr_file a with Some _ => true | None => false end) (fa_filter a) (fa_names a)).
  { destruct (PrepareProofs.input_names_model (fun x => x) a) as (names' & _ & E & U). rewrite (U _ Hn).
    unfold filter_inputs in E. apply (f_equal (map fst)) in E. rewrite !map_map in E. cbn in E. rewrite !map_id in E. congruence. }
  subst ns. exact (proj1 (filter_completed gz_enc gz_dec writable O Od transform a append gzip output tee w st w' Ht Hd H)).
Qed.

Section Read.
  Variable e : env.
  Hypothesis L : lawful e.
  Variable c : config.
  Variable w : world.
  Variable cs : list (bytes * bytes).

  Let Rx : forall x ci, regexes_compile (e_oracles e x) ci := lw_regex e L.

  Ltac plain P names Ha Hw Hp :=
    let Hi := fresh in
    destruct P as ((names & Hi & Ha) & Hw & Hp);
    apply inputs_plain in Hi; [|intros; discriminate]; cbn [MainSpec.input_names] in Hi; subst names.

  Ltac sole Hw output names := apply (one_apart e w _ cs output names Hw); reflexivity.
  Ltac options Ho := split; [eapply loaded_given; exact Ho|exact Ho].

  Lemma execute_did : forall k st w', execute e c k w = Some (CEnded st, w') -> proper e w k cs -> covered e c k cs ->
    (forall n, target e k cs n -> e_writable e n = true) \/ st = 0 ->
    exists R, says e false c w k R /\ R cs st w'.
  Proof.
    intros k st w' H P C Hx. destruct k; cbn [covered] in C.
    - (* check *)
      plain P ns Ha Hw Hp. unfold execute in H.
      rewrite opened_lists, translit_normal in H by (apply (one_lists e w _ cs output o Hw); reflexivity).
      apply (files_read (e_gz_enc e) (e_gz_dec e) (e_writable e) (oracles_for e o) (normal e (cf_normalization c)) (e_lossy e) (e_text e)
        (e_rule_order e) (e_link_order e) (e_oracles e) (e_int_f64 e) (e_strptime e) (e_is_nf e) (e_polars e)
        (e_rules_order e) (e_rules_toml e) (normal e (cf_normalization c)) (e_patterns e) Rx (lw_toml e L) (lw_lossy e L) (lw_rule e L) (lw_link e L) (lw_rules e L)
        (load_opts e (w_disk w) o) (Rx _ _)) with (cs := cs) in H; [|exact Ha|sole Hw output names].
      destruct H as (M & V & ms & text & Ho & Hr & He & Hc).
      eexists. split; [eapply sy_check; [options Ho|exact Hr]|]. exists ms, text. auto.
    - (* concat *)
      plain P ns Ha Hw Hp. unfold execute in H.
      destruct (concat_full (e_gz_enc e) (e_gz_dec e) (e_writable e) (default_oracles e) (e_sha e) (e_lossy e)
                  append output tee unique (skip || cf_skip_invalid c) names w cs Ha) as (st' & text & He & Y & _).
      { apply different. exact Hp. }
      { intros n Hn Hi. apply (Hw n); [apply tg_output; exact Hn|]. apply MainSpec.us_input. exact Hi. }
      { exact C. }
      apply Y in H as [-> H]. eexists. split; [apply sy_concat|]. exists text. auto.
    - destruct C.
    - (* convert *)
      plain P ns Ha Hw Hp. unfold execute in H. destruct C as [-> C].
      destruct (CliProofs.reads_exists (skip || cf_skip_invalid c) cs) as (recs & err & Hr).
      destruct (convert_full (e_gz_enc e) (e_gz_dec e) (e_writable e) (e_lossy e) (e_esc e) to output (skip || cf_skip_invalid c) names w cs recs err
                  (lw_utf8 e L) Ha) as (text & He & Y & _).
      { sole Hw output names. }
      { exact Hr. }
      { intros Ht. exact (C Ht recs err Hr). }
      apply Y in H as [-> H]. eexists. split; [apply sy_convert|]. exists recs, err, text. auto.
    - (* count *)
      plain P ns Ha Hw Hp. unfold execute in H.
      rewrite opened_lists, translit_normal in H by (apply (one_lists e w _ cs output o Hw); reflexivity).
      apply (count_reads (e_gz_enc e) (e_gz_dec e) (e_writable e) (oracles_for e o) (default_oracles e) (normal e (cf_normalization c))
                  (load_opts e (w_disk w) o) (Rx _ _) (Rx _ _)) with (cs := cs) in H; [|exact Ha|sole Hw output names].
      destruct H as (M & V & text & Ho & He & Hc).
      eexists. split; [eapply sy_count; options Ho|]. exists text. auto.
    - (* describe *)
      plain P ns Ha Hw Hp. unfold execute in H. rewrite translit_normal in H.
      destruct (describe_reads_any (e_gz_enc e) (e_gz_dec e) (e_writable e) (oracles_for e o) (default_oracles e) (normal e (cf_normalization c))
                  (e_tag_order e) (e_frame e) (load_opts e (w_disk w) o) _ _ _ _ _ _ _ _ cs _ _ (Rx _ _) (Rx _ _) (lw_tag e L) Ha H)
        as (M & V & D & K & Ho & HD & HK & He).
      eexists. split; [eapply sy_describe; [options Ho|exact HD|exact HK|apply describe_format_is; reflexivity]|].
      destruct He as [He|[He|((n & -> & Hn) & -> & ->)]]; [left; exact He|right; exact He|].
      exfalso. destruct Hx as [Hx|Hx]; [|discriminate]. rewrite (Hx n) in Hn; [discriminate|]. apply tg_output. left. reflexivity.
    - (* explode *)
      plain P ns Ha Hw Hp. unfold execute in H.
      rewrite opened_lists, translit_normal in H by (apply (one_lists e w _ cs output o Hw); reflexivity).
      apply (explode_reads (e_gz_enc e) (e_gz_dec e) (e_writable e) (oracles_for e o) (default_oracles e) (normal e (cf_normalization c))
                  (load_opts e (w_disk w) o) (Rx _ _) (Rx _ _)) with (cs := cs) in H; [|exact Ha|sole Hw output names].
      destruct H as (M & V & D & K & text & Ho & HD & HK & He & Hc).
      eexists. split; [eapply sy_explode; [options Ho|exact HD|exact HK]|]. exists text. auto.
    - (* filter *)
      destruct P as ((ns & Hi & Ha) & Hw & Hp). unfold execute in H. rewrite translit_normal in H.
      assert (Hd : forall n, In n (named output ++ named tee) -> ~ In n ns /\ fi_expr_file f <> Some n).
      { intros n Hn. assert (T : target e (KFilter o f append gzip output tee names) cs n) by (apply tg_output; exact Hn). split.
        - intros X. apply (Hw n T). eapply inputs_used; eassumption.
        - intros X. apply (Hw n T). eapply MainSpec.us_expr; [reflexivity|exact X|left; reflexivity]. }
      assert (En := filter_inputs_are _ _ _ _ _ _ _ (o_skip o || cf_skip_invalid c) (w_disk w) _ e Hi).
      assert (Hgz : append && gzip = false).
      { unfold filter_on_disk in H. apply prepared_ended in H. destruct H as (_ & _ & H). destruct append, gzip; try reflexivity. discriminate. }
      pose proof (filter_there _ _ _ _ _ _ _ _ _ _ _ _ _ _ ns (different _ _ Hp) En Hd H) as Ht.
      apply (filter_disk_read (e_gz_enc e) (e_gz_dec e) (e_writable e) (oracles_for e o) (default_oracles e) (normal e (cf_normalization c))
                  (load_filter e (w_disk w) (o_skip o || cf_skip_invalid c) o f names)) with (names := ns) (cs := cs) in H;
        [|apply Rx|apply Rx|exact En|exact Ha|apply different; exact Hp|exact Hd].
      destruct H as (M & D & K & V & all & e0 & sel & recs & err & texts & Hs & H1 & H2 & H3 & H4 & H5 & H6).
      eexists. split; [eapply sy_filter; [eapply loaded_filter; [exact Hs|exact Ht]|exact Hgz|exact Hs]|].
      exists all, e0, sel, recs, err, texts. auto 10.
    - (* frequency *)
      plain P ns Ha Hw Hp. unfold execute in H. rewrite !translit_normal in H.
      pose proof (TablePrepareProofs.header_read (load_columns e (w_disk w) o q)) as Hh.
      apply (freq_reads (e_gz_enc e) (e_gz_dec e) (e_writable e) (oracles_for e o) (default_oracles e) (normal e (cf_normalization c))
                  (e_lossy e) (e_text e) (e_numeric e) (e_freq_order e) (load_columns e (w_disk w) o q) (Rx _ _) (Rx _ _))
        with (cs := cs) (header := table_header (load_columns e (w_disk w) o q)) in H;
        [|exact (lw_freq e L)|exact Hh| |exact Ha|sole Hw output names].
      + destruct H as (M & V & Ms & text & Ho & Ht & He & Hc).
        eexists. split; [eapply sy_frequency; split; [eapply loaded_table; exact Ho|split; [exact Ho|exact Ht]]|]. exists text. auto.
      + intros Ms Ht. apply (C false). exists (load_columns e (w_disk w) o q). auto.
    - (* hash *)
      plain P ns Ha Hw Hp. unfold execute in H. rewrite translit_normal in H. destruct C as (h1 & h2 & C).
      apply (hash_reads (e_gz_enc e) (e_gz_dec e) (e_writable e) (oracles_for e o) (default_oracles e) (normal e (cf_normalization c))
                  (e_sha e) (e_lossy e) (e_numeric e) (load_opts e (w_disk w) o) (Rx _ _) (Rx _ _))
        with (cs := cs) (h1 := h1) (h2 := h2) in H; [|exact Ha|sole Hw output names|exact C].
      destruct H as (M & V & text & Ho & He & Hc).
      eexists. split; [eapply sy_hash; [options Ho|exact C]|]. exists text. auto.
    - (* invalid *)
      plain P ns Ha Hw Hp. unfold execute in H.
      destruct (invalid_full (e_gz_enc e) (e_gz_dec e) (e_writable e) (default_oracles e) output names w cs Ha)
        as (ls & valid & invalid & H1 & H2 & H3 & H4 & Y & _).
      { sole Hw output names. }
      apply Y in H as [-> H]. eexists. split; [apply sy_invalid|]. exists ls, valid, invalid. auto 10.
    - (* partition *)
      plain P ns Ha Hw Hp. unfold execute in H. rewrite translit_normal in H. destruct C as (Cl & Cw & Cd). destruct (every_read cs) as (every & He).
      assert (T : forall v n, (exists r, In r every /\ has_value (oracles_for e o) (o_ci o) p v (br_record r)) ->
                    DirSpec.file_for template gzip outdir (e_lossy e v) n -> target e (KPartition o p gzip outdir template names) cs n).
      { intros v n (r & Hr & Hv) Hn. eapply tg_value; [reflexivity|eassumption..]. }
      assert (Hu : forall v n, (exists r, In r every /\ has_value (oracles_for e o) (o_ci o) p v (br_record r)) ->
                    DirSpec.file_for template gzip outdir (e_lossy e v) n -> ~ In n names).
      { intros v n Hv Hn X. apply (Hw n (T v n Hv Hn)). apply MainSpec.us_input. exact X. }
      assert (Hi : forall v u n, (exists r, In r every /\ has_value (oracles_for e o) (o_ci o) p v (br_record r)) ->
                    (exists r, In r every /\ has_value (oracles_for e o) (o_ci o) p u (br_record r)) ->
                    DirSpec.file_for template gzip outdir (e_lossy e v) n -> DirSpec.file_for template gzip outdir (e_lossy e u) n -> v = u).
      { intros v u n (r & Hr & Hv) (r' & Hr' & Hu') Hn Hn'. exact (Cd every r r' v u n He Hr Hr' Hv Hu' Hn Hn'). }
      assert (Ed : e_dir_ok e outdir = true).
      { unfold partition_on_disk in H. apply prepared_ended in H as (x & _ & H). destruct (e_dir_ok e outdir); [reflexivity|discriminate]. }
      destruct Hx as [Hx| ->].
      + apply (partition_disk_read (e_gz_enc e) (e_gz_dec e) (e_writable e) (oracles_for e o) (default_oracles e) (normal e (cf_normalization c))
                  (e_lossy e) (e_writer_order e) (lw_writer e L)
                  (fun v => exists r, In r every /\ has_value (oracles_for e o) (o_ci o) p v (br_record r))) with (cs := cs) (every := every) in H;
          [|apply Rx|apply Rx|exact Cl|exact Cw|exact Ha|exact He|intros r v Hr Hv; exists r; auto
           |intros v n Hv Hn; split; [apply Hx; exact (T v n Hv Hn)|exact (Hu v n Hv Hn)]|exact Hi].
        destruct H as (_ & M & V & all & err & sel & Ho & H1 & H2 & H3 & H4).
        eexists. split; [eapply sy_partition; [options Ho|exact Ed]|]. exists all, err, sel. auto.
      + apply (partition_success (e_gz_enc e) (e_gz_dec e) (e_writable e) (oracles_for e o) (default_oracles e) (normal e (cf_normalization c))
                  (e_lossy e) (e_writer_order e) 
                  (fun v => exists r, In r every /\ has_value (oracles_for e o) (o_ci o) p v (br_record r))) with (cs := cs) (every := every) in H;
          [|exact (lw_writer e L)|apply Rx|apply Rx|exact Cl|exact Cw|exact Ha|exact He|intros r v Hr Hv; exists r; auto|exact Hu|exact Hi].
        destruct H as (M & V & all & sel & Ho & H1 & H2 & H4).
        eexists. split; [eapply sy_partition; [options Ho|exact Ed]|]. exists all, None, sel. auto.
    - (* print *)
      plain P ns Ha Hw Hp. unfold execute in H. rewrite !translit_normal in H.
      destruct (CliProofs.reads_exists (o_skip o || cf_skip_invalid c) cs) as (recs & err & Hr).
      apply (print_reads (e_gz_enc e) (e_gz_dec e) (e_writable e) (oracles_for e o) (default_oracles e) (normal e (cf_normalization c))
                  (load_opts e (w_disk w) o) (Rx _ _) (Rx _ _)) with (cs := cs) (all := recs) (e0 := err) in H;
        [|exact Ha|sole Hw output names|exact Hr|exact (C recs err Hr)].
      destruct H as (M & V & text & Ho & He & Hc).
      eexists. split; [eapply sy_print; options Ho|]. exists text. auto.
    - (* sample *)
      plain P ns Ha Hw Hp. unfold execute in H. rewrite translit_normal in H.
      apply (sample_reads (e_gz_enc e) (e_gz_dec e) (e_writable e) (oracles_for e o) (default_oracles e) (normal e (cf_normalization c))
                  (load_opts e (w_disk w) o) (Rx _ _) (Rx _ _)) with (cs := cs) in H; [|exact Ha|sole Hw output names].
      destruct H as (M & V & text & Ho & He & Hc).
      eexists. split; [eapply sy_sample; options Ho|]. exists text. auto.
    - (* select *)
      plain P ns Ha Hw Hp. unfold execute in H. rewrite !translit_normal in H. destruct C as [Cq C].
      pose proof (TablePrepareProofs.header_read (load_columns e (w_disk w) o q)) as Hh.
      apply (select_reads (e_gz_enc e) (e_gz_dec e) (e_writable e) (oracles_for e o) (default_oracles e) (normal e (cf_normalization c))
                  (e_lossy e) (e_text e) (e_numeric e) (e_hash e) (load_columns e (w_disk w) o q) (Rx _ _) (Rx _ _))
        with (cs := cs) (header := table_header (load_columns e (w_disk w) o q)) in H;
        [|exact Hh| |exact Cq|intros v; apply (lw_numeric e L)|exact Ha|sole Hw output names].
      + destruct H as (M & V & Ms & text & Ho & Ht & He & Hc).
        eexists. split; [eapply sy_select; split; [eapply loaded_table; exact Ho|split; [exact Ho|exact Ht]]|]. exists text. auto.
      + intros Ms Ht. apply (C false). exists (load_columns e (w_disk w) o q). auto.
    - (* slice *)
      plain P ns Ha Hw Hp. unfold execute in H. rewrite translit_normal in H. destruct C as [(stop & Cs) Cl].
      assert (Hgz : append && gzip = false).
      { unfold slice_on_disk in H. apply prepared_ended in H. destruct H as (x & _ & H). destruct append, gzip; try reflexivity. discriminate. }
      apply (slice_reads (e_gz_enc e) (e_gz_dec e) (e_writable e) (oracles_for e o) (default_oracles e) (normal e (cf_normalization c))
                  (load_opts e (w_disk w) o) (Rx _ _) (Rx _ _)) with (cs := cs) (stop := stop) in H; [|exact Ha|sole Hw output names|exact Cs|exact Cl].
      destruct H as (M & V & text & Ho & He & Hc).
      eexists. split; [eapply sy_slice; [options Ho|exact Hgz]|]. exists stop, text. auto.
    - (* split *)
      plain P ns Ha Hw Hp. unfold execute in H. rewrite translit_normal in H. destruct C as (Cp & Cz & Cn).
      assert (Hu : forall j n, DirSpec.chunk_file template gzip outdir j n -> ~ In n names).
      { intros j n Hn X. apply (Hw n); [eapply tg_chunk; [reflexivity|exact Hn]|]. apply MainSpec.us_input. exact X. }
      assert (Ed : e_dir_ok e outdir = true).
      { unfold split_on_disk in H. apply prepared_ended in H as (x & _ & H). destruct (e_dir_ok e outdir); [reflexivity|discriminate]. }
      destruct Hx as [Hx| ->].
      + apply (split_disk_read (e_gz_enc e) (e_gz_dec e) (e_writable e) (oracles_for e o) (default_oracles e) (normal e (cf_normalization c))) with (cs := cs) in H;
          [|apply Rx|apply Rx|exact Cp|exact Cz|intros j n Hn; split; [apply Hx; eapply tg_chunk; [reflexivity|exact Hn]|exact (Hu j n Hn)]|exact Ha].
        destruct H as (_ & M & V & recs & err & Ho & Hr & H). destruct (records_bound _ _ _ _ _ _ _ Hr) as (all & e0 & Hr' & Hl).
        destruct H as (-> & chunks & fs & H1 & H2 & H3); [specialize (Cn _ _ Hr'); lia|].
        eexists. split; [eapply sy_split; [options Ho|exact Ed]|]. exists recs, err, chunks, fs. auto.
      + apply (split_success (e_gz_enc e) (e_gz_dec e) (e_writable e) (oracles_for e o) (default_oracles e) (normal e (cf_normalization c))) with (cs := cs) in H;
          [|apply Rx|apply Rx|exact Cp|exact Cz|exact Hu|exact Ha].
        destruct H as (M & V & recs & err & Ho & Hr & H). destruct (records_bound _ _ _ _ _ _ _ Hr) as (all & e0 & Hr' & Hl).
        destruct H as (-> & chunks & fs & H1 & H2 & H3); [specialize (Cn _ _ Hr'); lia|].
        eexists. split; [eapply sy_split; [options Ho|exact Ed]|]. exists recs, None, chunks, fs. auto.
  Qed.
End Read.

(** ** Runs *)

Lemma run_does : forall e i w c cs R, lawful e -> settings e i w c -> says e true c w (in_command i) R ->
  proper e w (in_command i) cs -> covered e c (in_command i) cs ->
  (forall n, target e (in_command i) cs n -> e_writable e n = true) ->
  exists st w', run e i w = Some (CEnded st, w') /\ R cs st w'.
Proof.
  intros e i w c cs R L Hs Hm P C Hw. rewrite (run_settings e i w c); [|destruct (in_command i); [..]; try reflexivity; destruct C|exact Hs].
  exact (execute_does e L c w cs (in_command i) R Hm P C Hw).
Qed.

Lemma run_did : forall e i w cs st w', lawful e -> run e i w = Some (CEnded st, w') ->
  proper e w (in_command i) cs -> (forall c, settings e i w c -> covered e c (in_command i) cs) ->
  (forall n, target e (in_command i) cs n -> e_writable e n = true) \/ st = 0 ->
  is_config (in_command i) = false ->
  exists c R, settings e i w c /\ says e false c w (in_command i) R /\ R cs st w'.
Proof.
  intros e i w cs st w' L H P C Hw Hk. destruct (run_ended e i w st w' Hk H) as (c & Hs & He).
  destruct (execute_did e L c w cs (in_command i) st w' He P (C c Hs) Hw) as (R & Hm & HR). exists c, R. auto.
Qed.

Lemma settings_one : forall e i w c1 c2, settings e i w c1 -> settings e i w c2 -> c1 = c2.
Proof.
  intros e i w c1 c2 H1 H2.
  destruct H1 as [n t c Hn Hg Hu Ht|n Hn Hg|Hn|n t Hn Hg Hu], H2 as [m s d Hm Gg Gu Gt|m Hm Gg|Hm|m s Hm Gg Gu];
    unfold MainSpec.config_name in *; try reflexivity; try congruence; exfalso.
  - rewrite Hm in Hn. injection Hn as <-. rewrite Hg in Gg. injection Gg as <-. exact (Gu Hu).
  - rewrite Hn in Hm. injection Hm as <-. rewrite Hg in Gg. injection Gg as <-. exact (Hu Gu).
Qed.

Lemma run_from : forall e cfg w c skip from to output names, from <> TPlus ->
  settings e (mkInvocation cfg (KConvert skip from to output names)) w c ->
  run e (mkInvocation cfg (KConvert skip from to output names)) w = Some (CRefused, w).
Proof.
  intros e cfg w c skip from to output names Hf Hs. rewrite (run_settings e (mkInvocation cfg (KConvert skip from to output names)) w c eq_refl Hs). cbn [in_command execute]. unfold convert_on_disk.
  destruct from; try reflexivity. destruct (Hf eq_refl).
Qed.

(** * Proofs about commands that choose the records which filter chooses *)

From Coq Require Import String ZArith Lia.
From Verif Require Import Bytes BaseProofs Winnow RecordModel RecordSpec RecordProofs TagOccModel Utf8Model ByteRecordModel ByteRecordProofs ReaderModel
  MatcherModel MatcherProofs StateParser MatcherParserModel BuilderModel PathModel FmtModel QueryModel CliModel CliProofs TableModel
  ExplodeModel CliRangeProofs ExplodeProofs ExplodeRunProofs CheckModel ConvertModel CsvModel OptionsModel OptionsSpec ConfigModel PrepareModel
  IoModel IoSpec WriteSpec DiskModel DirModel RuleModel
  MainModel DiskSpec RuleSpec MainSpec PipeSpec DiskProofs PipeProofs PipeInProofs FrontLoop FrontSpec FrontProofs FrontRunProofs FrontExplodeProofs LimitSpec LimitProofs PartsSpec PartsProofs
  DealtSpec AgreedSpec.
From Verif Require RunSpec RunProofs.

(** ** Separators *)

Lemma bytes_in_app : forall b x y, bytes_in b (x ++ y) = bytes_in b x + bytes_in b y.
Proof. intros b x y. unfold bytes_in. rewrite count_occ_app. lia. Qed.

Lemma bytes_in_none : forall b x, ~ In b x -> bytes_in b x = 0.
Proof. intros b x H. unfold bytes_in. rewrite (proj1 (count_occ_not_In N.eq_dec x b) H). reflexivity. Qed.

Lemma bytes_in_code : forall c, valid_code c -> c <> 30 /\ c <> 31.
Proof. intros c H. split; intros ->; cbv in H; repeat (destruct H as [H|H]; [discriminate|]); exact H. Qed.

Lemma bytes_in_tag : forall t b, valid_tag t -> b = 30 \/ b = 31 -> bytes_in b t = 0.
Proof.
  intros t b (x & y & z & u & -> & Hx & Hy & Hz & Hu) Hb. apply bytes_in_none. intros H.
  destruct H as [<-|[<-|[<-|[<-|[]]]]]; destruct Hb as [E|E]; rewrite E in *; clear E.
  all: match goal with H : In 30 _ |- _ => cbv in H | H : In 31 _ |- _ => cbv in H end.
  all: repeat match goal with H : _ \/ _ |- _ => destruct H as [H|H]; [discriminate|] end; assumption.
Qed.

Lemma bytes_in_occ : forall o b, valid_occ o -> b = 30 \/ b = 31 -> bytes_in b (write_occ o) = 0.
Proof.
  intros o b (_ & H) Hb. apply bytes_in_none. intros [E|E]; [destruct Hb as [-> | ->]; discriminate|].
  rewrite Forall_forall in H. specialize (H b E). destruct Hb as [-> | ->]; cbv in H; repeat (destruct H as [H|H]; [discriminate|]); exact H.
Qed.

Lemma bytes_in_subfields : forall l, Forall valid_subfield l ->
  bytes_in 30 (flat_map write_subfield l) = 0 /\ bytes_in 31 (flat_map write_subfield l) = N.of_nat (length l).
Proof.
  intros l H. induction H as [|s l (Hc & H31 & H30) _ [IH1 IH2]]; [split; reflexivity|]. cbn [flat_map length]. unfold write_subfield at 1 3.
  rewrite !bytes_in_app, IH1, IH2, (bytes_in_none _ _ H30), (bytes_in_none _ _ H31). destruct (bytes_in_code _ Hc) as [E1 E2].
  assert (bytes_in 30 [US; sf_code s] = 0) as ->.
  { apply bytes_in_none. intros [X|[X|[]]]; [discriminate|auto]. }
  assert (bytes_in 31 [US; sf_code s] = 1) as ->.
  { unfold bytes_in. cbn [count_occ]. destruct (N.eq_dec US 31) as [_|X]; [|destruct X; reflexivity]. destruct (N.eq_dec (sf_code s) 31); [contradiction|reflexivity]. }
  lia.
Qed.

Lemma bytes_in_field : forall f, valid_field f ->
  bytes_in 30 (write_field f) = 1 /\ bytes_in 31 (write_field f) = N.of_nat (length (f_subfields f)).
Proof.
  intros f (Ht & Ho & Hs). unfold write_field. rewrite !bytes_in_app. destruct (bytes_in_subfields _ Hs) as [-> ->].
  rewrite !(bytes_in_tag _ _ Ht) by auto.
  assert (forall b, b = 30 \/ b = 31 -> bytes_in b (match f_occ f with Some o => write_occ o | None => [] end) = 0) as X.
  { intros b Hb. destruct (f_occ f) as [o|]; [apply bytes_in_occ; auto|reflexivity]. }
  rewrite !X by auto. split; cbn; lia.
Qed.

Lemma bytes_in_fields : forall l, Forall valid_field l ->
  bytes_in 30 (flat_map write_field l) = N.of_nat (length l)
  /\ bytes_in 31 (flat_map write_field l) = fold_right N.add 0 (map (fun f => N.of_nat (length (f_subfields f))) l).
Proof.
  intros l H. induction H as [|f l Hf _ [IH1 IH2]]; [split; reflexivity|]. cbn [flat_map length map fold_right]. rewrite !bytes_in_app, IH1, IH2.
  destruct (bytes_in_field f Hf) as [-> ->]. split; lia.
Qed.

(** the data of a record read from a line *)
Lemma line_data : forall r, of_line r -> br_record r <> [] /\ Forall valid_field (br_record r) /\ r = part_record (br_record r) /\ br_write r = flat_map write_field (br_record r) ++ [10].
Proof.
  intros r (p & Hp & Ew & Eb). unfold br_from_bytes in Eb. destruct (record_from_bytes (br_write r)) as [x|] eqn:Ex; [|discriminate].
  destruct (record_from_bytes_valid _ _ Ex) as [Hn Hv]. injection Eb as Eb. assert (Er : br_record r = x) by (rewrite <- Eb; reflexivity). rewrite Er.
  apply record_parse_write in Ex. rewrite (write_record_nonempty x Hn) in Ex. split; [exact Hn|]. split; [exact Hv|]. split; [|symmetry; exact Ex].
  unfold part_record, part_data. change [10] with [LF]. rewrite Ex. symmetry. exact Eb.
Qed.

Lemma line_counts : forall r, of_line r -> bytes_in 10 (br_write r) = 1 /\ bytes_in 30 (br_write r) = N.of_nat (length (br_record r))
  /\ bytes_in 31 (br_write r) = fold_right N.add 0 (map (fun f => N.of_nat (length (f_subfields f))) (br_record r)).
Proof.
  intros r H. destruct (line_data r H) as (_ & Hv & _ & Ed). destruct (bytes_in_fields _ Hv) as [E1 E2]. split.
  - destruct H as (p & Hp & -> & _). rewrite bytes_in_app, (bytes_in_none _ _ Hp). reflexivity.
  - rewrite Ed, !bytes_in_app, E1, E2. split; cbn; lia.
Qed.

(** ** The loops *)

Section Loops.
  Variables O Od : oracles.
  Variable fo : filter_opts.
  Hypothesis Hl : fo_limit fo = 0.
  Variable sel : byte_record -> bool.

  Lemma agreed_explode : forall recs n out, Forall of_line recs -> (forall r, In r recs -> opts_select O Od fo (br_record r) = Some (sel r)) ->
    exists m, fold_end (fun s r => as_io (explode_body O Od (mkExplode LMain fo [] []) s r)) (n, out) recs = IDone (m, out ++ flat_map br_write (filter sel recs)).
  Proof.
    intros recs n out Hr Hs. rewrite explode_fold by exact Hr.
    assert (flat_map (parts_of (ex_level (mkExplode LMain fo [] []))) recs = recs) as ->.
    { clear - Hr. induction Hr as [|r recs H _ IH]; [reflexivity|]. cbn [flat_map]. rewrite IH. destruct (line_data r H) as (_ & _ & E & _).
      cbn [parts_of ex_level process process_main map app]. rewrite <- E. reflexivity. }
    clear Hr. revert n out Hs. induction recs as [|r recs IH]; intros n out Hs; [exists n; cbn; rewrite app_nil_r; reflexivity|].
    cbn [fold_end filter]. unfold part_body at 1, guarded. cbn [ex_opts ex_keep ex_discard br_keep br_discard]. rewrite (Hs r (or_introl eq_refl)), Hl.
    assert (Hs' := fun x Hx => Hs x (or_intror Hx)). destruct (sel r); [|apply IH; exact Hs'].
    change (limit_reached 0 (n + 1)) with false. cbn [as_io flat_map]. rewrite app_assoc. apply IH. exact Hs'.
  Qed.

  Lemma agreed_slice : forall recs i n out, (forall r, In r recs -> opts_select O Od fo (br_record r) = Some (sel r)) ->
    i + N.of_nat (length recs) <= usize_max ->
    exists s, fold_end (fun s r => as_io (slice_body O Od 0 fo s r)) (mkSlice usize_max i n out) recs = IDone s
      /\ sl_out s = out ++ flat_map br_write (filter sel recs).
  Proof.
    induction recs as [|r recs IH]; intros i n out Hs Hi; [eexists; split; [reflexivity|cbn; rewrite app_nil_r; reflexivity]|].
    cbn [length] in Hi. cbn [fold_end filter]. unfold slice_body at 1. cbn [sl_i sl_end sl_count sl_out]. rewrite (Hs r (or_introl eq_refl)), Hl.
    assert (Hs' := fun x Hx => Hs x (or_intror Hx)). destruct (sel r); [|apply IH; [exact Hs'|lia]].
    replace ((0 <=? i) && (i <? usize_max)) with true by (symmetry; apply andb_true_intro; split; [apply N.leb_le; lia|apply N.ltb_lt; lia]).
    change (limit_reached 0 (n + 1)) with false. cbn [as_io flat_map]. rewrite app_assoc. apply IH; [exact Hs'|lia].
  Qed.

  Lemma agreed_count : forall recs a b c, Forall of_line recs -> (forall r, In r recs -> opts_select O Od fo (br_record r) = Some (sel r)) ->
    let t := flat_map br_write (filter sel recs) in
    fold_end (fun s r => as_io (count_body O Od fo s r)) (a, b, c) recs = IDone (a + bytes_in 10 t, b + bytes_in 30 t, c + bytes_in 31 t).
  Proof.
    intros recs a b c Hr. revert a b c. induction Hr as [|r recs H _ IH]; intros a b c Hs; cbv zeta.
    - cbn. rewrite !N.add_0_r. reflexivity.
    - cbn [fold_end filter]. unfold count_body at 1, guarded. rewrite (Hs r (or_introl eq_refl)).
      assert (Hs' := fun x Hx => Hs x (or_intror Hx)). destruct (sel r); cbn [as_io]; rewrite IH by exact Hs'; [|reflexivity].
      cbn [flat_map]. rewrite !bytes_in_app. destruct (line_counts r H) as (-> & -> & ->). rewrite !N.add_assoc. reflexivity.
  Qed.

  Lemma agreed_sample : forall draw size recs s, (forall r, In r recs -> opts_select O Od fo (br_record r) = Some (sel r)) ->
    fold_end (fun s r => as_io (sample_body O Od draw size fo s r)) s recs = IDone (fold_left (sample_act draw size) (filter sel recs) s).
  Proof.
    intros draw size. induction recs as [|r recs IH]; intros s Hs; [reflexivity|]. cbn [fold_end filter]. unfold sample_body at 1, guarded.
    rewrite (Hs r (or_introl eq_refl)). assert (Hs' := fun x Hx => Hs x (or_intror Hx)). destruct (sel r); cbn [as_io]; [|apply IH; exact Hs'].
    destruct s as [n l]. rewrite Hl. change (limit_reached 0 (n + 1)) with false. cbn [as_io fold_left]. rewrite IH by exact Hs'. reflexivity.
  Qed.
End Loops.

Lemma written_again : forall recs, Forall of_line recs -> sample_write (map br_write recs) = Some (flat_map br_write recs).
Proof.
  induction 1 as [|r recs (p & _ & _ & E) _ IH]; [reflexivity|]. cbn [map sample_write flat_map]. rewrite E, IH. reflexivity.
Qed.

Lemma few_sampled : forall draw size recs, N.of_nat (length recs) <= size ->
  snd (fold_left (sample_act draw size) recs (0, [])) = map br_write recs.
Proof.
  intros draw size recs. induction recs as [|r recs IH] using rev_ind; intros Hn; [reflexivity|]. rewrite app_length in Hn. cbn [length] in Hn.
  rewrite fold_left_app, map_app. cbn [fold_left map]. destruct (reservoir_fold draw size recs) as (E & _).
  destruct (fold_left (sample_act draw size) recs (0, [])) as [n l]. cbn [fst] in E. subst n. cbn [sample_act snd] in *. rewrite IH by lia.
  replace (N.of_nat (length recs) <? size) with true by (symmetry; apply N.ltb_lt; lia). reflexivity.
Qed.

Lemma reservoir_lines : forall draw size recs, Forall of_line recs ->
  exists t', sample_write (snd (fold_left (sample_act draw size) recs (0, []))) = Some t' /\ lines_drawn size (flat_map br_write recs) t'.
Proof.
  intros draw size recs L. destruct (reservoir_fold draw size recs) as (_ & idx & ND & LT & LEN & ->).
  set (us := map (fun i => nth i recs (mkBR None [])) idx).
  assert (HL : Forall of_line us).
  { apply Forall_forall. intros x Hx. apply in_map_iff in Hx. destruct Hx as (i & <- & Hi). rewrite Forall_forall in L, LT. apply L, nth_In, LT, Hi. }
  exists (flat_map br_write us). split; [rewrite <- (written_again us HL); f_equal; unfold us; rewrite map_map; reflexivity|].
  exists (map br_write recs), (map br_write us). split; [apply flat_map_concat_map|]. split; [apply flat_map_concat_map|]. split.
  { apply Forall_forall. intros x Hx. apply in_map_iff in Hx. destruct Hx as (r & <- & Hr). rewrite Forall_forall in L. destruct (L r Hr) as (p & Hp & E & _). exists p. auto. }
  split; [rewrite !map_length; unfold us; rewrite map_length; exact LEN|]. exists idx. split; [exact ND|]. unfold us. clear - LT.
  induction LT as [|i idx H _ IH]; [constructor|]. constructor; [|exact IH]. rewrite nth_error_map, (nth_error_nth' recs (mkBR None []) H). reflexivity.
Qed.

(** ** The commands *)

Section Agreed.
  Variable e : env.
  Variable c : config.
  Variables (o : file_opts) (W : bytes) (names : list bytes) (w w1 : world).
  Hypothesis HW : o_where o = Some W.
  Hypothesis Hl : o_limit o = 0.
  Hypothesis H : execute e c (sifted o W false names) w = Some (CEnded 0, w1).

  Let skip := o_skip o || cf_skip_invalid c.
  Let O := oracles_for e o.
  Let Od := default_oracles e.
  Let tr := translit e (cf_normalization c).

  Lemma agreed_front : exists fo s' sel recs, fo_limit fo = 0
    /\ opts_prepare O Od tr (load_opts e (w_disk w) o) = (Some (Some fo), s')
    /\ io_files_loop (fun l => l) snoc skip [] (inputs (e_gz_dec e) (w_disk w) (w_stdin w) names) = Some (IDone recs)
    /\ (forall r, In r recs -> opts_select O Od fo (br_record r) = Some (sel r))
    /\ w1 = mkWorld (w_disk w) (w_stdin w) (w_stdout w ++ flat_map br_write (filter sel recs)).
  Proof.
    cbn [sifted execute] in H. unfold load_filter in H. cbn [fi_invert fi_keep fi_discard fi_expr_file fi_expr] in H. rewrite Hl in H. fold skip O Od tr in H.
    destruct (filter_front_done (e_gz_enc e) (e_gz_dec e) (e_writable e) O Od tr (bare_filter o W names e (w_disk w) skip) w w1
      eq_refl eq_refl eq_refl eq_refl H) as (fc & s' & recs & Hp & Hr & Hsel & E).
    destruct (where_accepted e o W HW (w_disk w) tr skip names fc s' (content_of (w_disk w)) (Hp _) recs Hsel) as (fs & m & s0 & Ec & Eo & _ & _).
    fold O Od in Eo. exists (mkOpts fs (Some m) (o_ci o) (o_limit o)), s', (chosen O Od fc), recs. split; [exact Hl|]. split; [exact Eo|]. split; [exact Hr|].
    split; [|exact E]. intros r Hin. specialize (Hsel r Hin). rewrite Ec in Hsel at 1. unfold filter_select in Hsel. unfold opts_select.
    cbn [fc_fset fc_ci fc_matcher fc_invert fo_fset fo_matcher fo_ci] in *.
    destruct (filter_set_check Od fs (br_record r)) as [[|]|]; try discriminate; try exact Hsel.
    destruct (rm_is_match O (o_ci o) m (br_record r)) as [b|]; [|discriminate]. rewrite <- Hsel. destruct b; reflexivity.
  Qed.

  Lemma execute_agreed_explode : execute e c (exploded_main o names) w = Some (CEnded 0, w1).
  Proof.
    destruct agreed_front as (fo & s' & sel & recs & Hf & Eo & Hr & Hs & ->). destruct (files_collects _ _ _ _ Hr) as (recs' & E' & L & Hfold). cbn in E'. subst recs'.
    cbn [exploded_main execute]. unfold explode_on_disk. cbn [parse_predicates prepared].
    change (wb_run wb_new [CGzip false]) with (Some wb_new). cbv iota zeta. cbn [open_all open_output builder_output out_name app]. rewrite world_eta.
    change (after_open e None false (w_disk w)) with (w_disk w). fold O Od tr skip. rewrite Eo. cbn [fst prepared snd]. unfold process_all. rewrite Hfold by (right; reflexivity).
    destruct (agreed_explode O Od fo Hf sel recs 0 [] L Hs) as (m & Em).
    match goal with |- context [fold_end ?f ?x ?l] => change (fold_end f x l) with (fold_end (fun s r => as_io (explode_body O Od (mkExplode ExplodeModel.LMain fo [] []) s r)) (0, []) recs) end.
    rewrite Em. reflexivity.
  Qed.

  Lemma execute_agreed_slice : forall t, w_stdout w1 = w_stdout w ++ t ->
    N.of_nat (length (flat_map br_write (match io_files_loop (fun l => l) snoc skip [] (inputs (e_gz_dec e) (w_disk w) (w_stdin w) names) with Some (IDone recs) => recs | _ => [] end))) <= usize_max ->
    execute e c (sliced o names) w = Some (CEnded 0, w1).
  Proof.
    intros t Ht Hb. destruct agreed_front as (fo & s' & sel & recs & Hf & Eo & Hr & Hs & ->). rewrite Hr in Hb.
    destruct (files_collects _ _ _ _ Hr) as (recs' & E' & L & Hfold). cbn in E'. subst recs'.
    cbn [sliced execute]. unfold slice_on_disk. fold O Od tr skip. rewrite Eo. cbn [fst prepared].
    change (wb_run wb_new [CGzip false; CAppend false]) with (Some wb_new). cbv iota zeta. cbn [open_all open_output builder_output out_name app]. rewrite world_eta.
    unfold process_all. rewrite Hfold by (right; exact on_skip_none). rewrite slice_end_open. cbn [N.eqb].
    destruct (agreed_slice O Od fo Hf sel recs 0 0 [] Hs) as (s & -> & Es).
    { assert (length recs <= length (flat_map br_write recs))%nat; [|lia].
      clear - L. induction L as [|r recs (x & _ & E & _) _ IH]; [reflexivity|]. cbn [flat_map length]. rewrite app_length, E, app_length. cbn. lia. }
    cbn. rewrite Es. reflexivity.
  Qed.

  Lemma execute_agreed_count : forall t m, w_stdout w1 = w_stdout w ++ t ->
    execute e c (counted o m names) w
    = Some (CEnded 0, mkWorld (w_disk w) (w_stdin w) (w_stdout w ++ count_output m (bytes_in 10 t, bytes_in 30 t, bytes_in 31 t))).
  Proof.
    intros t m Ht. destruct agreed_front as (fo & s' & sel & recs & Hf & Eo & Hr & Hs & Ew). rewrite Ew in Ht. cbn [w_stdout] in Ht. apply app_inv_head in Ht. subst t.
    destruct (files_collects _ _ _ _ Hr) as (recs' & E' & L & Hfold). cbn in E'. subst recs'.
    cbn [counted execute]. unfold count_on_disk. cbn [open_all open_output out_name app]. rewrite world_eta.
    change (after_open e None false (w_disk w)) with (w_disk w). fold O Od tr skip. rewrite Eo. cbn [fst prepared]. unfold process_all. rewrite Hfold by (right; reflexivity).
    match goal with |- context [fold_end ?f ?x ?l] => change (fold_end f x l) with (fold_end (fun s r => as_io (count_body O Od fo s r)) (0, 0, 0) recs) end.
    rewrite (agreed_count O Od fo sel recs 0 0 0 L Hs). rewrite !N.add_0_l. reflexivity.
  Qed.

  Lemma agreed_sampled : forall draw size, exists recs, Forall of_line recs
    /\ w1 = mkWorld (w_disk w) (w_stdin w) (w_stdout w ++ flat_map br_write recs)
    /\ execute e c (sampled o draw size names) w
       = Some (CEnded 0, mkWorld (w_disk w) (w_stdin w) (w_stdout w
           ++ match sample_write (snd (fold_left (sample_act draw size) recs (0, []))) with Some t => t | None => [] end)).
  Proof.
    intros draw size. destruct agreed_front as (fo & s' & sel & recs & Hf & Eo & Hr & Hs & Ew).
    destruct (files_collects _ _ _ _ Hr) as (recs' & E' & L & Hfold). cbn in E'. subst recs'.
    exists (filter sel recs). split; [rewrite Forall_forall in *; intros r Hin; apply filter_In in Hin; apply L, Hin|]. split; [exact Ew|].
    cbn [sampled execute]. unfold sample_on_disk. fold O Od tr skip. rewrite Eo. cbn [fst prepared].
    change (wb_run wb_new [CGzip false]) with (Some wb_new). cbv iota zeta. cbn [open_all open_output builder_output out_name app]. rewrite world_eta.
    unfold process_all. rewrite Hfold by (right; reflexivity).
    match goal with |- context [fold_end ?f ?x ?l] => change (fold_end f x l) with (fold_end (fun s r => as_io (sample_body O Od draw size fo s r)) (0, []) recs) end.
    rewrite (agreed_sample O Od fo Hf sel draw size recs (0, []) Hs). reflexivity.
  Qed.
End Agreed.

Section Runs.
  Variables (e : env) (cfg : option bytes) (o : file_opts) (W : bytes) (names : list bytes) (w : world) (t : bytes).
  Hypothesis HW : o_where o = Some W.
  Hypothesis Hl : o_limit o = 0.
  Hypothesis H : run_writes e cfg w (sifted o W false names) t.

  Lemma run_agreed_explode : run_writes e cfg w (exploded_main o names) t.
  Proof.
    destruct H as (w1 & H1 & T). destruct (fun X => RunProofs.run_ended _ _ _ _ _ X H1) as (c & Hset & He); [reflexivity|].
    exists w1. split; [|exact T]. rewrite (RunProofs.run_settings e (mkInvocation cfg (exploded_main o names)) w c eq_refl) by (eapply settings_same; [reflexivity|exact Hset]).
    exact (execute_agreed_explode e c o W names w w1 HW Hl He).
  Qed.

  Lemma run_agreed_slice : forall all, run_writes e cfg w (concat_part (o_skip o) None names) all -> N.of_nat (length all) <= usize_max ->
    run_writes e cfg w (sliced o names) t.
  Proof.
    intros all (w0 & H0 & T0) Hb. destruct H as (w1 & H1 & T). destruct (fun X => RunProofs.run_ended _ _ _ _ _ X H1) as (c & Hset & He); [reflexivity|].
    rewrite (RunProofs.run_settings e (mkInvocation cfg (concat_part (o_skip o) None names)) w c eq_refl) in H0 by (eapply settings_same; [reflexivity|exact Hset]).
    cbn [in_command concat_part execute] in H0. destruct (concat_front_done _ _ _ _ _ _ _ _ _ _ H0) as (recs & Hr & ->). cbn [w_stdout] in T0. apply app_inv_head in T0. subst all.
    exists w1. split; [|exact T]. rewrite (RunProofs.run_settings e (mkInvocation cfg (sliced o names)) w c eq_refl) by (eapply settings_same; [reflexivity|exact Hset]).
    apply (execute_agreed_slice e c o W names w w1 HW Hl He t T). rewrite Hr. exact Hb.
  Qed.

  Lemma run_agreed_count : forall m, run_writes e cfg w (counted o m names) (count_output m (bytes_in 10 t, bytes_in 30 t, bytes_in 31 t)).
  Proof.
    intros m. destruct H as (w1 & H1 & T). destruct (fun X => RunProofs.run_ended _ _ _ _ _ X H1) as (c & Hset & He); [reflexivity|].
    eexists. split; [|exact (eq_refl (w_stdout (mkWorld (w_disk w) (w_stdin w) (w_stdout w ++ count_output m (bytes_in 10 t, bytes_in 30 t, bytes_in 31 t)))))].
    rewrite (RunProofs.run_settings e (mkInvocation cfg (counted o m names)) w c eq_refl) by (eapply settings_same; [reflexivity|exact Hset]).
    exact (execute_agreed_count e c o W names w w1 HW Hl He t m T).
  Qed.

  Lemma run_agreed_counts :
    run_writes e cfg w (counted o MRecords names) (dec (bytes_in 10 t) ++ [10])
    /\ run_writes e cfg w (counted o MFields names) (dec (bytes_in 30 t) ++ [10])
    /\ run_writes e cfg w (counted o MSubfields names) (dec (bytes_in 31 t) ++ [10]).
  Proof. split; [exact (run_agreed_count MRecords)|]. split; [exact (run_agreed_count MFields)|exact (run_agreed_count MSubfields)]. Qed.

  Lemma run_agreed_sample : forall draw size, exists t', run_writes e cfg w (sampled o draw size names) t' /\ lines_drawn size t t'
    /\ (bytes_in 10 t <= size -> t' = t).
  Proof.
    intros draw size. destruct H as (w1 & H1 & T). destruct (fun X => RunProofs.run_ended _ _ _ _ _ X H1) as (c & Hset & He); [reflexivity|].
    destruct (agreed_sampled e c o W names w w1 HW Hl He draw size) as (recs & L & Ew & Es). rewrite Ew in T. cbn [w_stdout] in T. apply app_inv_head in T.
    destruct (reservoir_lines draw size recs L) as (t' & Et & D). rewrite Et in Es. exists t'. split; [|split].
    - eexists. split; [|exact (eq_refl (w_stdout (mkWorld (w_disk w) (w_stdin w) (w_stdout w ++ t'))))].
      rewrite (RunProofs.run_settings e (mkInvocation cfg (sampled o draw size names)) w c eq_refl) by (eapply settings_same; [reflexivity|exact Hset]). exact Es.
    - rewrite <- T. exact D.
    - intros Hn. rewrite <- T in Hn |- *. rewrite few_sampled in Et.
      + rewrite (written_again recs L) in Et. injection Et as <-. reflexivity.
      + enough (bytes_in 10 (flat_map br_write recs) = N.of_nat (length recs)) as E by (rewrite <- E; exact Hn). clear - L.
        induction L as [|r recs Hr _ IH]; [reflexivity|]. cbn [flat_map length]. rewrite bytes_in_app, IH. destruct (line_counts r Hr) as (-> & _ & _). lia.
  Qed.
End Runs.

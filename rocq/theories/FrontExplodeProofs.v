(** * Proofs about explode in front of filter *)

From Coq Require Import String ZArith Lia.
From Verif Require Import Bytes BaseProofs Winnow RecordModel RecordSpec RecordProofs TagOccModel Utf8Model ByteRecordModel ByteRecordProofs ReaderModel
  MatcherModel MatcherProofs StateParser MatcherParserModel BuilderModel PathModel FmtModel QueryModel CliModel CliProofs TableModel
  ExplodeModel ExplodeSpec ExplodeProofs ExplodeRunProofs CheckModel ConvertModel CsvModel OptionsModel OptionsSpec ConfigModel PrepareModel PrepareSpec PrepareProofs
  IoModel IoSpec WriteSpec DiskModel DirModel RuleModel
  MainModel DiskSpec RuleSpec MainSpec PipeSpec DiskProofs PipeProofs PipeInProofs FrontLoop FrontSpec FrontProofs FrontRunProofs.
From Verif Require DirSpec RunSpec RunProofs BuilderProofs.

Definition part_record (p : list field) : byte_record := mkBR (Some (part_data p)) p.
Definition parts_of (l : ExplodeModel.level) (r : byte_record) : list byte_record :=
  match process l (br_record r) with Some ps => map part_record ps | None => [] end.

Lemma parts_good : forall l r, of_line r -> exists ps, process l (br_record r) = Some ps /\ Forall good_part ps
  /\ forall p f, In p ps -> In f p -> In f (br_record r).
Proof.
  intros l r (p & Hp & Ew & Eb). unfold br_from_bytes in Eb. destruct (record_from_bytes (br_write r)) as [x|] eqn:Ex; [|discriminate].
  destruct (record_from_bytes_valid _ _ Ex) as [Hn Hv]. injection Eb as Eb. assert (Er : br_record r = x) by (rewrite <- Eb; reflexivity). rewrite Er.
  destruct (process_exploded l x Hv) as (ps & E & He). exists ps. split; [exact E|].
  pose proof (exploded_In l x ps Hn He) as HI. split.
  - apply Forall_forall. intros q Hq. destruct (HI q Hq) as [H1 H2]. split; [exact H1|]. exact (incl_Forall_field _ _ _ H2 Hv).
  - intros q f Hq. apply HI. exact Hq.
Qed.

Lemma parts_lines : forall l r, of_line r -> Forall of_line (parts_of l r).
Proof.
  intros l r Hr. destruct (parts_good l r Hr) as (ps & E & Hg & Hin). unfold parts_of. rewrite E. apply Forall_forall. intros q Hq.
  apply in_map_iff in Hq. destruct Hq as (p & <- & Hp). rewrite Forall_forall in Hg.
  eapply parsed_of_line; [|apply part_from_bytes; apply Hg; exact Hp]. left. exists (flat_map write_field p). split; [reflexivity|].
  intros H. apply in_flat_map in H. destruct H as (f & Hf & H10). pose proof (Hin p f Hp Hf) as Hff.
  destruct Hr as (x & Hx & Ew & Eb). apply Hx.
  unfold br_from_bytes in Eb. destruct (record_from_bytes (br_write r)) as [y|] eqn:Ey; [|discriminate].
  destruct (record_from_bytes_valid _ _ Ey) as [Hn Hv]. injection Eb as Eb. assert (Er : br_record r = y) by (rewrite <- Eb; reflexivity).
  apply record_parse_write in Ey. rewrite (write_record_nonempty y Hn), Ew in Ey. apply app_inj_tail in Ey. destruct Ey as [<- _].
  apply in_flat_map. exists f. rewrite <- Er. auto.
Qed.

Section Parts.
  Variables O Od : oracles.

  Definition part_body (c : explode_cmd) : explode_state -> byte_record -> step explode_state :=
    guarded (opts_select O Od (ex_opts c)) (fun s r =>
      let '(count, out) := s in
      let s' := (count + 1, out ++ br_write (br_discard (ex_discard c) (br_keep (ex_keep c) r))) in
      if limit_reached (fo_limit (ex_opts c)) (count + 1) then Halt s' else Next s').

  Lemma part_cases : forall c s r, (exists s', part_body c s r = Next s') \/ (exists s', part_body c s r = Halt s') \/ part_body c s r = Panic.
  Proof.
    intros c [n out] r. unfold part_body, guarded. destruct (opts_select O Od (ex_opts c) (br_record r)) as [[|]|]; eauto.
    destruct (limit_reached _ _); eauto.
  Qed.

  Lemma explode_fold : forall c recs s, Forall of_line recs ->
    fold_end (fun s r => as_io (explode_body O Od c s r)) s recs
    = fold_end (fun s r => as_io (part_body c s r)) s (flat_map (parts_of (ex_level c)) recs).
  Proof.
    intros c. induction recs as [|r recs IH]; intros s H; [reflexivity|]. inversion H as [|? ? H1 H2]. subst.
    cbn [fold_end flat_map]. rewrite fold_end_app. destruct (parts_good (ex_level c) r H1) as (ps & E & Hg & _).
    unfold explode_body at 1, parts_of at 1. rewrite E.
    assert (X : as_io (for_each (explode_part O Od c) s ps) = fold_end (fun s r => as_io (part_body c s r)) s (map part_record ps)).
    { clear - Hg. revert s. induction Hg as [|p ps Hp _ IHp]; intros s; [reflexivity|]. cbn [for_each map fold_end]. unfold explode_part at 1.
      rewrite (part_from_bytes p Hp). fold (part_body c). fold (part_record p). change (guarded _ _ s (part_record p)) with (part_body c s (part_record p)).
      destruct (part_cases c s (part_record p)) as [(s' & ->)|[(s' & ->)| ->]]; cbn; try reflexivity. apply IHp. }
    rewrite X. destruct (fold_end _ s (map part_record ps)); try reflexivity. apply IH. exact H2.
  Qed.

  Lemma bare_fold : forall c parts n out, (forall r, opts_select O Od (ex_opts c) r = Some true) -> fo_limit (ex_opts c) = 0 -> ex_keep c = [] -> ex_discard c = [] ->
    exists m, fold_end (fun s r => as_io (part_body c s r)) (n, out) parts = IDone (m, out ++ flat_map br_write parts).
  Proof.
    intros c parts n out Hs Hl Hk Hd. revert n out. induction parts as [|r parts IH]; intros n out; [exists n; cbn; rewrite app_nil_r; reflexivity|].
    cbn [fold_end flat_map]. unfold part_body at 1, guarded. rewrite Hs, Hl, Hk, Hd. cbn [br_keep br_discard].
    change (limit_reached 0 (n + 1)) with false. cbn [as_io]. rewrite app_assoc. apply IH.
  Qed.

  (** filter on the parts *)
  Definition alike_ends (x : io_ending explode_state) (y : io_ending filter_state) : Prop :=
    match x, y with
    | IDone s, IDone s' | IStopped s, IStopped s' => fst s = fst (fst s') /\ snd s = snd (fst s')
    | IPanicked, IPanicked => True
    | _, _ => False
    end.

  Lemma retain_retain : forall (f g : field -> bool) l a b, retain_mut (fun _ x => f x) a (retain_mut (fun _ x => g x) b l)
    = filter (fun x => g x && f x) l.
  Proof.
    intros f g. induction l as [|x l IH]; intros a b; [reflexivity|]. cbn [retain_mut filter]. destruct (g x); cbn [retain_mut andb]; [|apply IH].
    destruct (f x); rewrite IH; reflexivity.
  Qed.

  Lemma keep_discard : forall K D r, br_keep K (br_discard D r) = br_discard D (br_keep K r).
  Proof.
    intros [|k K] [|d D] r; try reflexivity. unfold br_keep, br_discard, br_retain. cbn [br_record]. rewrite !retain_retain. f_equal.
    apply filter_ext. intros x. apply andb_comm.
  Qed.

  Lemma filter_same_parts : forall c fs m l parts n out tee,
    fc_fset c = fs -> fc_matcher c = m -> fc_invert c = false ->
    alike_ends
      (fold_end (fun s r => as_io (part_body (mkExplode l (mkOpts fs (Some m) (fc_ci c) (fc_limit c)) (fc_keep c) (fc_discard c)) s r)) (n, out) parts)
      (fold_end (fun s r => as_io (filter_body O Od c s r)) (n, out, tee) parts).
  Proof.
    intros c fs m l parts n out tee H1 H2 H3. revert n out tee. induction parts as [|r parts IH]; intros n out tee; [cbn; auto|].
    cbn [fold_end]. unfold part_body at 1, filter_body at 1, guarded, filter_select, opts_select. cbn [ex_opts fo_fset fo_matcher fo_ci fo_limit ex_keep ex_discard].
    rewrite H1, H2, H3. destruct (filter_set_check Od fs (br_record r)) as [[|]|]; cbn [as_io alike_ends]; [|apply IH|exact I].
    destruct (rm_is_match O (fc_ci c) m (br_record r)) as [[|]|]; cbn [as_io alike_ends]; [|apply IH|exact I].
    rewrite keep_discard. destruct (limit_reached (fc_limit c) (n + 1)); cbn [as_io alike_ends]; [cbn; auto|apply IH].
  Qed.
End Parts.

Lemma explode_front_done : forall gz_enc gz_dec writable O Od tr a l skip names w w1 fo s',
  opts_prepare O Od tr a = (Some (Some fo), s') -> (forall r, opts_select O Od fo r = Some true) -> fo_limit fo = 0 ->
  explode_on_disk gz_enc gz_dec writable O Od tr a None None l false None skip names w = Some (CEnded 0, w1) ->
  exists recs, io_files_loop (fun l => l) snoc skip [] (inputs gz_dec (w_disk w) (w_stdin w) names) = Some (IDone recs)
    /\ w1 = mkWorld (w_disk w) (w_stdin w) (w_stdout w ++ flat_map br_write (flat_map (parts_of l) recs)).
Proof.
  intros gz_enc gz_dec writable O Od tr a l skip names w w1 fo s' Ep Hs Hl H. unfold explode_on_disk in H.
  cbn [parse_predicates prepared] in H. change (wb_run wb_new [CGzip false]) with (Some wb_new) in H. cbv iota zeta in H.
  cbn [open_all open_output builder_output out_name app] in H. rewrite world_eta, Ep in H. cbn [fst snd prepared] in H. unfold process_all in H.
  set (c := mkExplode l fo [] []) in *.
  set (body := fun (s : N * list N) r => as_io (explode_body O Od c s r)) in *.
  set (files := inputs gz_dec (w_disk w) (w_stdin w) names) in *.
  assert (Hb : forall s r, body s r = IPanicked \/ exists s', body s r = IDone s').
  { intros s r. unfold body, explode_body. destruct (process (ex_level c) (br_record r)) as [ps|]; [|left; reflexivity]. revert s.
    induction ps as [|p ps IH]; intros [n out]; [right; eexists; reflexivity|]. cbn [for_each]. unfold explode_part at 1 3.
    destruct (br_from_bytes (part_data p)) as [q|]; [|left; reflexivity]. unfold guarded. cbn [ex_opts c]. rewrite Hs, Hl.
    change (limit_reached 0 (n + 1)) with false. cbv iota. apply IH. }
  destruct (io_files_loop (fun s : N * list N => s) body skip (0, []) files) as [x|] eqn:El; [|discriminate].
  assert (Hx0 : main_status x = Some 0).
  { destruct x as [s|s|s er|]; cbn [main_status] in *; try reflexivity; [|discriminate]. destruct er as [|[]| |]; try discriminate; reflexivity. }
  destruct (files_through skip body Hb files (0, []) x) as (s1 & -> & Hc); [intros n k; apply inputs_kind|exact El|exact Hx0|].
  destruct (Hc []) as (recs & Hr). destruct (files_collects _ _ _ _ Hr) as (recs' & E' & Hof & Hf). cbn in E'. subst recs'.
  rewrite (Hf _ (fun s => s) body (0, [])) in El by (right; reflexivity). injection El as El.
  unfold body in El. rewrite explode_fold in El by exact Hof.
  destruct (bare_fold O Od c (flat_map (parts_of l) recs) 0 [] Hs Hl eq_refl eq_refl) as (m & Em). cbn [ex_level c] in El. rewrite Em in El. injection El as <-.
  exists recs. split; [exact Hr|]. cbn [main_status] in H. injection H as <-. reflexivity.
Qed.

Lemma execute_explode : forall e c o W discard keep l gzip output names w w1 t,
  o_where o = Some W -> (forall n, output = Some n -> ~ (In n names \/ In n (o_allow o) \/ In n (o_deny o))) ->
  execute e c (explode_of o l names) w = Some (CEnded 0, w1) -> w_stdout w1 = w_stdout w ++ t ->
  forall x w2, execute e c (filter_parts o W discard keep gzip output) (mkWorld (w_disk w) t (w_stdout w)) = Some (x, w2) ->
  exists w3, execute e c (KExplode o discard keep l gzip output names) w = Some (x, w3) /\ (x <> CRefused -> w3 = fed (w_stdin w) w2).
Proof.
  intros e c o W discard keep l gzip output names w w1 t HW Hout H Ht x w2 H2.
  set (O := oracles_for e o) in *. set (Od := default_oracles e) in *. set (tr := translit e (cf_normalization c)) in *.
  set (skip := o_skip o || cf_skip_invalid c) in *.
  cbn [explode_of execute] in H.
  change (oracles_for e _) with O in H. fold Od tr in H. set (a0 := load_opts e _ _) in H.
  assert (E0 : opts_prepare O Od tr a0 = (Some (Some (mkOpts (mkFSet None None ppn_path) None (o_ci o) 0)), fresh)) by reflexivity.
  destruct (explode_front_done _ _ _ _ _ _ _ _ _ _ _ _ _ _ E0 (fun r => proj1 (bare_selects O Od (mkFSet None None ppn_path) (o_ci o) 0 r eq_refl eq_refl eq_refl)) eq_refl H)
    as (recs & Hr & ->).
  cbn [w_stdout] in Ht. apply app_inv_head in Ht. subst t.
  set (parts := flat_map (parts_of l) recs) in *. set (v := mkWorld (w_disk w) (flat_map br_write parts) (w_stdout w)) in *.
  assert (Hof : Forall of_line parts).
  { destruct (files_collects _ _ _ _ Hr) as (recs' & E' & Hof & _). cbn in E'. subst recs'. apply Forall_forall. intros q Hq.
    apply in_flat_map in Hq. destruct Hq as (r & Hrr & Hq). rewrite Forall_forall in Hof. pose proof (parts_lines l r (Hof r Hrr)) as X.
    rewrite Forall_forall in X. exact (X q Hq). }
  cbn [filter_parts execute] in H2. cbn [execute]. fold O Od tr skip.
  rewrite RunProofs.opened_lists by (intros n En Hn; apply (Hout n En); right; exact Hn).
  change (oracles_for e _) with O in H2. fold Od tr in H2.
  set (a := load_filter e (w_disk v) _ _ _ _) in H2. assert (Ea : fa_skip a = skip) by reflexivity.
  unfold filter_on_disk in H2. unfold explode_on_disk.
  set (k1 := parse_predicates keep). set (d1 := parse_predicates discard).
  assert (Efirst : filter_first Od a = match fst (source_parse Od fresh (o_source o)) with
    | None => None | Some None => Some None
    | Some (Some src) => match d1, k1, filter_set_build src (o_column o) (map (load_table e (w_disk w)) (o_allow o)) (map (load_table e (w_disk w)) (o_deny o)) with
                         | Some _, Some _, Some _ => Some (Some tt) | _, _, _ => Some None end end) by reflexivity.
  rewrite Efirst in H2. clear Efirst.
  assert (Ep : forall content, filter_prepare O Od tr content a = and_then (source_parse Od fresh (o_source o)) (fun src s =>
     match d1 with None => (Some None, s) | Some dd => match k1 with None => (Some None, s) | Some kk =>
     match filter_set_build src (o_column o) (map (load_table e (w_disk w)) (o_allow o)) (map (load_table e (w_disk w)) (o_deny o)) with
     | None => (Some None, s)
     | Some fs => and_then (builder_run O tr s W [CallAnd (o_and o); CallOr (o_or o); CallNot (o_not o)])
                    (fun m s' => (Some (Some (mkFilter fs m (o_ci o) false dd kk (o_limit o))), s')) end end end)) by reflexivity.
  assert (Eq : opts_prepare O Od tr (load_opts e (w_disk w) o) = and_then (source_parse Od fresh (o_source o)) (fun src s =>
     match filter_set_build src (o_column o) (map (load_table e (w_disk w)) (o_allow o)) (map (load_table e (w_disk w)) (o_deny o)) with
     | None => (Some None, s)
     | Some fs => and_then (filter_opts_matcher O tr None (o_where o) (o_and o) (o_or o) (o_not o) s)
                    (fun m s' => (Some (Some (mkOpts fs m (o_ci o) (o_limit o))), s')) end)) by reflexivity.
  unfold filter_opts_matcher in Eq. rewrite HW in Eq. rewrite Eq.
  assert (Eg1 : wb_run wb_new [CAppend false; CGzip gzip] = Some (mkWB false gzip)) by (destruct gzip; reflexivity).
  assert (Eg2 : wb_run wb_new [CGzip gzip] = Some (mkWB false gzip)) by (destruct gzip; reflexivity).
  rewrite Eg1 in H2. rewrite Eg2. clear Eg1 Eg2. cbv zeta in H2. cbv zeta.
  set (out := builder_output (mkWB false gzip) output) in *. cbn [open_all] in H2. cbn [open_all].
  change (w_disk v) with (w_disk w) in H2.
  destruct (source_parse Od fresh (o_source o)) as [[[src|]|] s0] eqn:Es; cbn [fst prepared] in H2; [| |discriminate].
  2:{ injection H2 as <- <-. destruct d1, k1; cbn [prepared]; try (eexists; split; [reflexivity|intros X; destruct (X eq_refl)]).
      destruct (open_output (e_writable e) out (w_disk w)); cbn [and_then fst prepared]; eexists; (split; [reflexivity|intros X; destruct (X eq_refl)]). }
  destruct d1 as [dd|]; cbn [prepared].
  2:{ cbn [prepared] in H2. injection H2 as <- <-. eexists; (split; [reflexivity|intros X; destruct (X eq_refl)]). }
  destruct k1 as [kk|]; cbn [prepared].
  2:{ cbn [prepared] in H2. injection H2 as <- <-. eexists; (split; [reflexivity|intros X; destruct (X eq_refl)]). }
  destruct (filter_set_build src (o_column o) _ _) as [fs|] eqn:Ef.
  2:{ cbn [prepared] in H2. injection H2 as <- <-. destruct (open_output (e_writable e) out (w_disk w)); cbn [and_then fst prepared]; rewrite ?Ef; cbn [fst]; eexists; (split; [reflexivity|intros X; destruct (X eq_refl)]). }
  cbn [prepared] in H2. destruct (open_output (e_writable e) out (w_disk w)) as [d'|] eqn:Eo.
  2:{ injection H2 as <- <-. eexists; (split; [reflexivity|intros X; destruct (X eq_refl)]). }
  change (expr_there a _) with true in H2. cbv iota in H2. rewrite Ep in H2. cbn [and_then] in H2. cbn [and_then].
  rewrite Ef in H2. rewrite Ef.
  destruct (builder_run O tr s0 W _) as [[[m|]|] s1]; cbn [and_then fst prepared] in H2; cbn [and_then fst prepared snd]; [| |discriminate].
  2:{ injection H2 as <- <-. eexists; (split; [reflexivity|intros X; destruct (X eq_refl)]). }
  change (filter_names _ _ _) with [lit "-"] in H2. unfold process_all in H2. unfold process_all.
  cbn [inputs] in H2. rewrite bytes_eqb_refl in H2. change (w_stdin (with_disk v d')) with (flat_map br_write parts) in H2.
  destruct (files_collects _ _ _ _ (written_collected skip parts (lit "-") [] Hof)) as (parts' & E' & _ & Hf). cbn in E'. subst parts'. rewrite Ea in H2.
  rewrite Hf in H2 by (right; reflexivity).
  assert (Hd' : forall n, In n names -> disk_get d' n = disk_get (w_disk w) n).
  { intros n Hn. unfold out, open_output, builder_output in Eo. cbn [out_name out_append] in Eo. destruct output as [o1|]; [|injection Eo as <-; reflexivity].
    destruct (e_writable e o1); [|discriminate]. injection Eo as <-. apply disk_get_other. intros ->. apply (Hout n eq_refl). left. exact Hn. }
  assert (Hof0 : Forall of_line recs).
  { destruct (files_collects _ _ _ _ Hr) as (recs' & X & Hof0 & _). cbn in X. subst recs'. exact Hof0. }
  change (w_disk (with_disk w d')) with d'. change (w_stdin (with_disk w d')) with (w_stdin w).
  match goal with |- exists w3, match io_files_loop ?os ?bd _ ?st _ with _ => _ end = _ /\ _ =>
    rewrite (loop_whole (e_gz_dec e) names (w_stdin w) (w_disk w) skip recs Hr _ os bd st d' Hd' (or_intror (fun _ => eq_refl))) end.
  rewrite explode_fold by exact Hof0. cbn [ex_level]. fold parts.
  pose proof (filter_same_parts O Od (mkFilter fs m (o_ci o) false dd kk (o_limit o)) fs m l parts 0 [] [] eq_refl eq_refl eq_refl) as X.
  cbn [fc_ci fc_limit fc_keep fc_discard] in X.
  match type of X with alike_ends ?A ?B => set (x1 := A) in *; set (x2 := B) in * end.
  change (fold_end _ (0, [], []) parts) with x2 in H2.
  destruct x1 as [s|s|s er|], x2 as [s2|s2|s2 er2|]; try contradiction; cbn [main_status] in H2; cbn [main_status]; injection H2 as <- <-.
  - destruct X as [_ X]. eexists. split; [reflexivity|]. intros _. cbn [map fst snd]. rewrite X. rewrite <- fed_close. reflexivity.
  - destruct X as [_ X]. eexists. split; [reflexivity|]. intros _. cbn [map fst snd]. rewrite X. rewrite <- fed_close. reflexivity.
  - eexists. split; [reflexivity|]. reflexivity.
Qed.

Lemma run_explode : forall e cfg o W discard keep l gzip output names w w1 t x w2,
  o_where o = Some W -> (forall n, output = Some n -> ~ (In n names \/ In n (o_allow o) \/ In n (o_deny o))) ->
  run e (mkInvocation cfg (explode_of o l names)) w = Some (CEnded 0, w1) -> w_stdout w1 = w_stdout w ++ t ->
  run e (mkInvocation cfg (filter_parts o W discard keep gzip output)) (mkWorld (w_disk w) t (w_stdout w)) = Some (x, w2) ->
  exists w3, run e (mkInvocation cfg (KExplode o discard keep l gzip output names)) w = Some (x, w3) /\ (x <> CRefused -> w3 = fed (w_stdin w) w2).
Proof.
  intros e cfg o W discard keep l gzip output names w w1 t x w2 HW Ho H Ht H2.
  destruct (fun X => RunProofs.run_ended _ _ _ _ _ X H) as (c & Hset & He); [reflexivity|].
  rewrite (RunProofs.run_settings e (mkInvocation cfg (KExplode o discard keep l gzip output names)) w c eq_refl) by (eapply settings_same; [reflexivity|exact Hset]).
  rewrite (RunProofs.run_settings e (mkInvocation cfg (filter_parts o W discard keep gzip output)) _ c eq_refl) in H2 by (eapply settings_same; [|exact Hset]; reflexivity).
  cbn [in_command] in *. eapply execute_explode; eassumption.
Qed.

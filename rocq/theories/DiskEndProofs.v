(** * Commands with files from the arguments to the contents of the outputs *)

From Coq Require Import String.
From Verif Require Import Bytes Winnow RecordModel BaseProofs TagOccModel Utf8Model ByteRecordModel ReaderModel
  MatcherModel MatcherSpec StateParser MatcherParserModel BuilderModel PathModel FmtModel QueryModel CliModel CliSpec CliCommandProofs CliProofs
  CheckModel OptionsModel CheckSpec GrammarSpec QuerySpec PrepareModel PrepareSpec IoModel IoSpec IoProofs WriteSpec DiskModel DiskSpec DiskProofs
  DiskCommandProofs.
From Verif Require PrepareProofs MatcherProofs MatcherExtraProofs QueryExtraProofs QueryParserProofs.

(** ** Inputs *)

Lemma whole_delivers : forall c, delivers (whole c) c.
Proof.
  intros [|x c]; [constructor|]. cbn. rewrite <- (app_nil_r (x :: c)) at 2. apply dl_data; [discriminate|constructor].
Qed.

Lemma available_intact : forall gz_dec d stdin names cs, available gz_dec d stdin names cs ->
  Forall2 intact (inputs gz_dec d stdin names) cs.
Proof.
  intros gz_dec d stdin names cs H. induction H as [stdin|stdin names cs H IH|stdin n t names cs Hn Hr H IH]; cbn [inputs].
  - constructor.
  - rewrite bytes_eqb_refl. constructor; [|exact IH]. split; [reflexivity|]. eexists. split; [reflexivity|]. apply whole_delivers.
  - rewrite (proj2 (bytes_eqb_neq _ _) Hn). constructor; [|exact IH]. split; [reflexivity|].
    destruct Hr as [c Hc Hg|c t Hc Hg Hd]; rewrite Hc, Hg; eexists; (split; [reflexivity|]).
    + apply whole_delivers.
    + exact Hd.
Qed.

Lemma available_loop : forall S (f : S -> byte_record + read_error -> step S) on_skip body skip gz_dec d stdin names cs s,
  loop_body f on_skip body skip -> available gz_dec d stdin names cs ->
  io_files_loop on_skip body skip s (inputs gz_dec d stdin names) = option_map as_io (files_loop f s cs).
Proof. intros. apply io_intact; [assumption|]. apply available_intact. assumption. Qed.

(** a completed command with inputs that are there *)
Lemma completed_available : forall S gz_enc gz_dec (outs : list (output * ((S -> bytes) * (S -> bytes)))) bad on_skip body f skip s
    names cs status w w',
  loop_body f on_skip body skip -> available gz_dec (w_disk w) (w_stdin w) names cs ->
  completed gz_enc gz_dec outs bad on_skip body skip s names status w w' ->
  exists x, run_loop f s cs = Some x
    /\ match x with
       | Done s' => status = (if bad s' then 2 else 0) /\ received gz_enc (map (fun o => (fst o, fst (snd o) s')) outs) w w'
       | Failed s' _ => status = 2 /\ received gz_enc (map (fun o => (fst o, snd (snd o) s')) outs) w w'
       | Panicked => False
       end.
Proof.
  intros S gz_enc gz_dec outs bad on_skip body f skip s names cs status w w' Hb Ha (x & Hx & H).
  rewrite (available_loop _ _ _ _ _ _ _ _ _ _ _ Hb Ha) in Hx. unfold run_loop.
  destruct (files_loop f s cs) as [y|]; [|discriminate]. injection Hx as <-. eexists. split; [reflexivity|].
  destruct y as [s'|s'|s' e|]; cbn in *; [exact H|exact H| |contradiction].
  destruct H as [H1 H2]. split; [|exact H2]. congruence.
Qed.

(** ** Reading what was written *)

Lemma received_in : forall gz_enc outs w w' o t n, received gz_enc outs w w' -> In (o, t) outs -> out_name o = Some n ->
  disk_get (w_disk w') n = Some ((if out_append o then before w n else []) ++ encoded gz_enc o t).
Proof. intros gz_enc outs w w' o t n (_ & H & _). apply H. Qed.

Lemma read_back : forall gz_enc gz_dec outs w w' o t n, gz_first gz_enc gz_dec ->
  received gz_enc outs w w' -> In (o, t) outs -> out_name o = Some n -> out_append o = false -> out_gz o = gz_name n ->
  reads_as gz_dec (w_disk w') n t.
Proof.
  intros gz_enc gz_dec outs w w' o t n Hg Hr Hi Hn Ha Hz.
  pose proof (received_in _ _ _ _ _ _ _ Hr Hi Hn) as H. rewrite Ha in H. cbn in H. unfold encoded in H. rewrite Hz in H.
  destruct (gz_name n) eqn:E.
  - eapply ra_gz; [exact H|exact E|]. rewrite <- (app_nil_r (gz_enc t)). apply Hg.
  - apply ra_plain; assumption.
Qed.

Lemma read_back_append : forall gz_enc gz_dec outs w w' o t n,
  received gz_enc outs w w' -> In (o, t) outs -> out_name o = Some n -> out_append o = true -> out_gz o = false -> gz_name n = false ->
  reads_as gz_dec (w_disk w') n (before w n ++ t).
Proof.
  intros gz_enc gz_dec outs w w' o t n Hr Hi Hn Ha Hz Hg.
  pose proof (received_in _ _ _ _ _ _ _ Hr Hi Hn) as H. rewrite Ha in H. unfold encoded in H. rewrite Hz in H.
  apply ra_plain; assumption.
Qed.

Lemma read_back_gz_append : forall gz_enc gz_dec outs w w' o t t0 rest n, gz_first gz_enc gz_dec ->
  received gz_enc outs w w' -> In (o, t) outs -> out_name o = Some n -> out_append o = true -> gz_name n = true ->
  disk_get (w_disk w) n = Some (gz_enc t0 ++ rest) ->
  reads_as gz_dec (w_disk w') n t0.
Proof.
  intros gz_enc gz_dec outs w w' o t t0 rest n Hg Hr Hi Hn Ha Hz H0.
  pose proof (received_in _ _ _ _ _ _ _ Hr Hi Hn) as H. rewrite Ha in H. unfold before in H. rewrite H0, <- app_assoc in H.
  eapply ra_gz; [exact H|exact Hz|apply Hg].
Qed.

(** concat twice into a compressed file: what the second run writes is not read *)
Lemma concat_gz_twice : forall gz_enc gz_dec writable O sha lossy skip unique n w a b w1 w2 st1 st2,
  gz_first gz_enc gz_dec -> gz_name n = true -> ~ In n a -> ~ In n b ->
  concat_on_disk gz_enc gz_dec writable O sha lossy false (Some n) None unique skip a w = Some (CEnded st1, w1) ->
  concat_on_disk gz_enc gz_dec writable O sha lossy true (Some n) None unique skip b w1 = Some (CEnded st2, w2) ->
  exists t, reads_as gz_dec (w_disk w1) n t /\ reads_as gz_dec (w_disk w2) n t.
Proof.
  intros gz_enc gz_dec writable O sha lossy skip unique n w a b w1 w2 st1 st2 Hg Hz Ha Hb H1 H2.
  assert (D : forall names, ~ In n names -> forall m, In m (named (Some n) ++ named None) -> ~ In m names).
  { intros names H m [<-|[]]. exact H. }
  apply concat_completed in H1; [|discriminate|apply D; exact Ha]. apply concat_completed in H2; [|discriminate|apply D; exact Hb].
  destruct H1 as (x & _ & H1), H2 as (y & _ & H2).
  assert (R1 : exists t, received gz_enc [(mkOut (Some n) false true, t)] w w1).
  { unfold builder_output in H1. cbn [map wb_append wb_gzip fst snd orb] in H1. rewrite Hz in H1.
    destruct x as [s|s|s e|]; [exists (snd (fst s)); apply H1..|contradiction]. }
  assert (R2 : exists t, received gz_enc [(mkOut (Some n) true true, t)] w1 w2).
  { unfold builder_output in H2. cbn [map wb_append wb_gzip fst snd orb] in H2. rewrite Hz in H2.
    destruct y as [s|s|s e|]; [exists (snd (fst s)); apply H2..|contradiction]. }
  destruct R1 as (t1 & R1), R2 as (t2 & R2). exists t1. split.
  - eapply read_back; [exact Hg|exact R1|left; reflexivity|reflexivity|reflexivity|symmetry; exact Hz].
  - eapply read_back_gz_append; [exact Hg|exact R2|left; reflexivity|reflexivity|reflexivity|exact Hz|].
    pose proof (received_in _ _ _ _ _ _ _ R1 (or_introl eq_refl) eq_refl) as E. cbn in E. unfold encoded in E. cbn in E.
    rewrite E. f_equal. symmetry. apply app_nil_r.
Qed.

(** ** filter *)

Lemma prepared_run : forall O Od a M D K V c files, regexes_compile O (fa_ci a) -> regexes_compile Od false ->
  PrepareProofs.prepared O Od a M D K V c ->
  exists all e0 sel recs e texts,
    reads (fa_skip a) files all e0
    /\ chosen (fun r => admits V (fa_allow a) (fa_deny a) (fa_column a) r
                        /\ (if fa_invert a then ~ M (fa_ci a) r else M (fa_ci a) r)) all sel
    /\ limited (fa_limit a) sel e0 recs e
    /\ Forall2 (remaining_text D K) recs texts
    /\ filter_run O Od (fa_skip a) c files = Some (ended (N.of_nat (length recs), concat texts, concat texts) e).
Proof.
  intros O Od a M D K V c files R Rd (Sm & Hd & Hk & Cp & Ha & Ec & Ei & El).
  assert (W : filter_wf O Od c).
  { destruct R as [R1 R2], Rd as [Rd1 Rd2]. split.
    - exact (proj1 (QueryParserProofs.path_checked_wf Od false Rd1 Rd2 _ Cp)).
    - rewrite Ec. apply MatcherExtraProofs.fm_checked_wf; [assumption..|]. apply Sm. }
  destruct (filter_exact O Od (fa_skip a) c files W) as (all & e0 & sel & recs & e & texts & H1 & H2 & H3 & H4 & E).
  exists all, e0, sel, recs, e, texts. split; [exact H1|]. split.
  - eapply QueryExtraProofs.picks_weaken; [|exact H2]. intros r. unfold filter_holds. rewrite Ha, Ei, Ec.
    destruct (fa_invert a); rewrite (proj2 Sm (fa_ci a) R); reflexivity.
  - split; [rewrite <- El; exact H3|]. split; [|exact E].
    eapply QueryExtraProofs.Forall2_impl; [|exact H4]. intros r t. apply PrepareProofs.edited_remaining; assumption.
Qed.

Lemma open_all_progress : forall gz_enc writable outs op w k, NoDup (out_names outs) ->
  (forall n, In n (out_names outs) -> writable n = true) ->
  exists w1, opened outs w w1 /\ open_all gz_enc writable op outs w k = k w1.
Proof.
  induction outs as [|o outs IH]; intros op w k Hn Hw; cbn [open_all].
  - exists w. split; [|reflexivity]. split; [apply same_but_refl|]. split; [intros ? ? []|]. split; reflexivity.
  - destruct (open_output writable o (w_disk w)) as [d|] eqn:E.
    + assert (Hn' : NoDup (out_names outs)).
      { unfold out_names in Hn |- *. cbn in Hn. destruct (out_name o); [inversion Hn; assumption|exact Hn]. }
      destruct (IH (op ++ [o]) (with_disk w d) k Hn') as (w1 & Ho & Hk).
      { intros n Hi. apply Hw. unfold out_names. cbn. apply in_or_app. right. exact Hi. }
      exists w1. split; [|exact Hk]. eapply opened_step; eassumption.
    + exfalso. unfold open_output in E. destruct (out_name o) as [n|] eqn:En; [|discriminate].
      rewrite (Hw n) in E; [discriminate|]. unfold out_names. cbn. rewrite En. left. reflexivity.
Qed.

Lemma filter_first_ok : forall O Od transform content a c,
  fst (filter_prepare O Od transform content a) = Some (Some c) -> filter_first Od a = Some (Some tt).
Proof.
  intros O Od transform content a c H. unfold filter_prepare, filter_first in *.
  destruct (source_parse Od fresh (fa_source a)) as [[[x|]|] s]; cbn [and_then fst] in *; [|discriminate..].
  destruct (parse_predicates (fa_discard a)); [|discriminate]. destruct (parse_predicates (fa_keep a)); [|discriminate].
  destruct (filter_set_build _ _ _ _); [reflexivity|discriminate].
Qed.

Lemma filter_disk_accepted : forall gz_enc gz_dec writable O Od transform a M D K V append gzip output tee w names cs,
  regexes_compile O (fa_ci a) -> regexes_compile Od false -> append && gzip = false ->
  filter_says O Od true transform (before w) a M D K V ->
  (forall n, fa_expr_file a = Some n -> disk_get (w_disk w) n <> None) ->
  input_names a names -> available gz_dec (w_disk w) (w_stdin w) names cs ->
  (forall n, output = Some n -> tee <> Some n) ->
  (forall n, In n (named output ++ named tee) -> writable n = true /\ ~ In n names /\ fa_expr_file a <> Some n) ->
  exists all e0 sel recs e texts w',
    reads (fa_skip a) cs all e0
    /\ chosen (fun r => admits V (fa_allow a) (fa_deny a) (fa_column a) r
                        /\ (if fa_invert a then ~ M (fa_ci a) r else M (fa_ci a) r)) all sel
    /\ limited (fa_limit a) sel e0 recs e
    /\ Forall2 (remaining_text D K) recs texts
    /\ filter_on_disk gz_enc gz_dec writable O Od transform a append gzip output tee w = Some (CEnded (status_of e), w')
    /\ received gz_enc (map (fun o => (builder_output (mkWB append gzip) o, concat texts))
                          (output :: match tee with Some n => [Some n] | None => [] end)) w w'.
Proof.
  intros gz_enc gz_dec writable O Od transform a M D K V append gzip output tee w names cs R Rd Hb Hs He Hn Ha Ht Hd.
  destruct (PrepareProofs.filter_accepted O Od transform (before w) a M D K V Hs) as (c & Ec & Hc).
  destruct (prepared_run O Od a M D K V c cs R Rd Hc) as (all & e0 & sel & recs & e & texts & H1 & H2 & H3 & H4 & Er).
  assert (En : names = filter_names (match fa_expr_file a with Some _ => true | None => false end) (fa_filter a) (fa_names a)).
  { destruct (PrepareProofs.input_names_model (fun x => x) a) as (names' & _ & E & U). rewrite (U _ Hn).
    unfold filter_inputs in E. apply (f_equal (map fst)) in E. rewrite !map_map in E. cbn in E. rewrite !map_id in E. congruence. }
  assert (P : exists st w', filter_on_disk gz_enc gz_dec writable O Od transform a append gzip output tee w = Some (CEnded st, w')).
  { unfold filter_on_disk. rewrite (filter_first_ok _ _ _ _ _ _ Ec). cbn [prepared].
    assert (Eb : wb_run wb_new [CAppend append; CGzip gzip] = Some (mkWB append gzip)) by (destruct append, gzip; try discriminate; reflexivity).
    rewrite Eb. cbv zeta.
    destruct (open_all_progress gz_enc writable
      (builder_output (mkWB append gzip) output
         :: match tee with Some n => [builder_output (mkWB append gzip) (Some n)] | None => [] end) [] w
      (fun w1 => prepared gz_enc
         (builder_output (mkWB append gzip) output
         :: match tee with Some n => [builder_output (mkWB append gzip) (Some n)] | None => [] end)
         (if expr_there a (w_disk w1) then fst (filter_prepare O Od transform (content_of (w_disk w1)) a) else Some None) w1
         (fun c => process_all gz_enc gz_dec
           ((builder_output (mkWB append gzip) output, (fun s : filter_state => snd (fst s), fun s : filter_state => snd (fst s)))
              :: match tee with
                 | Some n => [(builder_output (mkWB append gzip) (Some n), (fun s : filter_state => snd s, fun s : filter_state => snd s))]
                 | None => [] end)
           (fun _ => false) (fun s => s) (fun s r => as_io (filter_body O Od c s r)) (fa_skip a) (0, [], [])
           (filter_names (match fa_expr_file a with Some _ => true | None => false end) (fa_filter a) (fa_names a)) w1))
      (two_nodup _ _ _ Ht)) as (w1 & Ho & Hk).
    { intros n Hi. rewrite two_names in Hi. apply (Hd n Hi). }
    rewrite Hk. clear Hk.
    assert (Hsame : forall n, ~ In n (named output ++ named tee) -> disk_get (w_disk w1) n = disk_get (w_disk w) n).
    { intros n H. apply (proj1 Ho). rewrite two_names. exact H. }
    assert (Hex : forall n, fa_expr_file a = Some n -> disk_get (w_disk w1) n = disk_get (w_disk w) n).
    { intros n E. apply Hsame. intros Hi. apply (Hd n Hi). exact E. }
    assert (Et : expr_there a (w_disk w1) = true).
    { unfold expr_there. destruct (fa_expr_file a) as [n|]; [|reflexivity]. rewrite (Hex n eq_refl).
      specialize (He n eq_refl). destruct (disk_get (w_disk w) n); [reflexivity|congruence]. }
    rewrite Et. rewrite (filter_prepare_content O Od transform a (content_of (w_disk w1)) (before w)).
    2:{ intros n E. unfold content_of, before. rewrite (Hex n E). reflexivity. }
    rewrite Ec. cbn [prepared]. unfold process_all. rewrite <- En.
    rewrite (inputs_same gz_dec names (w_disk w)).
    2:{ intros n Hi. apply Hsame. intros Hi'. exact (proj1 (proj2 (Hd n Hi')) Hi). }
    replace (w_stdin w1) with (w_stdin w) by (symmetry; apply Ho).
    rewrite (available_loop _ _ _ _ _ _ _ _ _ _ _ (on_result_body _ _ _) Ha).
    unfold filter_run, run_loop in Er.
    destruct (files_loop (on_result (fa_skip a) (filter_body O Od c)) (0, [], []) cs) as [y|]; [|discriminate].
    injection Er as Er. destruct y as [s'|s'|s' e'|]; cbn; [eexists _, _; reflexivity..|].
    destruct e; discriminate. }
  destruct P as (st & w' & E). exists all, e0, sel, recs, e, texts, w'. repeat (split; [assumption|]).
  pose proof (filter_completed gz_enc gz_dec writable O Od transform a append gzip output tee w st w' Ht) as Hcomp.
  cbv zeta in Hcomp. rewrite <- En in Hcomp.
  destruct (Hcomp (fun n Hi => proj2 (Hd n Hi)) E) as (_ & c' & Ec' & Hc'). clear Hcomp.
  assert (c' = c) by congruence. subst c'.
  destruct (completed_available _ _ _ _ _ _ _ _ _ _ _ _ _ _ _ (on_result_body _ _ _) Ha Hc') as (x & Ex & Hx).
  unfold filter_run in Er. rewrite Er in Ex. injection Ex as <-.
  destruct e as [err|]; cbn [ended] in Hx; destruct Hx as [-> Hx]; (split; [exact E|]); destruct tee; exact Hx.
Qed.

Lemma filter_disk_read : forall gz_enc gz_dec writable O Od transform a append gzip output tee w names cs st w',
  regexes_compile O (fa_ci a) -> regexes_compile Od false ->
  input_names a names -> available gz_dec (w_disk w) (w_stdin w) names cs ->
  (forall n, output = Some n -> tee <> Some n) ->
  (forall n, In n (named output ++ named tee) -> ~ In n names /\ fa_expr_file a <> Some n) ->
  filter_on_disk gz_enc gz_dec writable O Od transform a append gzip output tee w = Some (CEnded st, w') ->
  exists M D K V all e0 sel recs e texts,
    filter_says O Od false transform (before w) a M D K V
    /\ reads (fa_skip a) cs all e0
    /\ chosen (fun r => admits V (fa_allow a) (fa_deny a) (fa_column a) r
                        /\ (if fa_invert a then ~ M (fa_ci a) r else M (fa_ci a) r)) all sel
    /\ limited (fa_limit a) sel e0 recs e
    /\ Forall2 (remaining_text D K) recs texts
    /\ st = status_of e
    /\ received gz_enc (map (fun o => (builder_output (mkWB append gzip) o, concat texts))
                          (output :: match tee with Some n => [Some n] | None => [] end)) w w'.
Proof.
  intros gz_enc gz_dec writable O Od transform a append gzip output tee w names cs st w' R Rd Hn Ha Ht Hd E.
  assert (En : names = filter_names (match fa_expr_file a with Some _ => true | None => false end) (fa_filter a) (fa_names a)).
  { destruct (PrepareProofs.input_names_model (fun x => x) a) as (names' & _ & E' & U). rewrite (U _ Hn).
    unfold filter_inputs in E'. apply (f_equal (map fst)) in E'. rewrite !map_map in E'. cbn in E'. rewrite !map_id in E'. congruence. }
  pose proof (filter_completed gz_enc gz_dec writable O Od transform a append gzip output tee w st w' Ht) as Hcomp.
  cbv zeta in Hcomp. rewrite <- En in Hcomp. destruct (Hcomp Hd E) as (_ & c & Ec & Hc). clear Hcomp.
  destruct (PrepareProofs.filter_read O Od transform (before w) a c Ec) as (M & D & K & V & Hs & Hp).
  destruct (prepared_run O Od a M D K V c cs R Rd Hp) as (all & e0 & sel & recs & e & texts & H1 & H2 & H3 & H4 & Er).
  exists M, D, K, V, all, e0, sel, recs, e, texts. repeat (split; [assumption|]).
  destruct (completed_available _ _ _ _ _ _ _ _ _ _ _ _ _ _ _ (on_result_body _ _ _) Ha Hc) as (x & Ex & Hx).
  unfold filter_run in Er. rewrite Er in Ex. injection Ex as <-.
  destruct e as [err|]; cbn [ended] in Hx; destruct Hx as [-> Hx]; (split; [reflexivity|]); destruct tee; exact Hx.
Qed.

(** a plain concat of a file into itself *)
Lemma concat_self : forall gz_enc gz_dec writable O sha lossy unique skip n w,
  writable n = true -> n <> lit "-" -> gz_name n = false ->
  exists w', concat_on_disk gz_enc gz_dec writable O sha lossy false (Some n) None unique skip [n] w = Some (CEnded 0, w')
    /\ disk_get (w_disk w') n = Some [].
Proof.
  intros gz_enc gz_dec writable O sha lossy unique skip n w Hw Hn Hg. unfold concat_on_disk.
  cbn [wb_run wb_step wb_set_append wb_new negb xorb orb wb_gzip]. unfold builder_output. cbn [wb_append wb_gzip orb open_all].
  unfold open_output. cbn [out_name out_append]. rewrite Hw. cbn [open_all]. unfold process_all. cbn [inputs w_disk with_disk].
  rewrite (proj2 (bytes_eqb_neq _ _) Hn), disk_get_same, Hg. cbn [whole io_files_loop]. cbv zeta. cbn.
  eexists. split; [reflexivity|]. cbn. rewrite !disk_get_same. reflexivity.
Qed.

(** a compressed output whose name does not tell *)
Lemma read_back_flag : forall gz_enc gz_dec outs w w' o t n,
  received gz_enc outs w w' -> In (o, t) outs -> out_name o = Some n -> out_append o = false -> out_gz o = true ->
  gz_name n = false -> reads_as gz_dec (w_disk w') n (gz_enc t).
Proof.
  intros gz_enc gz_dec outs w w' o t n Hr Hi Hn Ha Hz Hg.
  pose proof (received_in _ _ _ _ _ _ _ Hr Hi Hn) as H. rewrite Ha in H. cbn in H. unfold encoded in H. rewrite Hz in H.
  apply ra_plain; assumption.
Qed.

Lemma filter_others : forall gz_enc gz_dec writable O Od transform a append gzip output tee w c w' n,
  filter_on_disk gz_enc gz_dec writable O Od transform a append gzip output tee w = Some (c, w') ->
  output <> Some n -> tee <> Some n -> disk_get (w_disk w') n = disk_get (w_disk w) n.
Proof.
  intros gz_enc gz_dec writable O Od transform a append gzip output tee w c w' n H H1 H2. apply (filter_frame _ _ _ _ _ _ _ _ _ _ _ _ _ _ H).
  intros Hi. apply in_app_or in Hi. destruct output as [x|], tee as [y|]; cbn in Hi; intuition congruence.
Qed.

(** ** Names of compressed files *)

Lemma last_component : forall n, exists dir, n = dir ++ last (split_on 47 n) [] /\ ~ In 47 (last (split_on 47 n) [])
  /\ (dir = [] \/ exists d, dir = d ++ [47]).
Proof.
  induction n as [|c n (dir & E & H & D)]; cbn [split_on].
  - exists []. cbn. auto.
  - destruct (c =? 47) eqn:Ec.
    + apply N.eqb_eq in Ec. subst c. exists (47 :: dir). destruct (split_on 47 n) as [|x l] eqn:Es.
      { exfalso. destruct n as [|y n]; cbn in Es; [discriminate|]. destruct (y =? 47); [discriminate|].
        destruct (split_on 47 n); discriminate. }
      split; [|split; [exact H|]].
      * change (last ([] :: x :: l) []) with (last (x :: l) []). rewrite E at 1. reflexivity.
      * right. destruct D as [->|(d & ->)]; [exists []; reflexivity|exists (47 :: d); reflexivity].
    + apply N.eqb_neq in Ec. destruct (split_on 47 n) as [|x l] eqn:Es.
      { exfalso. destruct n as [|y n]; cbn in Es; [discriminate|]. destruct (y =? 47); [discriminate|].
        destruct (split_on 47 n); discriminate. }
      destruct l as [|y l].
      * cbn [last] in *. exists dir. destruct D as [->|(d & ->)].
        { cbn in E. subst x. cbn. split; [reflexivity|]. split; [|auto]. intros [->|Hi]; [apply Ec; reflexivity|exact (H Hi)]. }
        { exfalso. rewrite E in Es.
          assert (L : forall p, exists z l, split_on 47 ((p ++ [47]) ++ x) = z :: l /\ l <> []).
          { clear. induction p as [|e p (z & l & Hp & Hl)]; cbn [app split_on].
            - cbn. eexists _, _. split; [reflexivity|]. destruct x as [|e x]; cbn; [discriminate|].
              destruct (e =? 47); [discriminate|]. destruct (split_on 47 x); discriminate.
            - rewrite Hp. destruct (e =? 47); eexists _, _; (split; [reflexivity|]); [discriminate|exact Hl]. }
          destruct (L d) as (z & l & Hd & Hl). rewrite Hd in Es. congruence. }
      * exists (c :: dir). change (last ((c :: x) :: y :: l) []) with (last (x :: y :: l) []). split; [|split; [exact H|]].
        { rewrite E at 1. reflexivity. }
        right. destruct D as [->|(d & ->)]; [|exists (c :: d); reflexivity].
        exfalso. rewrite app_nil_l in E. rewrite E in Es. clear E. destruct H. revert Es.
        generalize (last (x :: y :: l) []). intros b. revert x y l. induction b as [|e b IH]; intros x y l Es; cbn in Es; [discriminate|].
        destruct (e =? 47) eqn:Ee; [left; apply N.eqb_eq; exact Ee|]. destruct (split_on 47 b) as [|x' [|y' l']] eqn:Es'; try discriminate.
        right. exact (IH _ _ _ eq_refl).
Qed.

Lemma last_component_unique : forall d1 b1 d2 b2 : bytes, d1 ++ b1 = d2 ++ b2 -> ~ In 47 b1 -> ~ In 47 b2 ->
  (d1 = [] \/ exists d, d1 = d ++ [47]) -> (d2 = [] \/ exists d, d2 = d ++ [47]) -> b1 = b2.
Proof.
  assert (U : forall d1 b1 d2 b2 : bytes, (d1 ++ [47]) ++ b1 = (d2 ++ [47]) ++ b2 -> ~ In 47 b1 -> ~ In 47 b2 -> b1 = b2).
  { induction d1 as [|c d1 IH]; intros b1 [|e d2] b2 E H1 H2; cbn in E.
    - congruence.
    - injection E as <- E. exfalso. apply H1. rewrite E. apply in_or_app. left. apply in_or_app. right. left. reflexivity.
    - injection E as -> E. exfalso. apply H2. rewrite <- E. apply in_or_app. left. apply in_or_app. right. left. reflexivity.
    - injection E as <- E. exact (IH _ _ _ E H1 H2). }
  intros d1 b1 d2 b2 E H1 H2 [->|(e1 & ->)] [->|(e2 & ->)].
  - exact E.
  - exfalso. apply H1. cbn in E. rewrite E. apply in_or_app. left. apply in_or_app. right. left. reflexivity.
  - exfalso. apply H2. cbn in E. rewrite <- E. apply in_or_app. left. apply in_or_app. right. left. reflexivity.
  - exact (U _ _ _ _ E H1 H2).
Qed.

Lemma gz_name_iff : forall n, gz_name n = true <-> gz_extension n.
Proof.
  intros n. unfold gz_name, gz_extension. destruct (last_component n) as (dir & E & H & D).
  set (name := last (split_on 47 n) []) in *. rewrite andb_true_iff, N.ltb_lt, MatcherProofs.ends_with_iff. split.
  - intros [(stem & Es) L]. exists dir, stem. rewrite Es in E, H, L. split; [exact E|]. split; [|split; [|exact D]].
    + intros ->. cbn in L. lia.
    + intros Hi. apply H. apply in_or_app. left. exact Hi.
  - intros (dir' & stem & E' & Hs & H' & D').
    assert (En : name = stem ++ lit ".gz").
    { apply (last_component_unique dir name dir' (stem ++ lit ".gz")).
      - congruence.
      - exact H.
      - intros Hi. apply in_app_or in Hi. destruct Hi as [Hi|Hi]; [exact (H' Hi)|]. cbn in Hi. intuition discriminate.
      - exact D.
      - exact D'. }
    rewrite En. split; [exists stem; reflexivity|]. rewrite app_length. cbn. destruct stem; [congruence|]. cbn [length]. lia.
Qed.

Lemma builder_output_gz : forall b n, out_gz (builder_output b (Some n)) = true <-> wb_gzip b = true \/ gz_extension n.
Proof. intros b n. cbn. rewrite orb_true_iff, gz_name_iff. reflexivity. Qed.

Lemma builder_output_is : forall b o, out_name (builder_output b o) = o /\ out_append (builder_output b o) = wb_append b
  /\ out_gz (builder_output b None) = wb_gzip b.
Proof. intros b o. repeat split. cbn. apply orb_false_r. Qed.

(** * Commands from their arguments to the contents of the files *)

From Coq Require Import String Permutation.
From Verif Require IoProofs PrepareProofs TablePrepareProofs.
From Verif Require Import Bytes Winnow RecordModel BaseProofs TagOccModel Utf8Model ByteRecordModel ReaderModel
  MatcherModel StateParser MatcherParserModel BuilderModel PathModel FmtModel QueryModel CliModel CliSpec CliProofs
  CliCommandProofs CliOutputProofs CliChunkProofs CliRangeProofs TableModel ExplodeModel CheckModel CsvModel ConvertModel OptionsModel PrepareModel
  PrepareSpec IoModel IoSpec WriteSpec QuerySpec DiskModel DiskSpec EndSpec DiskProofs DiskCommandProofs DiskEndProofs.

(** ** One run *)

Definition run_status {S} (bad : S -> bool) (x : ending S) : N :=
  match x with Done s => if bad s then 2 else 0 | _ => 2 end.
Definition run_texts {S} (outs : list (output * ((S -> bytes) * (S -> bytes)))) (x : ending S) : list (output * bytes) :=
  match x with
  | Done s => map (fun o => (fst o, fst (snd o) s)) outs
  | Failed s _ => map (fun o => (fst o, snd (snd o) s)) outs
  | Panicked => []
  end.

(** a row that is refused ends the loop *)
Definition refuse {S} (refused : S -> bool) (x : io_ending S) : io_ending S :=
  match x with IStopped s => if refused s then IFailed s CCsv else IStopped s | other => other end.

Lemma refuse_reader : forall S (refused : S -> bool) (body : S -> byte_record -> step S) skip fuel s rd,
  io_reader_loop (fun s => s) (fun s r => with_refused refused (body s r)) skip fuel s rd
  = option_map (refuse refused) (io_reader_loop (fun s => s) (fun s r => as_io (body s r)) skip fuel s rd).
Proof.
  intros S refused body skip. induction fuel as [|fuel IH]; intros s rd; cbn [io_reader_loop]; [reflexivity|].
  destruct (io_next_byte_record rd) as [[[r|e]|] rd'].
  - unfold with_refused. destruct (body s r) as [s'|s'|s' e|]; cbn; [apply IH| |reflexivity..]. destruct (refused s'); reflexivity.
  - destruct (pica_skip e skip); [apply IH|reflexivity].
  - reflexivity.
Qed.

Lemma refuse_files : forall S (refused : S -> bool) (body : S -> byte_record -> step S) skip files s,
  io_files_loop (fun s => s) (fun s r => with_refused refused (body s r)) skip s files
  = option_map (refuse refused) (io_files_loop (fun s => s) (fun s r => as_io (body s r)) skip s files).
Proof.
  intros S refused body skip. induction files as [|[name [rs|k]] files IH]; intros s; cbn [io_files_loop]; cbv zeta; [reflexivity| |reflexivity].
  rewrite refuse_reader. destruct (io_reader_loop _ _ _ _ _ _) as [[s'|s'|s' e|]|]; cbn [option_map refuse]; [apply IH| |reflexivity..].
  destruct (refused s'); reflexivity.
Qed.

Section Full.
  Variable gz_enc : bytes -> bytes.
  Variable gz_dec : bytes -> list piece.
  Variable writable : bytes -> bool.

  Notation yields := (yields gz_enc writable).

  Lemma run_texts_fst : forall S (outs : list (output * ((S -> bytes) * (S -> bytes)))) x, x <> Panicked ->
    map fst (run_texts outs x) = map fst outs.
  Proof. intros S outs [s|s e|] H; cbn; [rewrite map_map; reflexivity..|congruence]. Qed.

  Section Run.
    Context {S : Type}.
    Variable outs : list (output * ((S -> bytes) * (S -> bytes))).
    Variable bad : S -> bool.
    Variable on_skip : S -> S.
    Variable body : S -> byte_record -> io_ending S.
    Variable skip : bool.
    Variable s : S.
    Variable names : list bytes.
    Variable w : world.
    Variable x : ending S.
    Hypothesis HL : exists y, io_files_loop on_skip body skip s (inputs gz_dec (w_disk w) (w_stdin w) names) = Some y
      /\ match x with
         | Done s' => y = IDone s' \/ y = IStopped s'
         | Failed s' e => y = as_io (Fail s' e)
         | Panicked => False
         end.
    Hypothesis Hn : NoDup (out_names (map fst outs)).
    Hypothesis Hd : forall n, In n (out_names (map fst outs)) -> ~ In n names.

    Lemma process_runs : forall w1, opened (map fst outs) w w1 ->
      exists w', process_all gz_enc gz_dec outs bad on_skip body skip s names w1 = Some (CEnded (run_status bad x), w')
        /\ received gz_enc (run_texts outs x) w w'.
    Proof.
      intros w1 Ho. unfold process_all.
      assert (Hi : inputs gz_dec (w_disk w1) (w_stdin w1) names = inputs gz_dec (w_disk w) (w_stdin w) names).
      { destruct Ho as (H1 & _ & H3 & _). rewrite H3. apply inputs_same. intros n Hin. apply H1. intros Ho'. exact (Hd n Ho' Hin). }
      rewrite Hi. destruct HL as (y & -> & Hy).
      assert (Hr : forall f : (output * ((S -> bytes) * (S -> bytes))) -> bytes, received gz_enc (map (fun o => (fst o, f o)) outs) w
                     (close_all gz_enc (map (fun o => (fst o, f o)) outs) w1)).
      { intros f. apply (opened_received gz_enc writable); rewrite map_map; cbn; assumption. }
      destruct x as [s'|s' e|]; [destruct Hy as [-> | ->]| |contradiction].
      - eexists. split; [reflexivity|apply Hr].
      - eexists. split; [reflexivity|apply Hr].
      - subst y. eexists. split; [reflexivity|apply Hr].
    Qed.

    Lemma open_yields :
      yields (open_all gz_enc writable [] (map fst outs) w
                (fun w1 => process_all gz_enc gz_dec outs bad on_skip body skip s names w1)) (run_status bad x) (run_texts outs x) w.
    Proof.
      assert (Hx : x <> Panicked). { destruct HL as (y & _ & Hy). intros E. rewrite E in Hy. exact Hy. }
      split.
      - intros st w' H. destruct (open_all_cases gz_enc writable _ _ _ _ _ _ Hn H) as [[E _]|(w1 & Ho & Hk)]; [discriminate|].
        destruct (process_runs w1 Ho) as (w2 & E & Hr). rewrite Hk in E. injection E as -> ->. auto.
      - rewrite run_texts_fst by exact Hx. intros Hw.
        destruct (open_all_progress gz_enc writable (map fst outs) [] w
                   (fun w1 => process_all gz_enc gz_dec outs bad on_skip body skip s names w1) Hn Hw) as (w1 & Ho & ->).
        apply process_runs. exact Ho.
    Qed.
  End Run.

  Lemma loop_runs : forall S (f : S -> byte_record + read_error -> step S) on_skip body skip s names w cs x,
    loop_body f on_skip body skip -> available gz_dec (w_disk w) (w_stdin w) names cs ->
    run_loop f s cs = Some x -> x <> Panicked ->
    exists y, io_files_loop on_skip body skip s (inputs gz_dec (w_disk w) (w_stdin w) names) = Some y
      /\ match x with
         | Done s' => y = IDone s' \/ y = IStopped s'
         | Failed s' e => y = as_io (Fail s' e)
         | Panicked => False
         end.
  Proof.
    intros S f on_skip body skip s names w cs x Hb Ha Hr Hx.
    rewrite (available_loop _ _ _ _ _ _ _ _ _ _ _ Hb Ha). unfold run_loop in Hr.
    destruct (files_loop f s cs) as [[s'|s'|s' e|]|]; try discriminate; injection Hr as <-; cbn [option_map as_io];
      [eexists; split; [reflexivity|]; auto..|congruence].
  Qed.

  Lemma refused_runs : forall S (refused : S -> bool) (b : S -> byte_record -> step S) skip s names w cs x,
    available gz_dec (w_disk w) (w_stdin w) names cs ->
    run_loop (on_result skip b) s cs = Some x -> match x with Done s' => refused s' = false | Failed _ _ => True | Panicked => False end ->
    exists y, io_files_loop (fun s => s) (fun s r => with_refused refused (b s r)) skip s
                (inputs gz_dec (w_disk w) (w_stdin w) names) = Some y
      /\ match x with
         | Done s' => y = IDone s' \/ y = IStopped s'
         | Failed s' e => y = as_io (Fail s' e)
         | Panicked => False
         end.
  Proof.
    intros S refused b skip s names w cs x Ha Hr Hx. rewrite refuse_files.
    destruct (loop_runs _ _ _ _ _ _ _ _ _ _ (IoProofs.on_result_body _ b skip) Ha Hr) as (y & -> & Hy).
    { intros ->. exact Hx. }
    eexists. split; [reflexivity|]. destruct x as [s'|s' e|]; [|subst y; reflexivity|contradiction].
    destruct Hy as [-> | ->]; cbn; [auto|rewrite Hx; auto].
  Qed.

  Lemma one_out : forall out S (tx : (S -> bytes) * (S -> bytes)), NoDup (out_names (map fst [(out, tx)])).
  Proof. intros out S tx. cbn [map fst]. apply one_nodup. Qed.

  Lemma out_distinct : forall out S (tx : (S -> bytes) * (S -> bytes)) names, (forall n, out_name out = Some n -> ~ In n names) ->
    forall n, In n (out_names (map fst [(out, tx)])) -> ~ In n names.
  Proof.
    intros out S tx names H n Hi. unfold out_names in Hi. cbn in Hi. destruct (out_name out) as [m|]; cbn in Hi; [|contradiction].
    destruct Hi as [<-|[]]. apply H. reflexivity.
  Qed.

  Variables O Od : oracles.
  Variable transform : bytes -> bytes.

  Notation distinct output names := (forall n, output = Some n -> ~ In n names).

  (** *** concat *)

  Variable sha : bytes -> bytes.
  Variable lossy : bytes -> bytes.
  Notation concat_on_disk := (concat_on_disk gz_enc gz_dec writable O sha lossy).

  Lemma concat_texts : forall append output tee unique skip names w cs keys text e,
    available gz_dec (w_disk w) (w_stdin w) names cs ->
    (forall n, output = Some n -> tee <> Some n) -> (forall n, In n (named output ++ named tee) -> ~ In n names) ->
    concat_run O sha lossy skip unique cs = Some (ended (keys, text, text) e) ->
    yields (concat_on_disk append output tee unique skip names w) (status_of e)
      (map (fun o => (builder_output (mkWB append false) o, text)) (output :: match tee with Some n => [Some n] | None => [] end)) w.
  Proof.
    intros append output tee unique skip names w cs keys text e Ha Ht Hd Hr. unfold DiskModel.concat_on_disk.
    assert (Eb : wb_run wb_new [CAppend append] = Some (mkWB append false)) by (destruct append; reflexivity).
    rewrite Eb. cbv zeta. set (b := mkWB append false).
    set (outs := (builder_output b output, (fun s : concat_state => snd (fst s), fun s : concat_state => snd (fst s)))
           :: match tee with Some n => [(builder_output b (Some n), (fun s : concat_state => snd s, fun s : concat_state => snd s))] | None => [] end).
    assert (Ef : map fst outs = builder_output b output :: match tee with Some n => [builder_output b (Some n)] | None => [] end).
    { unfold outs. destruct tee; reflexivity. }
    pose proof (open_yields outs (fun _ => false) (fun s => s) (fun s r => as_io (concat_body O sha lossy unique s r)) skip
      ([], [], []) names w (ended (keys, text, text) e)) as Y.
    rewrite Ef in Y.
    assert (Es : @run_status concat_state (fun _ => false) (ended (keys, text, text) e) = status_of e) by (destruct e; reflexivity).
    assert (Et : run_texts outs (ended (keys, text, text) e)
      = map (fun o => (builder_output b o, text)) (output :: match tee with Some n => [Some n] | None => [] end)).
    { unfold outs. destruct e, tee; reflexivity. }
    rewrite Es, Et in Y. apply Y; clear Y.
    - eapply loop_runs; [apply IoProofs.on_result_body|exact Ha|exact Hr|]. destruct e; discriminate.
    - apply two_nodup. exact Ht.
    - intros n Hi. rewrite two_names in Hi. apply Hd. exact Hi.
  Qed.

  (** *** Commands with options *)

  Lemma one_yields : forall S (out : output) (tx : (S -> bytes) * (S -> bytes)) bad on_skip body (f : S -> byte_record + read_error -> step S) skip s names cs w x,
    loop_body f on_skip body skip -> available gz_dec (w_disk w) (w_stdin w) names cs ->
    (forall n, out_name out = Some n -> ~ In n names) -> run_loop f s cs = Some x -> x <> Panicked ->
    yields (open_all gz_enc writable [] [out] w
              (fun w1 => process_all gz_enc gz_dec [(out, tx)] bad on_skip body skip s names w1))
      (run_status bad x) (run_texts [(out, tx)] x) w.
  Proof.
    intros S out tx bad on_skip body f skip s names cs w x Hb Ha Hd Hr Hx.
    apply (open_yields [(out, tx)]); [eapply loop_runs; eassumption|apply one_out|apply out_distinct; exact Hd].
  Qed.

  Lemma refused_yields : forall S (out : output) (tx : (S -> bytes) * (S -> bytes)) bad refused b skip s names cs w x,
    available gz_dec (w_disk w) (w_stdin w) names cs ->
    (forall n, out_name out = Some n -> ~ In n names) -> run_loop (on_result skip b) s cs = Some x ->
    match x with Done s' => refused s' = false | Failed _ _ => True | Panicked => False end ->
    yields (open_all gz_enc writable [] [out] w
              (fun w1 => process_all gz_enc gz_dec [(out, tx)] bad (fun s => s) (fun s r => with_refused refused (b s r)) skip s names w1))
      (run_status bad x) (run_texts [(out, tx)] x) w.
  Proof.
    intros S out tx bad refused b skip s names cs w x Ha Hd Hr Hx.
    apply (open_yields [(out, tx)]); [eapply refused_runs; eassumption|apply one_out|apply out_distinct; exact Hd].
  Qed.

  Lemma count_texts : forall a o append output m skip names w cs,
    opts_wf O Od o -> fst (opts_prepare O Od transform a) = Some (Some o) ->
    available gz_dec (w_disk w) (w_stdin w) names cs -> distinct output names ->
    exists all sel e text, reads skip cs all e /\ chosen (opts_hold O Od o) all sel
      /\ count_text m (N.of_nat (length sel)) (N.of_nat (length (flat_map br_record sel)))
           (N.of_nat (length (flat_map f_subfields (flat_map br_record sel)))) text
      /\ yields (count_on_disk gz_enc gz_dec writable O Od transform a append output m skip names w) (status_of e)
           [(mkOut output append false, match e with None => text | Some _ => [] end)] w.
  Proof.
    intros a o append output m skip names w cs W Ep Ha Hd.
    destruct (count_exact O Od skip o cs W) as (all & sel & e & H1 & H2 & H3).
    exists all, sel, e. eexists. split; [exact H1|]. split; [exact H2|]. split; [apply count_output_ok|].
    unfold DiskModel.count_on_disk. unfold prepared. cbv zeta. rewrite Ep.
    pose proof (one_yields _ (mkOut output append false) (count_output m, fun _ => []) (fun _ => false) _ _ _ skip (0, 0, 0) names cs w _
      (IoProofs.on_result_body _ (count_body O Od o) skip) Ha Hd H3) as Y.
    destruct e; apply Y; discriminate.
  Qed.

  Lemma print_texts : forall a o nf output skip names w cs all e0,
    opts_wf O Od o -> fst (opts_prepare O Od transform a) = Some (Some o) ->
    available gz_dec (w_disk w) (w_stdin w) names cs -> distinct output names ->
    reads skip cs all e0 -> Forall (fun r => opts_hold O Od o (br_record r) -> utf8_record (br_record r)) all ->
    exists recs e texts, selects O Od skip o cs recs e /\ Forall2 (printed_record nf) recs texts
      /\ yields (print_on_disk gz_enc gz_dec writable O Od transform a nf output skip names w) (status_of e)
           [(mkOut output false false, concat texts)] w.
  Proof.
    intros a o nf output skip names w cs all e0 W Ep Ha Hd Hr HU.
    destruct (print_exact O Od nf skip o cs all e0 W Hr HU) as (recs & e & texts & H1 & H2 & H3).
    exists recs, e, texts. split; [exact H1|]. split; [exact H2|].
    unfold DiskModel.print_on_disk. unfold prepared. cbv zeta. rewrite Ep.
    pose proof (one_yields _ (mkOut output false false) (@snd N bytes, @snd N bytes) (fun _ => false) _ _ _ skip (0, []) names cs w _
      (IoProofs.on_result_body _ (print_body O Od nf o) skip) Ha Hd H3) as Y.
    destruct e; apply Y; discriminate.
  Qed.

  Lemma slice_texts : forall a o gzip append output start end_ len stop skip names w cs,
    opts_wf O Od o -> fst (opts_prepare O Od transform a) = Some (Some o) -> append && gzip = false ->
    available gz_dec (w_disk w) (w_stdin w) names cs -> distinct output names ->
    slice_stop start end_ len stop -> len = 0 \/ skip = false ->
    exists all e0 sel range e1 recs e out,
      reads skip cs all e0 /\ chosen (opts_hold O Od o) all sel
      /\ index_range start stop sel range /\ slice_error start stop sel e0 e1
      /\ limited (fo_limit o) range e1 recs e /\ lines_of recs out
      /\ yields (slice_on_disk gz_enc gz_dec writable O Od transform a gzip append output start end_ len skip names w) (status_of e)
           [(builder_output (mkWB append gzip) output, out)] w.
  Proof.
    intros a o gzip append output start end_ len stop skip names w cs W Ep Hag Ha Hd Hs Hl.
    destruct (slice_exact O Od skip start end_ len stop o cs W Hs Hl) as (all & e0 & sel & range & e1 & recs & e & out & H1 & H2 & H3 & H4 & H5 & H6 & H7).
    exists all, e0, sel, range, e1, recs, e, out. repeat (split; [assumption|]).
    unfold DiskModel.slice_on_disk. unfold prepared. cbv zeta. rewrite Ep.
    assert (Eb : wb_run wb_new [CGzip gzip; CAppend append] = Some (mkWB append gzip)) by (destruct append, gzip; try discriminate; reflexivity).
    rewrite Eb. unfold slice_run, finish_with in H7.
    destruct (run_loop _ _ cs) as [x|] eqn:Ex; [|discriminate].
    assert (Hx : x <> Panicked). { intros ->. destruct e; discriminate. }
    pose proof (one_yields _ (builder_output (mkWB append gzip) output) (sl_out, sl_out) (fun _ => false) _ _ _ skip _ names cs w x
      (IoProofs.slice_step_body O Od skip start len o) Ha Hd Ex Hx) as Y.
    destruct x as [s'|s' e'|], e as [err|]; cbn in H7; try discriminate; [injection H7 as <-|injection H7 as <- <-]; exact Y.
  Qed.

  Lemma sample_texts : forall a o gzip output draw size skip names w cs,
    opts_wf O Od o -> fst (opts_prepare O Od transform a) = Some (Some o) ->
    available gz_dec (w_disk w) (w_stdin w) names cs -> distinct output names ->
    exists recs e out, selects O Od skip o cs recs e
      /\ match e with None => exists sample, drawn size recs sample /\ lines_of sample out | Some _ => out = [] end
      /\ yields (sample_on_disk gz_enc gz_dec writable O Od transform a gzip output draw size skip names w) (status_of e)
           [(builder_output (mkWB false gzip) output, out)] w.
  Proof.
    intros a o gzip output draw size skip names w cs W Ep Ha Hd.
    destruct (sample_exact O Od draw size skip o cs W) as (recs & e & H1 & H2).
    exists recs, e.
    assert (HP : forall x, run_loop (on_result skip (sample_body O Od draw size o)) (0, []) cs = Some x -> x <> Panicked ->
       yields (sample_on_disk gz_enc gz_dec writable O Od transform a gzip output draw size skip names w)
         (run_status (fun _ => false) x)
         (run_texts [(builder_output (mkWB false gzip) output, (fun s : sample_state => match sample_write (snd s) with Some t => t | None => [] end, fun _ => []))] x) w).
    { intros x Hr Hx. unfold DiskModel.sample_on_disk. unfold prepared. cbv zeta. rewrite Ep.
      assert (Eb : wb_run wb_new [CGzip gzip] = Some (mkWB false gzip)) by (destruct gzip; reflexivity). rewrite Eb.
      apply (one_yields _ (builder_output (mkWB false gzip) output) _ (fun _ => false) _ _ _ skip (0, []) names cs w x (IoProofs.on_result_body _ (sample_body O Od draw size o) skip) Ha Hd Hr Hx). }
    unfold sample_run, finish_with in H2.
    destruct H2 as [(err & -> & H2)|(-> & sample & out & H2 & H3 & H4)].
    - destruct (run_loop _ _ cs) as [x|] eqn:Ex; [|discriminate]. exists []. destruct x as [s'|s' e'|].
      + destruct (sample_write (snd s')); discriminate.
      + split; [exact H1|]. split; [reflexivity|]. apply (HP _ eq_refl). discriminate.
      + discriminate.
    - exists out. split; [exact H1|]. split; [exists sample; auto|].
      destruct (run_loop _ _ cs) as [x|] eqn:Ex; [|discriminate]. destruct x as [s'|s' e'|]; [|discriminate..].
      specialize (HP _ eq_refl). cbn [run_status run_texts map fst snd] in HP.
      destruct (sample_write (snd s')) as [t|]; [|discriminate]. injection H4 as ->. apply HP. discriminate.
  Qed.
End Full.

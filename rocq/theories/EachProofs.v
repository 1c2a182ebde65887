(** * Proofs about commands that go record by record, input by input *)

From Coq Require Import String ZArith Lia.
From Verif Require Import Bytes BaseProofs Winnow RecordModel TagOccModel Utf8Model ByteRecordModel ByteRecordProofs ReaderModel
  MatcherModel MatcherProofs StateParser MatcherParserModel BuilderModel PathModel FmtModel QueryModel CliModel CliProofs TableModel
  ExplodeModel CheckModel ConvertModel CsvModel OptionsModel OptionsSpec ConfigModel PrepareModel
  IoModel IoSpec WriteSpec DiskModel DirModel RuleModel
  MainModel DiskSpec RuleSpec MainSpec PipeSpec DiskProofs PipeProofs PipeInProofs FrontLoop FrontSpec FrontProofs FrontRunProofs LimitProofs PartsSpec PartsProofs RecordwiseSpec RecordwiseProofs
  DealtProofs ReorderProofs.
From Verif Require RunSpec RunProofs.

Lemma reads_split : forall skip a b recs, reads skip (a ++ b) recs -> exists ra rb, reads skip a ra /\ reads skip b rb /\ recs = ra ++ rb.
Proof.
  intros skip. induction a as [|f a IH]; intros b recs H; [exists [], recs; split; [reflexivity|]; split; [exact H|reflexivity]|].
  destruct (reads_cons _ _ _ _ H) as (r1 & r2 & H1 & H2 & ->). destruct (IH b r2 H2) as (ra & rb & Ha & Hb & ->).
  exists (r1 ++ ra), rb. split; [apply reads_app; assumption|]. split; [exact Hb|]. apply app_assoc.
Qed.

Lemma steady_split : forall S (body : S -> byte_record -> io_ending S) (text text2 : S -> bytes) gz_enc gz_dec skip s0 append a b w w1, steady body text -> ~ In (lit "-") b ->
  let process := process_all gz_enc gz_dec [(mkOut None append false, (text, text2))] (fun _ => false) (fun s => s) body skip s0 in
  process (a ++ b) w = Some (CEnded 0, w1) ->
  (exists wa, process a w = Some (CEnded 0, wa)) /\ (exists wb, process b w = Some (CEnded 0, wb)).
Proof.
  intros S body text text2 gz_enc gz_dec skip s0 append a b w w1 Hst Hb process H. unfold process in H.
  destruct (steady_read body text Hst gz_enc gz_dec skip s0 text2 append _ _ _ H) as (recs & s' & Hr & Hf & _). rewrite inputs_app in Hr by exact Hb.
  destruct (reads_split _ _ _ _ Hr) as (ra & rb & Ra & Rb & ->). rewrite fold_end_app in Hf.
  assert (G : forall names rs, reads skip (inputs gz_dec (w_disk w) (w_stdin w) names) rs -> (exists s, fold_end body s0 rs = IDone s) -> exists wa, process names w = Some (CEnded 0, wa)).
  { intros names rs R (s & F). destruct (files_collects _ _ _ _ R) as (r' & E' & _ & Hl). cbn in E'. subst r'. unfold process, process_all.
    rewrite (Hl _ (fun s => s) body s0) by (right; reflexivity). rewrite F. eexists. reflexivity. }
  split.
  - apply (G a ra Ra). destruct (fold_end body s0 ra); try discriminate. eexists. reflexivity.
  - apply (G b rb Rb). destruct (steady_fold body text Hst rb) as [X|(t & X)].
    + destruct (fold_end body s0 ra) as [s1|s1|s1 er|]; try discriminate. rewrite X in Hf. discriminate.
    + destruct (X s0) as (s2 & E2 & _). exists s2. exact E2.
Qed.

Section Each.
  Variable e : env.
  Variable c : config.
  Variable k : command.
  Variable w : world.
  Hypothesis Hk : recordwise k.
  Hypothesis Hx : expression_free k.
  Hypothesis Hq : select_ready e k.

  Lemma execute_split : forall a b w1, ~ In (lit "-") b -> execute e c (with_inputs (a ++ b) k) w = Some (CEnded 0, w1) ->
    (exists wa, execute e c (with_inputs a k) w = Some (CEnded 0, wa)) /\ (exists wb, execute e c (with_inputs b k) w = Some (CEnded 0, wb)).
  Proof.
    intros a b w1 Hb H. destruct (recordwise_goes e c k w Hk Hx Hq) as [F|(S & body & text & text2 & skip & s0 & append & H1 & H2 & H3)]; [destruct (F _ _ _ H)|].
    rewrite H3 in H. rewrite (H3 a), (H3 b). exact (steady_split S body text text2 _ _ skip s0 append a b w w1 H1 Hb H).
  Qed.

  (** only the text on stdout is new *)
  Lemma execute_world : forall a w1, execute e c (with_inputs a k) w = Some (CEnded 0, w1) -> exists t, w_stdout w1 = w_stdout w ++ t.
  Proof.
    intros a w1 H. destruct (recordwise_goes e c k w Hk Hx Hq) as [F|(S & body & text & text2 & skip & s0 & append & H1 & H2 & H3)]; [destruct (F _ _ _ H)|].
    rewrite H3 in H. destruct (steady_read body text H1 _ _ skip s0 text2 append _ _ _ H) as (recs & s' & _ & _ & ->). eexists. reflexivity.
  Qed.

  Lemma execute_one : forall names w1 n, ~ In (lit "-") names -> execute e c (with_inputs names k) w = Some (CEnded 0, w1) -> In n names ->
    exists wn, execute e c (with_inputs [n] k) w = Some (CEnded 0, wn).
  Proof.
    intros names w1 n Hn H Hin. apply in_split in Hin. destruct Hin as (a & b & ->).
    assert (Hb : ~ In (lit "-") (n :: b)) by (intros X; apply Hn; apply in_or_app; right; exact X).
    destruct (execute_split a (n :: b) w1 Hb H) as [_ (wb & H')].
    destruct (execute_split [n] b wb) as [Hw _]; [intros X; apply Hb; right; exact X|exact H'|exact Hw].
  Qed.

  Definition text_of (n : bytes) : bytes :=
    match execute e c (with_inputs [n] k) w with Some (_, wn) => skipn (length (w_stdout w)) (w_stdout wn) | None => [] end.

  Lemma execute_chosen : forall names w1, ~ In (lit "-") names -> execute e c (with_inputs names k) w = Some (CEnded 0, w1) ->
    forall names', incl names' names -> execute e c (with_inputs names' k) w = Some (CEnded 0, mkWorld (w_disk w) (w_stdin w) (w_stdout w ++ flat_map text_of names')).
  Proof.
    intros names w1 Hn H names' Hi. destruct names' as [|m l0] eqn:En; [exact (execute_none e c k names w w1 Hk Hx Hq H)|]. rewrite <- En in *.
    assert (Ec : forall l : list bytes, concat (map (fun n => [n]) l) = l) by (induction l as [|x l IH]; [reflexivity|]; cbn; rewrite IH; reflexivity).
    rewrite <- (Ec names') at 1. rewrite flat_map_concat_map. apply (execute_all e c k w (map (fun n => [n]) names') (map text_of names') Hk Hx Hq).
    - rewrite En. discriminate.
    - clear En. induction names' as [|n l IH]; constructor; [|apply IH; intros x X; apply Hi; right; exact X].
      destruct (execute_one names w1 n Hn H (Hi n (or_introl eq_refl))) as (wn & Hw). exists wn. split; [exact Hw|].
      destruct (execute_world _ _ Hw) as (t & T). unfold text_of. rewrite Hw, T. rewrite skipn_app, skipn_all, Nat.sub_diag. reflexivity.
    - rewrite En. cbn [map tl]. rewrite Ec. intros X. apply Hn. apply Hi. rewrite En. right. exact X.
  Qed.
End Each.

Lemma run_each : forall e cfg k w names t, recordwise k -> expression_free k -> select_ready e k -> ~ In (lit "-") names ->
  run_writes e cfg w (with_inputs names k) t ->
  exists out, forall names', incl names' names -> run_writes e cfg w (with_inputs names' k) (flat_map out names').
Proof.
  intros e cfg k w names t Hk Hx Hq Hn (w1 & H & _). assert (Hc : forall ns, RunProofs.is_config (with_inputs ns k) = false) by (intros ns; destruct k; try contradiction; reflexivity).
  destruct (RunProofs.run_ended _ (mkInvocation cfg (with_inputs names k)) _ _ _ (Hc names) H) as (c & Hset & He). exists (text_of e c k w). intros names' Hi.
  eexists. split; [|exact (eq_refl (w_stdout (mkWorld (w_disk w) (w_stdin w) (w_stdout w ++ flat_map (text_of e c k w) names'))))].
  rewrite (RunProofs.run_settings e (mkInvocation cfg (with_inputs names' k)) w c (Hc names')) by (eapply settings_same; [reflexivity|exact Hset]).
  exact (execute_chosen e c k w Hk Hx Hq names w1 Hn He names' Hi).
Qed.

(** the converse of C136 *)
Lemma run_divided : forall e cfg k w names t, recordwise k -> expression_free k -> select_ready e k -> names <> [] -> ~ In (lit "-") (concat (tl names)) ->
  run_writes e cfg w (with_inputs (concat names) k) t ->
  exists ts, Forall2 (fun ns t => run_writes e cfg w (with_inputs ns k) t) names ts /\ t = concat ts.
Proof.
  intros e cfg k w names t Hk Hx Hq Hne Hn H0. assert (H0' := H0). destruct H0 as (w1 & H & _). assert (Hc : forall ns, RunProofs.is_config (with_inputs ns k) = false) by (intros ns; destruct k; try contradiction; reflexivity).
  destruct (RunProofs.run_ended _ (mkInvocation cfg (with_inputs (concat names) k)) _ _ _ (Hc _) H) as (c & Hset & He).
  assert (R : forall ns wn, execute e c (with_inputs ns k) w = Some (CEnded 0, wn) -> exists u, run_writes e cfg w (with_inputs ns k) u).
  { intros ns wn Hw. destruct (execute_world e c k w Hk Hx Hq _ _ Hw) as (u & U). exists u, wn. split; [|exact U].
    rewrite (RunProofs.run_settings e (mkInvocation cfg (with_inputs ns k)) w c (Hc ns)) by (eapply settings_same; [reflexivity|exact Hset]). exact Hw. }
  assert (G : exists ts, Forall2 (fun ns t => run_writes e cfg w (with_inputs ns k) t) names ts).
  { clear H0' H Hset. revert w1 He. clear Hne. induction names as [|ns names IH]; intros w1 He; [exists []; constructor|]. cbn [concat tl] in *.
    destruct (execute_split e c k w Hk Hx Hq ns (concat names) w1 Hn He) as [(wa & Ha) (wb & Hb)]. destruct (R _ _ Ha) as (u & U).
    assert (Ht : ~ In (lit "-") (concat (tl names))).
    { intros X. apply Hn. destruct names as [|m names]; [destruct X|]. cbn [concat tl] in *. apply in_or_app. right. exact X. }
    destruct (IH Ht wb Hb) as (ts & Hts). exists (u :: ts). constructor; assumption. }
  destruct G as (ts & Hts). exists ts. split; [exact Hts|]. eapply run_writes_same; [exact H0'|]. eexists. split; [exact (run_recordwise e cfg k w names ts Hk Hx Hq Hne Hts Hn)|].
  reflexivity.
Qed.

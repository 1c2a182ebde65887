(** * Proofs about the formats of count *)

From Coq Require Import String ZArith Lia.
From Verif Require Import Bytes BaseProofs Winnow RecordModel TagOccModel Utf8Model ByteRecordModel ReaderModel
  MatcherModel StateParser MatcherParserModel BuilderModel PathModel FmtModel QueryModel CliModel CliSpec TableModel
  ExplodeModel CheckModel ConvertModel CsvModel OptionsModel OptionsSpec ConfigModel PrepareModel IoModel IoSpec WriteSpec DiskModel DirModel RuleModel
  MainModel DiskSpec RuleSpec MainSpec PipeSpec FrontRunProofs PartsSpec PropertiesCli.
From Verif Require RunSpec RunProofs.

Lemma run_modes : forall e cfg w o append m names t, run_writes e cfg w (KCount o append None m names) t ->
  (t = [] /\ forall m', run_writes e cfg w (KCount o append None m' names) [])
  \/ exists r f s, count_text m r f s t /\ forall m', exists t', count_text m' r f s t' /\ run_writes e cfg w (KCount o append None m' names) t'.
Proof.
  intros e cfg w o append m names t (w1 & H & T).
  destruct (fun X => RunProofs.run_ended _ _ _ _ _ X H) as (cf & Hset & He); [reflexivity|].
  assert (RS : forall m', run e (mkInvocation cfg (KCount o append None m' names)) w = execute e cf (KCount o append None m' names) w).
  { intros m'. exact (RunProofs.run_settings e (mkInvocation cfg (KCount o append None m' names)) w cf eq_refl (settings_same e cfg _ (KCount o append None m' names) w w cf eq_refl Hset)). }
  unfold run_writes. setoid_rewrite RS. cbn [in_command execute] in *. unfold count_on_disk in *. cbv zeta in *.
  cbn [open_all open_output out_name app] in *. rewrite world_eta in *.
  destruct (fst (opts_prepare _ _ _ _)) as [[op|]|]; [|discriminate|discriminate]. cbn [prepared] in *. unfold process_all in *. cbn [fst snd] in *.
  destruct (io_files_loop _ _ _ _ _) as [x|]; [|discriminate].
  destruct x as [u|u|u er|]; [| | |discriminate].
  1, 2: right; cbn [main_status] in *; injection He as <-; cbn [map fst snd close_all close_output out_name with_disk w_stdout] in T |- *; apply app_inv_head in T;
    destruct u as [[r f] s]; exists r, f, s; rewrite <- T; (split; [apply C49_output|]); intros m'; exists (count_output m' (r, f, s)); (split; [apply C49_output|]); eexists; split; reflexivity.
  left. destruct (main_status (IFailed u er)) as [n|]; [|discriminate]. injection He as -> <-. cbn [map fst snd close_all close_output out_name with_disk w_stdout] in T |- *.
  apply app_inv_head in T. rewrite <- T. split; [reflexivity|]. intros m'. eexists. split; reflexivity.
Qed.

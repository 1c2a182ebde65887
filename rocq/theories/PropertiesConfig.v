(** * Properties of the configuration file *)

From Coq Require Import String.
From Verif Require Import Bytes Utf8Model Utf8Spec Utf8Proofs OptionsModel OptionsSpec OptionsProofs
  ConfigModel ConfigSpec ConfigProofs.

(** ** C102 *)

(** C102: in the home directory: the configuration is that of the file, or the
    default if there is none *)
Theorem C102_home : forall from_toml f c, config_start from_toml PHome f = LConfig c <->
  (f = FMissing /\ c = config_default)
  \/ exists b, f = FHolds b /\ is_utf8 b /\ from_toml b = Some c.
Proof. exact home_start. Qed.
Print Assumptions C102_home.

(** C102: and otherwise nothing is done and the command fails *)
Theorem C102_home_reported : forall from_toml fate a f,
  (forall c, config_start from_toml PHome f <> LConfig c) ->
  exists e, config_main from_toml PHome fate a f = (e, f) /\ (e = CfError \/ e = CfPanic).
Proof. exact unusable_reported. Qed.
Print Assumptions C102_home_reported.

Example C102_home_sample :
  config_start sample_from_toml PHome (FHolds (lit "skip-invalid = true" ++ [10])) = LConfig (mkConfig true None)
  /\ config_start sample_from_toml PHome (FHolds (lit "skip-invalid = 1" ++ [10])) = LPanics
  /\ config_start sample_from_toml PHome (FHolds [255]) = LFails.
Proof. vm_compute. auto. Qed.

(** C102 is refuted for --config: every file that is no UTF-8 text, or that
    cannot be read, is taken for an empty configuration, without a word *)
Theorem C102_given_refuted : forall from_toml f, illegible f ->
  config_start from_toml PGiven f = LConfig config_default.
Proof. exact given_ignored. Qed.
Print Assumptions C102_given_refuted.

(** and is replaced by the default when an option is set *)
Theorem C102_overwritten_refuted : forall from_toml f a name v, illegible f -> changes a name v ->
  exists t c, config_main from_toml PGiven SaveWorks a f = (CfDone [], FHolds t)
    /\ file_says t c /\ updated config_default name v c.
Proof. exact given_overwritten. Qed.
Print Assumptions C102_overwritten_refuted.

Example C102_given_sample :
  let a := mkConfigArgs false false false (lit "normalization") (Some (lit "nfd")) in
  let f := FHolds (lit "# für alle" ++ [10; 252; 10] ++ lit "skip-invalid = true" ++ [10]) in
  illegible f /\ changes a (lit "normalization") (Some (lit "nfd"))
  /\ config_main sample_from_toml PGiven SaveWorks a f
     = (CfDone [], FHolds (lit "skip-invalid = false" ++ [10] ++ lit "normalization = " ++ [34] ++ lit "nfd" ++ [34; 10])).
Proof.
  cbv zeta. split; [|split; [|vm_compute; reflexivity]].
  - right. eexists. split; [reflexivity|]. rewrite <- utf8_valid_iff. vm_compute. discriminate.
  - split; [reflexivity|]. split; [right; reflexivity|]. split; [reflexivity|]. right. split; [reflexivity|]. cbn. auto.
Qed.

(** ** C103 *)

(** C103: setting or unsetting an option keeps the other one *)
Theorem C103_other_option : forall from_toml p b c a name v, p <> PNowhere ->
  is_utf8 b -> from_toml b = Some c -> changes a name v ->
  exists t c', config_main from_toml p SaveWorks a (FHolds b) = (CfDone [], FHolds t)
    /\ file_says t c' /\ updated c name v c'.
Proof. exact set_writes. Qed.
Print Assumptions C103_other_option.

(** C103 is refuted for all else in the file: files with the same options become
    the same, whatever else is in them *)
Theorem C103_rest_refuted : forall from_toml p fate b1 b2 c a name v, p <> PNowhere -> fate <> SaveRefused ->
  is_utf8 b1 -> is_utf8 b2 ->
  from_toml b1 = Some c -> from_toml b2 = Some c -> changes a name v ->
  config_main from_toml p fate a (FHolds b1) = config_main from_toml p fate a (FHolds b2).
Proof. exact set_forgets. Qed.
Print Assumptions C103_rest_refuted.

(** a reader that knows comments *)
Fixpoint after_newline (b : bytes) : bytes :=
  match b with [] => [] | c :: b' => if c =? 10 then b' else after_newline b' end.
Definition reads_comments (b : bytes) : option config :=
  match b with
  | 35 :: b' => sample_from_toml (after_newline b')
  | _ => sample_from_toml b
  end.
Example C103_sample :
  let a := mkConfigArgs false true false (lit "normalization") None in
  let b1 := lit "# wichtig" ++ [10] ++ lit "skip-invalid = true" ++ [10] in
  reads_comments b1 = Some (mkConfig true None) /\ is_utf8 b1
  /\ (forall t c, file_says t c -> reads_comments t = Some c)
  /\ changes a (lit "normalization") None
  /\ config_main reads_comments PHome SaveWorks a (FHolds b1) = (CfDone [], FHolds (lit "skip-invalid = true" ++ [10])).
Proof.
  cbv zeta. split; [vm_compute; reflexivity|]. split; [apply utf8_valid_iff; vm_compute; reflexivity|].
  split; [|split; [|vm_compute; reflexivity]].
  - intros t c H. rewrite <- (sample_reads t c H). destruct H; reflexivity.
  - split; [reflexivity|]. split; [right; reflexivity|]. split; reflexivity.
Qed.

(** ** C104 *)

(** C104: if saving works or is refused, the configuration is the new or the old
    one *)
Theorem C104_old_or_new_partial : forall from_toml p fate a f c, args_allowed a = true ->
  (forall t c, file_says t c -> from_toml t = Some c) ->
  config_start from_toml p f = LConfig c -> (fate = SaveWorks \/ fate = SaveRefused) ->
  exists e f' c', config_main from_toml p fate a f = (e, f') /\ config_start from_toml p f' = LConfig c'
    /\ ((c' = c /\ f' = f /\ ((exists name v, changes a name v) -> e = CfError))
        \/ (exists name v, e = CfDone [] /\ changes a name v /\ updated c name v c')).
Proof. exact save_effect. Qed.
Print Assumptions C104_old_or_new_partial.

(** C104 is refuted if the writing stops before the first byte: the file is empty,
    and every later command panics *)
Theorem C104_stopped_refuted : forall from_toml p f c a name v, p <> PNowhere ->
  config_start from_toml p f = LConfig c -> changes a name v -> from_toml [] = None ->
  forall runs, config_mains from_toml p ((SaveStops 0, a) :: runs) f
    = (CfError :: map (fun _ => CfPanic) runs, FHolds []).
Proof. exact stop_kills. Qed.
Print Assumptions C104_stopped_refuted.

(** and if it stops after the first line: the value of the second option is lost *)
Theorem C104_mixed_refuted : forall from_toml p f c a w n, p <> PNowhere ->
  (forall t c, file_says t c -> from_toml t = Some c) ->
  config_start from_toml p f = LConfig c -> cf_normalization c = Some n ->
  changes a (lit "skip-invalid") (Some w) ->
  exists f' c', config_main from_toml p (SaveStops (length (lit "skip-invalid = " ++ w ++ [10]))) a f = (CfError, f')
    /\ config_start from_toml p f' = LConfig c'
    /\ (cf_skip_invalid c' = true <-> w = lit "true") /\ cf_normalization c' = None.
Proof. exact stop_mixes. Qed.
Print Assumptions C104_mixed_refuted.

Example C104_sample :
  let set v := mkConfigArgs false false false (lit "skip-invalid") (Some (lit v)) in
  let f := FHolds (lit "skip-invalid = false" ++ [10] ++ lit "normalization = " ++ [34] ++ lit "nfd" ++ [34; 10]) in
  config_start sample_from_toml PHome f = LConfig (mkConfig false (Some Nfd))
  /\ sample_from_toml [] = None
  /\ changes (set "true"%string) (lit "skip-invalid") (Some (lit "true"))
  /\ fst (config_mains sample_from_toml PHome [(SaveRefused, set "true"%string); (SaveStops 0, set "true"%string);
       (SaveWorks, set "false"%string)] f) = [CfError; CfError; CfPanic].
Proof.
  cbv zeta. split; [vm_compute; reflexivity|]. split; [vm_compute; reflexivity|]. split; [|vm_compute; reflexivity].
  split; [reflexivity|]. split; [left; reflexivity|]. split; [reflexivity|]. left. split; [reflexivity|]. cbn. auto.
Qed.

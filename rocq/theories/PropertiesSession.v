(** * Sessions: C117 *)

From Coq Require Import String.
From Verif Require Import Bytes OptionsModel OptionsSpec OptionsProofs CliModel ConfigModel DiskModel MainModel RunSpec SessionSpec SessionProofs PropertiesMain PropertiesRun.
From Verif Require MainSpec.

(** ** C117: the configuration of a run is what was configured last

    In a session, whatever else has been run in between, a command finds the options
    as the config commands before it have left them.  With C116 this says what the
    commands do. *)
Theorem C117_settings : forall n steps h h0 w cs w' e i stdin, history n steps h -> starts n w h0 ->
  session steps w = Some (cs, w') -> MainSpec.config_name e i = Some n -> reads_config e ->
  exists c, settings e i (MainSpec.fed stdin w') c /\ reflects (h0 ++ h) c.
Proof. exact session_settings. Qed.
Print Assumptions C117_settings.

(** config itself answers as the history demands: it shows the value that was set
    last, or the default; and it changes no other file *)
Theorem C117_answers : forall n steps h h0 w cs w' e i stdin a, history n steps h -> starts n w h0 ->
  session steps w = Some (cs, w') -> MainSpec.config_name e i = Some n -> reads_config e ->
  in_command i = KConfig a -> fitting a -> e_writable e n = true ->
  exists x f w2, run e i (MainSpec.fed stdin w') = Some (x, w2) /\ answer (h0 ++ h) a f
    /\ match f with
       | CfDone out => x = CEnded 0 /\ w_stdout w2 = w_stdout w' ++ out
       | CfError => x = CRefused /\ w_stdout w2 = w_stdout w'
       | CfPanic => False
       end
    /\ starts n w2 (h0 ++ h ++ [a])
    /\ (forall m, m <> n -> disk_get (w_disk w2) m = disk_get (w_disk w') m).
Proof. exact session_answers. Qed.
Print Assumptions C117_answers.

(** a history determines the configuration *)
Theorem C117_one : forall h c1 c2, reflects h c1 -> reflects h c2 -> c1 = c2.
Proof. exact reflects_one. Qed.
Print Assumptions C117_one.

(** nothing is configured at first *)
Theorem C117_start : forall n w, disk_get (w_disk w) n = None -> starts n w [].
Proof. intros n w H. left. split; [exact H|exact no_history]. Qed.
Print Assumptions C117_start.

(** ** Samples *)

(** set, concat, set, unset, and then a command that shows the option *)
Definition set_option (name v : string) : invocation := mkInvocation None (KConfig (mkConfigArgs false false false (lit name) (Some (lit v)))).
Definition unset_option (name : string) : invocation := mkInvocation None (KConfig (mkConfigArgs false true false (lit name) None)).
Definition get_option (name : string) : invocation := mkInvocation None (KConfig (mkConfigArgs true false false (lit name) None)).
Definition session_world : world := mkWorld [(lit "b.dat", main_line "1" (lit "x") umlaut)] [] [].
Definition session_steps : list (env * invocation * bytes) :=
  [(main_env, set_option "skip-invalid" "true", []); (main_env, main_concat [lit "b.dat"] (lit "c.dat"), []);
   (main_env, set_option "normalization" "nfkd", []); (main_env, unset_option "skip-invalid", [])].

Example C117_sample : exists h, history (lit "home.toml") session_steps h /\ length h = 3%nat
  /\ starts (lit "home.toml") session_world []
  /\ exists cs w', session session_steps session_world = Some (cs, w')
       /\ exists w2 w3, run main_env (get_option "normalization") w' = Some (CEnded 0, w2) /\ w_stdout w2 = lit "nfkd" ++ [10]
            /\ run main_env (get_option "skip-invalid") w2 = Some (CEnded 0, w3) /\ w_stdout w3 = lit "nfkd" ++ [10] ++ lit "false" ++ [10].
Proof.
  assert (F : forall get unset set_ name v, args_allowed (mkConfigArgs get unset set_ name v) = true -> fitting (mkConfigArgs get unset set_ name v)).
  { intros. apply allowed_fitting. assumption. }
  eexists. split; [|split; [|split]].
  - unfold session_steps. eapply hs_config; [reflexivity|apply F; reflexivity|reflexivity|reflexivity|exact sample_reads|].
    apply hs_other; [discriminate|intros H; apply concat_changes in H; discriminate|].
    eapply hs_config; [reflexivity|apply F; reflexivity|reflexivity|reflexivity|exact sample_reads|].
    eapply hs_config; [reflexivity|apply F; reflexivity|reflexivity|reflexivity|exact sample_reads|]. apply hs_none.
  - reflexivity.
  - apply C117_start. reflexivity.
  - do 2 eexists. split; [vm_compute; reflexivity|]. do 2 eexists. repeat split; vm_compute; reflexivity.
Qed.

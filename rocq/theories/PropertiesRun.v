(** * What a run of the whole program does: C116 *)

From Coq Require Import String ZArith Permutation.
From Verif Require Import Bytes Winnow RecordModel RecordSpec TagOccModel Utf8Model Utf8Spec ByteRecordModel ByteRecordSpec ReaderModel
  MatcherModel MatcherSpec StateParser MatcherParserModel BuilderModel PathModel FmtModel QueryModel QuerySpec CliModel CliSpec TableModel
  ExplodeModel CheckModel ConvertModel CsvModel OptionsModel OptionsSpec ConfigModel PrepareModel PrepareSpec IoModel IoSpec DiskModel DiskSpec
  DirModel EndSpec RuleModel RuleSpec MainModel RunSpec RunProofs
  PropertiesMatcher PropertiesCli PropertiesQuery PropertiesTable PropertiesPrepare PropertiesDisk PropertiesMain.
From Verif Require MainSpec DirSpec PropertiesDir.

(** ** C116: a run does what its command line, its configuration and the files say

    The configuration is the one in its file.  The expressions mean what the grammar
    says, with the configured normal form; the lists are those on the disk; and with
    the records of the inputs the outputs get what the command is for ([says] in
    RunSpec.v).  With arguments that have a meaning the run ends as it is meant. *)
Theorem C116_runs : forall e i w c cs R, lawful e ->
  settings e i w c -> says e true c w (in_command i) R ->
  proper e w (in_command i) cs -> covered e c (in_command i) cs ->
  (forall n, target e (in_command i) cs n -> e_writable e n = true) ->
  exists st w', run e i w = Some (CEnded st, w') /\ R cs st w'.
Proof. exact run_does. Qed.
Print Assumptions C116_runs.

(** A run that ends (with a status, and not with an error before it gets to its
    records) had arguments with a meaning, and did what they mean.  The outputs could
    be opened, or the run has ended with success. *)
Theorem C116_read : forall e i w cs st w', lawful e ->
  run e i w = Some (CEnded st, w') ->
  proper e w (in_command i) cs -> (forall c, settings e i w c -> covered e c (in_command i) cs) ->
  (forall n, target e (in_command i) cs n -> e_writable e n = true) \/ st = 0 ->
  is_config (in_command i) = false ->
  exists c R, settings e i w c /\ says e false c w (in_command i) R /\ R cs st w'.
Proof. exact run_did. Qed.
Print Assumptions C116_read.

(** The configuration is determined.  There is one unless the file in the home
    directory is no text, or the file is no configuration; then every command but
    config fails, and changes nothing. *)
Theorem C116_settings : forall e i w,
  (exists c, settings e i w c)
  \/ (exists n t, in_config i = None /\ e_home e = Some n /\ disk_get (w_disk w) n = Some t /\ ~ is_utf8 t)
  \/ (exists n t, MainSpec.config_name e i = Some n /\ disk_get (w_disk w) n = Some t /\ is_utf8 t /\ e_config_toml e t = None).
Proof. exact settings_or. Qed.
Print Assumptions C116_settings.

Theorem C116_one : forall e i w c1 c2, settings e i w c1 -> settings e i w c2 -> c1 = c2.
Proof. exact settings_one. Qed.
Print Assumptions C116_one.

Theorem C116_refused : forall e i w n t, is_config (in_command i) = false ->
  in_config i = None -> e_home e = Some n -> disk_get (w_disk w) n = Some t -> ~ is_utf8 t ->
  run e i w = Some (CRefused, w).
Proof. exact run_refused. Qed.
Print Assumptions C116_refused.

Theorem C116_panics : forall e i w n t, is_config (in_command i) = false ->
  MainSpec.config_name e i = Some n -> disk_get (w_disk w) n = Some t -> is_utf8 t -> e_config_toml e t = None ->
  run e i w = Some (CPanicked, w).
Proof. exact run_panics. Qed.
Print Assumptions C116_panics.

(** Convert from other formats than PICA+ is refused, and changes nothing. *)
Theorem C116_from : forall e cfg w c skip from to output names, from <> TPlus ->
  settings e (mkInvocation cfg (KConvert skip from to output names)) w c ->
  run e (mkInvocation cfg (KConvert skip from to output names)) w = Some (CRefused, w).
Proof. exact run_from. Qed.
Print Assumptions C116_from.

(** ** Samples *)

Example C116_lawful : lawful main_env.
Proof.
  constructor; try (intros; apply Permutation_refl).
  - intros x ci. cbn. destruct regexes_sample as [H1 H2]. destruct ci; assumption.
  - intros v. cbn. unfold sample_lossy. split; auto.
  - intros v _. reflexivity.
  - intros v tsv H. discriminate.
  - intros b v H. discriminate.
Qed.

(** count --skip-invalid with a list that has the identifier of one of the records;
    the normal form is configured in the home directory *)
Definition run_opts : file_opts := mkFileOpts true 0 false 80 [lit "k.csv"] [] None None None [] [] [].
Definition run_count : invocation := mkInvocation None (KCount run_opts false (Some (lit "c.txt")) MRecords [lit "a.dat"]).
Definition run_world : world := mkWorld ((lit "k.csv", lit "1") :: w_disk main_world) [] [].
Definition a_dat : bytes := main_line "1" (lit "x") umlaut ++ lit "bad" ++ [10] ++ main_line "2" (lit "y") umlaut.

Example C116_settings_sample : settings main_env run_count run_world (mkConfig false (Some Nfc)).
Proof.
  eapply se_file with (n := lit "home.toml"); try reflexivity. apply Utf8Proofs.utf8_valid_iff. vm_compute. reflexivity.
Qed.

Example C116_says_sample : exists R, says main_env true (mkConfig false (Some Nfc)) run_world (in_command run_count) R.
Proof.
  destruct PropertiesDir.bare_says as (V & [_ HS _ _]).
  eexists. eapply (sy_count _ _ _ _ _ _ _ _ _ (mkOptsArgs false 0 None [] [] [] [[(lit "ppn", [Some (lit "1")])]] [] None None)
    (fun _ _ => True) V). split.
  - constructor; try reflexivity; [|constructor]. constructor; [|constructor]. exists (lit "1"). split; reflexivity.
  - constructor; [cbn; auto|exact HS| |intros t []].
    intros t [<-|[]]. exists [Some (lit "1")]. left. exists [], []. split; [reflexivity|]. intros [].
Qed.

Example C116_proper_sample : proper main_env run_world (in_command run_count) [(lit "a.dat", a_dat)]
  /\ (forall n, target main_env (in_command run_count) [(lit "a.dat", a_dat)] n -> n = lit "c.txt").
Proof.
  assert (T : forall n, target main_env (in_command run_count) [(lit "a.dat", a_dat)] n -> n = lit "c.txt").
  { intros n [n' H|o gz od t s ns k m E|o p gz od t ns ev r v m E]; try discriminate. destruct H as [H|[]]. symmetry. exact H. }
  split; [|exact T]. split; [|split].
  - exists [lit "a.dat"]. split; [apply (io_names (in_command run_count)); intros; discriminate|].
    apply av_file; [discriminate|apply ra_plain; reflexivity|apply av_none].
  - intros n Hn Hu. apply T in Hn. subst n.
    inversion Hu as [m Hi|o m Ho Hl|o f ap gz out' tee ns x m E|o rules fi ts out' ns m E|o rules fi ts out' ns r b nf v m E]; try discriminate.
    + destruct Hi as [Hi|[]]. discriminate.
    + injection Ho as <-. destruct Hl as [[E|[]]|[]]. discriminate.
  - cbn. constructor; [intros []|constructor].
Qed.

(** the record that is in the list, and not the line that is no record *)
Example C116_run_sample : exists w', run main_env run_count run_world = Some (CEnded 0, w')
  /\ disk_get (w_disk w') (lit "c.txt") = Some (lit "1" ++ [10]).
Proof. eexists. split; vm_compute; reflexivity. Qed.

(** configurations that are none *)
Example C116_refused_sample : run main_env run_count (mkWorld [(lit "home.toml", [255])] [] []) = Some (CRefused, mkWorld [(lit "home.toml", [255])] [] []).
Proof. vm_compute. reflexivity. Qed.
Example C116_panics_sample : run main_env run_count (mkWorld [(lit "home.toml", lit "x")] [] []) = Some (CPanicked, mkWorld [(lit "home.toml", lit "x")] [] []).
Proof. vm_compute. reflexivity. Qed.

Example C116_from_sample :
  run main_env (mkInvocation None (KConvert false TJson TPlus (Some (lit "o.dat")) [lit "a.dat"])) run_world = Some (CRefused, run_world).
Proof.
  apply (C116_from main_env None run_world (mkConfig false (Some Nfc))); [discriminate|].
  eapply se_file with (n := lit "home.toml"); try reflexivity. apply Utf8Proofs.utf8_valid_iff. vm_compute. reflexivity.
Qed.

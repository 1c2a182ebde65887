(** * The whole program: C109 to C115 *)

From Coq Require Import String ZArith Permutation.
From Verif Require Import Bytes Winnow RecordModel TagOccModel Utf8Model ByteRecordModel ReaderModel
  MatcherModel StateParser MatcherParserModel BuilderModel PathModel FmtModel QueryModel CliModel TableModel
  ExplodeModel CheckModel ConvertModel CsvModel OptionsModel OptionsSpec OptionsProofs ConfigModel PrepareModel IoModel DiskModel DirModel RuleModel
  MainModel DiskSpec RuleSpec MainSpec HaltSpec MainEndProofs MainSpellProofs
  PropertiesMatcher PropertiesCli PropertiesQuery PropertiesTable PropertiesDisk.
From Verif Require DirSpec PropertiesDir.

(** ** C109: a run depends on the files it needs and on nothing else

    If stdin and the files that a run needs (its configuration, inputs, lists,
    expression and rule files) are the same on two disks, the runs end alike and do
    the same to every file and to stdout. *)
Theorem C109_needs : forall e i w1 w2 c w1', (forall l, Permutation (e_writer_order e l) l) ->
  w_stdin w1 = w_stdin w2 ->
  (forall n, needs e i w1 n -> disk_get (w_disk w1) n = disk_get (w_disk w2) n) ->
  run e i w1 = Some (c, w1') ->
  exists w2', run e i w2 = Some (c, w2') /\ same_done (extends i) w1 w1' w2 w2'.
Proof. exact run_depends. Qed.
Print Assumptions C109_needs.

(** ** C110: a run changes only the files it is told to write

    These are the outputs, the files of split and partition, and the configuration
    if it is changed.  The same holds for the starts of a session. *)
Theorem C110_changes : forall e i w c w', run e i w = Some (c, w') ->
  forall n, ~ may_change e i n -> disk_get (w_disk w') n = disk_get (w_disk w) n.
Proof. exact run_leaves. Qed.
Print Assumptions C110_changes.

Theorem C110_session : forall steps w cs w', session steps w = Some (cs, w') ->
  forall n, (forall e i stdin, In (e, i, stdin) steps -> ~ may_change e i n) ->
  disk_get (w_disk w') n = disk_get (w_disk w) n.
Proof. exact session_leaves. Qed.
Print Assumptions C110_session.

(** ** C111: the same run again does the same again

    Without --append and if no file is needed that is written, the second run ends
    like the first, leaves every file as the first has left it, and writes the same
    to stdout. *)
Theorem C111_again : forall e i w c w', (forall l, Permutation (e_writer_order e l) l) ->
  run e i w = Some (c, w') -> appends (in_command i) = false ->
  (forall n, needs e i w n -> ~ may_change e i n) ->
  exists w'', run e i (fed (w_stdin w) w') = Some (c, w'')
    /\ (forall n, disk_get (w_disk w'') n = disk_get (w_disk w') n)
    /\ exists t, w_stdout w' = w_stdout w ++ t /\ w_stdout w'' = w_stdout w' ++ t.
Proof. exact run_again. Qed.
Print Assumptions C111_again.

(** ** C112: runs that do not touch each other's files can be exchanged *)
Theorem C112_commute : forall e1 i1 s1 e2 i2 s2 w,
  (forall l, Permutation (e_writer_order e1 l) l) -> (forall l, Permutation (e_writer_order e2 l) l) ->
  (forall n, may_change e1 i1 n -> ~ needs e2 i2 (fed s2 w) n /\ ~ may_change e2 i2 n) ->
  (forall n, may_change e2 i2 n -> ~ needs e1 i1 (fed s1 w) n) ->
  exists c1 c2 w12 w21 t1 t2,
    session [(e1, i1, s1); (e2, i2, s2)] w = Some ([c1; c2], w12)
    /\ session [(e2, i2, s2); (e1, i1, s1)] w = Some ([c2; c1], w21)
    /\ (forall n, disk_get (w_disk w12) n = disk_get (w_disk w21) n)
    /\ w_stdout w12 = w_stdout w ++ t1 ++ t2 /\ w_stdout w21 = w_stdout w ++ t2 ++ t1.
Proof. exact runs_commute. Qed.
Print Assumptions C112_commute.

(** ** C113: to configure skip-invalid is to give --skip-invalid

    After "config skip-invalid true" a command does what it did before with the
    flag. *)
Theorem C113_skip : forall e i a k stdin w w1, (forall l, Permutation (e_writer_order e l) l) ->
  (forall t c, OptionsSpec.file_says t c -> e_config_toml e t = Some c) ->
  in_command i = KConfig a -> changes a (lit "skip-invalid") (Some (lit "true")) ->
  run e i w = Some (CEnded 0, w1) ->
  (forall a', k <> KConfig a') ->
  (forall n, config_name e i = Some n -> ~ uses e (fed stdin w) k n) ->
  exists x v v',
    run e (mkInvocation (in_config i) (with_skip k)) (fed stdin w) = Some (x, v)
    /\ run e (mkInvocation (in_config i) k) (fed stdin w1) = Some (x, v')
    /\ same_done (extends (mkInvocation (in_config i) k)) (fed stdin w) v (fed stdin w1) v'.
Proof. exact configured_skip. Qed.
Print Assumptions C113_skip.

(** ** C114: with a configured normal form the spelling of expressions does not matter

    [f] spells an expression otherwise, without a change of its normal form. *)
Theorem C114_spelling : forall e i f w b nf,
  (forall t c, OptionsSpec.file_says t c -> e_config_toml e t = Some c) ->
  configured e i w (mkConfig b (Some nf)) ->
  (forall x, e_nf e nf (f x) = e_nf e nf x) ->
  run e (mkInvocation (in_config i) (respelled f (in_command i))) w = run e i w.
Proof. exact spelled_otherwise. Qed.
Print Assumptions C114_spelling.

(** ** C115: every start of the program ends

    with status 0 or 2 or with a panic, and so does every session. *)
Theorem C115_ends : forall e i w, comes_to_an_end (run e i w).
Proof. exact run_ends. Qed.
Print Assumptions C115_ends.

Theorem C115_session : forall steps w, exists cs w', session steps w = Some (cs, w')
  /\ length cs = length steps
  /\ Forall (fun c => end_status c = Some 0 \/ end_status c = Some 2 \/ end_status c = None) cs.
Proof. exact session_ends. Qed.
Print Assumptions C115_session.

(** ** Samples *)

(** composes "a" and the diaeresis *)
Fixpoint compose (b : bytes) : bytes :=
  match b with
  | [] => []
  | c :: r => match r with
              | 204 :: 136 :: r' => if c =? 97 then 195 :: 164 :: compose r' else c :: compose r
              | _ => c :: compose r
              end
  end.

Definition main_env : env :=
  mkEnv toy_enc toy_dec all_writable (fun _ => true) (fun _ => sample_oracles) (fun n => n) (fun _ => compose) sample_sha sample_lossy
    sample_text (fun _ => false) sample_hash (fun b => b) (fun _ b => Some [(lit "ppn", [Some b])])
    (fun _ x => flat_map (fun row => fst row) (snd x)) (fun x => x) (fun x => x) (fun x => x) (fun x => x) (fun x => x) (fun x => x)
    (fun z => Z.to_N z) (fun _ _ => true) (fun _ _ => true) (fun _ => None) (fun _ => None) sample_from_toml (Some (lit "home.toml")).

Definition no_opts : file_opts := mkFileOpts false 0 false 80 [] [] None None None [] [] [].
Definition umlaut : bytes := [195; 164].
Definition decomposed : bytes := [97; 204; 136].
Definition main_line (id : string) (a b : bytes) : bytes :=
  lit "003@ " ++ [31] ++ lit "0" ++ lit id ++ [30] ++ lit "012A " ++ [31] ++ lit "a" ++ a ++ [31] ++ lit "b" ++ b ++ [30; 10].

(** two records with a line between them that is none, a list and a configuration *)
Definition main_world : world :=
  mkWorld [(lit "a.dat", main_line "1" (lit "x") umlaut ++ lit "bad" ++ [10] ++ main_line "2" (lit "y") umlaut);
           (lit "b.dat", main_line "1" (lit "x") umlaut ++ main_line "2" (lit "y") umlaut);
           (lit "l.csv", lit "x"); (lit "home.toml", config_toml (mkConfig false (Some Nfc)))] [] [].

Definition main_concat (names : list bytes) (output : bytes) : invocation :=
  mkInvocation None (KConcat false false (Some output) None None names).

Lemma concat_changes : forall names out n, may_change main_env (main_concat names out) n -> n = out.
Proof.
  intros names out n H.
  destruct H as [m Ho|o gz od t s ns k m E|o p gz od t ns v m E|a name v m E]; try discriminate.
  destruct Ho as [E|[]]. symmetry. exact E.
Qed.
Lemma concat_needs : forall names out w n, needs main_env (main_concat names out) w n -> n = lit "home.toml" \/ In n names.
Proof.
  intros names out w n [n' E|n' H].
  - injection E as <-. left. reflexivity.
  - destruct H as [m Hi|o m Ho _|o f ap gz out' tee ns x m E|o rules fi ts out' ns m E|o rules fi ts out' ns r b nf v m E]; try discriminate.
    right. exact Hi.
Qed.
(** C109: other files may differ *)
Example C109_sample :
  (forall n, needs main_env (main_concat [lit "b.dat"] (lit "c.dat")) main_world n ->
     disk_get (w_disk main_world) n
     = disk_get ((lit "c.dat", lit "old") :: (lit "a.dat", lit "new") :: w_disk main_world) n)
  /\ exists w', run main_env (main_concat [lit "b.dat"] (lit "c.dat")) main_world = Some (CEnded 0, w')
       /\ disk_get (w_disk w') (lit "c.dat") = disk_get (w_disk main_world) (lit "b.dat").
Proof.
  split.
  - intros n H. apply concat_needs in H. destruct H as [->|[<-|[]]]; reflexivity.
  - eexists. split; vm_compute; reflexivity.
Qed.

(** C110: the outputs and nothing else *)
Example C110_sample :
  ~ may_change main_env (main_concat [lit "b.dat"] (lit "c.dat")) (lit "b.dat")
  /\ may_change main_env (main_concat [lit "b.dat"] (lit "c.dat")) (lit "c.dat").
Proof.
  split; [|apply mc_output; left; reflexivity]. intros H. apply concat_changes in H. discriminate.
Qed.

(** C111, C112: concat and concat *)
Example C111_sample : forall n, needs main_env (main_concat [lit "b.dat"] (lit "c.dat")) main_world n ->
  ~ may_change main_env (main_concat [lit "b.dat"] (lit "c.dat")) n.
Proof.
  intros n Hn Hc. apply concat_changes in Hc. subst n. apply concat_needs in Hn.
  destruct Hn as [E|[E|[]]]; discriminate.
Qed.
Example C112_sample : forall n,
  may_change main_env (main_concat [lit "b.dat"] (lit "c.dat")) n ->
  ~ needs main_env (main_concat [lit "b.dat"; lit "a.dat"] (lit "d.dat")) (fed [] main_world) n
  /\ ~ may_change main_env (main_concat [lit "b.dat"; lit "a.dat"] (lit "d.dat")) n.
Proof.
  intros n H. apply concat_changes in H. subst n. split; intros H.
  - apply concat_needs in H. destruct H as [E|[E|[E|[]]]]; discriminate.
  - apply concat_changes in H. discriminate.
Qed.

(** the hypothesis of C111 is needed: a run that reads what the first has written *)
Example C111_read : exists w' w'',
  run main_env (main_concat [lit "b.dat"] (lit "b.dat")) main_world = Some (CEnded 0, w')
  /\ run main_env (mkInvocation None (KConcat false true (Some (lit "c.dat")) None None [lit "a.dat"])) w' = Some (CEnded 2, w'')
  /\ disk_get (w_disk w') (lit "b.dat") = Some [].
Proof. do 2 eexists. repeat split; vm_compute; reflexivity. Qed.

(** C113: the line that is not a record *)
Example C113_sample :
  let set := mkInvocation None (KConfig (mkConfigArgs false false false (lit "skip-invalid") (Some (lit "true")))) in
  let k := KConcat false false None None None [lit "a.dat"] in
  exists w1 w2, run main_env set main_world = Some (CEnded 0, w1)
    /\ run main_env (mkInvocation None k) w1 = Some (CEnded 0, w2)
    /\ (exists w3, run main_env (mkInvocation None k) main_world = Some (CEnded 2, w3))
    /\ disk_get (w_disk main_world) (lit "b.dat") = Some (w_stdout w2).
Proof.
  cbv zeta. do 2 eexists. split; [vm_compute; reflexivity|]. split; [vm_compute; reflexivity|].
  split; [eexists; vm_compute; reflexivity|vm_compute; reflexivity].
Qed.

Example C113_hypotheses :
  changes (mkConfigArgs false false false (lit "skip-invalid") (Some (lit "true"))) (lit "skip-invalid") (Some (lit "true"))
  /\ (forall n, config_name main_env (mkInvocation None (KConcat false false None None None [lit "a.dat"])) = Some n ->
       ~ uses main_env main_world (KConcat false false None None None [lit "a.dat"]) n).
Proof.
  split.
  - split; [reflexivity|]. split; [left; reflexivity|]. split; [reflexivity|]. left. split; [reflexivity|]. left. reflexivity.
  - assert (K : forall n, uses main_env main_world (KConcat false false None None None [lit "a.dat"]) n -> n = lit "a.dat").
    { intros n H.
      destruct H as [m Hi|o m Ho _|o f ap gz out' tee ns x m E|o rules fi ts out' ns m E|o rules fi ts out' ns r b nf v m E]; try discriminate.
      destruct Hi as [E|[]]. symmetry. exact E. }
    intros n E H. injection E as <-. apply K in H. discriminate.
Qed.

(** C114: a composed value, and the expression with the decomposed one *)
Definition main_expr (v : bytes) : bytes := lit "012A.b == '" ++ v ++ lit "'".
Definition main_filter (expr : bytes) : invocation :=
  mkInvocation None (KFilter no_opts (mkFilterOnly expr None false None None) false false None None [lit "b.dat"]).
Definition main_spell (x : bytes) : bytes := if bytes_eqb x (main_expr decomposed) then main_expr umlaut else x.
Example C114_sample :
  configured main_env (main_filter (main_expr decomposed)) main_world (mkConfig false (Some Nfc))
  /\ (forall x, e_nf main_env Nfc (main_spell x) = e_nf main_env Nfc x)
  /\ respelled main_spell (in_command (main_filter (main_expr decomposed))) = in_command (main_filter (main_expr umlaut))
  /\ exists w', run main_env (main_filter (main_expr decomposed)) main_world = Some (CEnded 0, w')
       /\ disk_get (w_disk main_world) (lit "b.dat") = Some (w_stdout w').
Proof.
  split; [|split; [|split]].
  - exists (lit "home.toml"), (config_toml (mkConfig false (Some Nfc))). split; [reflexivity|]. split; [reflexivity|].
    apply (says_both false Nfc (lit "false") (lit "nfc")); [reflexivity|]. left. reflexivity.
  - intros x. unfold main_spell. destruct (bytes_eqb x _) eqn:E; [|reflexivity]. apply BaseProofs.bytes_eqb_eq in E. subst x.
    vm_compute. reflexivity.
  - vm_compute. reflexivity.
  - eexists. split; vm_compute; reflexivity.
Qed.

(** The value of --filter-set-source and the path of partition are expressions too,
    but the configured normal form does not apply to them. *)
Definition main_path (v : bytes) : bytes := lit "012A{a | b == '" ++ v ++ lit "'}".
Definition main_list : file_opts := mkFileOpts false 0 false 80 [lit "l.csv"] [] None None None [] [] [].
Theorem C114_source_refuted : exists e i o names s s' w b nf w1 w2,
  (forall t c, OptionsSpec.file_says t c -> e_config_toml e t = Some c)
  /\ configured e i w (mkConfig b (Some nf)) /\ e_nf e nf s = e_nf e nf s'
  /\ run e (mkInvocation (in_config i) (KCount (with_source s o) false None MRecords names)) w = Some (CEnded 0, w1)
  /\ run e (mkInvocation (in_config i) (KCount (with_source s' o) false None MRecords names)) w = Some (CEnded 0, w2)
  /\ w_stdout w1 = lit "1" ++ [10] /\ w_stdout w2 = lit "0" ++ [10].
Proof.
  exists main_env, (main_filter []), main_list, [lit "b.dat"], (main_path umlaut), (main_path decomposed), main_world, false, Nfc.
  do 2 eexists. split; [exact sample_reads|]. split; [exact (proj1 C114_sample)|]. repeat (split; [vm_compute; reflexivity|]).
  vm_compute. reflexivity.
Qed.
Print Assumptions C114_source_refuted.

Theorem C114_partition_refuted : exists e i s s' p p' w b nf w1 w2 n,
  (forall t c, OptionsSpec.file_says t c -> e_config_toml e t = Some c)
  /\ configured e i w (mkConfig b (Some nf)) /\ e_nf e nf s = e_nf e nf s'
  /\ path_new (default_oracles e) fresh s = (Some (Some p), fresh) /\ path_new (default_oracles e) fresh s' = (Some (Some p'), fresh)
  /\ run e (mkInvocation (in_config i) (KPartition no_opts p false (lit "out") None [lit "b.dat"])) w = Some (CEnded 0, w1)
  /\ run e (mkInvocation (in_config i) (KPartition no_opts p' false (lit "out") None [lit "b.dat"])) w = Some (CEnded 0, w2)
  /\ disk_get (w_disk w1) n <> None /\ disk_get (w_disk w2) n = None.
Proof.
  exists main_env, (main_filter []), (main_path umlaut), (main_path decomposed). do 2 eexists.
  exists main_world, false, Nfc. do 2 eexists. exists (lit "out/x.dat").
  split; [exact sample_reads|]. split; [exact (proj1 C114_sample)|]. split; [vm_compute; reflexivity|].
  split; [vm_compute; reflexivity|]. split; [vm_compute; reflexivity|]. split; [vm_compute; reflexivity|]. split; [vm_compute; reflexivity|].
  split; [vm_compute; discriminate|vm_compute; reflexivity].
Qed.
Print Assumptions C114_partition_refuted.

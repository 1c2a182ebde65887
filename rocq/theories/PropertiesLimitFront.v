(** * Properties of limits in front of a command *)

From Coq Require Import String.
From Verif Require Import Bytes RecordModel MatcherModel QuerySpec CliModel TableModel CsvModel OptionsModel DiskModel MainModel MainSpec PipeSpec FrontSpec LimitSpec LimitFrontSpec
  LimitFrontProofs PropertiesDisk PropertiesMain PropertiesFront.
From Verif Require PathModel StateParser DirModel DirSplitProofs PropertiesDir.

(** ** C133: --limit in front

    "pica CMD --where W --limit N FILES" ends and does what "pica filter W --limit N FILES | pica CMD" ends and does, if
    filter comes to its end; both stop reading at the same record.  This is so for check, describe, frequency, hash, print,
    sample, select and split; the other options that choose records go to filter too. *)
Theorem C133_limit_partial : forall e cfg k o W w w1 t x w2,
  regexes_compile (oracles_for e o) (o_ci o) -> opts_of k = Some o -> o_where o = Some W -> limits_records k -> levelled e k ->
  (forall n, may_change e (mkInvocation cfg k) n -> ~ (In n (input_names k) \/ In n (o_allow o) \/ In n (o_deny o))) ->
  run e (mkInvocation cfg (filter_limited o false W (o_limit o) false false None (input_names k))) w = Some (CEnded 0, w1) ->
  w_stdout w1 = w_stdout w ++ t ->
  run e (mkInvocation cfg (after_limit o k)) (mkWorld (w_disk w) t (w_stdout w)) = Some (x, w2) ->
  run e (mkInvocation cfg k) w = Some (x, fed (w_stdin w) w2).
Proof. exact run_limit_front. Qed.
Print Assumptions C133_limit_partial.

(** ** Samples *)

Definition limited_opts (limit : N) (W : string) : file_opts := mkFileOpts false limit false 80 [] [] None None (Some (lit W)) [] [] [].

(** Behind the record in a.dat that reaches the limit there is a line that is no record. *)
Definition limited_select : command :=
  KSelect (limited_opts 2 "012A.a == 'x'") (mkColumns (lit "003@.0, 012A{a, b}") (lit "|") false false None) false false None QNecessary false false
    (Some (lit "o.csv")) [lit "b.dat"; lit "a.dat"].

Lemma limited_levelled : levelled main_env limited_select.
Proof.
  split; [left; reflexivity|]. intros nf t [E|[]]. injection E as <-. left. destruct nf as [f|]; cbn; intros H; repeat (destruct H as [H|H]; [discriminate|]); exact H.
Qed.

Lemma limited_changes : forall n, may_change main_env (mkInvocation None limited_select) n -> n = lit "o.csv".
Proof.
  intros n H. destruct H as [m Ho|o gz od t s ns k m E|o p gz od t ns v m E|a name v m E]; try discriminate.
  destruct Ho as [E|[]]. symmetry. exact E.
Qed.

Example C133_sample : exists w1 w2 t,
  run main_env (mkInvocation None (filter_limited (limited_opts 2 "012A.a == 'x'") false (lit "012A.a == 'x'") 2 false false None (input_names limited_select))) main_world
    = Some (CEnded 0, w1) /\ w_stdout w1 = t
  /\ t = main_line "1" (lit "x") umlaut ++ main_line "1" (lit "x") umlaut
  /\ run main_env (mkInvocation None (after_limit (limited_opts 2 "012A.a == 'x'") limited_select)) (mkWorld (w_disk main_world) t []) = Some (CEnded 0, w2)
  /\ disk_get (w_disk w2) (lit "o.csv") = Some (lit "1,x," ++ umlaut ++ [10] ++ lit "1,x," ++ umlaut ++ [10])
  /\ run main_env (mkInvocation None limited_select) main_world = Some (CEnded 0, fed [] w2).
Proof.
  do 3 eexists. split; [vm_compute; reflexivity|]. split; [reflexivity|]. split; [vm_compute; reflexivity|].
  split; [vm_compute; reflexivity|]. split; [vm_compute; reflexivity|].
  eapply (C133_limit_partial main_env None limited_select).
  - apply sample_compile.
  - reflexivity.
  - reflexivity.
  - exact I.
  - apply limited_levelled.
  - intros n H. apply limited_changes in H. subst n. intros [[E|[E|[]]]|[[]|[]]]; discriminate.
  - vm_compute. reflexivity.
  - reflexivity.
  - vm_compute. reflexivity.
Qed.

(** Without the limit the same run fails at that line. *)
Example C133_sample_stops : exists w3,
  run main_env (mkInvocation None (with_opts (limited_opts 0 "012A.a == 'x'") limited_select)) main_world = Some (CEnded 2, w3).
Proof. eexists. vm_compute. reflexivity. Qed.

(** ** The other commands

    Count ignores --limit, slice counts the records of its range, explode counts parts, and partition counts the records
    it writes, once for each value: for these the claim of C133 does not hold. *)
Definition limit_differs (e : env) (cfg : option bytes) (k : command) (w : world) : Prop :=
  exists o W w1 t w2 w3, opts_of k = Some o /\ o_where o = Some W
  /\ (forall n, may_change e (mkInvocation cfg k) n -> ~ In n (input_names k))
  /\ run e (mkInvocation cfg (filter_limited o false W (o_limit o) false false None (input_names k))) w = Some (CEnded 0, w1)
  /\ w_stdout w1 = w_stdout w ++ t
  /\ run e (mkInvocation cfg (after_limit o k)) (mkWorld (w_disk w) t (w_stdout w)) = Some (CEnded 0, w2)
  /\ run e (mkInvocation cfg k) w = Some (CEnded 0, w3)
  /\ (w_stdout w3 <> w_stdout w2 \/ exists n, disk_get (w_disk w3) n <> disk_get (w_disk w2) n).

Theorem C133_count_refuted : exists e cfg w o append output mode names, limit_differs e cfg (KCount o append output mode names) w.
Proof.
  exists main_env, None, main_world, (limited_opts 1 "012A?"), false, None, MRecords, [lit "b.dat"]. do 6 eexists.
  split; [reflexivity|]. split; [reflexivity|]. split.
  { intros n H. destruct H as [m Ho|o gz od t s ns k m E|o p gz od t ns v m E|a name v m E]; try discriminate. destruct Ho. }
  split; [vm_compute; reflexivity|]. split; [reflexivity|]. split; [vm_compute; reflexivity|]. split; [vm_compute; reflexivity|]. left. discriminate.
Qed.
Print Assumptions C133_count_refuted.

Theorem C133_slice_refuted : exists e cfg w o gzip append output start end_ length names,
  limit_differs e cfg (KSlice o gzip append output start end_ length names) w.
Proof.
  exists main_env, None, main_world, (limited_opts 1 "012A?"), false, false, None, 1, 0, 0, [lit "b.dat"]. do 6 eexists.
  split; [reflexivity|]. split; [reflexivity|]. split.
  { intros n H. destruct H as [m Ho|o gz od t s ns k m E|o p gz od t ns v m E|a name v m E]; try discriminate. destruct Ho. }
  split; [vm_compute; reflexivity|]. split; [reflexivity|]. split; [vm_compute; reflexivity|]. split; [vm_compute; reflexivity|]. left. discriminate.
Qed.
Print Assumptions C133_slice_refuted.

Theorem C133_explode_refuted : exists e cfg w o discard keep l gzip output names,
  limit_differs e cfg (KExplode o discard keep l gzip output names) w.
Proof.
  exists main_env, None, explode_world, (limited_opts 1 "003@?"), None, None, ExplodeModel.LLocal, false, None, [lit "e.dat"]. do 6 eexists.
  split; [reflexivity|]. split; [reflexivity|]. split.
  { intros n H. destruct H as [m Ho|o gz od t s ns k m E|o p gz od t ns v m E|a name v m E]; try discriminate. destruct Ho. }
  split; [vm_compute; reflexivity|]. split; [reflexivity|]. split; [vm_compute; reflexivity|]. split; [vm_compute; reflexivity|]. left. discriminate.
Qed.
Print Assumptions C133_explode_refuted.

(** a record with two values *)
Definition library_path : PathModel.path :=
  match fst (PathModel.path_new (default_oracles main_env) StateParser.fresh (lit "101@.a")) with
  | Some (Some p) => p
  | _ => PropertiesDir.value_path
  end.

Theorem C133_partition_refuted : exists e cfg w o p gzip outdir template names,
  limit_differs e cfg (KPartition o p gzip outdir template names) w.
Proof.
  exists main_env, None, explode_world, (limited_opts 1 "003@?"), library_path, false, (lit "out"), None, [lit "e.dat"]. do 6 eexists.
  split; [reflexivity|]. split; [reflexivity|]. split.
  { intros n H. destruct H as [m Ho|o gz od t s ns k m E|o p gz od t ns v m E Hf|a name v m E]; try discriminate; [destruct Ho|].
    injection E as _ _ <- <- <- _. apply DirSplitProofs.file_for_path in Hf. subst m. intros [X|[]]. unfold DirModel.path_join in X.
    destruct (replace_braces _ _) as [|c x]; [discriminate|]. destruct (N.eq_dec c 47) as [->|Hc]; [discriminate|].
    assert (lit "e.dat" = lit "out/" ++ c :: x) as Y; [|discriminate].
    rewrite X. change (ends_with (lit "out") [47]) with false. cbn [lit app].
    destruct c as [|[[[[[[]|[]|]|[[]|[]|]|]|[[[]|[]|]|[[]|[]|]|]|]|[[[[]|[]|]|[[]|[]|]|]|[[[]|[]|]|[[]|[]|]|]|]|]|[[[[[]|[]|]|[[]|[]|]|]|[[[]|[]|]|[[]|[]|]|]|]|[[[[]|[]|]|[[]|[]|]|]|[[[]|[]|]|[[]|[]|]|]|]|]|]]; try reflexivity; congruence. }
  split; [vm_compute; reflexivity|]. split; [reflexivity|]. split; [vm_compute; reflexivity|]. split; [vm_compute; reflexivity|].
  right. exists (lit "out/2.dat"). vm_compute. discriminate.
Qed.
Print Assumptions C133_partition_refuted.

(** * Filter, concat and explode in front of other commands: C123, C124, C125 *)

From Coq Require Import String Permutation.
From Verif Require Import Bytes MatcherModel QuerySpec PrepareSpec TableModel CsvModel CliModel DiskModel OptionsModel MainModel DiskSpec MainSpec PipeSpec FrontSpec FrontRunProofs FrontExplodeProofs
  PropertiesMain.
From Verif Require RunSpec ExplodeModel.

(** ** C123: --where is filter in front

    "pica CMD --where W ... FILES" ends and does what "pica filter W ... FILES | pica
    CMD" ends and does, if filter comes to its end.  Filter gets --skip-invalid,
    --ignore-case, --strsim-threshold, the lists and --and, --or and --not of CMD, and
    CMD keeps --limit.  The pipe is the text that filter writes to stdout. *)
Theorem C123_where_partial : forall e cfg k o W w w1 t x w2,
  regexes_compile (oracles_for e o) (o_ci o) -> opts_of k = Some o -> o_where o = Some W ->
  (forall o f append gzip output tee names, k <> KFilter o f append gzip output tee names) ->
  (forall o discard keep l gzip output names, k <> KExplode o discard keep l gzip output names) ->
  levelled e k -> counts_records e cfg w k ->
  (forall n, may_change e (mkInvocation cfg k) n -> ~ (In n (input_names k) \/ In n (o_allow o) \/ In n (o_deny o))) ->
  run e (mkInvocation cfg (filter_of o W (input_names k))) w = Some (CEnded 0, w1) -> w_stdout w1 = w_stdout w ++ t ->
  run e (mkInvocation cfg (after_filter k)) (mkWorld (w_disk w) t (w_stdout w)) = Some (x, w2) ->
  run e (mkInvocation cfg k) w = Some (x, fed (w_stdin w) w2).
Proof. exact run_where. Qed.
Print Assumptions C123_where_partial.

(** ** C124: concat in front changes nothing

    "pica CMD FILES" ends and does what "pica concat FILES | pica CMD" ends and does,
    if concat comes to its end. *)
Theorem C124_concat : forall e cfg k w w1 t x w2,
  (forall a, k <> KConfig a) -> (forall output names, k <> KInvalid output names) -> expression_free k -> counts_records e cfg w k ->
  (forall n, may_change e (mkInvocation cfg k) n -> ~ In n (input_names k)) ->
  run e (mkInvocation cfg (concat_of (skip_flag k) (input_names k))) w = Some (CEnded 0, w1) -> w_stdout w1 = w_stdout w ++ t ->
  run e (mkInvocation cfg (with_inputs [lit "-"] k)) (mkWorld (w_disk w) t (w_stdout w)) = Some (x, w2) ->
  run e (mkInvocation cfg k) w = Some (x, fed (w_stdin w) w2).
Proof. exact run_concat_front. Qed.
Print Assumptions C124_concat.

(** ** C125: explode with options is explode with filter behind

    "pica explode L --where W ... FILES" ends and does what "pica explode L FILES |
    pica filter W ..." ends and does, if explode comes to its end.  If the options are
    refused, explode may have opened its output before, so that only the end is the
    same. *)
Theorem C125_explode : forall e cfg o W discard keep l gzip output names w w1 t x w2,
  o_where o = Some W -> (forall n, output = Some n -> ~ (In n names \/ In n (o_allow o) \/ In n (o_deny o))) ->
  run e (mkInvocation cfg (explode_of o l names)) w = Some (CEnded 0, w1) -> w_stdout w1 = w_stdout w ++ t ->
  run e (mkInvocation cfg (filter_parts o W discard keep gzip output)) (mkWorld (w_disk w) t (w_stdout w)) = Some (x, w2) ->
  exists w3, run e (mkInvocation cfg (KExplode o discard keep l gzip output names)) w = Some (x, w3)
    /\ (x <> CRefused -> w3 = fed (w_stdin w) w2).
Proof. exact run_explode. Qed.
Print Assumptions C125_explode.

(** ** Samples *)

Definition front_opts (skip : bool) (W : string) : file_opts := mkFileOpts skip 0 false 80 [] [] None None (Some (lit W)) [] [] [].

Lemma sample_compile : forall o, regexes_compile (oracles_for main_env o) (o_ci o).
Proof. intros o. split; intros; reflexivity. Qed.

(** select --where, with a query that is parsed after the condition *)
Definition front_select : command :=
  KSelect (front_opts true "012A.a == 'y'") (mkColumns (lit "003@.0, 012A{a, b}") (lit "|") false false None) false false None QNecessary false false
    (Some (lit "o.csv")) [lit "a.dat"; lit "b.dat"].

Lemma select_levelled : levelled main_env front_select.
Proof.
  split; [left; reflexivity|]. intros nf t [E|[]]. injection E as <-. left. destruct nf as [f|]; cbn; intros H; repeat (destruct H as [H|H]; [discriminate|]); exact H.
Qed.

Lemma select_changes : forall n, may_change main_env (mkInvocation None front_select) n -> n = lit "o.csv".
Proof.
  intros n H. destruct H as [m Ho|o gz od t s ns k m E|o p gz od t ns v m E|a name v m E]; try discriminate.
  destruct Ho as [E|[]]. symmetry. exact E.
Qed.

Example C123_sample : exists w1 w2 t,
  run main_env (mkInvocation None (filter_of (front_opts true "012A.a == 'y'") (lit "012A.a == 'y'") (input_names front_select))) main_world
    = Some (CEnded 0, w1) /\ w_stdout w1 = t
  /\ t = main_line "2" (lit "y") umlaut ++ main_line "2" (lit "y") umlaut
  /\ run main_env (mkInvocation None (after_filter front_select)) (mkWorld (w_disk main_world) t []) = Some (CEnded 0, w2)
  /\ disk_get (w_disk w2) (lit "o.csv") = Some (lit "2,y," ++ umlaut ++ [10] ++ lit "2,y," ++ umlaut ++ [10])
  /\ run main_env (mkInvocation None front_select) main_world = Some (CEnded 0, fed [] w2).
Proof.
  do 3 eexists. split; [vm_compute; reflexivity|]. split; [reflexivity|]. split; [vm_compute; reflexivity|].
  split; [vm_compute; reflexivity|]. split; [vm_compute; reflexivity|].
  eapply (C123_where_partial main_env None front_select).
  - apply sample_compile.
  - reflexivity.
  - reflexivity.
  - discriminate.
  - discriminate.
  - apply select_levelled.
  - intros o gzip append output start end_ length names E. discriminate.
  - intros n H. apply select_changes in H. subst n. intros [[E|[E|[]]]|[[]|[]]]; discriminate.
  - vm_compute. reflexivity.
  - reflexivity.
  - vm_compute. reflexivity.
Qed.

(** count of two files *)
Definition front_count : command := KCount no_opts false None MRecords [lit "b.dat"; lit "-"].

Example C124_sample : exists w1 w2 t,
  run main_env (mkInvocation None (concat_of false [lit "b.dat"; lit "-"])) (fed (main_line "3" [] []) main_world) = Some (CEnded 0, w1)
  /\ w_stdout w1 = t
  /\ run main_env (mkInvocation None (with_inputs [lit "-"] front_count)) (mkWorld (w_disk main_world) t []) = Some (CEnded 0, w2)
  /\ w_stdout w2 = lit "3" ++ [10]
  /\ run main_env (mkInvocation None front_count) (fed (main_line "3" [] []) main_world) = Some (CEnded 0, fed (main_line "3" [] []) w2).
Proof.
  do 3 eexists. split; [vm_compute; reflexivity|]. split; [reflexivity|]. split; [vm_compute; reflexivity|]. split; [vm_compute; reflexivity|].
  eapply (C124_concat main_env None front_count (fed (main_line "3" [] []) main_world)).
  - discriminate.
  - discriminate.
  - intros o f append gzip output tee names E. discriminate.
  - intros o gzip append output start end_ length names E. discriminate.
  - intros n H. destruct H as [m Ho|o gz od t s ns k m E|o p gz od t ns v m E|a name v m E]; try discriminate. destruct Ho.
  - vm_compute. reflexivity.
  - reflexivity.
  - vm_compute. reflexivity.
Qed.

(** a record of two libraries *)
Definition front_field (tag value : string) : bytes := lit tag ++ [32; 31] ++ lit value ++ [30].
Definition two_libraries : bytes :=
  front_field "003@" "01" ++ front_field "101@" "a1" ++ front_field "203@" "0x" ++ front_field "101@" "a2" ++ front_field "203@" "0y" ++ [10].
Definition one_library (a b : string) : bytes := front_field "003@" "01" ++ front_field "101@" a ++ front_field "203@" b ++ [10].
Definition explode_world : world := mkWorld [(lit "e.dat", two_libraries)] [] [].
Definition front_explode : command := KExplode (front_opts false "101@.a == '2'") None None ExplodeModel.LLocal false None [lit "e.dat"].

Example C125_sample : exists w1 w2 t,
  run main_env (mkInvocation None (explode_of (front_opts false "101@.a == '2'") ExplodeModel.LLocal [lit "e.dat"])) explode_world = Some (CEnded 0, w1)
  /\ w_stdout w1 = t /\ t = one_library "a1" "0x" ++ one_library "a2" "0y"
  /\ run main_env (mkInvocation None (filter_parts (front_opts false "101@.a == '2'") (lit "101@.a == '2'") None None false None))
       (mkWorld (w_disk explode_world) t []) = Some (CEnded 0, w2)
  /\ w_stdout w2 = one_library "a2" "0y"
  /\ run main_env (mkInvocation None front_explode) explode_world = Some (CEnded 0, fed [] w2).
Proof.
  do 3 eexists. split; [vm_compute; reflexivity|]. split; [reflexivity|]. split; [vm_compute; reflexivity|].
  split; [vm_compute; reflexivity|]. split; [vm_compute; reflexivity|].
  edestruct (C125_explode main_env None (front_opts false "101@.a == '2'") (lit "101@.a == '2'") None None ExplodeModel.LLocal false None [lit "e.dat"] explode_world)
    as (w3 & E & X).
  - reflexivity.
  - discriminate.
  - vm_compute. reflexivity.
  - reflexivity.
  - vm_compute. reflexivity.
  - rewrite X in E by discriminate. exact E.
Qed.

(** Explode applies its conditions to the parts, so filter in front of it leaves more:
    C123 does not hold for explode. *)
Theorem C123_explode_refuted : exists e cfg k o W w w1 t w2 w3,
  opts_of k = Some o /\ o_where o = Some W /\ (forall n, ~ may_change e (mkInvocation cfg k) n)
  /\ run e (mkInvocation cfg (filter_of o W (input_names k))) w = Some (CEnded 0, w1) /\ w_stdout w1 = w_stdout w ++ t
  /\ run e (mkInvocation cfg (after_filter k)) (mkWorld (w_disk w) t (w_stdout w)) = Some (CEnded 0, w2)
  /\ run e (mkInvocation cfg k) w = Some (CEnded 0, w3) /\ w_stdout w3 <> w_stdout w2.
Proof.
  exists main_env, None, front_explode, (front_opts false "101@.a == '2'"), (lit "101@.a == '2'"), explode_world. do 4 eexists.
  split; [reflexivity|]. split; [reflexivity|]. split.
  { intros n H. destruct H as [m Ho|o gz od t s ns k m E|o p gz od t ns v m E|a name v m E]; try discriminate. exact Ho. }
  split; [vm_compute; reflexivity|]. split; [reflexivity|]. split; [vm_compute; reflexivity|]. split; [vm_compute; reflexivity|]. discriminate.
Qed.
Print Assumptions C123_explode_refuted.

(** Slice with --length writes one record more for each line that it has skipped: C123 does not hold for slice
    with --skip-invalid. *)
Definition front_slice : command := KSlice (front_opts true "012A?") false false None 0 0 1 [lit "a.dat"].

Theorem C123_slice_refuted : exists e cfg k o W w w1 t w2 w3,
  opts_of k = Some o /\ o_where o = Some W /\ (forall n, ~ may_change e (mkInvocation cfg k) n)
  /\ run e (mkInvocation cfg (filter_of o W (input_names k))) w = Some (CEnded 0, w1) /\ w_stdout w1 = w_stdout w ++ t
  /\ run e (mkInvocation cfg (after_filter k)) (mkWorld (w_disk w) t (w_stdout w)) = Some (CEnded 0, w2)
  /\ run e (mkInvocation cfg k) w = Some (CEnded 0, w3) /\ w_stdout w3 <> w_stdout w2.
Proof.
  exists main_env, None, front_slice, (front_opts true "012A?"), (lit "012A?"), main_world. do 4 eexists.
  split; [reflexivity|]. split; [reflexivity|]. split.
  { intros n H. destruct H as [m Ho|o gz od t s ns k m E|o p gz od t ns v m E|a name v m E]; try discriminate. exact Ho. }
  split; [vm_compute; reflexivity|]. split; [reflexivity|]. split; [vm_compute; reflexivity|]. split; [vm_compute; reflexivity|]. discriminate.
Qed.
Print Assumptions C123_slice_refuted.

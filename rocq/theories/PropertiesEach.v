(** * Properties of commands that go record by record, input by input *)

From Coq Require Import String.
From Verif Require Import Bytes BaseProofs RecordModel MatcherModel BuilderModel CliModel ConvertModel CsvModel OptionsModel IoModel DiskModel QuerySpec TableModel MainModel MainSpec PipeSpec
  PartsSpec RecordwiseSpec EachProofs PropertiesDisk PropertiesMain PropertiesFront PropertiesRecordwise.

(** ** C146: a command that goes record by record succeeds on every choice of the inputs on which it succeeds

    Every input has a text, and for all inputs taken from those of the run, in any order and any number, the command succeeds and writes
    their texts one after the other. *)
Theorem C146_each : forall e cfg k w names t, recordwise k -> expression_free k -> select_ready e k -> ~ In (lit "-") names ->
  run_writes e cfg w (with_inputs names k) t ->
  exists out, forall names', incl names' names -> run_writes e cfg w (with_inputs names' k) (flat_map out names').
Proof. exact run_each. Qed.
Print Assumptions C146_each.

(** The parts of a run that succeeds: with C136_parts, a run succeeds if and only if its parts do. *)
Theorem C146_divided : forall e cfg k w names t, recordwise k -> expression_free k -> select_ready e k -> names <> [] -> ~ In (lit "-") (concat (tl names)) ->
  run_writes e cfg w (with_inputs (concat names) k) t ->
  exists ts, Forall2 (fun ns t => run_writes e cfg w (with_inputs ns k) t) names ts /\ t = concat ts.
Proof. exact run_divided. Qed.
Print Assumptions C146_divided.

(** two inputs in the other order, one of them twice *)
Example C146_sample : exists out, out (lit "c.dat") = lit "9,z,z" ++ [10]
  /\ run_writes main_env None (mkWorld ((lit "c.dat", main_line "9" (lit "z") (lit "z")) :: w_disk wise_world) [] (lit "old"))
       (with_inputs [lit "c.dat"; lit "b.dat"; lit "c.dat"] wise_select) (flat_map out [lit "c.dat"; lit "b.dat"; lit "c.dat"]).
Proof.
  set (w := mkWorld _ _ _).
  assert (H : run_writes main_env None w (with_inputs [lit "b.dat"; lit "c.dat"] wise_select)
    (lit "1,x," ++ umlaut ++ [10] ++ lit "2,y," ++ umlaut ++ [10] ++ lit "9,z,z" ++ [10])) by (eexists; split; [vm_compute; reflexivity|reflexivity]).
  destruct (fun A B C D => C146_each main_env None wise_select w [lit "b.dat"; lit "c.dat"] _ A B C D H) as (out & Ho).
  - repeat split.
  - intros o f append gzip output tee names E. discriminate E.
  - split; [apply sample_compile|exact (sample_compile no_opts)].
  - intros [X|[X|[]]]; discriminate.
  - exists out. split; [|apply Ho; intros x [<-|[<-|[<-|[]]]]; [right; left; reflexivity|left; reflexivity|right; left; reflexivity]].
    destruct (Ho [lit "c.dat"]) as (w1 & R & T); [intros x [<-|[]]; right; left; reflexivity|].
    assert (R' : run main_env (mkInvocation None (with_inputs [lit "c.dat"] wise_select)) w = Some (CEnded 0, mkWorld (w_disk w) [] (lit "old" ++ lit "9,z,z" ++ [10]))) by (vm_compute; reflexivity).
    rewrite R' in R. injection R as <-. cbn [w_stdout w flat_map] in T. rewrite app_nil_r in T. symmetry. exact (app_inv_head (lit "old") (lit "9,z,z" ++ [10]) _ T).
Qed.

(** Not so for a command that remembers records: with --limit the runs for the inputs do not make up the run for all. *)
Theorem C146_limit_refuted : ~ (forall e cfg o W w names t, ~ In (lit "-") names ->
  run_writes e cfg w (KFilter o (mkFilterOnly W None false None None) false false None None names) t ->
  exists out, forall names', incl names' names -> run_writes e cfg w (KFilter o (mkFilterOnly W None false None None) false false None None names') (flat_map out names')).
Proof.
  intros H. set (o := mkFileOpts false 1 false 80 [] [] None None None [] [] []).
  set (l := main_line "1" (lit "x") umlaut).
  assert (R : forall names, names = [lit "b.dat"] \/ names = [lit "b.dat"; lit "b.dat"] ->
    run main_env (mkInvocation None (KFilter o (mkFilterOnly (lit "003@?") None false None None) false false None None names)) main_world
    = Some (CEnded 0, mkWorld (w_disk main_world) [] l)) by (intros names [-> | ->]; vm_compute; reflexivity).
  destruct (H main_env None o (lit "003@?") main_world [lit "b.dat"] l) as (out & Ho).
  - intros [X|[]]; discriminate.
  - eexists. split; [apply R; left; reflexivity|reflexivity].
  - assert (I : incl [lit "b.dat"; lit "b.dat"] [lit "b.dat"]) by (intros x [<-|[<-|[]]]; left; reflexivity).
    destruct (Ho [lit "b.dat"] (incl_refl _)) as (w1 & R1 & T1). destruct (Ho _ I) as (w2 & R2 & T2).
    rewrite R in R1, R2 by auto. injection R1 as <-. injection R2 as <-. cbn [w_stdout main_world flat_map app] in T1, T2. rewrite app_nil_r in T1, T2. rewrite <- T1 in T2.
    apply (f_equal (@length _)) in T2. rewrite app_length in T2. vm_compute in T2. discriminate T2.
Qed.
Print Assumptions C146_limit_refuted.

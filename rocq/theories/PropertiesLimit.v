(** * Properties of the commands that stop early, after each other *)

From Coq Require Import String.
From Verif Require Import Bytes RecordModel MatcherModel CliModel OptionsModel DiskModel MainModel MainSpec PipeSpec FrontSpec LimitSpec LimitProofs PropertiesDisk PropertiesMain.

(** ** C132: limits and slices after each other

    "pica filter W --limit N FILES" is "pica filter W FILES | pica slice --length N", and "pica slice --start a --end b
    FILES | pica slice --start c --end d" is one slice from a + c to the smaller one of b and a + d; if the first run
    comes to its end. *)

(** filter with --limit may stop before an invalid line, at which filter without --limit fails; this is why the first run
    has to come to its end.  The length of slice does not grow, although slice lets it grow for each line that it skips
    (C35): there are none. *)
Theorem C132_limit : forall e cfg o invert W limit append gzip output names w w1 t x w2,
  0 < limit -> limit <= usize_max -> (forall n, output = Some n -> ~ In n names) ->
  run e (mkInvocation cfg (filter_limited o invert W 0 false false None names)) w = Some (CEnded 0, w1) -> w_stdout w1 = w_stdout w ++ t ->
  run e (mkInvocation cfg (slice_of (o_skip o) gzip append output 0 0 limit [lit "-"])) (mkWorld (w_disk w) t (w_stdout w)) = Some (x, w2) ->
  run e (mkInvocation cfg (filter_limited o invert W limit append gzip output names)) w = Some (x, fed (w_stdin w) w2).
Proof. exact run_limit. Qed.
Print Assumptions C132_limit.

(** The sums are numbers of 64 bits, and the second slice starts within the first. *)
Theorem C132_slices : forall e cfg skip a b c d append gzip output names w w1 t x w2,
  b <= usize_max -> a + c <= usize_max -> a + d <= usize_max -> b = 0 \/ a + c <= b -> (forall n, output = Some n -> ~ In n names) ->
  run e (mkInvocation cfg (slice_of skip false false None a b 0 names)) w = Some (CEnded 0, w1) -> w_stdout w1 = w_stdout w ++ t ->
  run e (mkInvocation cfg (slice_of skip gzip append output c d 0 [lit "-"])) (mkWorld (w_disk w) t (w_stdout w)) = Some (x, w2) ->
  run e (mkInvocation cfg (slice_of skip gzip append output (a + c) (end_after a b d) 0 names)) w = Some (x, fed (w_stdin w) w2).
Proof. exact run_slices. Qed.
Print Assumptions C132_slices.

(** ** Samples *)

Definition limit_opts : file_opts := mkFileOpts true 0 false 80 [] [] None None None [] [] [].
Definition limit_names : list bytes := [lit "b.dat"; lit "a.dat"].

Example C132_limit_sample : exists w1 w2 t,
  run main_env (mkInvocation None (filter_limited limit_opts true (lit "012A.a == 'z'") 0 false false None limit_names)) main_world = Some (CEnded 0, w1)
  /\ w_stdout w1 = t
  /\ run main_env (mkInvocation None (slice_of true true false (Some (lit "o.dat")) 0 0 3 [lit "-"])) (mkWorld (w_disk main_world) t []) = Some (CEnded 0, w2)
  /\ disk_get (w_disk w2) (lit "o.dat") = Some (toy_enc (main_line "1" (lit "x") umlaut ++ main_line "2" (lit "y") umlaut ++ main_line "1" (lit "x") umlaut))
  /\ run main_env (mkInvocation None (filter_limited limit_opts true (lit "012A.a == 'z'") 3 false true (Some (lit "o.dat")) limit_names)) main_world
     = Some (CEnded 0, fed [] w2).
Proof.
  do 3 eexists. split; [vm_compute; reflexivity|]. split; [reflexivity|]. split; [vm_compute; reflexivity|]. split; [vm_compute; reflexivity|].
  eapply (C132_limit main_env None limit_opts).
  - reflexivity.
  - discriminate.
  - intros n E. injection E as <-. intros [X|[X|[]]]; discriminate.
  - vm_compute. reflexivity.
  - reflexivity.
  - vm_compute. reflexivity.
Qed.

(** The first slice stops in front of the line that is no record. *)
Example C132_slices_sample : exists w1 w2 t,
  run main_env (mkInvocation None (slice_of false false false None 0 2 0 limit_names)) main_world = Some (CEnded 0, w1) /\ w_stdout w1 = t
  /\ run main_env (mkInvocation None (slice_of false false false None 1 5 0 [lit "-"])) (mkWorld (w_disk main_world) t []) = Some (CEnded 0, w2)
  /\ w_stdout w2 = main_line "2" (lit "y") umlaut
  /\ run main_env (mkInvocation None (slice_of false false false None 1 2 0 limit_names)) main_world = Some (CEnded 0, fed [] w2).
Proof.
  do 3 eexists. split; [vm_compute; reflexivity|]. split; [reflexivity|]. split; [vm_compute; reflexivity|]. split; [vm_compute; reflexivity|].
  eapply (C132_slices main_env None false 0 2 1 5).
  - discriminate.
  - discriminate.
  - discriminate.
  - right. discriminate.
  - discriminate.
  - vm_compute. reflexivity.
  - reflexivity.
  - vm_compute. reflexivity.
Qed.

(** A slice that starts behind the end of the first: the two runs write nothing, the one reads on and fails. *)
Theorem C132_behind_refuted : exists e cfg a b c d names w w1 t w2 w3,
  b <= usize_max /\ a + c <= usize_max /\ a + d <= usize_max
  /\ run e (mkInvocation cfg (slice_of false false false None a b 0 names)) w = Some (CEnded 0, w1) /\ w_stdout w1 = w_stdout w ++ t
  /\ run e (mkInvocation cfg (slice_of false false false None c d 0 [lit "-"])) (mkWorld (w_disk w) t (w_stdout w)) = Some (CEnded 0, w2)
  /\ run e (mkInvocation cfg (slice_of false false false None (a + c) (end_after a b d) 0 names)) w = Some (CEnded 2, w3).
Proof.
  exists main_env, None, 0, 1, 4, 0, limit_names, main_world. do 4 eexists. split; [discriminate|]. split; [discriminate|]. split; [discriminate|].
  split; [vm_compute; reflexivity|]. split; [reflexivity|]. split; vm_compute; reflexivity.
Qed.
Print Assumptions C132_behind_refuted.

(** * Properties of explode after explode *)

From Coq Require Import String.
From Verif Require Import Bytes RecordModel RecordSpec RecordProofs ByteRecordModel ExplodeModel ExplodeSpec ExplodeProofs MatcherModel CliModel CliSpec CliProofs OptionsModel IoModel DiskModel
  DiskSpec MainModel MainSpec PipeSpec FrontSpec TwiceSpec TwiceProofs PropertiesDisk PropertiesMain.

(** ** C135: explode after explode

    "pica explode L1 FILES | pica explode L2" does what "pica explode L FILES" does, where L is the more detailed one of
    the two levels, if in no record a main field comes behind a field of another level; with any options of the second
    run.  The first run comes to its end. *)

(** without condition if one of the levels is main *)
Theorem C135_twice_partial : forall e cfg o discard keep l1 l2 gzip output names cs w w1 t x w2,
  (forall n, output = Some n -> ~ In n names) -> available (e_gz_dec e) (w_disk w) (w_stdin w) names cs ->
  l1 = LMain \/ l2 = LMain \/ (forall all er, reads true cs all er -> Forall (fun r => main_first (br_record r)) all) ->
  run e (mkInvocation cfg (explode_of o l1 names)) w = Some (CEnded 0, w1) -> w_stdout w1 = w_stdout w ++ t ->
  run e (mkInvocation cfg (KExplode o discard keep l2 gzip output [lit "-"])) (mkWorld (w_disk w) t (w_stdout w)) = Some (x, w2) ->
  run e (mkInvocation cfg (KExplode o discard keep (finer l1 l2) gzip output names)) w = Some (x, fed (w_stdin w) w2).
Proof. exact run_twice. Qed.
Print Assumptions C135_twice_partial.

(** With main fields at other places not even explode by libraries twice is explode by libraries once: a main field
    between a copy and a local field hides where a library begins, and the first run moves it. *)
Definition twice_world (tags : list string) : world :=
  mkWorld [(lit "a.dat", flat_map (fun t => lit t ++ lit " " ++ [31] ++ lit "0x" ++ [30]) tags ++ [10])] [] [].

Theorem C135_order_refuted : exists e cfg o names w w1 w2 w3 t,
  run e (mkInvocation cfg (explode_of o LLocal names)) w = Some (CEnded 0, w1) /\ w_stdout w1 = w_stdout w ++ t
  /\ run e (mkInvocation cfg (explode_of o LLocal [lit "-"])) (mkWorld (w_disk w) t (w_stdout w)) = Some (CEnded 0, w2)
  /\ run e (mkInvocation cfg (explode_of o LLocal names)) w = Some (CEnded 0, w3)
  /\ w_stdout w2 <> w_stdout w3.
Proof.
  exists main_env, None, no_opts, [lit "a.dat"], (twice_world ["101@"; "201A"; "003@"; "101@"; "201A"]%string). do 4 eexists.
  split; [vm_compute; reflexivity|]. split; [reflexivity|]. split; [vm_compute; reflexivity|]. split; [vm_compute; reflexivity|]. discriminate.
Qed.
Print Assumptions C135_order_refuted.

(** ** Samples *)

Definition twice_sample : world := twice_world ["003@"; "101@"; "203@/01"; "209A/01"; "203@/02"; "101@"; "145Z"; "203@/01"; "101@"]%string.

Example C135_sample : exists cs w1 w2 t,
  available (e_gz_dec main_env) (w_disk twice_sample) (w_stdin twice_sample) [lit "a.dat"] cs
  /\ (forall all er, reads true cs all er -> Forall (fun r => main_first (br_record r)) all)
  /\ run main_env (mkInvocation None (explode_of no_opts LLocal [lit "a.dat"])) twice_sample = Some (CEnded 0, w1) /\ w_stdout w1 = t
  /\ run main_env (mkInvocation None (KExplode no_opts None None LCopy false (Some (lit "o.dat")) [lit "-"])) (mkWorld (w_disk twice_sample) t [])
     = Some (CEnded 0, w2)
  /\ length (filter (N.eqb 10) t) = 3%nat
  /\ option_map (fun b => length (filter (N.eqb 10) b)) (disk_get (w_disk w2) (lit "o.dat")) = Some 3%nat
  /\ run main_env (mkInvocation None (KExplode no_opts None None LCopy false (Some (lit "o.dat")) [lit "a.dat"])) twice_sample = Some (CEnded 0, fed [] w2).
Proof.
  assert (Hav : available (e_gz_dec main_env) (w_disk twice_sample) (w_stdin twice_sample) [lit "a.dat"] [(lit "a.dat", snd (hd ([], []) (w_disk twice_sample)))]).
  { apply av_file; [discriminate|apply ra_plain; reflexivity|constructor]. }
  assert (Hm : forall all er, reads true [(lit "a.dat", snd (hd ([], []) (w_disk twice_sample)))] all er -> Forall (fun r => main_first (br_record r)) all).
  { intros all er H. pose proof (run_loop_reads _ true DirLoopProofs.collect _ _ _ [] H) as E. vm_compute in E.
    rewrite DirLoopProofs.collect_fold in E. destruct er; [discriminate|]. cbn in E. injection E as <-. constructor; [|constructor].
    cbn [br_record]. eexists [_], _. split; [reflexivity|]. split; [constructor; [eexists; reflexivity|constructor]|].
    repeat constructor; intros (? & X); discriminate. }
  do 4 eexists. split; [exact Hav|]. split; [exact Hm|]. split; [vm_compute; reflexivity|]. split; [reflexivity|]. split; [vm_compute; reflexivity|].
  split; [reflexivity|]. split; [reflexivity|].
  eapply (C135_twice_partial main_env None no_opts None None LLocal LCopy false (Some (lit "o.dat")) [lit "a.dat"] _ twice_sample).
  - intros n E. injection E as <-. intros [X|[]]. discriminate.
  - exact Hav.
  - right. right. exact Hm.
  - vm_compute. reflexivity.
  - reflexivity.
  - vm_compute. reflexivity.
Qed.

(** * Properties of concat in parts *)

From Coq Require Import String.
From Verif Require Import Bytes RecordModel MatcherModel CliModel OptionsModel DiskModel MainModel MainSpec PipeSpec PartsSpec PartsProofs PropertiesDisk PropertiesMain.

(** ** C134: removing duplicates in parts is removing them at once

    "pica concat --unique FILES" does what "(pica concat --unique FILES1; pica concat --unique FILES2; ...) | pica concat
    --unique" does, if the runs for the parts come to their ends. *)

(** Only the first part may read stdin; the runs for the parts start from the same files, which they do not change. *)
Theorem C134_parts : forall e cfg skip unique append output tee names ts w x w2, names <> [] ->
  Forall2 (fun ns t => run_writes e cfg w (concat_part skip unique ns) t) names ts ->
  ~ In (lit "-") (concat (tl names)) -> (forall n, output = Some n \/ tee = Some n -> ~ In n (concat names)) ->
  run e (mkInvocation cfg (KConcat skip append output tee unique [lit "-"])) (mkWorld (w_disk w) (concat ts) (w_stdout w)) = Some (x, w2) ->
  run e (mkInvocation cfg (KConcat skip append output tee unique (concat names))) w = Some (x, fed (w_stdin w) w2).
Proof. exact run_parts. Qed.
Print Assumptions C134_parts.

(** To remove duplicates twice is to remove them once. *)
Theorem C134_again : forall e cfg skip unique append output tee names t w x w2,
  run_writes e cfg w (concat_part skip unique names) t -> (forall n, output = Some n \/ tee = Some n -> ~ In n names) ->
  run e (mkInvocation cfg (KConcat skip append output tee unique [lit "-"])) (mkWorld (w_disk w) t (w_stdout w)) = Some (x, w2) ->
  run e (mkInvocation cfg (KConcat skip append output tee unique names)) w = Some (x, fed (w_stdin w) w2).
Proof. exact run_again. Qed.
Print Assumptions C134_again.

(** ** Samples *)

Definition parts_files : list (list bytes) := [[lit "b.dat"]; [lit "a.dat"]].

Lemma parts_sample : exists ts, Forall2 (fun ns t => run_writes main_env None main_world (concat_part true (Some SIdn) ns) t) parts_files ts
  /\ ts = [main_line "1" (lit "x") umlaut ++ main_line "2" (lit "y") umlaut; main_line "1" (lit "x") umlaut ++ main_line "2" (lit "y") umlaut].
Proof.
  eexists. split; [|reflexivity].
  constructor; [|constructor; [|constructor]]; eexists; (split; [vm_compute; reflexivity|]); reflexivity.
Qed.

Example C134_sample : exists ts w2, ts <> [] /\ Forall2 (fun ns t => run_writes main_env None main_world (concat_part true (Some SIdn) ns) t) parts_files ts
  /\ run main_env (mkInvocation None (KConcat true false (Some (lit "o.dat")) (Some (lit "t.dat")) (Some SIdn) [lit "-"])) (mkWorld (w_disk main_world) (concat ts) [])
     = Some (CEnded 0, w2)
  /\ disk_get (w_disk w2) (lit "t.dat") = Some (main_line "1" (lit "x") umlaut ++ main_line "2" (lit "y") umlaut)
  /\ run main_env (mkInvocation None (KConcat true false (Some (lit "o.dat")) (Some (lit "t.dat")) (Some SIdn) [lit "b.dat"; lit "a.dat"])) main_world
     = Some (CEnded 0, fed [] w2).
Proof.
  destruct parts_sample as (ts & H & Ets). exists ts. eexists. split; [rewrite Ets; discriminate|]. split; [exact H|].
  split; [rewrite Ets; vm_compute; reflexivity|]. split; [vm_compute; reflexivity|].
  eapply (C134_parts main_env None true (Some SIdn) false (Some (lit "o.dat")) (Some (lit "t.dat")) parts_files ts main_world).
  - discriminate.
  - exact H.
  - intros [X|[]]. discriminate.
  - intros n [E|E]; injection E as <-; intros [X|[X|[]]]; discriminate.
  - rewrite Ets. vm_compute. reflexivity.
Qed.

(** With different strategies the order matters: first --unique idn, then --unique hash is not --unique hash. *)
Definition parts_world : world :=
  mkWorld [(lit "a.dat", main_line "1" (lit "x") [] ++ main_line "1" (lit "xy") [])] [] [].

Theorem C134_strategies_refuted : exists e cfg w t w2 w3,
  run_writes e cfg w (concat_part false (Some SIdn) [lit "a.dat"]) t
  /\ run e (mkInvocation cfg (concat_part false (Some SHash) [lit "-"])) (mkWorld (w_disk w) t (w_stdout w)) = Some (CEnded 0, w2)
  /\ run e (mkInvocation cfg (concat_part false (Some SHash) [lit "a.dat"])) w = Some (CEnded 0, w3)
  /\ w_stdout w2 <> w_stdout w3.
Proof.
  exists main_env, None, parts_world. do 3 eexists. split; [eexists; split; [vm_compute; reflexivity|reflexivity]|].
  split; [vm_compute; reflexivity|]. split; [vm_compute; reflexivity|]. discriminate.
Qed.
Print Assumptions C134_strategies_refuted.

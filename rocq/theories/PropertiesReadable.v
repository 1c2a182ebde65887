(** * Properties of what is written for the next command *)

From Coq Require Import String.
From Verif Require Import Bytes BaseProofs RecordModel MatcherModel BuilderModel CliModel ExplodeModel ConvertModel CsvModel OptionsModel IoModel DiskModel QuerySpec TableModel MainModel MainSpec PipeSpec
  PartsSpec ReadableSpec ReadableProofs PropertiesDisk PropertiesMain PropertiesFront PropertiesRecordwise.

(** ** C147: the next command reads what a command has written

    What concat, explode, filter, sample or slice writes to stdout, whatever the options, goes through concat without an error and
    unchanged, also if invalid records are not skipped; in particular if --keep and --discard leave nothing of a record. *)
Theorem C147_readable : forall e cfg k w t skip, writes_records k -> run_writes e cfg w k t ->
  run_writes e cfg (fed t w) (concat_part skip None [lit "-"]) t.
Proof. exact run_readable. Qed.
Print Assumptions C147_readable.

(** Also if the command fails later, e.g. at a line that is no record. *)
Theorem C147_any_status : forall e cfg k w n w1 skip, writes_records k -> run e (mkInvocation cfg k) w = Some (CEnded n, w1) ->
  exists t, w_stdout w1 = w_stdout w ++ t /\ run_writes e cfg (fed t w) (concat_part skip None [lit "-"]) t.
Proof. exact run_readable_any. Qed.
Print Assumptions C147_any_status.

(** The command invalid finds nothing in it. *)
Theorem C147_none_invalid : forall e cfg k w n w1, writes_records k -> run e (mkInvocation cfg k) w = Some (CEnded n, w1) ->
  exists t, w_stdout w1 = w_stdout w ++ t /\ run_writes e cfg (fed t w) (KInvalid None [lit "-"]) [].
Proof. exact run_no_invalid. Qed.
Print Assumptions C147_none_invalid.

(** the first record loses a field, the second everything *)
Definition readable_world : world :=
  mkWorld [(lit "b.dat", main_line "1" (lit "x") umlaut); (lit "n.dat", lit "003@" ++ [32; 31] ++ lit "02" ++ [30; 10])] [] (lit "old").

Example C147_sample : let t := lit "012A " ++ [31] ++ lit "ax" ++ [31] ++ lit "b" ++ umlaut ++ [30; 10] in
  run_writes main_env None (fed t readable_world) (concat_part false None [lit "-"]) t.
Proof.
  intros t. apply (C147_readable main_env None
    (KFilter no_opts (mkFilterOnly (lit "003@?") None false (Some (lit "012A")) None) false false None None [lit "b.dat"; lit "n.dat"])); [constructor|].
  eexists. split; [vm_compute; reflexivity|vm_compute; reflexivity].
Qed.

(** the second line of the file is no record: the first record has been written *)
Example C147_sample_failed : let k := KFilter no_opts (mkFilterOnly (lit "003@?") None false None (Some (lit "012A"))) false false None None [lit "a.dat"] in
  let t := lit "003@ " ++ [31] ++ lit "01" ++ [30; 10] in
  run main_env (mkInvocation None k) main_world = Some (CEnded 2, mkWorld (w_disk main_world) [] t)
  /\ run_writes main_env None (fed t main_world) (concat_part false None [lit "-"]) t.
Proof.
  intros k t. assert (R : run main_env (mkInvocation None k) main_world = Some (CEnded 2, mkWorld (w_disk main_world) [] t)) by (vm_compute; reflexivity).
  split; [exact R|]. destruct (C147_any_status main_env None k main_world 2 _ false (wr_filter _ _ _) R) as (t' & E & H).
  cbn [w_stdout main_world app] in E. subst t'. exact H.
Qed.

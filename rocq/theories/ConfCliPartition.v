(** * Integration tests of partition

    /repo/crates/pica-cli/tests/partition, see [ConfCli.v]. *)

From Coq Require Import String ZArith.
From Verif Require Import Bytes Winnow RecordModel TagOccModel MatcherModel StateParser PathModel CliModel TableModel
  CheckModel RuleModel
  ConfBase ConfData ConfDump ConfCli.

(** /repo/crates/pica-cli/tests/partition/mod.rs:10-51 *)
Definition partition_partition_by_bbg_run : bool := Eval vm_compute in
  (
    let main := pica [] [] in
    plays [(lit "DUMP.dat.gz", gz_enc dump)]
    [run main [lit "partition"; lit "-s"; lit "002@.0"; lit "DUMP.dat.gz"; lit "-o"; lit "d1"]
      [] (Some 0) (bytes_eqb []);
     run main [lit "count"; lit "-s"; lit "--records"; lit "d1/Tg1.dat"]
      [] (Some 0) (bytes_eqb (lit "1" ++ [10]));
     run main [lit "count"; lit "-s"; lit "--records"; lit "d1/Tu1.dat"]
      [] (Some 0) (bytes_eqb (lit "6" ++ [10]))]).
Example partition_partition_by_bbg : partition_partition_by_bbg_run = true.
Proof. reflexivity. Qed.

(** /repo/crates/pica-cli/tests/partition/mod.rs:54-95 *)
Definition partition_partition_gzip_run : bool := Eval vm_compute in
  (
    let main := pica [] [] in
    plays [(lit "DUMP.dat.gz", gz_enc dump)]
    [run main [lit "partition"; lit "-s"; lit "--gzip"; lit "002@.0"; lit "DUMP.dat.gz"; lit "-o"; lit "d1"]
      [] (Some 0) (bytes_eqb []);
     run main [lit "count"; lit "-s"; lit "--records"; lit "d1/Tp1.dat.gz"]
      [] (Some 0) (bytes_eqb (lit "1" ++ [10]));
     run main [lit "count"; lit "-s"; lit "--records"; lit "d1/Tu1.dat.gz"]
      [] (Some 0) (bytes_eqb (lit "6" ++ [10]))]).
Example partition_partition_gzip : partition_partition_gzip_run = true.
Proof. reflexivity. Qed.

(** /repo/crates/pica-cli/tests/partition/mod.rs:98-140 *)
Definition partition_partition_template_run : bool := Eval vm_compute in
  (
    let main := pica [] [] in
    plays [(lit "DUMP.dat.gz", gz_enc dump)]
    [run main [lit "partition"; lit "-s"; lit "002@.0"; lit "--template"; lit "BBG_{}.dat"; lit "DUMP.dat.gz"; lit "-o"; lit "d1"]
      [] (Some 0) (bytes_eqb []);
     run main [lit "count"; lit "-s"; lit "--records"; lit "d1/BBG_Tg1.dat"]
      [] (Some 0) (bytes_eqb (lit "1" ++ [10]));
     run main [lit "count"; lit "-s"; lit "--records"; lit "d1/BBG_Tu1.dat"]
      [] (Some 0) (bytes_eqb (lit "6" ++ [10]))]).
Example partition_partition_template : partition_partition_template_run = true.
Proof. reflexivity. Qed.

(** /repo/crates/pica-cli/tests/partition/mod.rs:143-166 *)
Definition partition_partition_stdin_run : bool := Eval vm_compute in
  (
    let main := pica [] [] in
    plays [(lit "ada.dat", ada)]
    [run main [lit "partition"; lit "003@.0"; lit "-o"; lit "d1"]
      ada (Some 0) (bytes_eqb []);
     file_is (lit "d1/119232022.dat") ada]).
Example partition_partition_stdin : partition_partition_stdin_run = true.
Proof. reflexivity. Qed.

(** /repo/crates/pica-cli/tests/partition/mod.rs:169-188 *)
Definition partition_partition_skip_invalid_run : bool := Eval vm_compute in
  (
    let main := pica [] [] in
    plays [(lit "DUMP.dat.gz", gz_enc dump)]
    [run main [lit "partition"; lit "003@.0"; lit "DUMP.dat.gz"; lit "-o"; lit "d1"]
      [] (Some 2) (bytes_eqb [])]).
Example partition_partition_skip_invalid : partition_partition_skip_invalid_run = true.
Proof. reflexivity. Qed.

(** /repo/crates/pica-cli/tests/partition/mod.rs:191-217 *)
Definition partition_multiple_partitions_run : bool := Eval vm_compute in
  (
    let main := pica [] [] in
    plays [(lit "ada.dat", ada)]
    [run main [lit "partition"; lit "042A.a"; lit "ada.dat"; lit "-o"; lit "d1"]
      [] (Some 0) (bytes_eqb []);
     file_is (lit "d1/28p.dat") ada;
     file_is (lit "d1/9.5p.dat") ada]).
Example partition_multiple_partitions : partition_multiple_partitions_run = true.
Proof. reflexivity. Qed.

(** /repo/crates/pica-cli/tests/partition/mod.rs:220-254 *)
Definition partition_partition_where_run : bool := Eval vm_compute in
  (
    let main := pica [] [] in
    plays [(lit "DUMP.dat.gz", gz_enc dump)]
    [run main [lit "partition"; lit "-s"; lit "002@.0"; lit "DUMP.dat.gz"; lit "--where"; lit "002@.0 =^ 'Tp'"; lit "-o"; lit "d1"]
      [] (Some 0) (bytes_eqb []);
     dir_has (lit "d1/") 2;
     run main [lit "count"; lit "-s"; lit "--records"; lit "d1/Tp1.dat"; lit "d1/Tpz.dat"]
      [] (Some 0) (bytes_eqb (lit "2" ++ [10]))]).
Example partition_partition_where : partition_partition_where_run = true.
Proof. reflexivity. Qed.

(** /repo/crates/pica-cli/tests/partition/mod.rs:257-291 *)
Definition partition_partition_where_and_run : bool := Eval vm_compute in
  (
    let main := pica [] [] in
    plays [(lit "DUMP.dat.gz", gz_enc dump)]
    [run main [lit "partition"; lit "-s"; lit "002@.0"; lit "DUMP.dat.gz"; lit "--where"; lit "003@.0 == '118540238'"; lit "--and"; lit "002@.0 =^ 'Tp'"; lit "-o"; lit "d1"]
      [] (Some 0) (bytes_eqb []);
     dir_has (lit "d1/") 1;
     run main [lit "count"; lit "-s"; lit "--records"; lit "d1/Tpz.dat"]
      [] (Some 0) (bytes_eqb (lit "1" ++ [10]))]).
Example partition_partition_where_and : partition_partition_where_and_run = true.
Proof. reflexivity. Qed.

(** /repo/crates/pica-cli/tests/partition/mod.rs:294-329 *)
Definition partition_partition_and_or_run : bool := Eval vm_compute in
  (
    let main := pica [] [] in
    plays [(lit "DUMP.dat.gz", gz_enc dump)]
    [run main [lit "partition"; lit "-s"; lit "002@.0"; lit "DUMP.dat.gz"; lit "--where"; lit "003@.0 == '118607626'"; lit "--or"; lit "002@.0 == 'Tpz'"; lit "-o"; lit "d1"]
      [] (Some 0) (bytes_eqb []);
     dir_has (lit "d1/") 2;
     run main [lit "count"; lit "-s"; lit "--records"; lit "d1/Tp1.dat"; lit "d1/Tpz.dat"]
      [] (Some 0) (bytes_eqb (lit "2" ++ [10]))]).
Example partition_partition_and_or : partition_partition_and_or_run = true.
Proof. reflexivity. Qed.

(** /repo/crates/pica-cli/tests/partition/mod.rs:332-366 *)
Definition partition_partition_where_not_run : bool := Eval vm_compute in
  (
    let main := pica [] [] in
    plays [(lit "DUMP.dat.gz", gz_enc dump)]
    [run main [lit "partition"; lit "-s"; lit "002@.0"; lit "DUMP.dat.gz"; lit "--where"; lit "002@.0 =^ 'Tp'"; lit "--not"; lit "003@.0 == '118607626'"; lit "-o"; lit "d1"]
      [] (Some 0) (bytes_eqb []);
     dir_has (lit "d1/") 1;
     run main [lit "count"; lit "-s"; lit "--records"; lit "d1/Tpz.dat"]
      [] (Some 0) (bytes_eqb (lit "1" ++ [10]))]).
Example partition_partition_where_not : partition_partition_where_not_run = true.
Proof. reflexivity. Qed.

(** /repo/crates/pica-cli/tests/partition/mod.rs:369-408 *)
Definition partition_partition_allow_run : bool := Eval vm_compute in
  (
    let lists := [((lit "ppn" ++ [10] ++ lit "118540238" ++ [10] ++ lit "118607626" ++ [10]), [(lit "ppn", [Some (lit "118540238"); Some (lit "118607626")])])] in
    let main := pica lists [] in
    plays [(lit "DUMP.dat.gz", gz_enc dump)]
    [write (lit "d1/ALLOW.csv") (lit "ppn" ++ [10] ++ lit "118540238" ++ [10] ++ lit "118607626" ++ [10]);
     run main [lit "partition"; lit "-s"; lit "002@.0"; lit "-A"; lit "d1/ALLOW.csv"; lit "DUMP.dat.gz"; lit "-o"; lit "d2"]
      [] (Some 0) (bytes_eqb []);
     dir_has (lit "d2/") 2;
     run main [lit "count"; lit "-s"; lit "--records"; lit "d2/Tp1.dat"; lit "d2/Tpz.dat"]
      [] (Some 0) (bytes_eqb (lit "2" ++ [10]))]).
Example partition_partition_allow : partition_partition_allow_run = true.
Proof. reflexivity. Qed.

(** /repo/crates/pica-cli/tests/partition/mod.rs:411-462 *)
Definition partition_partition_deny_run : bool := Eval vm_compute in
  (
    let lists := [((lit "ppn" ++ [10] ++ lit "040993396" ++ [10] ++ lit "04099337X" ++ [10] ++ lit "040991970" ++ [10] ++ lit "040991989" ++ [10] ++ lit "041274377" ++ [10] ++ lit "964262134" ++ [10] ++ lit "040533093" ++ [10] ++ lit "040309606" ++ [10] ++ lit "040128997" ++ [10] ++ lit "040651053" ++ [10]), [(lit "ppn", [Some (lit "040993396"); Some (lit "04099337X"); Some (lit "040991970"); Some (lit "040991989"); Some (lit "041274377"); Some (lit "964262134"); Some (lit "040533093"); Some (lit "040309606"); Some (lit "040128997"); Some (lit "040651053")])])] in
    let main := pica lists [] in
    plays [(lit "DUMP.dat.gz", gz_enc dump)]
    [write (lit "d1/DENY.csv") (lit "ppn" ++ [10] ++ lit "040993396" ++ [10] ++ lit "04099337X" ++ [10] ++ lit "040991970" ++ [10] ++ lit "040991989" ++ [10] ++ lit "041274377" ++ [10] ++ lit "964262134" ++ [10] ++ lit "040533093" ++ [10] ++ lit "040309606" ++ [10] ++ lit "040128997" ++ [10] ++ lit "040651053" ++ [10]);
     run main [lit "partition"; lit "-s"; lit "002@.0"; lit "-D"; lit "d1/DENY.csv"; lit "DUMP.dat.gz"; lit "-o"; lit "d2"]
      [] (Some 0) (bytes_eqb []);
     dir_has (lit "d2/") 2;
     run main [lit "count"; lit "-s"; lit "--records"; lit "d2/Tp1.dat"; lit "d2/Tpz.dat"]
      [] (Some 0) (bytes_eqb (lit "2" ++ [10]))]).
Example partition_partition_deny : partition_partition_deny_run = true.
Proof. reflexivity. Qed.

(** /repo/crates/pica-cli/tests/partition/mod.rs:465-505 *)
Definition partition_partition_filter_set_column_run : bool := Eval vm_compute in
  (
    let lists := [((lit "id" ++ [10] ++ lit "118540238" ++ [10] ++ lit "118607626" ++ [10]), [(lit "id", [Some (lit "118540238"); Some (lit "118607626")])])] in
    let main := pica lists [] in
    plays [(lit "DUMP.dat.gz", gz_enc dump)]
    [write (lit "d1/ALLOW.csv") (lit "id" ++ [10] ++ lit "118540238" ++ [10] ++ lit "118607626" ++ [10]);
     run main [lit "partition"; lit "-s"; lit "002@.0"; lit "-A"; lit "d1/ALLOW.csv"; lit "--filter-set-column"; lit "id"; lit "DUMP.dat.gz"; lit "-o"; lit "d2"]
      [] (Some 0) (bytes_eqb []);
     dir_has (lit "d2/") 2;
     run main [lit "count"; lit "-s"; lit "--records"; lit "d2/Tp1.dat"; lit "d2/Tpz.dat"]
      [] (Some 0) (bytes_eqb (lit "2" ++ [10]))]).
Example partition_partition_filter_set_column : partition_partition_filter_set_column_run = true.
Proof. reflexivity. Qed.

(** /repo/crates/pica-cli/tests/partition/mod.rs:508-549 *)
Definition partition_partition_filter_set_source_run : bool := Eval vm_compute in
  (
    let lists := [((lit "bbg" ++ [10] ++ lit "Tp1" ++ [10] ++ lit "Tpz" ++ [10]), [(lit "bbg", [Some (lit "Tp1"); Some (lit "Tpz")])])] in
    let main := pica lists [] in
    plays [(lit "DUMP.dat.gz", gz_enc dump)]
    [write (lit "d1/ALLOW.csv") (lit "bbg" ++ [10] ++ lit "Tp1" ++ [10] ++ lit "Tpz" ++ [10]);
     run main [lit "partition"; lit "-s"; lit "002@.0"; lit "-A"; lit "d1/ALLOW.csv"; lit "--filter-set-source"; lit "002@.0"; lit "--filter-set-column"; lit "bbg"; lit "DUMP.dat.gz"; lit "-o"; lit "d2"]
      [] (Some 0) (bytes_eqb []);
     dir_has (lit "d2/") 2;
     run main [lit "count"; lit "-s"; lit "--records"; lit "d2/Tp1.dat"; lit "d2/Tpz.dat"]
      [] (Some 0) (bytes_eqb (lit "2" ++ [10]))]).
Example partition_partition_filter_set_source : partition_partition_filter_set_source_run = true.
Proof. reflexivity. Qed.

(** /repo/crates/pica-cli/tests/partition/mod.rs:552-585 *)
Definition partition_partition_limit_run : bool := Eval vm_compute in
  (
    let main := pica [] [] in
    plays [(lit "DUMP.dat.gz", gz_enc dump)]
    [run main [lit "partition"; lit "-s"; lit "-l"; lit "2"; lit "002@.0"; lit "DUMP.dat.gz"; lit "-o"; lit "d1"]
      [] (Some 0) (bytes_eqb []);
     dir_has (lit "d1/") 2;
     run main [lit "count"; lit "-s"; lit "--records"; lit "d1/Tp1.dat"; lit "d1/Tpz.dat"]
      [] (Some 0) (bytes_eqb (lit "2" ++ [10]))]).
Example partition_partition_limit : partition_partition_limit_run = true.
Proof. reflexivity. Qed.

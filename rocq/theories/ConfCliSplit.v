(** * Integration tests of split

    /repo/crates/pica-cli/tests/split, see [ConfCli.v]. *)

From Coq Require Import String ZArith.
From Verif Require Import Bytes Winnow RecordModel TagOccModel MatcherModel StateParser PathModel CliModel TableModel
  CheckModel RuleModel
  ConfBase ConfData ConfDump ConfCli.

(** /repo/crates/pica-cli/tests/split/mod.rs:8-37 *)
Definition split_split_default_run : bool := Eval vm_compute in
  (
    let main := pica [] [] in
    plays [(lit "DUMP.dat.gz", gz_enc dump)]
    [run main [lit "split"; lit "-s"; lit "100"; lit "DUMP.dat.gz"; lit "-o"; lit "d1"]
      [] (Some 0) (bytes_eqb []);
     run main [lit "count"; lit "-s"; lit "--records"; lit "d1/0.dat"]
      [] (Some 0) (bytes_eqb (lit "12" ++ [10]))]).
Example split_split_default : split_split_default_run = true.
Proof. reflexivity. Qed.

(** /repo/crates/pica-cli/tests/split/mod.rs:40-80 *)
Definition split_split_size_run : bool := Eval vm_compute in
  (
    let main := pica [] [] in
    plays [(lit "DUMP.dat.gz", gz_enc dump); (lit "ada.dat", ada)]
    [run main [lit "split"; lit "-s"; lit "2"; lit "DUMP.dat.gz"; lit "ada.dat"; lit "-o"; lit "d1"]
      [] (Some 0) (bytes_eqb []);
     file_there (lit "d1/0.dat");
     file_there (lit "d1/1.dat");
     file_there (lit "d1/2.dat");
     file_there (lit "d1/3.dat");
     file_there (lit "d1/4.dat");
     file_is (lit "d1/6.dat") ada]).
Example split_split_size : split_split_size_run = true.
Proof. reflexivity. Qed.

(** /repo/crates/pica-cli/tests/split/mod.rs:83-114 *)
Definition split_split_limit_run : bool := Eval vm_compute in
  (
    let main := pica [] [] in
    plays [(lit "DUMP.dat.gz", gz_enc dump); (lit "ada.dat", ada)]
    [run main [lit "split"; lit "-s"; lit "2"; lit "--limit"; lit "1"; lit "ada.dat"; lit "DUMP.dat.gz"; lit "-o"; lit "d1"]
      [] (Some 0) (bytes_eqb []);
     file_is (lit "d1/0.dat") ada;
     file_absent (lit "d1/1.dat")]).
Example split_split_limit : split_split_limit_run = true.
Proof. reflexivity. Qed.

(** /repo/crates/pica-cli/tests/split/mod.rs:117-158 *)
Definition split_split_skip_invalid_run : bool := Eval vm_compute in
  (
    let main := pica [] [] in
    plays [(lit "DUMP.dat.gz", gz_enc dump); (lit "ada.dat", ada); (lit "invalid.dat", invalid_dat)]
    [run main [lit "split"; lit "-s"; lit "5"; lit "invalid.dat"; lit "ada.dat"; lit "-o"; lit "d1"]
      [] (Some 0) (bytes_eqb []);
     file_is (lit "d1/0.dat") ada;
     run main [lit "split"; lit "10"; lit "DUMP.dat.gz"; lit "-o"; lit "d2"]
      [] (Some 2) (bytes_eqb [])]).
Example split_split_skip_invalid : split_split_skip_invalid_run = true.
Proof. reflexivity. Qed.

(** /repo/crates/pica-cli/tests/split/mod.rs:161-190 *)
Definition split_split_gzip_run : bool := Eval vm_compute in
  (
    let main := pica [] [] in
    plays [(lit "DUMP.dat.gz", gz_enc dump)]
    [run main [lit "split"; lit "-s"; lit "--gzip"; lit "100"; lit "DUMP.dat.gz"; lit "-o"; lit "d1"]
      [] (Some 0) (bytes_eqb []);
     run main [lit "count"; lit "-s"; lit "--records"; lit "d1/0.dat.gz"]
      [] (Some 0) (bytes_eqb (lit "12" ++ [10]))]).
Example split_split_gzip : split_split_gzip_run = true.
Proof. reflexivity. Qed.

(** /repo/crates/pica-cli/tests/split/mod.rs:193-249 *)
Definition split_split_template_run : bool := Eval vm_compute in
  (
    let main := pica [] [] in
    plays [(lit "DUMP.dat.gz", gz_enc dump); (lit "ada.dat", ada)]
    [run main [lit "split"; lit "-s"; lit "5"; lit "--template"; lit "FOO_{}.dat"; lit "DUMP.dat.gz"; lit "ada.dat"; lit "-o"; lit "d1"]
      [] (Some 0) (bytes_eqb []);
     run main [lit "count"; lit "-s"; lit "--records"; lit "d1/FOO_0.dat"]
      [] (Some 0) (bytes_eqb (lit "5" ++ [10]));
     run main [lit "count"; lit "-s"; lit "--records"; lit "d1/FOO_1.dat"]
      [] (Some 0) (bytes_eqb (lit "5" ++ [10]));
     run main [lit "count"; lit "-s"; lit "--records"; lit "d1/FOO_2.dat"]
      [] (Some 0) (bytes_eqb (lit "3" ++ [10]))]).
Example split_split_template : split_split_template_run = true.
Proof. reflexivity. Qed.

(** /repo/crates/pica-cli/tests/split/mod.rs:252-282 *)
Definition split_split_where_run : bool := Eval vm_compute in
  (
    let main := pica [] [] in
    plays [(lit "DUMP.dat.gz", gz_enc dump)]
    [run main [lit "split"; lit "-s"; lit "100"; lit "DUMP.dat.gz"; lit "--where"; lit "002@.0 == 'Ts1'"; lit "-o"; lit "d1"]
      [] (Some 0) (bytes_eqb []);
     run main [lit "select"; lit "003@.0"; lit "d1/0.dat"]
      [] (Some 0) (bytes_eqb (lit "040309606" ++ [10]))]).
Example split_split_where : split_split_where_run = true.
Proof. reflexivity. Qed.

(** /repo/crates/pica-cli/tests/split/mod.rs:285-316 *)
Definition split_split_where_and_run : bool := Eval vm_compute in
  (
    let main := pica [] [] in
    plays [(lit "DUMP.dat.gz", gz_enc dump)]
    [run main [lit "split"; lit "-s"; lit "100"; lit "DUMP.dat.gz"; lit "--where"; lit "002@.0 == 'Ts1'"; lit "--and"; lit "004B.a == 'saz'"; lit "-o"; lit "d1"]
      [] (Some 0) (bytes_eqb []);
     run main [lit "select"; lit "003@.0"; lit "d1/0.dat"]
      [] (Some 0) (bytes_eqb (lit "040309606" ++ [10]))]).
Example split_split_where_and : split_split_where_and_run = true.
Proof. reflexivity. Qed.

(** /repo/crates/pica-cli/tests/split/mod.rs:319-350 *)
Definition split_split_where_not_run : bool := Eval vm_compute in
  (
    let main := pica [] [] in
    plays [(lit "DUMP.dat.gz", gz_enc dump)]
    [run main [lit "split"; lit "-s"; lit "100"; lit "DUMP.dat.gz"; lit "--where"; lit "002@.0 =^ 'Ts'"; lit "--not"; lit "002@.0 =$ 'z'"; lit "-o"; lit "d1"]
      [] (Some 0) (bytes_eqb []);
     run main [lit "select"; lit "003@.0"; lit "d1/0.dat"]
      [] (Some 0) (bytes_eqb (lit "040309606" ++ [10]))]).
Example split_split_where_not : split_split_where_not_run = true.
Proof. reflexivity. Qed.

(** /repo/crates/pica-cli/tests/split/mod.rs:353-385 *)
Definition split_split_where_and_not_run : bool := Eval vm_compute in
  (
    let main := pica [] [] in
    plays [(lit "DUMP.dat.gz", gz_enc dump)]
    [run main [lit "split"; lit "-s"; lit "100"; lit "DUMP.dat.gz"; lit "--where"; lit "002@.0 =^ 'Ts'"; lit "--and"; lit "004B.a == 'saz'"; lit "--not"; lit "002@.0 =$ 'z'"; lit "-o"; lit "d1"]
      [] (Some 0) (bytes_eqb []);
     run main [lit "select"; lit "003@.0"; lit "d1/0.dat"]
      [] (Some 0) (bytes_eqb (lit "040309606" ++ [10]))]).
Example split_split_where_and_not : split_split_where_and_not_run = true.
Proof. reflexivity. Qed.

(** /repo/crates/pica-cli/tests/split/mod.rs:388-431 *)
Definition split_split_where_or_run : bool := Eval vm_compute in
  (
    let main := pica [] [] in
    plays [(lit "DUMP.dat.gz", gz_enc dump)]
    [run main [lit "split"; lit "-s"; lit "1"; lit "DUMP.dat.gz"; lit "--where"; lit "002@.0 == 'Ts1'"; lit "--or"; lit "002@.0 == 'Tg1'"; lit "-o"; lit "d1"]
      [] (Some 0) (bytes_eqb []);
     run main [lit "select"; lit "003@.0"; lit "d1/0.dat"]
      [] (Some 0) (bytes_eqb (lit "040309606" ++ [10]));
     run main [lit "select"; lit "003@.0"; lit "d1/1.dat"]
      [] (Some 0) (bytes_eqb (lit "040651053" ++ [10]))]).
Example split_split_where_or : split_split_where_or_run = true.
Proof. reflexivity. Qed.

(** /repo/crates/pica-cli/tests/split/mod.rs:434-471 *)
Definition split_split_allow_run : bool := Eval vm_compute in
  (
    let lists := [((lit "idn" ++ [10] ++ lit "118540238" ++ [10] ++ lit "118515551" ++ [10]), [(lit "idn", [Some (lit "118540238"); Some (lit "118515551")])])] in
    let main := pica lists [] in
    plays [(lit "DUMP.dat.gz", gz_enc dump)]
    [write (lit "d1/ALLOW.csv") (lit "idn" ++ [10] ++ lit "118540238" ++ [10] ++ lit "118515551" ++ [10]);
     run main [lit "split"; lit "-s"; lit "10"; lit "-A"; lit "d1/ALLOW.csv"; lit "DUMP.dat.gz"; lit "-o"; lit "d2"]
      [] (Some 0) (bytes_eqb []);
     run main [lit "select"; lit "003@.0"; lit "d2/0.dat"]
      [] (Some 0) (bytes_eqb (lit "118540238" ++ [10]))]).
Example split_split_allow : split_split_allow_run = true.
Proof. reflexivity. Qed.

(** /repo/crates/pica-cli/tests/split/mod.rs:474-525 *)
Definition split_split_deny_run : bool := Eval vm_compute in
  (
    let lists := [((lit "idn" ++ [10] ++ lit "118607626" ++ [10] ++ lit "040993396" ++ [10] ++ lit "04099337X" ++ [10] ++ lit "040991970" ++ [10] ++ lit "040991989" ++ [10] ++ lit "041274377" ++ [10] ++ lit "964262134" ++ [10] ++ lit "040533093" ++ [10] ++ lit "040309606" ++ [10] ++ lit "040128997" ++ [10] ++ lit "040651053" ++ [10]), [(lit "idn", [Some (lit "118607626"); Some (lit "040993396"); Some (lit "04099337X"); Some (lit "040991970"); Some (lit "040991989"); Some (lit "041274377"); Some (lit "964262134"); Some (lit "040533093"); Some (lit "040309606"); Some (lit "040128997"); Some (lit "040651053")])])] in
    let main := pica lists [] in
    plays [(lit "DUMP.dat.gz", gz_enc dump)]
    [write (lit "d1/DENY.csv") (lit "idn" ++ [10] ++ lit "118607626" ++ [10] ++ lit "040993396" ++ [10] ++ lit "04099337X" ++ [10] ++ lit "040991970" ++ [10] ++ lit "040991989" ++ [10] ++ lit "041274377" ++ [10] ++ lit "964262134" ++ [10] ++ lit "040533093" ++ [10] ++ lit "040309606" ++ [10] ++ lit "040128997" ++ [10] ++ lit "040651053" ++ [10]);
     run main [lit "split"; lit "-s"; lit "10"; lit "-D"; lit "d1/DENY.csv"; lit "DUMP.dat.gz"; lit "-o"; lit "d2"]
      [] (Some 0) (bytes_eqb []);
     run main [lit "select"; lit "003@.0"; lit "d2/0.dat"]
      [] (Some 0) (bytes_eqb (lit "118540238" ++ [10]))]).
Example split_split_deny : split_split_deny_run = true.
Proof. reflexivity. Qed.

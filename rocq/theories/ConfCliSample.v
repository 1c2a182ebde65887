(** * Integration tests of sample

    /repo/crates/pica-cli/tests/sample, see [ConfCli.v]. *)

From Coq Require Import String ZArith.
From Verif Require Import Bytes Winnow RecordModel TagOccModel MatcherModel StateParser PathModel CliModel TableModel
  CheckModel RuleModel
  ConfBase ConfData ConfDump ConfCli.

(** /repo/crates/pica-cli/tests/sample/mod.rs:8-22 *)
Definition sample_sample_stdout_run : bool := Eval vm_compute in
  (
    let main := pica [] [] in
    plays [(lit "ada.dat", ada)]
    [run main [lit "sample"; lit "1"; lit "ada.dat"]
      [] (Some 0) (bytes_eqb ada)]).
Example sample_sample_stdout : sample_sample_stdout_run = true.
Proof. reflexivity. Qed.

(** /repo/crates/pica-cli/tests/sample/mod.rs:25-49 *)
Definition sample_sample_output_run : bool := Eval vm_compute in
  (
    let main := pica [] [] in
    plays [(lit "ada.dat", ada)]
    [run main [lit "sample"; lit "1"; lit "ada.dat"; lit "--output"; lit "d1/samples.dat"]
      [] (Some 0) (bytes_eqb []);
     file_is (lit "d1/samples.dat") ada]).
Example sample_sample_output : sample_sample_output_run = true.
Proof. reflexivity. Qed.

(** /repo/crates/pica-cli/tests/sample/mod.rs:52-83 *)
Definition sample_sample_gzip_run : bool := Eval vm_compute in
  (
    let main := pica [] [] in
    plays [(lit "ada.dat", ada)]
    [run main [lit "sample"; lit "2"; lit "ada.dat"; lit "--output"; lit "d1/samples.dat.gz"]
      [] (Some 0) (bytes_eqb []);
     run main [lit "count"; lit "-s"; lit "--records"; lit "d1/samples.dat.gz"]
      [] (Some 0) (bytes_eqb (lit "1" ++ [10]))]).
Example sample_sample_gzip : sample_sample_gzip_run = true.
Proof. reflexivity. Qed.

(** /repo/crates/pica-cli/tests/sample/mod.rs:86-114 *)
Definition sample_sample_skip_invalid_run : bool := Eval vm_compute in
  (
    let main := pica [] [] in
    plays [(lit "DUMP.dat.gz", gz_enc dump)]
    [run main [lit "sample"; lit "-s"; lit "10"; lit "DUMP.dat.gz"]
      [] (Some 0) nonempty;
     run main [lit "sample"; lit "10"; lit "DUMP.dat.gz"]
      [] (Some 2) (bytes_eqb [])]).
Example sample_sample_skip_invalid : sample_sample_skip_invalid_run = true.
Proof. reflexivity. Qed.

(** /repo/crates/pica-cli/tests/sample/mod.rs:117-148 *)
Definition sample_sample_limit_run : bool := Eval vm_compute in
  (
    let main := pica [] [] in
    plays [(lit "DUMP.dat.gz", gz_enc dump)]
    [run main [lit "sample"; lit "-s"; lit "-l"; lit "5"; lit "10"; lit "DUMP.dat.gz"; lit "-o"; lit "d1/samples.dat"]
      [] (Some 0) (bytes_eqb []);
     run main [lit "count"; lit "--records"; lit "d1/samples.dat"]
      [] (Some 0) (bytes_eqb (lit "5" ++ [10]))]).
Example sample_sample_limit : sample_sample_limit_run = true.
Proof. reflexivity. Qed.

(** /repo/crates/pica-cli/tests/sample/mod.rs:151-176 *)
Definition sample_sample_seed_run : bool := Eval vm_compute in
  (
    let main := pica [] [] in
    plays [(lit "DUMP.dat.gz", gz_enc dump); (lit "samples.dat", samples_dat)]
    [run main [lit "sample"; lit "-s"; lit "2"; lit "--seed"; lit "1234"; lit "DUMP.dat.gz"; lit "-o"; lit "d1/samples.dat"]
      [] (Some 0) (bytes_eqb []);
     file_is (lit "d1/samples.dat") samples_dat]).
Example sample_sample_seed : sample_sample_seed_run = true.
Proof. reflexivity. Qed.

(** /repo/crates/pica-cli/tests/sample/mod.rs:179-204 *)
Definition sample_sample_where_run : bool := Eval vm_compute in
  (
    let main := pica [] [] in
    plays [(lit "DUMP.dat.gz", gz_enc dump); (lit "goethe.dat", goethe)]
    [run main [lit "sample"; lit "-s"; lit "23"; lit "--where"; lit "003@.0 == '118540238'"; lit "DUMP.dat.gz"; lit "-o"; lit "d1/samples.dat"]
      [] (Some 0) (bytes_eqb []);
     file_is (lit "d1/samples.dat") goethe]).
Example sample_sample_where : sample_sample_where_run = true.
Proof. reflexivity. Qed.

(** /repo/crates/pica-cli/tests/sample/mod.rs:207-233 *)
Definition sample_sample_where_and_run : bool := Eval vm_compute in
  (
    let main := pica [] [] in
    plays [(lit "DUMP.dat.gz", gz_enc dump); (lit "goethe.dat", goethe)]
    [run main [lit "sample"; lit "-s"; lit "23"; lit "--where"; lit "002@.0 =^ 'Tp'"; lit "--and"; lit "003@.0 == '118540238'"; lit "DUMP.dat.gz"; lit "-o"; lit "d1/samples.dat"]
      [] (Some 0) (bytes_eqb []);
     file_is (lit "d1/samples.dat") goethe]).
Example sample_sample_where_and : sample_sample_where_and_run = true.
Proof. reflexivity. Qed.

(** /repo/crates/pica-cli/tests/sample/mod.rs:236-262 *)
Definition sample_sample_where_not_run : bool := Eval vm_compute in
  (
    let main := pica [] [] in
    plays [(lit "DUMP.dat.gz", gz_enc dump); (lit "goethe.dat", goethe)]
    [run main [lit "sample"; lit "-s"; lit "23"; lit "--where"; lit "002@.0 =^ 'Tp'"; lit "--not"; lit "003@.0 == '118607626'"; lit "DUMP.dat.gz"; lit "-o"; lit "d1/samples.dat"]
      [] (Some 0) (bytes_eqb []);
     file_is (lit "d1/samples.dat") goethe]).
Example sample_sample_where_not : sample_sample_where_not_run = true.
Proof. reflexivity. Qed.

(** /repo/crates/pica-cli/tests/sample/mod.rs:265-292 *)
Definition sample_sample_where_and_not_run : bool := Eval vm_compute in
  (
    let main := pica [] [] in
    plays [(lit "DUMP.dat.gz", gz_enc dump); (lit "goethe.dat", goethe)]
    [run main [lit "sample"; lit "-s"; lit "23"; lit "--where"; lit "002@.0 =^ 'Tp'"; lit "--and"; lit "003@.0 == '118540238'"; lit "--not"; lit "002@.0 == 'Tp3'"; lit "DUMP.dat.gz"; lit "-o"; lit "d1/samples.dat"]
      [] (Some 0) (bytes_eqb []);
     file_is (lit "d1/samples.dat") goethe]).
Example sample_sample_where_and_not : sample_sample_where_and_not_run = true.
Proof. reflexivity. Qed.

(** /repo/crates/pica-cli/tests/sample/mod.rs:295-321 *)
Definition sample_sample_where_or_run : bool := Eval vm_compute in
  (
    let main := pica [] [] in
    plays [(lit "DUMP.dat.gz", gz_enc dump); (lit "goethe.dat", goethe)]
    [run main [lit "sample"; lit "-s"; lit "23"; lit "--where"; lit "003@.0 == '118515551'"; lit "--or"; lit "003@.0 == '118540238'"; lit "DUMP.dat.gz"; lit "-o"; lit "d1/samples.dat"]
      [] (Some 0) (bytes_eqb []);
     file_is (lit "d1/samples.dat") goethe]).
Example sample_sample_where_or : sample_sample_where_or_run = true.
Proof. reflexivity. Qed.

(** /repo/crates/pica-cli/tests/sample/mod.rs:324-352 *)
Definition sample_sample_allow_run : bool := Eval vm_compute in
  (
    let lists := [((lit "idn" ++ [10] ++ lit "118540238" ++ [10] ++ lit "118515551" ++ [10]), [(lit "idn", [Some (lit "118540238"); Some (lit "118515551")])])] in
    let main := pica lists [] in
    plays [(lit "DUMP.dat.gz", gz_enc dump); (lit "goethe.dat", goethe)]
    [write (lit "d1/ALLOW.csv") (lit "idn" ++ [10] ++ lit "118540238" ++ [10] ++ lit "118515551" ++ [10]);
     run main [lit "sample"; lit "-s"; lit "10"; lit "-A"; lit "d1/ALLOW.csv"; lit "DUMP.dat.gz"; lit "-o"; lit "d1/samples.dat"]
      [] (Some 0) (bytes_eqb []);
     file_is (lit "d1/samples.dat") goethe]).
Example sample_sample_allow : sample_sample_allow_run = true.
Proof. reflexivity. Qed.

(** /repo/crates/pica-cli/tests/sample/mod.rs:355-397 *)
Definition sample_sample_deny_run : bool := Eval vm_compute in
  (
    let lists := [((lit "idn" ++ [10] ++ lit "118607626" ++ [10] ++ lit "040993396" ++ [10] ++ lit "04099337X" ++ [10] ++ lit "040991970" ++ [10] ++ lit "040991989" ++ [10] ++ lit "041274377" ++ [10] ++ lit "964262134" ++ [10] ++ lit "040533093" ++ [10] ++ lit "040309606" ++ [10] ++ lit "040128997" ++ [10] ++ lit "040651053" ++ [10]), [(lit "idn", [Some (lit "118607626"); Some (lit "040993396"); Some (lit "04099337X"); Some (lit "040991970"); Some (lit "040991989"); Some (lit "041274377"); Some (lit "964262134"); Some (lit "040533093"); Some (lit "040309606"); Some (lit "040128997"); Some (lit "040651053")])])] in
    let main := pica lists [] in
    plays [(lit "DUMP.dat.gz", gz_enc dump); (lit "goethe.dat", goethe)]
    [write (lit "d1/DENY.csv") (lit "idn" ++ [10] ++ lit "118607626" ++ [10] ++ lit "040993396" ++ [10] ++ lit "04099337X" ++ [10] ++ lit "040991970" ++ [10] ++ lit "040991989" ++ [10] ++ lit "041274377" ++ [10] ++ lit "964262134" ++ [10] ++ lit "040533093" ++ [10] ++ lit "040309606" ++ [10] ++ lit "040128997" ++ [10] ++ lit "040651053" ++ [10]);
     run main [lit "sample"; lit "-s"; lit "10"; lit "-D"; lit "d1/DENY.csv"; lit "DUMP.dat.gz"; lit "-o"; lit "d1/samples.dat"]
      [] (Some 0) (bytes_eqb []);
     file_is (lit "d1/samples.dat") goethe]).
Example sample_sample_deny : sample_sample_deny_run = true.
Proof. reflexivity. Qed.

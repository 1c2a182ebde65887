(** * Integration tests of invalid

    /repo/crates/pica-cli/tests/invalid, see [ConfCli.v]. *)

From Coq Require Import String ZArith.
From Verif Require Import Bytes Winnow RecordModel TagOccModel MatcherModel StateParser PathModel CliModel TableModel
  CheckModel RuleModel
  ConfBase ConfData ConfDump ConfCli.

(** /repo/crates/pica-cli/tests/invalid/mod.rs:10-34 *)
Definition invalid_read_file_write_file_run : bool := Eval vm_compute in
  (
    let main := pica [] [] in
    plays [(lit "invalid.dat", invalid_dat)]
    [run main [lit "invalid"; lit "-o"; lit "d1/out.dat"; lit "invalid.dat"]
      [] (Some 0) (bytes_eqb []);
     file_is (lit "d1/out.dat") invalid_dat]).
Example invalid_read_file_write_file : invalid_read_file_write_file_run = true.
Proof. reflexivity. Qed.

(** /repo/crates/pica-cli/tests/invalid/mod.rs:37-61 *)
Definition invalid_read_stdin_write_file_run : bool := Eval vm_compute in
  (
    let main := pica [] [] in
    plays [(lit "invalid.dat", invalid_dat)]
    [run main [lit "invalid"; lit "-o"; lit "d1/out.dat"]
      invalid_dat (Some 0) (bytes_eqb []);
     file_is (lit "d1/out.dat") invalid_dat]).
Example invalid_read_stdin_write_file : invalid_read_stdin_write_file_run = true.
Proof. reflexivity. Qed.

(** /repo/crates/pica-cli/tests/invalid/mod.rs:64-76 *)
Definition invalid_read_file_write_stdout_run : bool := Eval vm_compute in
  (
    let main := pica [] [] in
    plays [(lit "invalid.dat", invalid_dat)]
    [run main [lit "invalid"; lit "invalid.dat"]
      [] (Some 0) (bytes_eqb invalid_dat)]).
Example invalid_read_file_write_stdout : invalid_read_file_write_stdout_run = true.
Proof. reflexivity. Qed.

(** /repo/crates/pica-cli/tests/invalid/mod.rs:79-95 *)
Definition invalid_read_stdin_write_stdout_run : bool := Eval vm_compute in
  (
    let main := pica [] [] in
    plays [(lit "invalid.dat", invalid_dat)]
    [run main [lit "invalid"]
      invalid_dat (Some 0) (bytes_eqb invalid_dat)]).
Example invalid_read_stdin_write_stdout : invalid_read_stdin_write_stdout_run = true.
Proof. reflexivity. Qed.

(** /repo/crates/pica-cli/tests/invalid/mod.rs:98-115 *)
Definition invalid_read_multiple_files_run : bool := Eval vm_compute in
  (
    let main := pica [] [] in
    plays [(lit "ada.dat", ada); (lit "invalid.dat", invalid_dat)]
    [run main [lit "invalid"; lit "ada.dat"; lit "invalid.dat"; lit "ada.dat"]
      [] (Some 0) (bytes_eqb invalid_dat)]).
Example invalid_read_multiple_files : invalid_read_multiple_files_run = true.
Proof. reflexivity. Qed.

(** /repo/crates/pica-cli/tests/invalid/mod.rs:118-133 *)
Definition invalid_read_gzip_file_run : bool := Eval vm_compute in
  (
    let main := pica [] [] in
    plays [(lit "DUMP.dat.gz", gz_enc dump); (lit "invalid.dat", invalid_dat)]
    [run main [lit "invalid"; lit "DUMP.dat.gz"]
      [] (Some 0) (bytes_eqb invalid_dat)]).
Example invalid_read_gzip_file : invalid_read_gzip_file_run = true.
Proof. reflexivity. Qed.

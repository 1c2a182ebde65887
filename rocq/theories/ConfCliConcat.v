(** * Integration tests of concat

    /repo/crates/pica-cli/tests/concat, see [ConfCli.v]. *)

From Coq Require Import String ZArith.
From Verif Require Import Bytes Winnow RecordModel TagOccModel MatcherModel StateParser PathModel CliModel TableModel
  CheckModel RuleModel
  ConfBase ConfData ConfDump ConfCli.

(** /repo/crates/pica-cli/tests/concat/mod.rs:10-22 *)
Definition concat_single_file_write_stdout_run : bool := Eval vm_compute in
  (
    let main := pica [] [] in
    plays [(lit "ada.dat", ada)]
    [run main [lit "concat"; lit "ada.dat"]
      [] (Some 0) (bytes_eqb ada)]).
Example concat_single_file_write_stdout : concat_single_file_write_stdout_run = true.
Proof. reflexivity. Qed.

(** /repo/crates/pica-cli/tests/concat/mod.rs:25-67 *)
Definition concat_read_stdin_run : bool := Eval vm_compute in
  (
    let main := pica [] [] in
    plays [(lit "ada.dat", ada); (lit "invalid.dat", invalid_dat)]
    [run main [lit "concat"]
      ada (Some 0) (bytes_eqb ada);
     run main [lit "cat"; lit "-"]
      ada (Some 0) (bytes_eqb ada);
     run main [lit "concat"; lit "-s"; lit "-u"; lit "invalid.dat"; lit "ada.dat"; lit "-"]
      ada (Some 0) (bytes_eqb ada)]).
Example concat_read_stdin : concat_read_stdin_run = true.
Proof. reflexivity. Qed.

(** /repo/crates/pica-cli/tests/concat/mod.rs:70-94 *)
Definition concat_single_file_write_file_run : bool := Eval vm_compute in
  (
    let main := pica [] [] in
    plays [(lit "ada.dat", ada)]
    [run main [lit "concat"; lit "-o"; lit "d1/out.dat"; lit "ada.dat"]
      [] (Some 0) (bytes_eqb []);
     file_is (lit "d1/out.dat") ada]).
Example concat_single_file_write_file : concat_single_file_write_file_run = true.
Proof. reflexivity. Qed.

(** /repo/crates/pica-cli/tests/concat/mod.rs:97-124 *)
Definition concat_write_gzip_run : bool := Eval vm_compute in
  (
    let main := pica [] [] in
    plays [(lit "ada.dat", ada)]
    [run main [lit "concat"; lit "-o"; lit "d1/out.dat.gz"; lit "ada.dat"]
      [] (Some 0) (bytes_eqb []);
     run main [lit "concat"; lit "d1/out.dat.gz"]
      [] (Some 0) (bytes_eqb ada)]).
Example concat_write_gzip : concat_write_gzip_run = true.
Proof. reflexivity. Qed.

(** /repo/crates/pica-cli/tests/concat/mod.rs:127-175 *)
Definition concat_single_file_write_tee_run : bool := Eval vm_compute in
  (
    let main := pica [] [] in
    plays [(lit "ada.dat", ada)]
    [run main [lit "concat"; lit "--tee"; lit "d1/tee.dat"; lit "ada.dat"]
      [] (Some 0) (bytes_eqb ada);
     file_is (lit "d1/tee.dat") ada;
     run main [lit "concat"; lit "--tee"; lit "d1/tee.dat"; lit "-o"; lit "d1/out.dat"; lit "ada.dat"]
      [] (Some 0) (bytes_eqb []);
     file_is (lit "d1/tee.dat") ada;
     file_is (lit "d1/out.dat") ada]).
Example concat_single_file_write_tee : concat_single_file_write_tee_run = true.
Proof. reflexivity. Qed.

(** /repo/crates/pica-cli/tests/concat/mod.rs:178-254 *)
Definition concat_skip_invalid_run : bool := Eval vm_compute in
  (
    let main := pica [] [] in
    plays [(lit "ada.dat", ada); (lit "invalid.dat", invalid_dat)]
    [run main [lit "concat"; lit "--skip-invalid"; lit "invalid.dat"]
      [] (Some 0) (bytes_eqb []);
     run main [lit "concat"; lit "-s"; lit "invalid.dat"; lit "ada.dat"]
      [] (Some 0) (bytes_eqb ada);
     run main [lit "concat"; lit "invalid.dat"; lit "ada.dat"]
      [] (Some 2) (bytes_eqb []);
     run main [lit "--config"; lit "d1/pica.toml"; lit "config"; lit "skip-invalid"; lit "true"]
      [] (Some 0) (bytes_eqb []);
     run main [lit "-c"; lit "d1/pica.toml"; lit "concat"; lit "invalid.dat"; lit "ada.dat"]
      [] (Some 0) (bytes_eqb ada)]).
Example concat_skip_invalid : concat_skip_invalid_run = true.
Proof. reflexivity. Qed.

(** /repo/crates/pica-cli/tests/concat/mod.rs:257-275 *)
Definition concat_unique_by_idn_run : bool := Eval vm_compute in
  (
    let main := pica [] [] in
    plays [(lit "ada.dat", ada)]
    [run main [lit "concat"; lit "-u"; lit "--unique-strategy"; lit "idn"; lit "ada.dat"; lit "ada.dat"; lit "ada.dat"; lit "ada.dat"]
      [] (Some 0) (bytes_eqb ada)]).
Example concat_unique_by_idn : concat_unique_by_idn_run = true.
Proof. reflexivity. Qed.

(** /repo/crates/pica-cli/tests/concat/mod.rs:278-297 *)
Definition concat_unique_by_hash_run : bool := Eval vm_compute in
  (
    let main := pica [] [] in
    plays [(lit "ada.dat", ada)]
    [run main [lit "concat"; lit "--unique"; lit "--unique-strategy"; lit "hash"; lit "ada.dat"; lit "ada.dat"; lit "ada.dat"; lit "ada.dat"]
      [] (Some 0) (bytes_eqb ada)]).
Example concat_unique_by_hash : concat_unique_by_hash_run = true.
Proof. reflexivity. Qed.

(** /repo/crates/pica-cli/tests/concat/mod.rs:300-323 *)
Definition concat_append_run : bool := Eval vm_compute in
  (
    let main := pica [] [] in
    plays [(lit "ada.dat", ada); (lit "math.dat.gz", gz_enc math)]
    [run main [lit "concat"; lit "--append"; lit "-o"; lit "d1/out.dat"; lit "math.dat.gz"; lit "ada.dat"]
      [] (Some 0) (bytes_eqb []);
     file_is (lit "d1/out.dat") (math ++ ada)]).
Example concat_append : concat_append_run = true.
Proof. reflexivity. Qed.

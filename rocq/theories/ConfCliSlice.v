(** * Integration tests of slice

    /repo/crates/pica-cli/tests/slice, see [ConfCli.v]. *)

From Coq Require Import String ZArith.
From Verif Require Import Bytes Winnow RecordModel TagOccModel MatcherModel StateParser PathModel CliModel TableModel
  CheckModel RuleModel
  ConfBase ConfData ConfDump ConfCli.

(** /repo/crates/pica-cli/tests/slice/mod.rs:7-38 *)
Definition slice_slice_default_run : bool := Eval vm_compute in
  (
    let main := pica [] [] in
    plays [(lit "DUMP.dat.gz", gz_enc dump)]
    [run main [lit "slice"; lit "--skip-invalid"; lit "DUMP.dat.gz"; lit "-o"; lit "d1/slice.dat"]
      [] (Some 0) (bytes_eqb []);
     run main [lit "count"; lit "-s"; lit "--records"; lit "d1/slice.dat"]
      [] (Some 0) (bytes_eqb (lit "12" ++ [10]))]).
Example slice_slice_default : slice_slice_default_run = true.
Proof. reflexivity. Qed.

(** /repo/crates/pica-cli/tests/slice/mod.rs:41-73 *)
Definition slice_slice_start_end_run : bool := Eval vm_compute in
  (
    let main := pica [] [] in
    plays [(lit "DUMP.dat.gz", gz_enc dump)]
    [run main [lit "slice"; lit "--skip-invalid"; lit "--start"; lit "2"; lit "--end"; lit "5"; lit "DUMP.dat.gz"; lit "-o"; lit "d1/slice.dat"]
      [] (Some 0) (bytes_eqb []);
     run main [lit "count"; lit "-s"; lit "--records"; lit "d1/slice.dat"]
      [] (Some 0) (bytes_eqb (lit "3" ++ [10]))]).
Example slice_slice_start_end : slice_slice_start_end_run = true.
Proof. reflexivity. Qed.

(** /repo/crates/pica-cli/tests/slice/mod.rs:76-108 *)
Definition slice_slice_start_run : bool := Eval vm_compute in
  (
    let main := pica [] [] in
    plays [(lit "DUMP.dat.gz", gz_enc dump)]
    [run main [lit "slice"; lit "--skip-invalid"; lit "--start"; lit "9"; lit "DUMP.dat.gz"; lit "-o"; lit "d1/slice.dat"]
      [] (Some 0) (bytes_eqb []);
     run main [lit "count"; lit "-s"; lit "--records"; lit "d1/slice.dat"]
      [] (Some 0) (bytes_eqb (lit "3" ++ [10]))]).
Example slice_slice_start : slice_slice_start_run = true.
Proof. reflexivity. Qed.

(** /repo/crates/pica-cli/tests/slice/mod.rs:111-143 *)
Definition slice_slice_end_run : bool := Eval vm_compute in
  (
    let main := pica [] [] in
    plays [(lit "DUMP.dat.gz", gz_enc dump)]
    [run main [lit "slice"; lit "--skip-invalid"; lit "--end"; lit "3"; lit "DUMP.dat.gz"; lit "-o"; lit "d1/slice.dat"]
      [] (Some 0) (bytes_eqb []);
     run main [lit "count"; lit "-s"; lit "--records"; lit "d1/slice.dat"]
      [] (Some 0) (bytes_eqb (lit "3" ++ [10]))]).
Example slice_slice_end : slice_slice_end_run = true.
Proof. reflexivity. Qed.

(** /repo/crates/pica-cli/tests/slice/mod.rs:146-178 *)
Definition slice_slice_length_run : bool := Eval vm_compute in
  (
    let main := pica [] [] in
    plays [(lit "DUMP.dat.gz", gz_enc dump)]
    [run main [lit "slice"; lit "--skip-invalid"; lit "--length"; lit "5"; lit "DUMP.dat.gz"; lit "-o"; lit "d1/slice.dat"]
      [] (Some 0) (bytes_eqb []);
     run main [lit "count"; lit "-s"; lit "--records"; lit "d1/slice.dat"]
      [] (Some 0) (bytes_eqb (lit "5" ++ [10]))]).
Example slice_slice_length : slice_slice_length_run = true.
Proof. reflexivity. Qed.

(** /repo/crates/pica-cli/tests/slice/mod.rs:181-212 *)
Definition slice_slice_gzip_run : bool := Eval vm_compute in
  (
    let main := pica [] [] in
    plays [(lit "DUMP.dat.gz", gz_enc dump)]
    [run main [lit "slice"; lit "--skip-invalid"; lit "DUMP.dat.gz"; lit "-o"; lit "d1/slice.dat.gz"]
      [] (Some 0) (bytes_eqb []);
     run main [lit "count"; lit "-s"; lit "--records"; lit "d1/slice.dat.gz"]
      [] (Some 0) (bytes_eqb (lit "12" ++ [10]))]).
Example slice_slice_gzip : slice_slice_gzip_run = true.
Proof. reflexivity. Qed.

(** /repo/crates/pica-cli/tests/slice/mod.rs:215-261 *)
Definition slice_slice_append_run : bool := Eval vm_compute in
  (
    let main := pica [] [] in
    plays [(lit "DUMP.dat.gz", gz_enc dump)]
    [run main [lit "slice"; lit "--skip-invalid"; lit "--length"; lit "2"; lit "DUMP.dat.gz"; lit "-o"; lit "d1/slice.dat"]
      [] (Some 0) (bytes_eqb []);
     run main [lit "slice"; lit "--skip-invalid"; lit "--append"; lit "--start"; lit "5"; lit "--length"; lit "2"; lit "DUMP.dat.gz"; lit "-o"; lit "d1/slice.dat"]
      [] (Some 0) (bytes_eqb []);
     run main [lit "count"; lit "-s"; lit "--records"; lit "d1/slice.dat"]
      [] (Some 0) (bytes_eqb (lit "4" ++ [10]))]).
Example slice_slice_append : slice_slice_append_run = true.
Proof. reflexivity. Qed.

(** /repo/crates/pica-cli/tests/slice/mod.rs:264-310 *)
Definition slice_slice_skip_invalid_run : bool := Eval vm_compute in
  (
    let main := pica [] [] in
    plays [(lit "DUMP.dat.gz", gz_enc dump)]
    [run main [lit "slice"; lit "--skip-invalid"; lit "DUMP.dat.gz"; lit "-o"; lit "d1/slice.dat"]
      [] (Some 0) (bytes_eqb []);
     run main [lit "count"; lit "-s"; lit "--records"; lit "d1/slice.dat"]
      [] (Some 0) (bytes_eqb (lit "12" ++ [10]));
     run main [lit "slice"; lit "DUMP.dat.gz"; lit "-o"; lit "d1/slice.dat"]
      [] (Some 2) (bytes_eqb [])]).
Example slice_slice_skip_invalid : slice_slice_skip_invalid_run = true.
Proof. reflexivity. Qed.

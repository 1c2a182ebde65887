(** * Integration tests of describe

    /repo/crates/pica-cli/tests/describe, see [ConfCli.v]. *)

From Coq Require Import String ZArith.
From Verif Require Import Bytes Winnow RecordModel TagOccModel MatcherModel StateParser PathModel CliModel TableModel
  CheckModel RuleModel
  ConfBase ConfData ConfDump ConfCli.

(** /repo/crates/pica-cli/tests/describe/mod.rs:9-23 *)
Definition describe_describe_write_stdout_run : bool := Eval vm_compute in
  (
    let main := pica [] [] in
    plays [(lit "DUMP.dat.gz", gz_enc dump)]
    [run main [lit "describe"; lit "-s"; lit "-k"; lit "050C"; lit "DUMP.dat.gz"]
      [] (Some 0) (fun _ => true)]).
Example describe_describe_write_stdout : describe_describe_write_stdout_run = true.
Proof. reflexivity. Qed.

(** /repo/crates/pica-cli/tests/describe/mod.rs:26-46 *)
Definition describe_describe_write_csv_run : bool := Eval vm_compute in
  (
    let main := pica [] [] in
    plays [(lit "DUMP.dat.gz", gz_enc dump)]
    [run main [lit "describe"; lit "-s"; lit "-k"; lit "050C"; lit "DUMP.dat.gz"; lit "-o"; lit "d1/out.csv"]
      [] (Some 0) (bytes_eqb []);
     file_is (lit "d1/out.csv") (lit "field,5,a" ++ [10] ++ lit "050C,7,35" ++ [10])]).
Example describe_describe_write_csv : describe_describe_write_csv_run = true.
Proof. reflexivity. Qed.

(** /repo/crates/pica-cli/tests/describe/mod.rs:49-73 *)
Definition describe_describe_write_tsv_run : bool := Eval vm_compute in
  (
    let main := pica [] [] in
    plays [(lit "DUMP.dat.gz", gz_enc dump)]
    [run main [lit "describe"; lit "-s"; lit "-k"; lit "050C"; lit "DUMP.dat.gz"; lit "-o"; lit "d1/out.tsv"]
      [] (Some 0) (bytes_eqb []);
     file_is (lit "d1/out.tsv") (lit "field" ++ [9] ++ lit "5" ++ [9] ++ lit "a" ++ [10] ++ lit "050C" ++ [9] ++ lit "7" ++ [9] ++ lit "35" ++ [10])]).
Example describe_describe_write_tsv : describe_describe_write_tsv_run = true.
Proof. reflexivity. Qed.

(** /repo/crates/pica-cli/tests/describe/mod.rs:76-92 *)
Definition describe_describe_skip_invalid_run : bool := Eval vm_compute in
  (
    let main := pica [] [] in
    plays [(lit "invalid.dat", invalid_dat)]
    [run main [lit "describe"; lit "invalid.dat"]
      [] (Some 2) (bytes_eqb [])]).
Example describe_describe_skip_invalid : describe_describe_skip_invalid_run = true.
Proof. reflexivity. Qed.

(** /repo/crates/pica-cli/tests/describe/mod.rs:95-115 *)
Definition describe_describe_keep_run : bool := Eval vm_compute in
  (
    let main := pica [] [] in
    plays [(lit "DUMP.dat.gz", gz_enc dump)]
    [run main [lit "describe"; lit "-s"; lit "-k"; lit "002@"; lit "DUMP.dat.gz"; lit "-o"; lit "d1/out.csv"]
      [] (Some 0) (bytes_eqb []);
     file_is (lit "d1/out.csv") (lit "field,0" ++ [10] ++ lit "002@,12" ++ [10])]).
Example describe_describe_keep : describe_describe_keep_run = true.
Proof. reflexivity. Qed.

(** /repo/crates/pica-cli/tests/describe/mod.rs:118-138 *)
Definition describe_describe_discard_run : bool := Eval vm_compute in
  (
    let main := pica [] [] in
    plays [(lit "DUMP.dat.gz", gz_enc dump)]
    [run main [lit "describe"; lit "-s"; lit "-k"; lit "00[23]@"; lit "-d"; lit "003@"; lit "DUMP.dat.gz"; lit "-o"; lit "d1/out.csv"]
      [] (Some 0) (bytes_eqb []);
     file_is (lit "d1/out.csv") (lit "field,0" ++ [10] ++ lit "002@,12" ++ [10])]).
Example describe_describe_discard : describe_describe_discard_run = true.
Proof. reflexivity. Qed.

(** /repo/crates/pica-cli/tests/describe/mod.rs:141-169 *)
Definition describe_describe_allow_run : bool := Eval vm_compute in
  (
    let lists := [((lit "ppn" ++ [10] ++ lit "118540238" ++ [10]), [(lit "ppn", [Some (lit "118540238")])])] in
    let main := pica lists [] in
    plays [(lit "DUMP.dat.gz", gz_enc dump)]
    [write (lit "d1/ALLOW.csv") (lit "ppn" ++ [10] ++ lit "118540238" ++ [10]);
     run main [lit "describe"; lit "-s"; lit "-k"; lit "007N"; lit "-A"; lit "d1/ALLOW.csv"; lit "DUMP.dat.gz"; lit "-o"; lit "d1/out.csv"]
      [] (Some 0) (bytes_eqb []);
     file_is (lit "d1/out.csv") (lit "field,0,a,v" ++ [10] ++ lit "007N,15,15,6" ++ [10])]).
Example describe_describe_allow : describe_describe_allow_run = true.
Proof. reflexivity. Qed.

(** /repo/crates/pica-cli/tests/describe/mod.rs:172-200 *)
Definition describe_describe_deny_run : bool := Eval vm_compute in
  (
    let lists := [((lit "ppn" ++ [10] ++ lit "118540238" ++ [10]), [(lit "ppn", [Some (lit "118540238")])])] in
    let main := pica lists [] in
    plays [(lit "DUMP.dat.gz", gz_enc dump)]
    [write (lit "d1/DENY.csv") (lit "ppn" ++ [10] ++ lit "118540238" ++ [10]);
     run main [lit "describe"; lit "-s"; lit "-k"; lit "007N"; lit "-D"; lit "d1/DENY.csv"; lit "DUMP.dat.gz"; lit "-o"; lit "d1/out.csv"]
      [] (Some 0) (bytes_eqb []);
     file_is (lit "d1/out.csv") (lit "field,0,a,v" ++ [10] ++ lit "007N,28,28,18" ++ [10])]).
Example describe_describe_deny : describe_describe_deny_run = true.
Proof. reflexivity. Qed.

(** /repo/crates/pica-cli/tests/describe/mod.rs:203-232 *)
Definition describe_describe_filter_set_column_run : bool := Eval vm_compute in
  (
    let lists := [((lit "id" ++ [10] ++ lit "118540238" ++ [10]), [(lit "id", [Some (lit "118540238")])])] in
    let main := pica lists [] in
    plays [(lit "DUMP.dat.gz", gz_enc dump)]
    [write (lit "d1/ALLOW.csv") (lit "id" ++ [10] ++ lit "118540238" ++ [10]);
     run main [lit "describe"; lit "-s"; lit "-k"; lit "007N"; lit "-A"; lit "d1/ALLOW.csv"; lit "--filter-set-column"; lit "id"; lit "DUMP.dat.gz"; lit "-o"; lit "d1/out.csv"]
      [] (Some 0) (bytes_eqb []);
     file_is (lit "d1/out.csv") (lit "field,0,a,v" ++ [10] ++ lit "007N,15,15,6" ++ [10])]).
Example describe_describe_filter_set_column : describe_describe_filter_set_column_run = true.
Proof. reflexivity. Qed.

(** /repo/crates/pica-cli/tests/describe/mod.rs:235-265 *)
Definition describe_describe_filter_set_source_run : bool := Eval vm_compute in
  (
    let lists := [((lit "gnd_id" ++ [10] ++ lit "118540238" ++ [10]), [(lit "gnd_id", [Some (lit "118540238")])])] in
    let main := pica lists [] in
    plays [(lit "DUMP.dat.gz", gz_enc dump)]
    [write (lit "d1/ALLOW.csv") (lit "gnd_id" ++ [10] ++ lit "118540238" ++ [10]);
     run main [lit "describe"; lit "-s"; lit "-k"; lit "007N"; lit "-A"; lit "d1/ALLOW.csv"; lit "--filter-set-source"; lit "003@.0"; lit "--filter-set-column"; lit "gnd_id"; lit "DUMP.dat.gz"; lit "-o"; lit "d1/out.csv"]
      [] (Some 0) (bytes_eqb []);
     file_is (lit "d1/out.csv") (lit "field,0,a,v" ++ [10] ++ lit "007N,15,15,6" ++ [10])]).
Example describe_describe_filter_set_source : describe_describe_filter_set_source_run = true.
Proof. reflexivity. Qed.

(** /repo/crates/pica-cli/tests/describe/mod.rs:268-293 *)
Definition describe_describe_where_run : bool := Eval vm_compute in
  (
    let main := pica [] [] in
    plays [(lit "DUMP.dat.gz", gz_enc dump)]
    [run main [lit "describe"; lit "-s"; lit "-k"; lit "007N"; lit "--where"; lit "003@.0 == '118540238'"; lit "DUMP.dat.gz"; lit "-o"; lit "d1/out.csv"]
      [] (Some 0) (bytes_eqb []);
     file_is (lit "d1/out.csv") (lit "field,0,a,v" ++ [10] ++ lit "007N,15,15,6" ++ [10])]).
Example describe_describe_where : describe_describe_where_run = true.
Proof. reflexivity. Qed.

(** /repo/crates/pica-cli/tests/describe/mod.rs:296-322 *)
Definition describe_describe_where_and_run : bool := Eval vm_compute in
  (
    let main := pica [] [] in
    plays [(lit "DUMP.dat.gz", gz_enc dump)]
    [run main [lit "describe"; lit "-s"; lit "-k"; lit "007N"; lit "--where"; lit "003@.0 == '118540238'"; lit "--and"; lit "002@.0 == 'Tpz'"; lit "DUMP.dat.gz"; lit "-o"; lit "d1/out.csv"]
      [] (Some 0) (bytes_eqb []);
     file_is (lit "d1/out.csv") (lit "field,0,a,v" ++ [10] ++ lit "007N,15,15,6" ++ [10])]).
Example describe_describe_where_and : describe_describe_where_and_run = true.
Proof. reflexivity. Qed.

(** /repo/crates/pica-cli/tests/describe/mod.rs:325-351 *)
Definition describe_describe_where_or_run : bool := Eval vm_compute in
  (
    let main := pica [] [] in
    plays [(lit "DUMP.dat.gz", gz_enc dump)]
    [run main [lit "describe"; lit "-s"; lit "-k"; lit "007N"; lit "--where"; lit "003@.0 == '118540238'"; lit "--or"; lit "002@.0 == 'Tpz'"; lit "DUMP.dat.gz"; lit "-o"; lit "d1/out.csv"]
      [] (Some 0) (bytes_eqb []);
     file_is (lit "d1/out.csv") (lit "field,0,a,v" ++ [10] ++ lit "007N,15,15,6" ++ [10])]).
Example describe_describe_where_or : describe_describe_where_or_run = true.
Proof. reflexivity. Qed.

(** /repo/crates/pica-cli/tests/describe/mod.rs:354-380 *)
Definition describe_describe_where_not_run : bool := Eval vm_compute in
  (
    let main := pica [] [] in
    plays [(lit "DUMP.dat.gz", gz_enc dump)]
    [run main [lit "describe"; lit "-s"; lit "-k"; lit "007N"; lit "--where"; lit "003@.0 == '118540238'"; lit "--not"; lit "002@.0 == 'Tp1'"; lit "DUMP.dat.gz"; lit "-o"; lit "d1/out.csv"]
      [] (Some 0) (bytes_eqb []);
     file_is (lit "d1/out.csv") (lit "field,0,a,v" ++ [10] ++ lit "007N,15,15,6" ++ [10])]).
Example describe_describe_where_not : describe_describe_where_not_run = true.
Proof. reflexivity. Qed.

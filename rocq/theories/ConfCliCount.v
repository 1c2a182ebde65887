(** * Integration tests of count

    /repo/crates/pica-cli/tests/count, see [ConfCli.v]. *)

From Coq Require Import String ZArith.
From Verif Require Import Bytes Winnow RecordModel TagOccModel MatcherModel StateParser PathModel CliModel TableModel
  CheckModel RuleModel
  ConfBase ConfData ConfDump ConfCli.

(** /repo/crates/pica-cli/tests/count/mod.rs:9-25 *)
Definition count_count_write_stdout_run : bool := Eval vm_compute in
  (
    let main := pica [] [] in
    plays [(lit "DUMP.dat.gz", gz_enc dump)]
    [run main [lit "count"; lit "-s"; lit "DUMP.dat.gz"]
      [] (Some 0) (bytes_eqb (lit "records: 12" ++ [10] ++ lit "fields: 1035" ++ [10] ++ lit "subfields: 3973" ++ [10]))]).
Example count_count_write_stdout : count_count_write_stdout_run = true.
Proof. reflexivity. Qed.

(** /repo/crates/pica-cli/tests/count/mod.rs:28-51 *)
Definition count_count_write_output_run : bool := Eval vm_compute in
  (
    let main := pica [] [] in
    plays [(lit "DUMP.dat.gz", gz_enc dump)]
    [run main [lit "count"; lit "-s"; lit "-o"; lit "d1/counts.csv"; lit "DUMP.dat.gz"]
      [] (Some 0) (bytes_eqb []);
     file_is (lit "d1/counts.csv") (lit "records: 12" ++ [10] ++ lit "fields: 1035" ++ [10] ++ lit "subfields: 3973" ++ [10])]).
Example count_count_write_output : count_count_write_output_run = true.
Proof. reflexivity. Qed.

(** /repo/crates/pica-cli/tests/count/mod.rs:54-93 *)
Definition count_count_write_append_run : bool := Eval vm_compute in
  (
    let main := pica [] [] in
    plays [(lit "DUMP.dat.gz", gz_enc dump)]
    [run main [lit "count"; lit "-s"; lit "--csv"; lit "--where"; lit "002@.0 =^ 'Tp'"; lit "-o"; lit "d1/counts.csv"; lit "DUMP.dat.gz"]
      [] (Some 0) (bytes_eqb []);
     run main [lit "count"; lit "-s"; lit "--csv"; lit "--append"; lit "--no-header"; lit "--where"; lit "002@.0 =^ 'Ts'"; lit "-o"; lit "d1/counts.csv"; lit "DUMP.dat.gz"]
      [] (Some 0) (bytes_eqb []);
     file_is (lit "d1/counts.csv") (lit "records,fields,subfields" ++ [10] ++ lit "2,484,1514" ++ [10] ++ lit "3,105,295" ++ [10])]).
Example count_count_write_append : count_count_write_append_run = true.
Proof. reflexivity. Qed.

(** /repo/crates/pica-cli/tests/count/mod.rs:96-112 *)
Definition count_count_write_csv_run : bool := Eval vm_compute in
  (
    let main := pica [] [] in
    plays [(lit "DUMP.dat.gz", gz_enc dump)]
    [run main [lit "count"; lit "-s"; lit "--csv"; lit "DUMP.dat.gz"]
      [] (Some 0) (bytes_eqb (lit "records,fields,subfields" ++ [10] ++ lit "12,1035,3973" ++ [10]))]).
Example count_count_write_csv : count_count_write_csv_run = true.
Proof. reflexivity. Qed.

(** /repo/crates/pica-cli/tests/count/mod.rs:115-131 *)
Definition count_count_write_tsv_run : bool := Eval vm_compute in
  (
    let main := pica [] [] in
    plays [(lit "DUMP.dat.gz", gz_enc dump)]
    [run main [lit "count"; lit "-s"; lit "--tsv"; lit "DUMP.dat.gz"]
      [] (Some 0) (bytes_eqb (lit "records" ++ [9] ++ lit "fields" ++ [9] ++ lit "subfields" ++ [10] ++ lit "12" ++ [9] ++ lit "1035" ++ [9] ++ lit "3973" ++ [10]))]).
Example count_count_write_tsv : count_count_write_tsv_run = true.
Proof. reflexivity. Qed.

(** /repo/crates/pica-cli/tests/count/mod.rs:134-148 *)
Definition count_count_write_records_run : bool := Eval vm_compute in
  (
    let main := pica [] [] in
    plays [(lit "DUMP.dat.gz", gz_enc dump)]
    [run main [lit "count"; lit "-s"; lit "--records"; lit "DUMP.dat.gz"]
      [] (Some 0) (bytes_eqb (lit "12" ++ [10]))]).
Example count_count_write_records : count_count_write_records_run = true.
Proof. reflexivity. Qed.

(** /repo/crates/pica-cli/tests/count/mod.rs:151-165 *)
Definition count_count_write_fields_run : bool := Eval vm_compute in
  (
    let main := pica [] [] in
    plays [(lit "DUMP.dat.gz", gz_enc dump)]
    [run main [lit "count"; lit "-s"; lit "--fields"; lit "DUMP.dat.gz"]
      [] (Some 0) (bytes_eqb (lit "1035" ++ [10]))]).
Example count_count_write_fields : count_count_write_fields_run = true.
Proof. reflexivity. Qed.

(** /repo/crates/pica-cli/tests/count/mod.rs:168-182 *)
Definition count_count_write_subfields_run : bool := Eval vm_compute in
  (
    let main := pica [] [] in
    plays [(lit "DUMP.dat.gz", gz_enc dump)]
    [run main [lit "count"; lit "-s"; lit "--subfields"; lit "DUMP.dat.gz"]
      [] (Some 0) (bytes_eqb (lit "3973" ++ [10]))]).
Example count_count_write_subfields : count_count_write_subfields_run = true.
Proof. reflexivity. Qed.

(** /repo/crates/pica-cli/tests/count/mod.rs:185-211 *)
Definition count_count_write_no_header_run : bool := Eval vm_compute in
  (
    let main := pica [] [] in
    plays [(lit "DUMP.dat.gz", gz_enc dump)]
    [run main [lit "count"; lit "-s"; lit "--csv"; lit "--no-header"; lit "DUMP.dat.gz"]
      [] (Some 0) (bytes_eqb (lit "12,1035,3973" ++ [10]));
     run main [lit "count"; lit "-s"; lit "--tsv"; lit "--no-header"; lit "DUMP.dat.gz"]
      [] (Some 0) (bytes_eqb (lit "12" ++ [9] ++ lit "1035" ++ [9] ++ lit "3973" ++ [10]))]).
Example count_count_write_no_header : count_count_write_no_header_run = true.
Proof. reflexivity. Qed.

(** /repo/crates/pica-cli/tests/count/mod.rs:214-229 *)
Definition count_count_where_run : bool := Eval vm_compute in
  (
    let main := pica [] [] in
    plays [(lit "DUMP.dat.gz", gz_enc dump)]
    [run main [lit "count"; lit "-s"; lit "--records"; lit "--where"; lit "002@.0 =^ 'Tp'"; lit "DUMP.dat.gz"]
      [] (Some 0) (bytes_eqb (lit "2" ++ [10]))]).
Example count_count_where : count_count_where_run = true.
Proof. reflexivity. Qed.

(** /repo/crates/pica-cli/tests/count/mod.rs:232-248 *)
Definition count_count_where_and_run : bool := Eval vm_compute in
  (
    let main := pica [] [] in
    plays [(lit "DUMP.dat.gz", gz_enc dump)]
    [run main [lit "count"; lit "-s"; lit "--records"; lit "--where"; lit "002@.0 =^ 'T'"; lit "--and"; lit "002@.0 =$ 'z'"; lit "DUMP.dat.gz"]
      [] (Some 0) (bytes_eqb (lit "3" ++ [10]))]).
Example count_count_where_and : count_count_where_and_run = true.
Proof. reflexivity. Qed.

(** /repo/crates/pica-cli/tests/count/mod.rs:251-267 *)
Definition count_count_where_not_run : bool := Eval vm_compute in
  (
    let main := pica [] [] in
    plays [(lit "DUMP.dat.gz", gz_enc dump)]
    [run main [lit "count"; lit "-s"; lit "--records"; lit "--where"; lit "002@.0 =^ 'Tp'"; lit "--not"; lit "002@.0 =$ 'z'"; lit "DUMP.dat.gz"]
      [] (Some 0) (bytes_eqb (lit "1" ++ [10]))]).
Example count_count_where_not : count_count_where_not_run = true.
Proof. reflexivity. Qed.

(** /repo/crates/pica-cli/tests/count/mod.rs:270-286 *)
Definition count_count_where_or_run : bool := Eval vm_compute in
  (
    let main := pica [] [] in
    plays [(lit "DUMP.dat.gz", gz_enc dump)]
    [run main [lit "count"; lit "-s"; lit "--records"; lit "--where"; lit "002@.0 =^ 'Tp'"; lit "--or"; lit "002@.0 =^ 'Ts'"; lit "DUMP.dat.gz"]
      [] (Some 0) (bytes_eqb (lit "5" ++ [10]))]).
Example count_count_where_or : count_count_where_or_run = true.
Proof. reflexivity. Qed.

(** /repo/crates/pica-cli/tests/count/mod.rs:289-310 *)
Definition count_count_allow_run : bool := Eval vm_compute in
  (
    let lists := [((lit "ppn" ++ [10] ++ lit "118540238" ++ [10] ++ lit "118607626" ++ [10]), [(lit "ppn", [Some (lit "118540238"); Some (lit "118607626")])])] in
    let main := pica lists [] in
    plays [(lit "DUMP.dat.gz", gz_enc dump)]
    [write (lit "d1/allow.csv") (lit "ppn" ++ [10] ++ lit "118540238" ++ [10] ++ lit "118607626" ++ [10]);
     run main [lit "count"; lit "-s"; lit "--records"; lit "-A"; lit "d1/allow.csv"; lit "DUMP.dat.gz"]
      [] (Some 0) (bytes_eqb (lit "2" ++ [10]))]).
Example count_count_allow : count_count_allow_run = true.
Proof. reflexivity. Qed.

(** /repo/crates/pica-cli/tests/count/mod.rs:313-334 *)
Definition count_count_deny_run : bool := Eval vm_compute in
  (
    let lists := [((lit "ppn" ++ [10] ++ lit "118540238" ++ [10] ++ lit "118607626" ++ [10]), [(lit "ppn", [Some (lit "118540238"); Some (lit "118607626")])])] in
    let main := pica lists [] in
    plays [(lit "DUMP.dat.gz", gz_enc dump)]
    [write (lit "d1/allow.csv") (lit "ppn" ++ [10] ++ lit "118540238" ++ [10] ++ lit "118607626" ++ [10]);
     run main [lit "count"; lit "-s"; lit "--records"; lit "-D"; lit "d1/allow.csv"; lit "DUMP.dat.gz"]
      [] (Some 0) (bytes_eqb (lit "10" ++ [10]))]).
Example count_count_deny : count_count_deny_run = true.
Proof. reflexivity. Qed.

(** /repo/crates/pica-cli/tests/count/mod.rs:337-359 *)
Definition count_count_filter_set_column_run : bool := Eval vm_compute in
  (
    let lists := [((lit "id" ++ [10] ++ lit "118540238" ++ [10] ++ lit "118607626" ++ [10]), [(lit "id", [Some (lit "118540238"); Some (lit "118607626")])])] in
    let main := pica lists [] in
    plays [(lit "DUMP.dat.gz", gz_enc dump)]
    [write (lit "d1/allow.csv") (lit "id" ++ [10] ++ lit "118540238" ++ [10] ++ lit "118607626" ++ [10]);
     run main [lit "count"; lit "-s"; lit "--records"; lit "-A"; lit "d1/allow.csv"; lit "--filter-set-column"; lit "id"; lit "DUMP.dat.gz"]
      [] (Some 0) (bytes_eqb (lit "2" ++ [10]))]).
Example count_count_filter_set_column : count_count_filter_set_column_run = true.
Proof. reflexivity. Qed.

(** /repo/crates/pica-cli/tests/count/mod.rs:362-385 *)
Definition count_count_filter_set_source_run : bool := Eval vm_compute in
  (
    let lists := [((lit "bbg" ++ [10] ++ lit "Tpz" ++ [10] ++ lit "Tp1" ++ [10]), [(lit "bbg", [Some (lit "Tpz"); Some (lit "Tp1")])])] in
    let main := pica lists [] in
    plays [(lit "DUMP.dat.gz", gz_enc dump)]
    [write (lit "d1/allow.csv") (lit "bbg" ++ [10] ++ lit "Tpz" ++ [10] ++ lit "Tp1" ++ [10]);
     run main [lit "count"; lit "-s"; lit "--records"; lit "-A"; lit "d1/allow.csv"; lit "--filter-set-source"; lit "002@.0"; lit "--filter-set-column"; lit "bbg"; lit "DUMP.dat.gz"]
      [] (Some 0) (bytes_eqb (lit "2" ++ [10]))]).
Example count_count_filter_set_source : count_count_filter_set_source_run = true.
Proof. reflexivity. Qed.

(** /repo/crates/pica-cli/tests/count/mod.rs:388-403 *)
Definition count_count_ignore_case_run : bool := Eval vm_compute in
  (
    let main := pica [] [] in
    plays [(lit "DUMP.dat.gz", gz_enc dump)]
    [run main [lit "count"; lit "-s"; lit "--records"; lit "-i"; lit "--where"; lit "002@.0 =^ 'tp'"; lit "DUMP.dat.gz"]
      [] (Some 0) (bytes_eqb (lit "2" ++ [10]))]).
Example count_count_ignore_case : count_count_ignore_case_run = true.
Proof. reflexivity. Qed.

(** /repo/crates/pica-cli/tests/count/mod.rs:406-434 *)
Definition count_count_skip_invalid_run : bool := Eval vm_compute in
  (
    let main := pica [] [] in
    plays [(lit "invalid.dat", invalid_dat)]
    [run main [lit "count"; lit "-s"; lit "--records"; lit "invalid.dat"]
      [] (Some 0) (bytes_eqb (lit "0" ++ [10]));
     run main [lit "count"; lit "--records"; lit "invalid.dat"]
      [] (Some 2) (bytes_eqb [])]).
Example count_count_skip_invalid : count_count_skip_invalid_run = true.
Proof. reflexivity. Qed.

(** * Integration tests of explode

    /repo/crates/pica-cli/tests/explode, see [ConfCli.v]. *)

From Coq Require Import String ZArith.
From Verif Require Import Bytes Winnow RecordModel TagOccModel MatcherModel StateParser PathModel CliModel TableModel
  CheckModel RuleModel
  ConfBase ConfData ConfDump ConfCli.

(** /repo/crates/pica-cli/tests/explode/mod.rs:9-24 *)
Definition explode_explode_stdout_run : bool := Eval vm_compute in
  (
    let main := pica [] [] in
    plays [(lit "ada.dat", ada)]
    [run main [lit "explode"; lit "main"; lit "ada.dat"]
      [] (Some 0) (bytes_eqb ada)]).
Example explode_explode_stdout : explode_explode_stdout_run = true.
Proof. reflexivity. Qed.

(** /repo/crates/pica-cli/tests/explode/mod.rs:27-51 *)
Definition explode_explode_local_run : bool := Eval vm_compute in
  (
    let main := pica [] [] in
    plays [(lit "COPY.dat.gz", gz_enc copy)]
    [run main [lit "explode"; lit "local"; lit "COPY.dat.gz"]
      [] (Some 0) (bytes_eqb (lit "003@ " ++ [31] ++ lit "0123456789" ++ [30] ++ lit "002@ " ++ [31] ++ lit "0Abvz" ++ [30] ++ lit "101@ " ++ [31] ++ lit "a1" ++ [30] ++ lit "203@/01 " ++ [31] ++ lit "00123456789" ++ [30] ++ lit "203@/02 " ++ [31] ++ lit "01234567890" ++ [30; 10] ++ lit "003@ " ++ [31] ++ lit "0123456789" ++ [30] ++ lit "002@ " ++ [31] ++ lit "0Abvz" ++ [30] ++ lit "101@ " ++ [31] ++ lit "a2" ++ [30] ++ lit "203@/01 " ++ [31] ++ lit "0345678901" ++ [30; 10]))]).
Example explode_explode_local : explode_explode_local_run = true.
Proof. reflexivity. Qed.

(** /repo/crates/pica-cli/tests/explode/mod.rs:54-81 *)
Definition explode_explode_copy_run : bool := Eval vm_compute in
  (
    let main := pica [] [] in
    plays [(lit "COPY.dat.gz", gz_enc copy)]
    [run main [lit "explode"; lit "copy"; lit "COPY.dat.gz"]
      [] (Some 0) (bytes_eqb (lit "003@ " ++ [31] ++ lit "0123456789" ++ [30] ++ lit "002@ " ++ [31] ++ lit "0Abvz" ++ [30] ++ lit "101@ " ++ [31] ++ lit "a1" ++ [30] ++ lit "203@/01 " ++ [31] ++ lit "00123456789" ++ [30; 10] ++ lit "003@ " ++ [31] ++ lit "0123456789" ++ [30] ++ lit "002@ " ++ [31] ++ lit "0Abvz" ++ [30] ++ lit "101@ " ++ [31] ++ lit "a1" ++ [30] ++ lit "203@/02 " ++ [31] ++ lit "01234567890" ++ [30; 10] ++ lit "003@ " ++ [31] ++ lit "0123456789" ++ [30] ++ lit "002@ " ++ [31] ++ lit "0Abvz" ++ [30] ++ lit "101@ " ++ [31] ++ lit "a2" ++ [30] ++ lit "203@/01 " ++ [31] ++ lit "0345678901" ++ [30; 10]))]).
Example explode_explode_copy : explode_explode_copy_run = true.
Proof. reflexivity. Qed.

(** /repo/crates/pica-cli/tests/explode/mod.rs:84-107 *)
Definition explode_explode_output_run : bool := Eval vm_compute in
  (
    let main := pica [] [] in
    plays [(lit "ada.dat", ada)]
    [run main [lit "explode"; lit "main"; lit "-o"; lit "d1/out.dat"; lit "ada.dat"]
      [] (Some 0) (bytes_eqb []);
     file_is (lit "d1/out.dat") ada]).
Example explode_explode_output : explode_explode_output_run = true.
Proof. reflexivity. Qed.

(** /repo/crates/pica-cli/tests/explode/mod.rs:110-161 *)
Definition explode_explode_gzip_run : bool := Eval vm_compute in
  (
    let main := pica [] [] in
    plays [(lit "ada.dat", ada)]
    [run main [lit "explode"; lit "main"; lit "-o"; lit "d1/out.dat.gz"; lit "ada.dat"]
      [] (Some 0) (bytes_eqb []);
     run main [lit "concat"; lit "d1/out.dat.gz"]
      [] (Some 0) (bytes_eqb ada);
     run main [lit "explode"; lit "--gzip"; lit "main"; lit "-o"; lit "d1/out.dat.gz"; lit "ada.dat"]
      [] (Some 0) (bytes_eqb []);
     run main [lit "concat"; lit "d1/out.dat.gz"]
      [] (Some 0) (bytes_eqb ada)]).
Example explode_explode_gzip : explode_explode_gzip_run = true.
Proof. reflexivity. Qed.

(** /repo/crates/pica-cli/tests/explode/mod.rs:164-232 *)
Definition explode_explode_limit_run : bool := Eval vm_compute in
  (
    let main := pica [] [] in
    plays [(lit "COPY.dat.gz", gz_enc copy)]
    [run main [lit "explode"; lit "copy"; lit "--limit"; lit "2"; lit "COPY.dat.gz"]
      [] (Some 0) (bytes_eqb (lit "003@ " ++ [31] ++ lit "0123456789" ++ [30] ++ lit "002@ " ++ [31] ++ lit "0Abvz" ++ [30] ++ lit "101@ " ++ [31] ++ lit "a1" ++ [30] ++ lit "203@/01 " ++ [31] ++ lit "00123456789" ++ [30; 10] ++ lit "003@ " ++ [31] ++ lit "0123456789" ++ [30] ++ lit "002@ " ++ [31] ++ lit "0Abvz" ++ [30] ++ lit "101@ " ++ [31] ++ lit "a1" ++ [30] ++ lit "203@/02 " ++ [31] ++ lit "01234567890" ++ [30; 10]));
     run main [lit "explode"; lit "copy"; lit "--limit"; lit "1"; lit "COPY.dat.gz"]
      [] (Some 0) (bytes_eqb (lit "003@ " ++ [31] ++ lit "0123456789" ++ [30] ++ lit "002@ " ++ [31] ++ lit "0Abvz" ++ [30] ++ lit "101@ " ++ [31] ++ lit "a1" ++ [30] ++ lit "203@/01 " ++ [31] ++ lit "00123456789" ++ [30; 10]));
     run main [lit "explode"; lit "copy"; lit "--limit"; lit "0"; lit "COPY.dat.gz"]
      [] (Some 0) (bytes_eqb (lit "003@ " ++ [31] ++ lit "0123456789" ++ [30] ++ lit "002@ " ++ [31] ++ lit "0Abvz" ++ [30] ++ lit "101@ " ++ [31] ++ lit "a1" ++ [30] ++ lit "203@/01 " ++ [31] ++ lit "00123456789" ++ [30; 10] ++ lit "003@ " ++ [31] ++ lit "0123456789" ++ [30] ++ lit "002@ " ++ [31] ++ lit "0Abvz" ++ [30] ++ lit "101@ " ++ [31] ++ lit "a1" ++ [30] ++ lit "203@/02 " ++ [31] ++ lit "01234567890" ++ [30; 10] ++ lit "003@ " ++ [31] ++ lit "0123456789" ++ [30] ++ lit "002@ " ++ [31] ++ lit "0Abvz" ++ [30] ++ lit "101@ " ++ [31] ++ lit "a2" ++ [30] ++ lit "203@/01 " ++ [31] ++ lit "0345678901" ++ [30; 10]))]).
Example explode_explode_limit : explode_explode_limit_run = true.
Proof. reflexivity. Qed.

(** /repo/crates/pica-cli/tests/explode/mod.rs:235-277 *)
Definition explode_explode_skip_invalid_run : bool := Eval vm_compute in
  (
    let main := pica [] [] in
    plays [(lit "ada.dat", ada); (lit "invalid.dat", invalid_dat)]
    [run main [lit "explode"; lit "-s"; lit "main"; lit "invalid.dat"]
      [] (Some 0) (bytes_eqb []);
     run main [lit "explode"; lit "main"; lit "invalid.dat"]
      [] (Some 2) (bytes_eqb []);
     run main [lit "explode"; lit "-s"; lit "main"; lit "invalid.dat"; lit "ada.dat"]
      [] (Some 0) (bytes_eqb ada)]).
Example explode_explode_skip_invalid : explode_explode_skip_invalid_run = true.
Proof. reflexivity. Qed.

(** /repo/crates/pica-cli/tests/explode/mod.rs:280-304 *)
Definition explode_explode_where_run : bool := Eval vm_compute in
  (
    let main := pica [] [] in
    plays [(lit "COPY.dat.gz", gz_enc copy)]
    [run main [lit "explode"; lit "copy"; lit "--where"; lit "101@.a == '1'"; lit "COPY.dat.gz"]
      [] (Some 0) (bytes_eqb (lit "003@ " ++ [31] ++ lit "0123456789" ++ [30] ++ lit "002@ " ++ [31] ++ lit "0Abvz" ++ [30] ++ lit "101@ " ++ [31] ++ lit "a1" ++ [30] ++ lit "203@/01 " ++ [31] ++ lit "00123456789" ++ [30; 10] ++ lit "003@ " ++ [31] ++ lit "0123456789" ++ [30] ++ lit "002@ " ++ [31] ++ lit "0Abvz" ++ [30] ++ lit "101@ " ++ [31] ++ lit "a1" ++ [30] ++ lit "203@/02 " ++ [31] ++ lit "01234567890" ++ [30; 10]))]).
Example explode_explode_where : explode_explode_where_run = true.
Proof. reflexivity. Qed.

(** /repo/crates/pica-cli/tests/explode/mod.rs:307-332 *)
Definition explode_explode_where_and_run : bool := Eval vm_compute in
  (
    let main := pica [] [] in
    plays [(lit "COPY.dat.gz", gz_enc copy)]
    [run main [lit "explode"; lit "copy"; lit "--where"; lit "101@.a == '1'"; lit "--and"; lit "002@.0 == 'Abvz'"; lit "COPY.dat.gz"]
      [] (Some 0) (bytes_eqb (lit "003@ " ++ [31] ++ lit "0123456789" ++ [30] ++ lit "002@ " ++ [31] ++ lit "0Abvz" ++ [30] ++ lit "101@ " ++ [31] ++ lit "a1" ++ [30] ++ lit "203@/01 " ++ [31] ++ lit "00123456789" ++ [30; 10] ++ lit "003@ " ++ [31] ++ lit "0123456789" ++ [30] ++ lit "002@ " ++ [31] ++ lit "0Abvz" ++ [30] ++ lit "101@ " ++ [31] ++ lit "a1" ++ [30] ++ lit "203@/02 " ++ [31] ++ lit "01234567890" ++ [30; 10]))]).
Example explode_explode_where_and : explode_explode_where_and_run = true.
Proof. reflexivity. Qed.

(** /repo/crates/pica-cli/tests/explode/mod.rs:335-357 *)
Definition explode_explode_where_and_not_run : bool := Eval vm_compute in
  (
    let main := pica [] [] in
    plays [(lit "COPY.dat.gz", gz_enc copy)]
    [run main [lit "explode"; lit "copy"; lit "--where"; lit "101@.a == '1'"; lit "--and"; lit "002@.0 == 'Abvz'"; lit "--not"; lit "203@/*.0 == '1234567890'"; lit "COPY.dat.gz"]
      [] (Some 0) (bytes_eqb (lit "003@ " ++ [31] ++ lit "0123456789" ++ [30] ++ lit "002@ " ++ [31] ++ lit "0Abvz" ++ [30] ++ lit "101@ " ++ [31] ++ lit "a1" ++ [30] ++ lit "203@/01 " ++ [31] ++ lit "00123456789" ++ [30; 10]))]).
Example explode_explode_where_and_not : explode_explode_where_and_not_run = true.
Proof. reflexivity. Qed.

(** /repo/crates/pica-cli/tests/explode/mod.rs:360-381 *)
Definition explode_explode_where_not_run : bool := Eval vm_compute in
  (
    let main := pica [] [] in
    plays [(lit "COPY.dat.gz", gz_enc copy)]
    [run main [lit "explode"; lit "copy"; lit "--where"; lit "101@.a == '1'"; lit "--not"; lit "203@/*.0 =$ '0'"; lit "COPY.dat.gz"]
      [] (Some 0) (bytes_eqb (lit "003@ " ++ [31] ++ lit "0123456789" ++ [30] ++ lit "002@ " ++ [31] ++ lit "0Abvz" ++ [30] ++ lit "101@ " ++ [31] ++ lit "a1" ++ [30] ++ lit "203@/01 " ++ [31] ++ lit "00123456789" ++ [30; 10]))]).
Example explode_explode_where_not : explode_explode_where_not_run = true.
Proof. reflexivity. Qed.

(** /repo/crates/pica-cli/tests/explode/mod.rs:384-409 *)
Definition explode_explode_where_or_run : bool := Eval vm_compute in
  (
    let main := pica [] [] in
    plays [(lit "COPY.dat.gz", gz_enc copy)]
    [run main [lit "explode"; lit "copy"; lit "--where"; lit "203@/*.0 == '0123456789'"; lit "--or"; lit "203@/*.0 == '345678901'"; lit "COPY.dat.gz"]
      [] (Some 0) (bytes_eqb (lit "003@ " ++ [31] ++ lit "0123456789" ++ [30] ++ lit "002@ " ++ [31] ++ lit "0Abvz" ++ [30] ++ lit "101@ " ++ [31] ++ lit "a1" ++ [30] ++ lit "203@/01 " ++ [31] ++ lit "00123456789" ++ [30; 10] ++ lit "003@ " ++ [31] ++ lit "0123456789" ++ [30] ++ lit "002@ " ++ [31] ++ lit "0Abvz" ++ [30] ++ lit "101@ " ++ [31] ++ lit "a2" ++ [30] ++ lit "203@/01 " ++ [31] ++ lit "0345678901" ++ [30; 10]))]).
Example explode_explode_where_or : explode_explode_where_or_run = true.
Proof. reflexivity. Qed.

(** /repo/crates/pica-cli/tests/explode/mod.rs:412-435 *)
Definition explode_explode_allow_run : bool := Eval vm_compute in
  (
    let lists := [((lit "ppn" ++ [10] ++ lit "123456789" ++ [10]), [(lit "ppn", [Some (lit "123456789")])])] in
    let main := pica lists [] in
    plays [(lit "COPY.dat.gz", gz_enc copy)]
    [write (lit "d1/ALLOW.csv") (lit "ppn" ++ [10] ++ lit "123456789" ++ [10]);
     run main [lit "explode"; lit "main"; lit "-A"; lit "d1/ALLOW.csv"; lit "COPY.dat.gz"]
      [] (Some 0) (bytes_eqb (lit "003@ " ++ [31] ++ lit "0123456789" ++ [30] ++ lit "002@ " ++ [31] ++ lit "0Abvz" ++ [30] ++ lit "101@ " ++ [31] ++ lit "a1" ++ [30] ++ lit "203@/01 " ++ [31] ++ lit "00123456789" ++ [30] ++ lit "203@/02 " ++ [31] ++ lit "01234567890" ++ [30] ++ lit "101@ " ++ [31] ++ lit "a2" ++ [30] ++ lit "203@/01 " ++ [31] ++ lit "0345678901" ++ [30; 10]))]).
Example explode_explode_allow : explode_explode_allow_run = true.
Proof. reflexivity. Qed.

(** /repo/crates/pica-cli/tests/explode/mod.rs:438-457 *)
Definition explode_explode_deny_run : bool := Eval vm_compute in
  (
    let lists := [((lit "ppn" ++ [10] ++ lit "123456789" ++ [10]), [(lit "ppn", [Some (lit "123456789")])])] in
    let main := pica lists [] in
    plays [(lit "COPY.dat.gz", gz_enc copy)]
    [write (lit "d1/ALLOW.csv") (lit "ppn" ++ [10] ++ lit "123456789" ++ [10]);
     run main [lit "explode"; lit "main"; lit "-D"; lit "d1/ALLOW.csv"; lit "COPY.dat.gz"]
      [] (Some 0) (bytes_eqb [])]).
Example explode_explode_deny : explode_explode_deny_run = true.
Proof. reflexivity. Qed.

(** /repo/crates/pica-cli/tests/explode/mod.rs:460-484 *)
Definition explode_explode_filter_set_column_run : bool := Eval vm_compute in
  (
    let lists := [((lit "id" ++ [10] ++ lit "123456789" ++ [10]), [(lit "id", [Some (lit "123456789")])])] in
    let main := pica lists [] in
    plays [(lit "COPY.dat.gz", gz_enc copy)]
    [write (lit "d1/ALLOW.csv") (lit "id" ++ [10] ++ lit "123456789" ++ [10]);
     run main [lit "explode"; lit "main"; lit "-A"; lit "d1/ALLOW.csv"; lit "--filter-set-column"; lit "id"; lit "COPY.dat.gz"]
      [] (Some 0) (bytes_eqb (lit "003@ " ++ [31] ++ lit "0123456789" ++ [30] ++ lit "002@ " ++ [31] ++ lit "0Abvz" ++ [30] ++ lit "101@ " ++ [31] ++ lit "a1" ++ [30] ++ lit "203@/01 " ++ [31] ++ lit "00123456789" ++ [30] ++ lit "203@/02 " ++ [31] ++ lit "01234567890" ++ [30] ++ lit "101@ " ++ [31] ++ lit "a2" ++ [30] ++ lit "203@/01 " ++ [31] ++ lit "0345678901" ++ [30; 10]))]).
Example explode_explode_filter_set_column : explode_explode_filter_set_column_run = true.
Proof. reflexivity. Qed.

(** /repo/crates/pica-cli/tests/explode/mod.rs:487-511 *)
Definition explode_explode_filter_set_source_run : bool := Eval vm_compute in
  (
    let lists := [((lit "eln" ++ [10] ++ lit "345678901" ++ [10]), [(lit "eln", [Some (lit "345678901")])])] in
    let main := pica lists [] in
    plays [(lit "COPY.dat.gz", gz_enc copy)]
    [write (lit "d1/ALLOW.csv") (lit "eln" ++ [10] ++ lit "345678901" ++ [10]);
     run main [lit "explode"; lit "copy"; lit "-A"; lit "d1/ALLOW.csv"; lit "--filter-set-source"; lit "203@/*.0"; lit "--filter-set-column"; lit "eln"; lit "COPY.dat.gz"]
      [] (Some 0) (bytes_eqb (lit "003@ " ++ [31] ++ lit "0123456789" ++ [30] ++ lit "002@ " ++ [31] ++ lit "0Abvz" ++ [30] ++ lit "101@ " ++ [31] ++ lit "a2" ++ [30] ++ lit "203@/01 " ++ [31] ++ lit "0345678901" ++ [30; 10]))]).
Example explode_explode_filter_set_source : explode_explode_filter_set_source_run = true.
Proof. reflexivity. Qed.

(** /repo/crates/pica-cli/tests/explode/mod.rs:514-537 *)
Definition explode_explode_keep_run : bool := Eval vm_compute in
  (
    let main := pica [] [] in
    plays [(lit "COPY.dat.gz", gz_enc copy)]
    [run main [lit "explode"; lit "local"; lit "--keep"; lit "003@,101@,203@/*"; lit "COPY.dat.gz"]
      [] (Some 0) (bytes_eqb (lit "003@ " ++ [31] ++ lit "0123456789" ++ [30] ++ lit "101@ " ++ [31] ++ lit "a1" ++ [30] ++ lit "203@/01 " ++ [31] ++ lit "00123456789" ++ [30] ++ lit "203@/02 " ++ [31] ++ lit "01234567890" ++ [30; 10] ++ lit "003@ " ++ [31] ++ lit "0123456789" ++ [30] ++ lit "101@ " ++ [31] ++ lit "a2" ++ [30] ++ lit "203@/01 " ++ [31] ++ lit "0345678901" ++ [30; 10]))]).
Example explode_explode_keep : explode_explode_keep_run = true.
Proof. reflexivity. Qed.

(** /repo/crates/pica-cli/tests/explode/mod.rs:540-563 *)
Definition explode_explode_discard_run : bool := Eval vm_compute in
  (
    let main := pica [] [] in
    plays [(lit "COPY.dat.gz", gz_enc copy)]
    [run main [lit "explode"; lit "local"; lit "--discard"; lit "002@"; lit "COPY.dat.gz"]
      [] (Some 0) (bytes_eqb (lit "003@ " ++ [31] ++ lit "0123456789" ++ [30] ++ lit "101@ " ++ [31] ++ lit "a1" ++ [30] ++ lit "203@/01 " ++ [31] ++ lit "00123456789" ++ [30] ++ lit "203@/02 " ++ [31] ++ lit "01234567890" ++ [30; 10] ++ lit "003@ " ++ [31] ++ lit "0123456789" ++ [30] ++ lit "101@ " ++ [31] ++ lit "a2" ++ [30] ++ lit "203@/01 " ++ [31] ++ lit "0345678901" ++ [30; 10]))]).
Example explode_explode_discard : explode_explode_discard_run = true.
Proof. reflexivity. Qed.

(** * Integration tests of convert

    /repo/crates/pica-cli/tests/convert, see [ConfCli.v]. *)

From Coq Require Import String ZArith.
From Verif Require Import Bytes Winnow RecordModel TagOccModel MatcherModel StateParser PathModel CliModel TableModel
  CheckModel RuleModel
  ConfBase ConfData ConfDump ConfCli.

(** /repo/crates/pica-cli/tests/convert/mod.rs:10-37 *)
Definition convert_convert_from_plus_to_xml_run : bool := Eval vm_compute in
  (
    let main := pica [] [] in
    plays [(lit "ada.dat", ada); (lit "ada.xml", ada_xml)]
    [run main [lit "convert"; lit "--from"; lit "plus"; lit "--to"; lit "xml"; lit "-o"; lit "d1/ada.xml"; lit "ada.dat"]
      [] (Some 0) (bytes_eqb []);
     file_is (lit "d1/ada.xml") ada_xml]).
Example convert_convert_from_plus_to_xml : convert_convert_from_plus_to_xml_run = true.
Proof. reflexivity. Qed.

(** /repo/crates/pica-cli/tests/convert/mod.rs:40-63 *)
Definition convert_convert_from_plus_to_json_run : bool := Eval vm_compute in
  (
    let main := pica [] [] in
    plays [(lit "ada.dat", ada); (lit "ada.json", ada_json)]
    [run main [lit "convert"; lit "--from"; lit "plus"; lit "--to"; lit "json"; lit "-o"; lit "d1/ada.json"; lit "ada.dat"]
      [] (Some 0) (bytes_eqb []);
     file_is (lit "d1/ada.json") ada_json]).
Example convert_convert_from_plus_to_json : convert_convert_from_plus_to_json_run = true.
Proof. reflexivity. Qed.

(** /repo/crates/pica-cli/tests/convert/mod.rs:66-91 *)
Definition convert_convert_from_plus_to_plus_run : bool := Eval vm_compute in
  (
    let main := pica [] [] in
    plays [(lit "ada.dat", ada)]
    [run main [lit "convert"; lit "--from"; lit "plus"; lit "--to"; lit "plus"; lit "-o"; lit "d1/ada.dat"; lit "ada.dat"]
      [] (Some 0) (bytes_eqb []);
     file_is (lit "d1/ada.dat") ada]).
Example convert_convert_from_plus_to_plus : convert_convert_from_plus_to_plus_run = true.
Proof. reflexivity. Qed.

(** /repo/crates/pica-cli/tests/convert/mod.rs:94-121 *)
Definition convert_convert_from_plus_to_plain_run : bool := Eval vm_compute in
  (
    let main := pica [] [] in
    plays [(lit "ada.dat", ada); (lit "ada.plain", ada_plain)]
    [run main [lit "convert"; lit "--from"; lit "plus"; lit "--to"; lit "plain"; lit "-o"; lit "d1/ada.plain"; lit "ada.dat"]
      [] (Some 0) (bytes_eqb []);
     file_is (lit "d1/ada.plain") ada_plain]).
Example convert_convert_from_plus_to_plain : convert_convert_from_plus_to_plain_run = true.
Proof. reflexivity. Qed.

(** /repo/crates/pica-cli/tests/convert/mod.rs:124-149 *)
Definition convert_convert_from_plus_to_import_run : bool := Eval vm_compute in
  (
    let main := pica [] [] in
    plays [(lit "ada.dat", ada); (lit "ada.import", ada_import)]
    [run main [lit "convert"; lit "--from"; lit "plus"; lit "--to"; lit "import"; lit "-o"; lit "d1/ada.import"; lit "ada.dat"]
      [] (Some 0) (bytes_eqb []);
     file_is (lit "d1/ada.import") ada_import]).
Example convert_convert_from_plus_to_import : convert_convert_from_plus_to_import_run = true.
Proof. reflexivity. Qed.

(** /repo/crates/pica-cli/tests/convert/mod.rs:152-177 *)
Definition convert_convert_from_plus_to_binary_run : bool := Eval vm_compute in
  (
    let main := pica [] [] in
    plays [(lit "ada.bin", ada_bin); (lit "ada.dat", ada)]
    [run main [lit "convert"; lit "--from"; lit "plus"; lit "--to"; lit "binary"; lit "-o"; lit "d1/ada.bin"; lit "ada.dat"]
      [] (Some 0) (bytes_eqb []);
     file_is (lit "d1/ada.bin") ada_bin]).
Example convert_convert_from_plus_to_binary : convert_convert_from_plus_to_binary_run = true.
Proof. reflexivity. Qed.

(** /repo/crates/pica-cli/tests/convert/mod.rs:180-210 *)
Definition convert_convert_skip_invalid_run : bool := Eval vm_compute in
  (
    let main := pica [] [] in
    plays [(lit "invalid.dat", invalid_dat)]
    [run main [lit "convert"; lit "-s"; lit "--from"; lit "plus"; lit "--to"; lit "json"; lit "invalid.dat"]
      [] (Some 0) (bytes_eqb (lit "[]"));
     run main [lit "convert"; lit "--from"; lit "plus"; lit "--to"; lit "json"; lit "invalid.dat"]
      [] (Some 2) nonempty]).
Example convert_convert_skip_invalid : convert_convert_skip_invalid_run = true.
Proof. reflexivity. Qed.

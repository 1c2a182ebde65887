(** * Integration tests of config

    /repo/crates/pica-cli/tests/config, see [ConfCli.v]. *)

From Coq Require Import String ZArith.
From Verif Require Import Bytes Winnow RecordModel TagOccModel MatcherModel StateParser PathModel CliModel TableModel
  CheckModel RuleModel
  ConfBase ConfData ConfDump ConfCli.

(** /repo/crates/pica-cli/tests/config/mod.rs:10-36 *)
Definition config_set_option_run : bool := Eval vm_compute in
  (
    let main := pica [] [] in
    plays []
    [run main [lit "--config"; lit "d1/pica.toml"; lit "config"; lit "skip-invalid"; lit "true"]
      [] (Some 0) (bytes_eqb []);
     file_with (lit "d1/pica.toml") (contains (lit "skip-invalid = true"))]).
Example config_set_option : config_set_option_run = true.
Proof. reflexivity. Qed.

(** /repo/crates/pica-cli/tests/config/mod.rs:39-84 *)
Definition config_get_option_run : bool := Eval vm_compute in
  (
    let main := pica [] [] in
    plays []
    [run main [lit "--config"; lit "d1/pica.toml"; lit "config"; lit "skip-invalid"]
      [] (Some 0) (contains (lit "false"));
     run main [lit "--config"; lit "d1/pica.toml"; lit "config"; lit "skip-invalid"; lit "true"]
      [] (Some 0) (bytes_eqb []);
     run main [lit "--config"; lit "d1/pica.toml"; lit "config"; lit "skip-invalid"]
      [] (Some 0) (contains (lit "true"))]).
Example config_get_option : config_get_option_run = true.
Proof. reflexivity. Qed.

(** /repo/crates/pica-cli/tests/config/mod.rs:87-158 *)
Definition config_unset_option_run : bool := Eval vm_compute in
  (
    let main := pica [] [] in
    plays []
    [run main [lit "--config"; lit "d1/pica.toml"; lit "config"; lit "normalization"]
      [] (Some 0) (contains (lit "None"));
     run main [lit "--config"; lit "d1/pica.toml"; lit "config"; lit "normalization"; lit "nfd"]
      [] (Some 0) (bytes_eqb []);
     run main [lit "--config"; lit "d1/pica.toml"; lit "config"; lit "normalization"]
      [] (Some 0) (contains (lit "nfd"));
     run main [lit "--config"; lit "d1/pica.toml"; lit "config"; lit "--unset"; lit "normalization"]
      [] (Some 0) (bytes_eqb []);
     run main [lit "--config"; lit "d1/pica.toml"; lit "config"; lit "--get"; lit "normalization"]
      [] (Some 0) (contains (lit "None"))]).
Example config_unset_option : config_unset_option_run = true.
Proof. reflexivity. Qed.

(** /repo/crates/pica-cli/tests/config/mod.rs:161-185 *)
Definition config_invalid_option_run : bool := Eval vm_compute in
  (
    let main := pica [] [] in
    plays []
    [run main [lit "--config"; lit "d1/pica.toml"; lit "config"; lit "foobar"; lit "true"]
      [] (Some 2) (bytes_eqb []);
     file_absent (lit "d1/pica.toml")]).
Example config_invalid_option : config_invalid_option_run = true.
Proof. reflexivity. Qed.

(** * Integration tests of completions

    /repo/crates/pica-cli/tests/completions, see [ConfCli.v]. *)

From Coq Require Import String ZArith.
From Verif Require Import Bytes Winnow RecordModel TagOccModel MatcherModel StateParser PathModel CliModel TableModel
  CheckModel RuleModel
  ConfBase ConfData ConfDump ConfCli.

(** /repo/crates/pica-cli/tests/completions/mod.rs:8-29 *)
Definition completions_completions_bash_run : bool := Eval vm_compute in
  (
    let main := pica [] [] in
    plays []
    [run main [lit "completions"; lit "bash"; lit "-o"; lit "d1/pica.bash"]
      [] (Some 0) (bytes_eqb []);
     file_there (lit "d1/pica.bash")]).
Example completions_completions_bash : completions_completions_bash_run = true.
Proof. reflexivity. Qed.

(** /repo/crates/pica-cli/tests/completions/mod.rs:32-44 *)
Definition completions_completions_stdout_run : bool := Eval vm_compute in
  (
    let main := pica [] [] in
    plays []
    [run main [lit "completions"; lit "bash"]
      [] (Some 0) nonempty;
     run main [lit "completions"; lit "zsh"]
      [] (Some 0) nonempty;
     run main [lit "completions"; lit "elvish"]
      [] (Some 0) nonempty]).
Example completions_completions_stdout : completions_completions_stdout_run = true.
Proof. reflexivity. Qed.

(** /repo/crates/pica-cli/tests/completions/mod.rs:47-68 *)
Definition completions_completions_zsh_run : bool := Eval vm_compute in
  (
    let main := pica [] [] in
    plays []
    [run main [lit "completions"; lit "zsh"; lit "-o"; lit "d1/pica.zsh"]
      [] (Some 0) (bytes_eqb []);
     file_there (lit "d1/pica.zsh")]).
Example completions_completions_zsh : completions_completions_zsh_run = true.
Proof. reflexivity. Qed.

(** /repo/crates/pica-cli/tests/completions/mod.rs:71-92 *)
Definition completions_completions_elvish_run : bool := Eval vm_compute in
  (
    let main := pica [] [] in
    plays []
    [run main [lit "completions"; lit "elvish"; lit "-o"; lit "d1/elvish.sh"]
      [] (Some 0) (bytes_eqb []);
     file_there (lit "d1/elvish.sh")]).
Example completions_completions_elvish : completions_completions_elvish_run = true.
Proof. reflexivity. Qed.

(** /repo/crates/pica-cli/tests/completions/mod.rs:95-116 *)
Definition completions_completions_fish_run : bool := Eval vm_compute in
  (
    let main := pica [] [] in
    plays []
    [run main [lit "completions"; lit "fish"; lit "-o"; lit "d1/completions.fish"]
      [] (Some 0) (bytes_eqb []);
     file_there (lit "d1/completions.fish")]).
Example completions_completions_fish : completions_completions_fish_run = true.
Proof. reflexivity. Qed.

(** /repo/crates/pica-cli/tests/completions/mod.rs:119-140 *)
Definition completions_completions_powershell_run : bool := Eval vm_compute in
  (
    let main := pica [] [] in
    plays []
    [run main [lit "completions"; lit "powershell"; lit "-o"; lit "d1/completions.ps1"]
      [] (Some 0) (bytes_eqb []);
     file_there (lit "d1/completions.ps1")]).
Example completions_completions_powershell : completions_completions_powershell_run = true.
Proof. reflexivity. Qed.

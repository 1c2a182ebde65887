(** * Integration tests of frequency

    /repo/crates/pica-cli/tests/frequency, see [ConfCli.v]. *)

From Coq Require Import String ZArith.
From Verif Require Import Bytes Winnow RecordModel TagOccModel MatcherModel StateParser PathModel CliModel TableModel
  CheckModel RuleModel
  ConfBase ConfData ConfDump ConfCli.

(** /repo/crates/pica-cli/tests/frequency/mod.rs:9-26 *)
Definition frequency_frequency_stdout_run : bool := Eval vm_compute in
  (
    let main := pica [] [] in
    plays [(lit "ada.dat", ada); (lit "algebra.dat", algebra); (lit "invalid.dat", invalid_dat)]
    [run main [lit "frequency"; lit "-s"; lit "002@.0"; lit "algebra.dat"; lit "invalid.dat"; lit "ada.dat"; lit "ada.dat"]
      [] (Some 0) (bytes_eqb (lit "Tp1,2" ++ [10] ++ lit "Ts1,1" ++ [10]))]).
Example frequency_frequency_stdout : frequency_frequency_stdout_run = true.
Proof. reflexivity. Qed.

(** /repo/crates/pica-cli/tests/frequency/mod.rs:29-46 *)
Definition frequency_frequency_alias_run : bool := Eval vm_compute in
  (
    let main := pica [] [] in
    plays [(lit "ada.dat", ada); (lit "algebra.dat", algebra); (lit "invalid.dat", invalid_dat)]
    [run main [lit "freq"; lit "-s"; lit "002@.0"; lit "algebra.dat"; lit "invalid.dat"; lit "ada.dat"; lit "ada.dat"]
      [] (Some 0) (bytes_eqb (lit "Tp1,2" ++ [10] ++ lit "Ts1,1" ++ [10]))]).
Example frequency_frequency_alias : frequency_frequency_alias_run = true.
Proof. reflexivity. Qed.

(** /repo/crates/pica-cli/tests/frequency/mod.rs:49-73 *)
Definition frequency_frequency_output_run : bool := Eval vm_compute in
  (
    let main := pica [] [] in
    plays [(lit "ada.dat", ada); (lit "algebra.dat", algebra); (lit "invalid.dat", invalid_dat)]
    [run main [lit "frequency"; lit "-s"; lit "002@.0"; lit "-o"; lit "d1/freqs.csv"; lit "algebra.dat"; lit "invalid.dat"; lit "ada.dat"; lit "ada.dat"]
      [] (Some 0) (bytes_eqb []);
     file_is (lit "d1/freqs.csv") (lit "Tp1,2" ++ [10] ++ lit "Ts1,1" ++ [10])]).
Example frequency_frequency_output : frequency_frequency_output_run = true.
Proof. reflexivity. Qed.

(** /repo/crates/pica-cli/tests/frequency/mod.rs:76-104 *)
Definition frequency_frequency_skip_invalid_run : bool := Eval vm_compute in
  (
    let main := pica [] [] in
    plays [(lit "invalid.dat", invalid_dat)]
    [run main [lit "frequency"; lit "002@.0"; lit "invalid.dat"]
      [] (Some 2) (bytes_eqb []);
     run main [lit "frequency"; lit "-s"; lit "002@.0"; lit "invalid.dat"]
      [] (Some 0) (bytes_eqb [])]).
Example frequency_frequency_skip_invalid : frequency_frequency_skip_invalid_run = true.
Proof. reflexivity. Qed.

(** /repo/crates/pica-cli/tests/frequency/mod.rs:107-137 *)
Definition frequency_frequency_unique_run : bool := Eval vm_compute in
  (
    let main := pica [] [] in
    plays []
    [run main [lit "frequency"; lit "012A.0"]
      (lit "003@ " ++ [31] ++ lit "0118540238" ++ [30] ++ lit "012A " ++ [31] ++ lit "0abc" ++ [31] ++ lit "0abc" ++ [30; 10]) (Some 0) (bytes_eqb (lit "abc,2" ++ [10]));
     run main [lit "frequency"; lit "--unique"; lit "012A.0"]
      (lit "003@ " ++ [31] ++ lit "0118540238" ++ [30] ++ lit "012A " ++ [31] ++ lit "0abc" ++ [31] ++ lit "0abc" ++ [30; 10]) (Some 0) (bytes_eqb (lit "abc,1" ++ [10]))]).
Example frequency_frequency_unique : frequency_frequency_unique_run = true.
Proof. reflexivity. Qed.

(** /repo/crates/pica-cli/tests/frequency/mod.rs:140-156 *)
Definition frequency_frequency_reverse_run : bool := Eval vm_compute in
  (
    let main := pica [] [] in
    plays [(lit "ada.dat", ada); (lit "algebra.dat", algebra)]
    [run main [lit "frequency"; lit "-r"; lit "002@.0"; lit "algebra.dat"; lit "ada.dat"; lit "ada.dat"]
      [] (Some 0) (bytes_eqb (lit "Ts1,1" ++ [10] ++ lit "Tp1,2" ++ [10]))]).
Example frequency_frequency_reverse : frequency_frequency_reverse_run = true.
Proof. reflexivity. Qed.

(** /repo/crates/pica-cli/tests/frequency/mod.rs:159-173 *)
Definition frequency_frequency_num_run : bool := Eval vm_compute in
  (
    let main := pica [] [] in
    plays [(lit "DUMP.dat.gz", gz_enc dump)]
    [run main [lit "frequency"; lit "-s"; lit "-n"; lit "2"; lit "002@.0"; lit "DUMP.dat.gz"]
      [] (Some 0) (bytes_eqb (lit "Tu1,6" ++ [10] ++ lit "Tsz,2" ++ [10]))]).
Example frequency_frequency_num : frequency_frequency_num_run = true.
Proof. reflexivity. Qed.

(** /repo/crates/pica-cli/tests/frequency/mod.rs:176-190 *)
Definition frequency_frequency_limit_run : bool := Eval vm_compute in
  (
    let main := pica [] [] in
    plays [(lit "DUMP.dat.gz", gz_enc dump)]
    [run main [lit "frequency"; lit "-l"; lit "1"; lit "002@.0"; lit "DUMP.dat.gz"]
      [] (Some 0) (bytes_eqb (lit "Tpz,1" ++ [10]))]).
Example frequency_frequency_limit : frequency_frequency_limit_run = true.
Proof. reflexivity. Qed.

(** /repo/crates/pica-cli/tests/frequency/mod.rs:193-208 *)
Definition frequency_frequency_threshold_run : bool := Eval vm_compute in
  (
    let main := pica [] [] in
    plays [(lit "DUMP.dat.gz", gz_enc dump)]
    [run main [lit "frequency"; lit "-s"; lit "002@.0"; lit "--threshold"; lit "2"; lit "DUMP.dat.gz"]
      [] (Some 0) (bytes_eqb (lit "Tu1,6" ++ [10] ++ lit "Tsz,2" ++ [10]))]).
Example frequency_frequency_threshold : frequency_frequency_threshold_run = true.
Proof. reflexivity. Qed.

(** /repo/crates/pica-cli/tests/frequency/mod.rs:211-237 *)
Definition frequency_frequency_squash_run : bool := Eval vm_compute in
  (
    let main := pica [] [] in
    plays [(lit "ada.dat", ada)]
    [run main [lit "frequency"; lit "008A.a"; lit "ada.dat"]
      [] (Some 0) (bytes_eqb (lit "f,1" ++ [10] ++ lit "s,1" ++ [10] ++ lit "z,1" ++ [10]));
     run main [lit "frequency"; lit "--squash"; lit "008A.a"; lit "ada.dat"]
      [] (Some 0) (bytes_eqb (lit "s|z|f,1" ++ [10]))]).
Example frequency_frequency_squash : frequency_frequency_squash_run = true.
Proof. reflexivity. Qed.

(** /repo/crates/pica-cli/tests/frequency/mod.rs:240-266 *)
Definition frequency_frequency_merge_run : bool := Eval vm_compute in
  (
    let main := pica [] [] in
    plays [(lit "ada.dat", ada)]
    [run main [lit "frequency"; lit "008[AB].a"; lit "ada.dat"]
      [] (Some 0) (bytes_eqb (lit "f,1" ++ [10] ++ lit "k,1" ++ [10] ++ lit "s,1" ++ [10] ++ lit "v,1" ++ [10] ++ lit "w,1" ++ [10] ++ lit "z,1" ++ [10]));
     run main [lit "frequency"; lit "--merge"; lit "008[AB].a"; lit "ada.dat"]
      [] (Some 0) (bytes_eqb (lit "s|z|f|w|k|v,1" ++ [10]))]).
Example frequency_frequency_merge : frequency_frequency_merge_run = true.
Proof. reflexivity. Qed.

(** /repo/crates/pica-cli/tests/frequency/mod.rs:269-285 *)
Definition frequency_frequency_where_run : bool := Eval vm_compute in
  (
    let main := pica [] [] in
    plays [(lit "ada.dat", ada); (lit "algebra.dat", algebra)]
    [run main [lit "frequency"; lit "-s"; lit "002@.0"; lit "--where"; lit "002@.0 =^ 'Ts'"; lit "algebra.dat"; lit "ada.dat"]
      [] (Some 0) (bytes_eqb (lit "Ts1,1" ++ [10]))]).
Example frequency_frequency_where : frequency_frequency_where_run = true.
Proof. reflexivity. Qed.

(** /repo/crates/pica-cli/tests/frequency/mod.rs:288-305 *)
Definition frequency_frequency_where_and_run : bool := Eval vm_compute in
  (
    let main := pica [] [] in
    plays [(lit "ada.dat", ada); (lit "algebra.dat", algebra)]
    [run main [lit "frequency"; lit "-s"; lit "002@.0"; lit "--where"; lit "002@.0 =^ 'T'"; lit "--and"; lit "002@.0 =$ 's1'"; lit "algebra.dat"; lit "ada.dat"]
      [] (Some 0) (bytes_eqb (lit "Ts1,1" ++ [10]))]).
Example frequency_frequency_where_and : frequency_frequency_where_and_run = true.
Proof. reflexivity. Qed.

(** /repo/crates/pica-cli/tests/frequency/mod.rs:308-326 *)
Definition frequency_frequency_where_or_run : bool := Eval vm_compute in
  (
    let main := pica [] [] in
    plays [(lit "ada.dat", ada); (lit "algebra.dat", algebra)]
    [run main [lit "frequency"; lit "-s"; lit "002@.0"; lit "--where"; lit "002@.0 =^ 'Ts'"; lit "--or"; lit "002@.0 =^ 'Tp'"; lit "algebra.dat"; lit "ada.dat"; lit "ada.dat"]
      [] (Some 0) (bytes_eqb (lit "Tp1,2" ++ [10] ++ lit "Ts1,1" ++ [10]))]).
Example frequency_frequency_where_or : frequency_frequency_where_or_run = true.
Proof. reflexivity. Qed.

(** /repo/crates/pica-cli/tests/frequency/mod.rs:329-346 *)
Definition frequency_frequency_where_not_run : bool := Eval vm_compute in
  (
    let main := pica [] [] in
    plays [(lit "ada.dat", ada); (lit "algebra.dat", algebra)]
    [run main [lit "frequency"; lit "-s"; lit "002@.0"; lit "--where"; lit "002@.0 =^ 'T'"; lit "--not"; lit "002@.0 == 'Tp1'"; lit "algebra.dat"; lit "ada.dat"]
      [] (Some 0) (bytes_eqb (lit "Ts1,1" ++ [10]))]).
Example frequency_frequency_where_not : frequency_frequency_where_not_run = true.
Proof. reflexivity. Qed.

(** /repo/crates/pica-cli/tests/frequency/mod.rs:349-367 *)
Definition frequency_frequency_where_and_not_run : bool := Eval vm_compute in
  (
    let main := pica [] [] in
    plays [(lit "ada.dat", ada); (lit "algebra.dat", algebra)]
    [run main [lit "frequency"; lit "-s"; lit "002@.0"; lit "--where"; lit "002@.0 =^ 'T'"; lit "--and"; lit "002@.0 =$ 's1'"; lit "--not"; lit "002@.0 == 'Tp1'"; lit "algebra.dat"; lit "ada.dat"]
      [] (Some 0) (bytes_eqb (lit "Ts1,1" ++ [10]))]).
Example frequency_frequency_where_and_not : frequency_frequency_where_and_not_run = true.
Proof. reflexivity. Qed.

(** /repo/crates/pica-cli/tests/frequency/mod.rs:370-404 *)
Definition frequency_frequency_header_run : bool := Eval vm_compute in
  (
    let main := pica [] [] in
    plays [(lit "ada.dat", ada); (lit "algebra.dat", algebra); (lit "invalid.dat", invalid_dat)]
    [run main [lit "frequency"; lit "-s"; lit "002@.0"; lit "--header"; lit "bbg,cnt"; lit "algebra.dat"; lit "invalid.dat"; lit "ada.dat"; lit "ada.dat"]
      [] (Some 0) (bytes_eqb (lit "bbg,cnt" ++ [10] ++ lit "Tp1,2" ++ [10] ++ lit "Ts1,1" ++ [10]));
     run main [lit "frequency"; lit "-s"; lit "002@.0"; lit "--header"; lit "bbg, cnt"; lit "algebra.dat"; lit "invalid.dat"; lit "ada.dat"; lit "ada.dat"]
      [] (Some 0) (bytes_eqb (lit "bbg,cnt" ++ [10] ++ lit "Tp1,2" ++ [10] ++ lit "Ts1,1" ++ [10]))]).
Example frequency_frequency_header : frequency_frequency_header_run = true.
Proof. reflexivity. Qed.

(** /repo/crates/pica-cli/tests/frequency/mod.rs:407-424 *)
Definition frequency_frequency_tsv_run : bool := Eval vm_compute in
  (
    let main := pica [] [] in
    plays [(lit "ada.dat", ada); (lit "algebra.dat", algebra); (lit "invalid.dat", invalid_dat)]
    [run main [lit "frequency"; lit "-s"; lit "--tsv"; lit "002@.0"; lit "algebra.dat"; lit "invalid.dat"; lit "ada.dat"; lit "ada.dat"]
      [] (Some 0) (bytes_eqb (lit "Tp1" ++ [9] ++ lit "2" ++ [10] ++ lit "Ts1" ++ [9] ++ lit "1" ++ [10]))]).
Example frequency_frequency_tsv : frequency_frequency_tsv_run = true.
Proof. reflexivity. Qed.

(** /repo/crates/pica-cli/tests/frequency/mod.rs:427-498 *)
Definition frequency_frequency_translit_run : bool := Eval vm_compute in
  (
    let main := pica [] [] in
    plays [(lit "algebra.dat", algebra)]
    [run main [lit "frequency"; lit "041@{ a | a =^ 'H'}"; lit "algebra.dat"]
      [] (Some 0) (bytes_eqb (lit "Höhere Algebra,1" ++ [10]));
     run main [lit "frequency"; lit "041@{ a | a =^ 'H'}"; lit "--translit"; lit "nfc"; lit "algebra.dat"]
      [] (Some 0) (bytes_eqb (lit "Höhere Algebra,1" ++ [10]));
     run main [lit "frequency"; lit "041@{ a | a =^ 'H'}"; lit "--translit"; lit "nfkc"; lit "algebra.dat"]
      [] (Some 0) (bytes_eqb (lit "Höhere Algebra,1" ++ [10]));
     run main [lit "frequency"; lit "041@{ a | a =^ 'H'}"; lit "--translit"; lit "nfd"; lit "algebra.dat"]
      [] (Some 0) (bytes_eqb (lit "Höhere Algebra,1" ++ [10]));
     run main [lit "frequency"; lit "041@{ a | a =^ 'H'}"; lit "--translit"; lit "nfkd"; lit "algebra.dat"]
      [] (Some 0) (bytes_eqb (lit "Höhere Algebra,1" ++ [10]))]).
Example frequency_frequency_translit : frequency_frequency_translit_run = true.
Proof. reflexivity. Qed.

(** /repo/crates/pica-cli/tests/frequency/mod.rs:501-563 *)
Definition frequency_frequency_allow_run : bool := Eval vm_compute in
  (
    let lists := [((lit "idn" ++ [10] ++ lit "118540238" ++ [10] ++ lit "040991970" ++ [10] ++ lit "040991989" ++ [10]), [(lit "idn", [Some (lit "118540238"); Some (lit "040991970"); Some (lit "040991989")])]); ((lit "ppn" ++ [10] ++ lit "118540238" ++ [10] ++ lit "040991970" ++ [10] ++ lit "040991989" ++ [10]), [(lit "ppn", [Some (lit "118540238"); Some (lit "040991970"); Some (lit "040991989")])]); ((lit "ppn,idn" ++ [10] ++ lit "118540238,118607626" ++ [10] ++ lit "040991970,040993396" ++ [10] ++ lit "040991989," ++ [10]), [(lit "ppn", [Some (lit "118540238"); Some (lit "040991970"); Some (lit "040991989")]); (lit "idn", [Some (lit "118607626"); Some (lit "040993396"); None])])] in
    let main := pica lists [] in
    plays [(lit "DUMP.dat.gz", gz_enc dump)]
    [write (lit "d1/allow.csv") (lit "idn" ++ [10] ++ lit "118540238" ++ [10] ++ lit "040991970" ++ [10] ++ lit "040991989" ++ [10]);
     run main [lit "frequency"; lit "-s"; lit "002@.0"; lit "-A"; lit "d1/allow.csv"; lit "DUMP.dat.gz"]
      [] (Some 0) (bytes_eqb (lit "Tu1,2" ++ [10] ++ lit "Tpz,1" ++ [10]));
     write (lit "d2/allow.csv") (lit "ppn" ++ [10] ++ lit "118540238" ++ [10] ++ lit "040991970" ++ [10] ++ lit "040991989" ++ [10]);
     run main [lit "frequency"; lit "-s"; lit "002@.0"; lit "-A"; lit "d2/allow.csv"; lit "DUMP.dat.gz"]
      [] (Some 0) (bytes_eqb (lit "Tu1,2" ++ [10] ++ lit "Tpz,1" ++ [10]));
     write (lit "d3/allow.csv") (lit "ppn,idn" ++ [10] ++ lit "118540238,118607626" ++ [10] ++ lit "040991970,040993396" ++ [10] ++ lit "040991989," ++ [10]);
     run main [lit "frequency"; lit "-s"; lit "002@.0"; lit "-A"; lit "d3/allow.csv"; lit "DUMP.dat.gz"]
      [] (Some 0) (bytes_eqb (lit "Tu1,2" ++ [10] ++ lit "Tpz,1" ++ [10]))]).
Example frequency_frequency_allow : frequency_frequency_allow_run = true.
Proof. reflexivity. Qed.

(** /repo/crates/pica-cli/tests/frequency/mod.rs:566-629 *)
Definition frequency_frequency_deny_run : bool := Eval vm_compute in
  (
    let lists := [((lit "ppn" ++ [10] ++ lit "040011569" ++ [10]), [(lit "ppn", [Some (lit "040011569")])]); ((lit "idn" ++ [10] ++ lit "040011569" ++ [10]), [(lit "idn", [Some (lit "040011569")])]); ((lit "idn,119232022" ++ [10] ++ lit "ppn" ++ [10] ++ lit "040011569" ++ [10]), [(lit "idn", [Some (lit "ppn"); Some (lit "040011569")]); (lit "119232022", [None; None])])] in
    let main := pica lists [] in
    plays [(lit "ada.dat", ada); (lit "algebra.dat", algebra)]
    [write (lit "d1/deny.csv") (lit "ppn" ++ [10] ++ lit "040011569" ++ [10]);
     run main [lit "frequency"; lit "-s"; lit "002@.0"; lit "-D"; lit "d1/deny.csv"; lit "algebra.dat"; lit "ada.dat"]
      [] (Some 0) (bytes_eqb (lit "Tp1,1" ++ [10]));
     write (lit "d2/deny.csv") (lit "idn" ++ [10] ++ lit "040011569" ++ [10]);
     run main [lit "frequency"; lit "-s"; lit "002@.0"; lit "-D"; lit "d2/deny.csv"; lit "algebra.dat"; lit "ada.dat"]
      [] (Some 0) (bytes_eqb (lit "Tp1,1" ++ [10]));
     write (lit "d3/deny.csv") (lit "idn,119232022" ++ [10] ++ lit "ppn" ++ [10] ++ lit "040011569" ++ [10]);
     run main [lit "frequency"; lit "-s"; lit "002@.0"; lit "-D"; lit "d3/deny.csv"; lit "algebra.dat"; lit "ada.dat"]
      [] (Some 0) (bytes_eqb (lit "Tp1,1" ++ [10]))]).
Example frequency_frequency_deny : frequency_frequency_deny_run = true.
Proof. reflexivity. Qed.

(** * Integration tests of print

    /repo/crates/pica-cli/tests/print, see [ConfCli.v]. *)

From Coq Require Import String ZArith.
From Verif Require Import Bytes Winnow RecordModel TagOccModel MatcherModel StateParser PathModel CliModel TableModel
  CheckModel RuleModel
  ConfBase ConfData ConfDump ConfCli.

(** /repo/crates/pica-cli/tests/print/mod.rs:10-27 *)
Definition print_print_stdout_run : bool := Eval vm_compute in
  (
    let main := pica [] [] in
    plays [(lit "ada.dat", ada); (lit "ada.txt", ada_txt)]
    [run main [lit "print"; lit "ada.dat"]
      [] (Some 0) (bytes_eqb ada_txt)]).
Example print_print_stdout : print_print_stdout_run = true.
Proof. reflexivity. Qed.

(** /repo/crates/pica-cli/tests/print/mod.rs:30-57 *)
Definition print_print_output_run : bool := Eval vm_compute in
  (
    let main := pica [] [] in
    plays [(lit "ada.dat", ada); (lit "ada.txt", ada_txt)]
    [run main [lit "print"; lit "-o"; lit "d1/out.txt"; lit "ada.dat"]
      [] (Some 0) (bytes_eqb []);
     file_is (lit "d1/out.txt") ada_txt]).
Example print_print_output : print_print_output_run = true.
Proof. reflexivity. Qed.

(** /repo/crates/pica-cli/tests/print/mod.rs:60-88 *)
Definition print_print_limit_run : bool := Eval vm_compute in
  (
    let main := pica [] [] in
    plays [(lit "ada.dat", ada); (lit "ada.txt", ada_txt); (lit "algebra.dat", algebra)]
    [run main [lit "print"; lit "-l"; lit "1"; lit "-o"; lit "d1/out.txt"; lit "ada.dat"; lit "algebra.dat"]
      [] (Some 0) (bytes_eqb []);
     file_is (lit "d1/out.txt") ada_txt]).
Example print_print_limit : print_print_limit_run = true.
Proof. reflexivity. Qed.

(** /repo/crates/pica-cli/tests/print/mod.rs:91-111 *)
Definition print_print_where_run : bool := Eval vm_compute in
  (
    let main := pica [] [] in
    plays [(lit "ada.dat", ada); (lit "ada.txt", ada_txt)]
    [run main [lit "print"; lit "--where"; lit "003@.0 == ""119232022"""; lit "ada.dat"]
      [] (Some 0) (bytes_eqb ada_txt)]).
Example print_print_where : print_print_where_run = true.
Proof. reflexivity. Qed.

(** /repo/crates/pica-cli/tests/print/mod.rs:114-135 *)
Definition print_print_where_and_run : bool := Eval vm_compute in
  (
    let main := pica [] [] in
    plays [(lit "ada.dat", ada); (lit "ada.txt", ada_txt)]
    [run main [lit "print"; lit "--where"; lit "003@.0 == ""119232022"""; lit "--and"; lit "002@.0 == ""Tp1"""; lit "ada.dat"]
      [] (Some 0) (bytes_eqb ada_txt)]).
Example print_print_where_and : print_print_where_and_run = true.
Proof. reflexivity. Qed.

(** /repo/crates/pica-cli/tests/print/mod.rs:138-160 *)
Definition print_print_where_and_not_run : bool := Eval vm_compute in
  (
    let main := pica [] [] in
    plays [(lit "ada.dat", ada); (lit "ada.txt", ada_txt)]
    [run main [lit "print"; lit "--where"; lit "003@.0 == ""119232022"""; lit "--and"; lit "002@.0 == ""Tp1"""; lit "--not"; lit "002@.0 == ""Tpz"""; lit "ada.dat"]
      [] (Some 0) (bytes_eqb ada_txt)]).
Example print_print_where_and_not : print_print_where_and_not_run = true.
Proof. reflexivity. Qed.

(** /repo/crates/pica-cli/tests/print/mod.rs:163-184 *)
Definition print_print_where_or_run : bool := Eval vm_compute in
  (
    let main := pica [] [] in
    plays [(lit "ada.dat", ada); (lit "ada.txt", ada_txt)]
    [run main [lit "print"; lit "--where"; lit "003@.0 == ""119232023"""; lit "--or"; lit "003@.0 == ""119232022"""; lit "ada.dat"]
      [] (Some 0) (bytes_eqb ada_txt)]).
Example print_print_where_or : print_print_where_or_run = true.
Proof. reflexivity. Qed.

(** /repo/crates/pica-cli/tests/print/mod.rs:187-222 *)
Definition print_print_where_not_run : bool := Eval vm_compute in
  (
    let main := pica [] [] in
    plays [(lit "ada.dat", ada); (lit "ada.txt", ada_txt)]
    [run main [lit "print"; lit "--where"; lit "003@.0 == ""119232022"""; lit "--not"; lit "002@.0 == ""Tpz"""; lit "ada.dat"]
      [] (Some 0) (bytes_eqb ada_txt);
     run main [lit "print"; lit "--where"; lit "003@.0 == ""119232022"""; lit "--not"; lit "002@.0 == ""Tp1"""; lit "ada.dat"]
      [] (Some 0) (bytes_eqb [])]).
Example print_print_where_not : print_print_where_not_run = true.
Proof. reflexivity. Qed.

(** /repo/crates/pica-cli/tests/print/mod.rs:225-297 *)
Definition print_print_allow_run : bool := Eval vm_compute in
  (
    let lists := [((lit "ppn" ++ [10] ++ lit "119232022" ++ [10]), [(lit "ppn", [Some (lit "119232022")])]); ((lit "xyz" ++ [10] ++ lit "119232022" ++ [10]), [(lit "xyz", [Some (lit "119232022")])]); ((lit "gnd_id" ++ [10] ++ lit "119232022" ++ [10]), [(lit "gnd_id", [Some (lit "119232022")])])] in
    let main := pica lists [] in
    plays [(lit "ada.dat", ada); (lit "ada.txt", ada_txt); (lit "algebra.dat", algebra)]
    [write (lit "d1/ALLOW.csv") (lit "ppn" ++ [10] ++ lit "119232022" ++ [10]);
     run main [lit "print"; lit "-A"; lit "d1/ALLOW.csv"; lit "algebra.dat"; lit "ada.dat"]
      [] (Some 0) (bytes_eqb ada_txt);
     write (lit "d1/ALLOW.csv") (lit "xyz" ++ [10] ++ lit "119232022" ++ [10]);
     run main [lit "print"; lit "-A"; lit "d1/ALLOW.csv"; lit "--filter-set-column"; lit "xyz"; lit "algebra.dat"; lit "ada.dat"]
      [] (Some 0) (bytes_eqb ada_txt);
     write (lit "d1/ALLOW.csv") (lit "gnd_id" ++ [10] ++ lit "119232022" ++ [10]);
     run main [lit "print"; lit "-A"; lit "d1/ALLOW.csv"; lit "--filter-set-column"; lit "gnd_id"; lit "--filter-set-source"; lit "007K{ 0 | a == 'gnd' }"; lit "algebra.dat"; lit "ada.dat"]
      [] (Some 0) (bytes_eqb ada_txt)]).
Example print_print_allow : print_print_allow_run = true.
Proof. reflexivity. Qed.

(** /repo/crates/pica-cli/tests/print/mod.rs:300-372 *)
Definition print_print_deny_run : bool := Eval vm_compute in
  (
    let lists := [((lit "ppn" ++ [10] ++ lit "040011569" ++ [10]), [(lit "ppn", [Some (lit "040011569")])]); ((lit "xyz" ++ [10] ++ lit "040011569" ++ [10]), [(lit "xyz", [Some (lit "040011569")])]); ((lit "gnd_id" ++ [10] ++ lit "4001156-2" ++ [10]), [(lit "gnd_id", [Some (lit "4001156-2")])])] in
    let main := pica lists [] in
    plays [(lit "ada.dat", ada); (lit "ada.txt", ada_txt); (lit "algebra.dat", algebra)]
    [write (lit "d1/DENY.csv") (lit "ppn" ++ [10] ++ lit "040011569" ++ [10]);
     run main [lit "print"; lit "-D"; lit "d1/DENY.csv"; lit "algebra.dat"; lit "ada.dat"]
      [] (Some 0) (bytes_eqb ada_txt);
     write (lit "d1/DENY.csv") (lit "xyz" ++ [10] ++ lit "040011569" ++ [10]);
     run main [lit "print"; lit "-D"; lit "d1/DENY.csv"; lit "--filter-set-column"; lit "xyz"; lit "algebra.dat"; lit "ada.dat"]
      [] (Some 0) (bytes_eqb ada_txt);
     write (lit "d1/DENY.csv") (lit "gnd_id" ++ [10] ++ lit "4001156-2" ++ [10]);
     run main [lit "print"; lit "-D"; lit "d1/DENY.csv"; lit "--filter-set-column"; lit "gnd_id"; lit "--filter-set-source"; lit "007K{ 0 | a == 'gnd' }"; lit "algebra.dat"; lit "ada.dat"]
      [] (Some 0) (bytes_eqb ada_txt)]).
Example print_print_deny : print_print_deny_run = true.
Proof. reflexivity. Qed.

(** /repo/crates/pica-cli/tests/print/mod.rs:375-399 *)
Definition print_print_translit_nfc_run : bool := Eval vm_compute in
  (
    let main := pica [] [] in
    plays [(lit "algebra.dat", algebra); (lit "algebra.txt", algebra_txt)]
    [run main [lit "print"; lit "--translit"; lit "nfc"; lit "algebra.dat"]
      [] (Some 0) (bytes_eqb (lit "001A $0 1250:01-07-88" ++ [10] ++ lit "001B $0 1250:24-04-19 $t 15:55:35.000" ++ [10] ++ lit "001D $0 9999:17-01-09" ++ [10] ++ lit "001U $0 utf8" ++ [10] ++ lit "001X $0 0" ++ [10] ++ lit "002@ $0 Ts1" ++ [10] ++ lit "003@ $0 040011569" ++ [10] ++ lit "003U $a http://d-nb.info/gnd/4001156-2" ++ [10] ++ lit "004B $a saz" ++ [10] ++ lit "007K $a gnd $0 4001156-2" ++ [10] ++ lit "007N $a swd $0 4001156-2 $v zg" ++ [10] ++ lit "008A $a s" ++ [10] ++ lit "008B $a w $a z $a o" ++ [10] ++ lit "037G $c 512 $d 3 $t 2007-01-01" ++ [10] ++ lit "041@ $a Axiomatische Algebra" ++ [10] ++ lit "041@ $a Formale Algebra" ++ [10] ++ lit "041@ $a Höhere Algebra" ++ [10] ++ lit "041A $a Algebra" ++ [10] ++ lit "041P $a Algebra $u http://lccn.loc.gov/sh85003425 $S DLC $0 sh 85003425 $2 lcsh $v MACS-Mapping. Bitte keine Änderungen vornehmen." ++ [10] ++ lit "041P $a Algèbre $u http://data.bnf.fr/11930858 $S FrPBN $0 FRBNF119308582 $2 ram $v MACS-Mapping. Bitte keine Änderungen vornehmen." ++ [10] ++ lit "041R $9 040379442 $7 Tsz $V saz $A gnd $0 4037944-9 $a Mathematik $4 obal" ++ [10] ++ lit "042A $a 28" ++ [10] ++ lit "047A/03 $e DE-101" ++ [10] ++ lit "047A/03 $r DE-101" ++ [10] ++ lit "047C $S swd $i s $a Algebra $0 4001156-2" ++ [10] ++ lit "050E $a M, Au=DB" ++ [10] ++ lit "050H $a ohne Unterscheidung für die Disziplin der Mathematik und die Algebraische Struktur" ++ [10] ++ lit "070A/02 $S MACS $0 0000478" ++ [10; 10]))]).
Example print_print_translit_nfc : print_print_translit_nfc_run = true.
Proof. reflexivity. Qed.

(** /repo/crates/pica-cli/tests/print/mod.rs:402-426 *)
Definition print_print_translit_nfkc_run : bool := Eval vm_compute in
  (
    let main := pica [] [] in
    plays [(lit "algebra.dat", algebra); (lit "algebra.txt", algebra_txt)]
    [run main [lit "print"; lit "--translit"; lit "nfkc"; lit "algebra.dat"]
      [] (Some 0) (bytes_eqb (lit "001A $0 1250:01-07-88" ++ [10] ++ lit "001B $0 1250:24-04-19 $t 15:55:35.000" ++ [10] ++ lit "001D $0 9999:17-01-09" ++ [10] ++ lit "001U $0 utf8" ++ [10] ++ lit "001X $0 0" ++ [10] ++ lit "002@ $0 Ts1" ++ [10] ++ lit "003@ $0 040011569" ++ [10] ++ lit "003U $a http://d-nb.info/gnd/4001156-2" ++ [10] ++ lit "004B $a saz" ++ [10] ++ lit "007K $a gnd $0 4001156-2" ++ [10] ++ lit "007N $a swd $0 4001156-2 $v zg" ++ [10] ++ lit "008A $a s" ++ [10] ++ lit "008B $a w $a z $a o" ++ [10] ++ lit "037G $c 512 $d 3 $t 2007-01-01" ++ [10] ++ lit "041@ $a Axiomatische Algebra" ++ [10] ++ lit "041@ $a Formale Algebra" ++ [10] ++ lit "041@ $a Höhere Algebra" ++ [10] ++ lit "041A $a Algebra" ++ [10] ++ lit "041P $a Algebra $u http://lccn.loc.gov/sh85003425 $S DLC $0 sh 85003425 $2 lcsh $v MACS-Mapping. Bitte keine Änderungen vornehmen." ++ [10] ++ lit "041P $a Algèbre $u http://data.bnf.fr/11930858 $S FrPBN $0 FRBNF119308582 $2 ram $v MACS-Mapping. Bitte keine Änderungen vornehmen." ++ [10] ++ lit "041R $9 040379442 $7 Tsz $V saz $A gnd $0 4037944-9 $a Mathematik $4 obal" ++ [10] ++ lit "042A $a 28" ++ [10] ++ lit "047A/03 $e DE-101" ++ [10] ++ lit "047A/03 $r DE-101" ++ [10] ++ lit "047C $S swd $i s $a Algebra $0 4001156-2" ++ [10] ++ lit "050E $a M, Au=DB" ++ [10] ++ lit "050H $a ohne Unterscheidung für die Disziplin der Mathematik und die Algebraische Struktur" ++ [10] ++ lit "070A/02 $S MACS $0 0000478" ++ [10; 10]))]).
Example print_print_translit_nfkc : print_print_translit_nfkc_run = true.
Proof. reflexivity. Qed.

(** /repo/crates/pica-cli/tests/print/mod.rs:429-453 *)
Definition print_print_translit_nfd_run : bool := Eval vm_compute in
  (
    let main := pica [] [] in
    plays [(lit "algebra.dat", algebra); (lit "algebra.txt", algebra_txt)]
    [run main [lit "print"; lit "--translit"; lit "nfd"; lit "algebra.dat"]
      [] (Some 0) (bytes_eqb (lit "001A $0 1250:01-07-88" ++ [10] ++ lit "001B $0 1250:24-04-19 $t 15:55:35.000" ++ [10] ++ lit "001D $0 9999:17-01-09" ++ [10] ++ lit "001U $0 utf8" ++ [10] ++ lit "001X $0 0" ++ [10] ++ lit "002@ $0 Ts1" ++ [10] ++ lit "003@ $0 040011569" ++ [10] ++ lit "003U $a http://d-nb.info/gnd/4001156-2" ++ [10] ++ lit "004B $a saz" ++ [10] ++ lit "007K $a gnd $0 4001156-2" ++ [10] ++ lit "007N $a swd $0 4001156-2 $v zg" ++ [10] ++ lit "008A $a s" ++ [10] ++ lit "008B $a w $a z $a o" ++ [10] ++ lit "037G $c 512 $d 3 $t 2007-01-01" ++ [10] ++ lit "041@ $a Axiomatische Algebra" ++ [10] ++ lit "041@ $a Formale Algebra" ++ [10] ++ lit "041@ $a Höhere Algebra" ++ [10] ++ lit "041A $a Algebra" ++ [10] ++ lit "041P $a Algebra $u http://lccn.loc.gov/sh85003425 $S DLC $0 sh 85003425 $2 lcsh $v MACS-Mapping. Bitte keine Änderungen vornehmen." ++ [10] ++ lit "041P $a Algèbre $u http://data.bnf.fr/11930858 $S FrPBN $0 FRBNF119308582 $2 ram $v MACS-Mapping. Bitte keine Änderungen vornehmen." ++ [10] ++ lit "041R $9 040379442 $7 Tsz $V saz $A gnd $0 4037944-9 $a Mathematik $4 obal" ++ [10] ++ lit "042A $a 28" ++ [10] ++ lit "047A/03 $e DE-101" ++ [10] ++ lit "047A/03 $r DE-101" ++ [10] ++ lit "047C $S swd $i s $a Algebra $0 4001156-2" ++ [10] ++ lit "050E $a M, Au=DB" ++ [10] ++ lit "050H $a ohne Unterscheidung für die Disziplin der Mathematik und die Algebraische Struktur" ++ [10] ++ lit "070A/02 $S MACS $0 0000478" ++ [10; 10]))]).
Example print_print_translit_nfd : print_print_translit_nfd_run = true.
Proof. reflexivity. Qed.

(** /repo/crates/pica-cli/tests/print/mod.rs:456-480 *)
Definition print_print_translit_nfkd_run : bool := Eval vm_compute in
  (
    let main := pica [] [] in
    plays [(lit "algebra.dat", algebra); (lit "algebra.txt", algebra_txt)]
    [run main [lit "print"; lit "--translit"; lit "nfkd"; lit "algebra.dat"]
      [] (Some 0) (bytes_eqb (lit "001A $0 1250:01-07-88" ++ [10] ++ lit "001B $0 1250:24-04-19 $t 15:55:35.000" ++ [10] ++ lit "001D $0 9999:17-01-09" ++ [10] ++ lit "001U $0 utf8" ++ [10] ++ lit "001X $0 0" ++ [10] ++ lit "002@ $0 Ts1" ++ [10] ++ lit "003@ $0 040011569" ++ [10] ++ lit "003U $a http://d-nb.info/gnd/4001156-2" ++ [10] ++ lit "004B $a saz" ++ [10] ++ lit "007K $a gnd $0 4001156-2" ++ [10] ++ lit "007N $a swd $0 4001156-2 $v zg" ++ [10] ++ lit "008A $a s" ++ [10] ++ lit "008B $a w $a z $a o" ++ [10] ++ lit "037G $c 512 $d 3 $t 2007-01-01" ++ [10] ++ lit "041@ $a Axiomatische Algebra" ++ [10] ++ lit "041@ $a Formale Algebra" ++ [10] ++ lit "041@ $a Höhere Algebra" ++ [10] ++ lit "041A $a Algebra" ++ [10] ++ lit "041P $a Algebra $u http://lccn.loc.gov/sh85003425 $S DLC $0 sh 85003425 $2 lcsh $v MACS-Mapping. Bitte keine Änderungen vornehmen." ++ [10] ++ lit "041P $a Algèbre $u http://data.bnf.fr/11930858 $S FrPBN $0 FRBNF119308582 $2 ram $v MACS-Mapping. Bitte keine Änderungen vornehmen." ++ [10] ++ lit "041R $9 040379442 $7 Tsz $V saz $A gnd $0 4037944-9 $a Mathematik $4 obal" ++ [10] ++ lit "042A $a 28" ++ [10] ++ lit "047A/03 $e DE-101" ++ [10] ++ lit "047A/03 $r DE-101" ++ [10] ++ lit "047C $S swd $i s $a Algebra $0 4001156-2" ++ [10] ++ lit "050E $a M, Au=DB" ++ [10] ++ lit "050H $a ohne Unterscheidung für die Disziplin der Mathematik und die Algebraische Struktur" ++ [10] ++ lit "070A/02 $S MACS $0 0000478" ++ [10; 10]))]).
Example print_print_translit_nfkd : print_print_translit_nfkd_run = true.
Proof. reflexivity. Qed.

(** /repo/crates/pica-cli/tests/print/mod.rs:483-517 *)
Definition print_print_skip_invalid_run : bool := Eval vm_compute in
  (
    let main := pica [] [] in
    plays [(lit "ada.dat", ada); (lit "ada.txt", ada_txt); (lit "invalid.dat", invalid_dat)]
    [run main [lit "print"; lit "-s"; lit "invalid.dat"; lit "ada.dat"]
      [] (Some 0) (bytes_eqb ada_txt);
     run main [lit "print"; lit "invalid.dat"]
      [] (Some 2) (bytes_eqb [])]).
Example print_print_skip_invalid : print_print_skip_invalid_run = true.
Proof. reflexivity. Qed.

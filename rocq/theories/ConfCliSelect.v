(** * Integration tests of select

    /repo/crates/pica-cli/tests/select, see [ConfCli.v]. *)

From Coq Require Import String ZArith.
From Verif Require Import Bytes Winnow RecordModel TagOccModel MatcherModel StateParser PathModel CliModel TableModel
  CheckModel RuleModel
  ConfBase ConfData ConfDump ConfCli.

(** /repo/crates/pica-cli/tests/select/format.rs:4-21 *)
Definition select_format_format_string_simple_run : bool := Eval vm_compute in
  (
    let main := pica [] [] in
    plays [(lit "ada.dat", ada)]
    [run main [lit "select"; lit "003@.0,028A{ a <$> (', ' d <*> ' (' c ')' ) }"; lit "ada.dat"]
      [] (Some 0) (bytes_eqb (lit "119232022,""Lovelace, Ada King (of)""" ++ [10]))]).
Example select_format_format_string_simple : select_format_format_string_simple_run = true.
Proof. reflexivity. Qed.

(** /repo/crates/pica-cli/tests/select/format.rs:24-42 *)
Definition select_format_format_string_with_predicate_run : bool := Eval vm_compute in
  (
    let main := pica [] [] in
    plays [(lit "ada.dat", ada)]
    [run main [lit "select"; lit "003@.0,028R{a <$> (', ' d <*> ' (' v ')') | v in ['Vater', 'Mutter']}"; lit "ada.dat"]
      [] (Some 0) (bytes_eqb (lit "119232022,""Byron, George Gordon Byron (Vater)""" ++ [10] ++ lit "119232022,""Byron, Anne Isabella Milbanke Byron (Mutter)""" ++ [10]))]).
Example select_format_format_string_with_predicate : select_format_format_string_with_predicate_run = true.
Proof. reflexivity. Qed.

(** /repo/crates/pica-cli/tests/select/format.rs:45-77 *)
Definition select_format_format_string_uppercase_run : bool := Eval vm_compute in
  (
    let main := pica [] [] in
    plays [(lit "ada.dat", ada)]
    [run main [lit "select"; lit "003@.0,028A{?u a <$> (', ' d <*> ' (' c ')' ) }"; lit "ada.dat"]
      [] (Some 0) (bytes_eqb (lit "119232022,""LOVELACE, Ada King (of)""" ++ [10]));
     run main [lit "select"; lit "003@.0,028A{?u a <$> (?u ', ' d <*> ' (' c ')' ) }"; lit "ada.dat"]
      [] (Some 0) (bytes_eqb (lit "119232022,""LOVELACE, ADA KING (OF)""" ++ [10]))]).
Example select_format_format_string_uppercase : select_format_format_string_uppercase_run = true.
Proof. reflexivity. Qed.

(** /repo/crates/pica-cli/tests/select/format.rs:80-112 *)
Definition select_format_format_string_lowercase_run : bool := Eval vm_compute in
  (
    let main := pica [] [] in
    plays [(lit "ada.dat", ada)]
    [run main [lit "select"; lit "003@.0,028A{?l a <$> (', ' d <*> ' (' c ')' ) }"; lit "ada.dat"]
      [] (Some 0) (bytes_eqb (lit "119232022,""lovelace, Ada King (of)""" ++ [10]));
     run main [lit "select"; lit "003@.0,028A{?l a <$> (?l ', ' d <*> ' (' c ')' ) }"; lit "ada.dat"]
      [] (Some 0) (bytes_eqb (lit "119232022,""lovelace, ada king (of)""" ++ [10]))]).
Example select_format_format_string_lowercase : select_format_format_string_lowercase_run = true.
Proof. reflexivity. Qed.

(** /repo/crates/pica-cli/tests/select/format.rs:115-132 *)
Definition select_format_format_string_strip_whitespaces_run : bool := Eval vm_compute in
  (
    let main := pica [] [] in
    plays [(lit "ada.dat", ada)]
    [run main [lit "select"; lit "003@.0,028A{ a <$> (?w ', ' d <*> ' (' c ')' ) }"; lit "ada.dat"]
      [] (Some 0) (bytes_eqb (lit "119232022,""Lovelace,AdaKing(of)""" ++ [10]))]).
Example select_format_format_string_strip_whitespaces : select_format_format_string_strip_whitespaces_run = true.
Proof. reflexivity. Qed.

(** /repo/crates/pica-cli/tests/select/format.rs:135-152 *)
Definition select_format_format_string_trim_run : bool := Eval vm_compute in
  (
    let main := pica [] [] in
    plays [(lit "ada.dat", ada)]
    [run main [lit "select"; lit "003@.0,028A{a <$> (?t ', ' d <*> ' (' c ') ' ) }"; lit "ada.dat"]
      [] (Some 0) (bytes_eqb (lit "119232022,""Lovelace, Ada King (of)""" ++ [10]))]).
Example select_format_format_string_trim : select_format_format_string_trim_run = true.
Proof. reflexivity. Qed.

(** /repo/crates/pica-cli/tests/select/format.rs:155-181 *)
Definition select_format_format_strip_overread_char_run : bool := Eval vm_compute in
  (
    let main := pica [] [] in
    plays []
    [run main [lit "select"; lit "021A{?o a }"]
      (lit "021A " ++ [31] ++ lit "a@abc" ++ [30; 10]) (Some 0) (bytes_eqb (lit "abc" ++ [10]));
     run main [lit "select"; lit "021A{ a }"]
      (lit "021A " ++ [31] ++ lit "a@abc" ++ [30; 10]) (Some 0) (bytes_eqb (lit "@abc" ++ [10]))]).
Example select_format_format_strip_overread_char : select_format_format_strip_overread_char_run = true.
Proof. reflexivity. Qed.

(** /repo/crates/pica-cli/tests/select/mod.rs:11-26 *)
Definition select_select_csv_stdout_run : bool := Eval vm_compute in
  (
    let main := pica [] [] in
    plays [(lit "ada.dat", ada); (lit "algebra.dat", algebra)]
    [run main [lit "select"; lit "003@.0,002@.0"; lit "algebra.dat"; lit "ada.dat"]
      [] (Some 0) (bytes_eqb (lit "040011569,Ts1" ++ [10] ++ lit "119232022,Tp1" ++ [10]))]).
Example select_select_csv_stdout : select_select_csv_stdout_run = true.
Proof. reflexivity. Qed.

(** /repo/crates/pica-cli/tests/select/mod.rs:29-54 *)
Definition select_select_csv_output_run : bool := Eval vm_compute in
  (
    let main := pica [] [] in
    plays [(lit "ada.dat", ada); (lit "algebra.dat", algebra)]
    [run main [lit "select"; lit "003@.0,002@.0"; lit "-o"; lit "d1/out.csv"; lit "algebra.dat"; lit "ada.dat"]
      [] (Some 0) (bytes_eqb []);
     file_is (lit "d1/out.csv") (lit "040011569,Ts1" ++ [10] ++ lit "119232022,Tp1" ++ [10])]).
Example select_select_csv_output : select_select_csv_output_run = true.
Proof. reflexivity. Qed.

(** /repo/crates/pica-cli/tests/select/mod.rs:57-72 *)
Definition select_select_tsv_stdout_run : bool := Eval vm_compute in
  (
    let main := pica [] [] in
    plays [(lit "ada.dat", ada); (lit "algebra.dat", algebra)]
    [run main [lit "select"; lit "--tsv"; lit "003@.0,002@.0"; lit "algebra.dat"; lit "ada.dat"]
      [] (Some 0) (bytes_eqb (lit "040011569" ++ [9] ++ lit "Ts1" ++ [10] ++ lit "119232022" ++ [9] ++ lit "Tp1" ++ [10]))]).
Example select_select_tsv_stdout : select_select_tsv_stdout_run = true.
Proof. reflexivity. Qed.

(** /repo/crates/pica-cli/tests/select/mod.rs:75-100 *)
Definition select_select_tsv_output_run : bool := Eval vm_compute in
  (
    let main := pica [] [] in
    plays [(lit "ada.dat", ada); (lit "algebra.dat", algebra)]
    [run main [lit "select"; lit "--tsv"; lit "003@.0,002@.0"; lit "-o"; lit "d1/out.tsv"; lit "algebra.dat"; lit "ada.dat"]
      [] (Some 0) (bytes_eqb []);
     file_is (lit "d1/out.tsv") (lit "040011569" ++ [9] ++ lit "Ts1" ++ [10] ++ lit "119232022" ++ [9] ++ lit "Tp1" ++ [10])]).
Example select_select_tsv_output : select_select_tsv_output_run = true.
Proof. reflexivity. Qed.

(** /repo/crates/pica-cli/tests/select/mod.rs:103-130 *)
Definition select_select_stdin_run : bool := Eval vm_compute in
  (
    let main := pica [] [] in
    plays [(lit "invalid.dat", invalid_dat)]
    [run main [lit "select"; lit "003@.0,012B.0"]
      (lit "003@ " ++ [31] ++ lit "0123" ++ [30] ++ lit "012B " ++ [31] ++ lit "0bar" ++ [30; 10]) (Some 0) (bytes_eqb (lit "123,bar" ++ [10]));
     run main [lit "select"; lit "-s"; lit "003@.0,012B.0"; lit "invalid.dat"; lit "-"]
      (lit "003@ " ++ [31] ++ lit "0123" ++ [30] ++ lit "012B " ++ [31] ++ lit "0bar" ++ [30; 10]) (Some 0) (bytes_eqb (lit "123,bar" ++ [10]))]).
Example select_select_stdin : select_select_stdin_run = true.
Proof. reflexivity. Qed.

(** /repo/crates/pica-cli/tests/select/mod.rs:133-161 *)
Definition select_select_skip_invalid_run : bool := Eval vm_compute in
  (
    let main := pica [] [] in
    plays [(lit "invalid.dat", invalid_dat)]
    [run main [lit "select"; lit "002@.0"; lit "invalid.dat"]
      [] (Some 2) (bytes_eqb []);
     run main [lit "frequency"; lit "-s"; lit "002@.0"; lit "invalid.dat"]
      [] (Some 0) (bytes_eqb [])]).
Example select_select_skip_invalid : select_select_skip_invalid_run = true.
Proof. reflexivity. Qed.

(** /repo/crates/pica-cli/tests/select/mod.rs:164-206 *)
Definition select_select_squash_run : bool := Eval vm_compute in
  (
    let main := pica [] [] in
    plays [(lit "math.dat.gz", gz_enc math)]
    [run main [lit "select"; lit "--squash"; lit "003@.0,008A.a"; lit "math.dat.gz"]
      [] (Some 0) (bytes_eqb (lit "040379442,s|g" ++ [10]));
     run main [lit "select"; lit "003@.0,008A.a"; lit "--squash"; lit "--separator"; lit "+++"; lit "math.dat.gz"]
      [] (Some 0) (bytes_eqb (lit "040379442,s+++g" ++ [10]));
     run main [lit "select"; lit "003@.0,008A.a"; lit "--squash"; lit "--separator"; lit "s"; lit "math.dat.gz"]
      [] (Some 0) (bytes_eqb (lit "040379442,ssg" ++ [10]))]).
Example select_select_squash : select_select_squash_run = true.
Proof. reflexivity. Qed.

(** /repo/crates/pica-cli/tests/select/mod.rs:209-258 *)
Definition select_select_merge_run : bool := Eval vm_compute in
  (
    let main := pica [] [] in
    plays [(lit "ada.dat", ada); (lit "algebra.dat", algebra)]
    [run main [lit "select"; lit "--merge"; lit "003@.0,008A.a,008B.a"; lit "algebra.dat"; lit "ada.dat"]
      [] (Some 0) (bytes_eqb (lit "040011569,s,w|z|o" ++ [10] ++ lit "119232022,s|z|f,w|k|v" ++ [10]));
     run main [lit "select"; lit "003@.0,008A.a,008B.a"; lit "--merge"; lit "--separator"; lit "+++"; lit "algebra.dat"; lit "ada.dat"]
      [] (Some 0) (bytes_eqb (lit "040011569,s,w+++z+++o" ++ [10] ++ lit "119232022,s+++z+++f,w+++k+++v" ++ [10]));
     run main [lit "select"; lit "003@.0,008A.a,008B.a"; lit "--merge"; lit "--separator"; []; lit "algebra.dat"; lit "ada.dat"]
      [] (Some 0) (bytes_eqb (lit "040011569,s,wzo" ++ [10] ++ lit "119232022,szf,wkv" ++ [10]))]).
Example select_select_merge : select_select_merge_run = true.
Proof. reflexivity. Qed.

(** /repo/crates/pica-cli/tests/select/mod.rs:261-276 *)
Definition select_select_no_empty_columns_run : bool := Eval vm_compute in
  (
    let main := pica [] [] in
    plays [(lit "ada.dat", ada); (lit "algebra.dat", algebra)]
    [run main [lit "select"; lit "--no-empty-columns"; lit "003@.0,028A.a"; lit "algebra.dat"; lit "ada.dat"]
      [] (Some 0) (bytes_eqb (lit "119232022,Lovelace" ++ [10]))]).
Example select_select_no_empty_columns : select_select_no_empty_columns_run = true.
Proof. reflexivity. Qed.

(** /repo/crates/pica-cli/tests/select/mod.rs:279-295 *)
Definition select_select_unique_run : bool := Eval vm_compute in
  (
    let main := pica [] [] in
    plays [(lit "ada.dat", ada); (lit "algebra.dat", algebra); (lit "math.dat.gz", gz_enc math)]
    [run main [lit "select"; lit "--unique"; lit "004B.a"; lit "math.dat.gz"; lit "algebra.dat"; lit "ada.dat"]
      [] (Some 0) (bytes_eqb (lit "saz" ++ [10] ++ lit "pik" ++ [10]))]).
Example select_select_unique : select_select_unique_run = true.
Proof. reflexivity. Qed.

(** /repo/crates/pica-cli/tests/select/mod.rs:298-313 *)
Definition select_select_ignore_case_run : bool := Eval vm_compute in
  (
    let main := pica [] [] in
    plays [(lit "algebra.dat", algebra)]
    [run main [lit "select"; lit "--ignore-case"; lit "003@.0,041[A@]{ a | a == 'algebra'}"; lit "algebra.dat"]
      [] (Some 0) (bytes_eqb (lit "040011569,Algebra" ++ [10]))]).
Example select_select_ignore_case : select_select_ignore_case_run = true.
Proof. reflexivity. Qed.

(** /repo/crates/pica-cli/tests/select/mod.rs:316-347 *)
Definition select_select_strsim_threshold_run : bool := Eval vm_compute in
  (
    let main := pica [] [] in
    plays [(lit "algebra.dat", algebra)]
    [run main [lit "select"; lit "003@.0,041[AP]{ a | a =* 'Algebra'}"; lit "algebra.dat"]
      [] (Some 0) (bytes_eqb (lit "040011569,Algebra" ++ [10] ++ lit "040011569,Algebra" ++ [10]));
     run main [lit "select"; lit "--strsim-threshold"; lit "60"; lit "041[AP]{ a | a =* 'Algebra'}"; lit "algebra.dat"]
      [] (Some 0) (bytes_eqb (lit "Algebra" ++ [10] ++ lit "Algebra" ++ [10] ++ lit "Algèbre" ++ [10]))]).
Example select_select_strsim_threshold : select_select_strsim_threshold_run = true.
Proof. reflexivity. Qed.

(** /repo/crates/pica-cli/tests/select/mod.rs:350-396 *)
Definition select_select_limit_run : bool := Eval vm_compute in
  (
    let main := pica [] [] in
    plays [(lit "ada.dat", ada); (lit "algebra.dat", algebra); (lit "math.dat.gz", gz_enc math)]
    [run main [lit "select"; lit "--limit"; lit "2"; lit "003@.0,002@.0"; lit "math.dat.gz"; lit "algebra.dat"; lit "ada.dat"]
      [] (Some 0) (bytes_eqb (lit "040379442,Tsz" ++ [10] ++ lit "040011569,Ts1" ++ [10]));
     run main [lit "select"; lit "-l"; lit "1"; lit "003@.0,002@.0"; lit "math.dat.gz"; lit "algebra.dat"; lit "ada.dat"]
      [] (Some 0) (bytes_eqb (lit "040379442,Tsz" ++ [10]));
     run main [lit "select"; lit "--limit"; lit "0"; lit "003@.0,002@.0"; lit "math.dat.gz"; lit "algebra.dat"; lit "ada.dat"]
      [] (Some 0) (bytes_eqb (lit "040379442,Tsz" ++ [10] ++ lit "040011569,Ts1" ++ [10] ++ lit "119232022,Tp1" ++ [10]))]).
Example select_select_limit : select_select_limit_run = true.
Proof. reflexivity. Qed.

(** /repo/crates/pica-cli/tests/select/mod.rs:399-465 *)
Definition select_select_translit_run : bool := Eval vm_compute in
  (
    let main := pica [] [] in
    plays [(lit "algebra.dat", algebra)]
    [run main [lit "select"; lit "041@{ a | a =^ 'H'}"; lit "algebra.dat"]
      [] (Some 0) (bytes_eqb (lit "Höhere Algebra" ++ [10]));
     run main [lit "select"; lit "--translit"; lit "nfd"; lit "041@{ a | a =^ 'H'}"; lit "algebra.dat"]
      [] (Some 0) (bytes_eqb (lit "Höhere Algebra" ++ [10]));
     run main [lit "select"; lit "--translit"; lit "nfkd"; lit "041@{ a | a =^ 'H'}"; lit "algebra.dat"]
      [] (Some 0) (bytes_eqb (lit "Höhere Algebra" ++ [10]));
     run main [lit "select"; lit "--translit"; lit "nfc"; lit "041@{ a | a =^ 'H'}"; lit "algebra.dat"]
      [] (Some 0) (bytes_eqb (lit "Höhere Algebra" ++ [10]));
     run main [lit "select"; lit "--translit"; lit "nfkc"; lit "041@{ a | a =^ 'H'}"; lit "algebra.dat"]
      [] (Some 0) (bytes_eqb (lit "Höhere Algebra" ++ [10]))]).
Example select_select_translit : select_select_translit_run = true.
Proof. reflexivity. Qed.

(** /repo/crates/pica-cli/tests/select/mod.rs:468-484 *)
Definition select_select_where_run : bool := Eval vm_compute in
  (
    let main := pica [] [] in
    plays [(lit "ada.dat", ada); (lit "algebra.dat", algebra)]
    [run main [lit "select"; lit "003@.0,002@.0"; lit "--where"; lit "003@.0 != '040011569'"; lit "algebra.dat"; lit "ada.dat"]
      [] (Some 0) (bytes_eqb (lit "119232022,Tp1" ++ [10]))]).
Example select_select_where : select_select_where_run = true.
Proof. reflexivity. Qed.

(** /repo/crates/pica-cli/tests/select/mod.rs:487-504 *)
Definition select_select_where_and_run : bool := Eval vm_compute in
  (
    let main := pica [] [] in
    plays [(lit "ada.dat", ada); (lit "algebra.dat", algebra)]
    [run main [lit "select"; lit "003@.0,002@.0"; lit "--where"; lit "003@.0 != '040011569'"; lit "--and"; lit "002@.0 =^ 'Tp'"; lit "algebra.dat"; lit "ada.dat"]
      [] (Some 0) (bytes_eqb (lit "119232022,Tp1" ++ [10]))]).
Example select_select_where_and : select_select_where_and_run = true.
Proof. reflexivity. Qed.

(** /repo/crates/pica-cli/tests/select/mod.rs:507-524 *)
Definition select_select_where_not_run : bool := Eval vm_compute in
  (
    let main := pica [] [] in
    plays [(lit "ada.dat", ada); (lit "algebra.dat", algebra)]
    [run main [lit "select"; lit "003@.0,002@.0"; lit "--where"; lit "003@.0 != '040011569'"; lit "--not"; lit "002@.0 == 'Ts1'"; lit "algebra.dat"; lit "ada.dat"]
      [] (Some 0) (bytes_eqb (lit "119232022,Tp1" ++ [10]))]).
Example select_select_where_not : select_select_where_not_run = true.
Proof. reflexivity. Qed.

(** /repo/crates/pica-cli/tests/select/mod.rs:527-545 *)
Definition select_select_where_and_not_run : bool := Eval vm_compute in
  (
    let main := pica [] [] in
    plays [(lit "ada.dat", ada); (lit "algebra.dat", algebra)]
    [run main [lit "select"; lit "003@.0,002@.0"; lit "--where"; lit "003@.0 != '040011569'"; lit "--and"; lit "002@.0 =^ 'Tp'"; lit "--not"; lit "002@.0 == 'Ts1'"; lit "algebra.dat"; lit "ada.dat"]
      [] (Some 0) (bytes_eqb (lit "119232022,Tp1" ++ [10]))]).
Example select_select_where_and_not : select_select_where_and_not_run = true.
Proof. reflexivity. Qed.

(** /repo/crates/pica-cli/tests/select/mod.rs:548-565 *)
Definition select_select_where_or_run : bool := Eval vm_compute in
  (
    let main := pica [] [] in
    plays [(lit "ada.dat", ada); (lit "algebra.dat", algebra)]
    [run main [lit "select"; lit "003@.0,002@.0"; lit "--where"; lit "002@.0 == 'Ts1'"; lit "--or"; lit "002@.0 == 'Tp1'"; lit "algebra.dat"; lit "ada.dat"]
      [] (Some 0) (bytes_eqb (lit "040011569,Ts1" ++ [10] ++ lit "119232022,Tp1" ++ [10]))]).
Example select_select_where_or : select_select_where_or_run = true.
Proof. reflexivity. Qed.

(** /repo/crates/pica-cli/tests/select/mod.rs:568-657 *)
Definition select_select_allow_run : bool := Eval vm_compute in
  (
    let lists := [((lit "idn" ++ [10] ++ lit "118540238" ++ [10] ++ lit "040991970" ++ [10]), [(lit "idn", [Some (lit "118540238"); Some (lit "040991970")])]); ((lit "ppn" ++ [10] ++ lit "118540238" ++ [10] ++ lit "040991970" ++ [10]), [(lit "ppn", [Some (lit "118540238"); Some (lit "040991970")])]); ((lit "idn,ppn" ++ [10] ++ lit "040991970,118540238" ++ [10] ++ lit "118540238,040991970" ++ [10]), [(lit "idn", [Some (lit "040991970"); Some (lit "118540238")]); (lit "ppn", [Some (lit "118540238"); Some (lit "040991970")])]); ((lit "id" ++ [10] ++ lit "118540238" ++ [10] ++ lit "040991970" ++ [10]), [(lit "id", [Some (lit "118540238"); Some (lit "040991970")])])] in
    let main := pica lists [] in
    plays [(lit "DUMP.dat.gz", gz_enc dump)]
    [write (lit "d1/allow.csv") (lit "idn" ++ [10] ++ lit "118540238" ++ [10] ++ lit "040991970" ++ [10]);
     run main [lit "select"; lit "-s"; lit "002@.0"; lit "-A"; lit "d1/allow.csv"; lit "DUMP.dat.gz"]
      [] (Some 0) (bytes_eqb (lit "Tpz" ++ [10] ++ lit "Tu1" ++ [10]));
     write (lit "d2/allow.csv") (lit "ppn" ++ [10] ++ lit "118540238" ++ [10] ++ lit "040991970" ++ [10]);
     run main [lit "select"; lit "-s"; lit "002@.0"; lit "-A"; lit "d2/allow.csv"; lit "DUMP.dat.gz"]
      [] (Some 0) (bytes_eqb (lit "Tpz" ++ [10] ++ lit "Tu1" ++ [10]));
     write (lit "d3/allow.csv") (lit "idn,ppn" ++ [10] ++ lit "040991970,118540238" ++ [10] ++ lit "118540238,040991970" ++ [10]);
     run main [lit "select"; lit "-s"; lit "002@.0"; lit "-A"; lit "d3/allow.csv"; lit "DUMP.dat.gz"]
      [] (Some 0) (bytes_eqb (lit "Tpz" ++ [10] ++ lit "Tu1" ++ [10]));
     write (lit "d4/allow.csv") (lit "id" ++ [10] ++ lit "118540238" ++ [10] ++ lit "040991970" ++ [10]);
     run main [lit "select"; lit "-s"; lit "002@.0"; lit "-A"; lit "d4/allow.csv"; lit "--filter-set-column"; lit "id"; lit "DUMP.dat.gz"]
      [] (Some 0) (bytes_eqb (lit "Tpz" ++ [10] ++ lit "Tu1" ++ [10]))]).
Example select_select_allow : select_select_allow_run = true.
Proof. reflexivity. Qed.

(** /repo/crates/pica-cli/tests/select/mod.rs:660-727 *)
Definition select_select_deny_run : bool := Eval vm_compute in
  (
    let lists := [((lit "idn" ++ [10] ++ lit "040011569" ++ [10]), [(lit "idn", [Some (lit "040011569")])]); ((lit "ppn" ++ [10] ++ lit "040011569" ++ [10]), [(lit "ppn", [Some (lit "040011569")])]); ((lit "idn,ppn" ++ [10] ++ lit "119232022,040011569" ++ [10]), [(lit "idn", [Some (lit "119232022")]); (lit "ppn", [Some (lit "040011569")])])] in
    let main := pica lists [] in
    plays [(lit "ada.dat", ada); (lit "algebra.dat", algebra)]
    [write (lit "d1/deny.csv") (lit "idn" ++ [10] ++ lit "040011569" ++ [10]);
     run main [lit "select"; lit "-s"; lit "002@.0"; lit "-D"; lit "d1/deny.csv"; lit "algebra.dat"; lit "ada.dat"]
      [] (Some 0) (bytes_eqb (lit "Tp1" ++ [10]));
     write (lit "d2/deny.csv") (lit "ppn" ++ [10] ++ lit "040011569" ++ [10]);
     run main [lit "select"; lit "-s"; lit "002@.0"; lit "-D"; lit "d2/deny.csv"; lit "algebra.dat"; lit "ada.dat"]
      [] (Some 0) (bytes_eqb (lit "Tp1" ++ [10]));
     write (lit "d3/deny.csv") (lit "idn,ppn" ++ [10] ++ lit "119232022,040011569" ++ [10]);
     run main [lit "select"; lit "-s"; lit "002@.0"; lit "-D"; lit "d3/deny.csv"; lit "algebra.dat"; lit "ada.dat"]
      [] (Some 0) (bytes_eqb (lit "Tp1" ++ [10]))]).
Example select_select_deny : select_select_deny_run = true.
Proof. reflexivity. Qed.

(** /repo/crates/pica-cli/tests/select/mod.rs:730-744 *)
Definition select_select_query_const_run : bool := Eval vm_compute in
  (
    let main := pica [] [] in
    plays [(lit "ada.dat", ada)]
    [run main [lit "select"; lit "003@.0, 'abc'"; lit "ada.dat"]
      [] (Some 0) (bytes_eqb (lit "119232022,abc" ++ [10]))]).
Example select_select_query_const : select_select_query_const_run = true.
Proof. reflexivity. Qed.

(** /repo/crates/pica-cli/tests/select/mod.rs:747-799 *)
Definition select_select_query_path_run : bool := Eval vm_compute in
  (
    let main := pica [] [] in
    plays [(lit "ada.dat", ada)]
    [run main [lit "select"; lit "003@.0,002@.0"; lit "ada.dat"]
      [] (Some 0) (bytes_eqb (lit "119232022,Tp1" ++ [10]));
     run main [lit "select"; lit "003@.0,028@{ (d, a) | 4 == 'nafr'}"; lit "ada.dat"]
      [] (Some 0) (bytes_eqb (lit "119232022,Ada Augusta,Byron" ++ [10]));
     run main [lit "select"; lit "--merge"; lit "003@.0,008[AB].a"; lit "ada.dat"]
      [] (Some 0) (bytes_eqb (lit "119232022,s|z|f|w|k|v" ++ [10]));
     run main [lit "select"; lit "--squash"; lit "003@.0, 008[AB].a"; lit "ada.dat"]
      [] (Some 0) (bytes_eqb (lit "119232022,s|z|f" ++ [10] ++ lit "119232022,w|k|v" ++ [10]))]).
Example select_select_query_path : select_select_query_path_run = true.
Proof. reflexivity. Qed.

(** /repo/crates/pica-cli/tests/select/mod.rs:802-924 *)
Definition select_select_quote_style_run : bool := Eval vm_compute in
  (
    let main := pica [] [] in
    plays [(lit "ada.dat", ada)]
    [run main [lit "select"; lit "028@{ d | d =? ',' }"; lit "ada.dat"]
      [] (Some 0) (bytes_eqb (lit """Ada King, Countess of""" ++ [10]));
     run main [lit "select"; lit "028@{ d | d =? ',' }"; lit "--quote-style"; lit "necessary"; lit "ada.dat"]
      [] (Some 0) (bytes_eqb (lit """Ada King, Countess of""" ++ [10]));
     run main [lit "select"; lit "028A.d"; lit "--quote-style"; lit "necessary"; lit "ada.dat"]
      [] (Some 0) (bytes_eqb (lit "Ada King" ++ [10]));
     run main [lit "select"; lit "028@{ d | d =? ',' }"; lit "--quote-style"; lit "always"; lit "ada.dat"]
      [] (Some 0) (bytes_eqb (lit """Ada King, Countess of""" ++ [10]));
     run main [lit "select"; lit "028A.d"; lit "--quote-style"; lit "always"; lit "ada.dat"]
      [] (Some 0) (bytes_eqb (lit """Ada King""" ++ [10]));
     run main [lit "select"; lit "028@{ d | d =? ',' }"; lit "--quote-style"; lit "never"; lit "ada.dat"]
      [] (Some 0) (bytes_eqb (lit "Ada King, Countess of" ++ [10]));
     run main [lit "select"; lit "028A.d"; lit "--quote-style"; lit "never"; lit "ada.dat"]
      [] (Some 0) (bytes_eqb (lit "Ada King" ++ [10]));
     run main [lit "select"; lit "028@{ d | d =? ',' }, 001X.0"; lit "--quote-style"; lit "non-numeric"; lit "ada.dat"]
      [] (Some 0) (bytes_eqb (lit """Ada King, Countess of"",0" ++ [10]));
     run main [lit "select"; lit "028A.d,001X.0"; lit "--quote-style"; lit "non-numeric"; lit "ada.dat"]
      [] (Some 0) (bytes_eqb (lit """Ada King"",0" ++ [10]))]).
Example select_select_quote_style : select_select_quote_style_run = true.
Proof. reflexivity. Qed.

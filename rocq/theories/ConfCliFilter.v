(** * Integration tests of filter

    /repo/crates/pica-cli/tests/filter, see [ConfCli.v]. *)

From Coq Require Import String ZArith.
From Verif Require Import Bytes Winnow RecordModel TagOccModel MatcherModel StateParser PathModel CliModel TableModel
  CheckModel RuleModel
  ConfBase ConfData ConfDump ConfCli.

(** /repo/crates/pica-cli/tests/filter/cardinality.rs:4-42 *)
Definition filter_cardinality_cardinality_field_eq_run : bool := Eval vm_compute in
  (
    let main := pica [] [] in
    plays [(lit "ada.dat", ada)]
    [run main [lit "filter"; lit "#003@ == 1"; lit "ada.dat"]
      [] (Some 0) (bytes_eqb ada);
     run main [lit "filter"; lit "#003@ == 0"; lit "ada.dat"]
      [] (Some 0) (bytes_eqb []);
     run main [lit "filter"; lit "#065R{ 9? && 4 == 'orts'} == 1"; lit "ada.dat"]
      [] (Some 0) (bytes_eqb ada)]).
Example filter_cardinality_cardinality_field_eq : filter_cardinality_cardinality_field_eq_run = true.
Proof. reflexivity. Qed.

(** /repo/crates/pica-cli/tests/filter/cardinality.rs:45-95 *)
Definition filter_cardinality_cardinality_subfield_eq_run : bool := Eval vm_compute in
  (
    let main := pica [] [] in
    plays [(lit "ada.dat", ada)]
    [run main [lit "filter"; lit "003@{ #0 == 1 }"; lit "ada.dat"]
      [] (Some 0) (bytes_eqb ada);
     run main [lit "filter"; lit "003@{ #0 == 2 }"; lit "ada.dat"]
      [] (Some 0) (bytes_eqb []);
     run main [lit "filter"; lit "003U{ #[az] >= 2 }"; lit "ada.dat"]
      [] (Some 0) (bytes_eqb ada);
     run main [lit "filter"; lit "003U{ #[ax] >= 2 }"; lit "ada.dat"]
      [] (Some 0) (bytes_eqb [])]).
Example filter_cardinality_cardinality_subfield_eq : filter_cardinality_cardinality_subfield_eq_run = true.
Proof. reflexivity. Qed.

(** /repo/crates/pica-cli/tests/filter/cardinality.rs:98-124 *)
Definition filter_cardinality_cardinality_field_ne_run : bool := Eval vm_compute in
  (
    let main := pica [] [] in
    plays [(lit "ada.dat", ada)]
    [run main [lit "filter"; lit "#003@ != 2"; lit "ada.dat"]
      [] (Some 0) (bytes_eqb ada);
     run main [lit "filter"; lit "#003@ != 1"; lit "ada.dat"]
      [] (Some 0) (bytes_eqb [])]).
Example filter_cardinality_cardinality_field_ne : filter_cardinality_cardinality_field_ne_run = true.
Proof. reflexivity. Qed.

(** /repo/crates/pica-cli/tests/filter/cardinality.rs:127-153 *)
Definition filter_cardinality_cardinality_subfield_ne_run : bool := Eval vm_compute in
  (
    let main := pica [] [] in
    plays [(lit "ada.dat", ada)]
    [run main [lit "filter"; lit "003@{ #0 != 0 }"; lit "ada.dat"]
      [] (Some 0) (bytes_eqb ada);
     run main [lit "filter"; lit "003@{ #0 != 1 }"; lit "ada.dat"]
      [] (Some 0) (bytes_eqb [])]).
Example filter_cardinality_cardinality_subfield_ne : filter_cardinality_cardinality_subfield_ne_run = true.
Proof. reflexivity. Qed.

(** /repo/crates/pica-cli/tests/filter/cardinality.rs:156-182 *)
Definition filter_cardinality_cardinality_field_gt_run : bool := Eval vm_compute in
  (
    let main := pica [] [] in
    plays [(lit "ada.dat", ada)]
    [run main [lit "filter"; lit "#028@ > 5"; lit "ada.dat"]
      [] (Some 0) (bytes_eqb ada);
     run main [lit "filter"; lit "#028@ > 100"; lit "ada.dat"]
      [] (Some 0) (bytes_eqb [])]).
Example filter_cardinality_cardinality_field_gt : filter_cardinality_cardinality_field_gt_run = true.
Proof. reflexivity. Qed.

(** /repo/crates/pica-cli/tests/filter/cardinality.rs:185-211 *)
Definition filter_cardinality_cardinality_subfield_gt_run : bool := Eval vm_compute in
  (
    let main := pica [] [] in
    plays [(lit "ada.dat", ada)]
    [run main [lit "filter"; lit "042A{ #a >  1 }"; lit "ada.dat"]
      [] (Some 0) (bytes_eqb ada);
     run main [lit "filter"; lit "042A{ #a >  3 }"; lit "ada.dat"]
      [] (Some 0) (bytes_eqb [])]).
Example filter_cardinality_cardinality_subfield_gt : filter_cardinality_cardinality_subfield_gt_run = true.
Proof. reflexivity. Qed.

(** /repo/crates/pica-cli/tests/filter/cardinality.rs:214-240 *)
Definition filter_cardinality_cardinality_field_ge_run : bool := Eval vm_compute in
  (
    let main := pica [] [] in
    plays [(lit "ada.dat", ada)]
    [run main [lit "filter"; lit "#028@ >= 5"; lit "ada.dat"]
      [] (Some 0) (bytes_eqb ada);
     run main [lit "filter"; lit "#028@ >= 100"; lit "ada.dat"]
      [] (Some 0) (bytes_eqb [])]).
Example filter_cardinality_cardinality_field_ge : filter_cardinality_cardinality_field_ge_run = true.
Proof. reflexivity. Qed.

(** /repo/crates/pica-cli/tests/filter/cardinality.rs:243-269 *)
Definition filter_cardinality_cardinality_subfield_ge_run : bool := Eval vm_compute in
  (
    let main := pica [] [] in
    plays [(lit "ada.dat", ada)]
    [run main [lit "filter"; lit "042A{ #a >=  1 }"; lit "ada.dat"]
      [] (Some 0) (bytes_eqb ada);
     run main [lit "filter"; lit "042A{ #a >=  3 }"; lit "ada.dat"]
      [] (Some 0) (bytes_eqb [])]).
Example filter_cardinality_cardinality_subfield_ge : filter_cardinality_cardinality_subfield_ge_run = true.
Proof. reflexivity. Qed.

(** /repo/crates/pica-cli/tests/filter/cardinality.rs:272-298 *)
Definition filter_cardinality_cardinality_field_lt_run : bool := Eval vm_compute in
  (
    let main := pica [] [] in
    plays [(lit "ada.dat", ada)]
    [run main [lit "filter"; lit "#028@ < 100"; lit "ada.dat"]
      [] (Some 0) (bytes_eqb ada);
     run main [lit "filter"; lit "#028@ < 5"; lit "ada.dat"]
      [] (Some 0) (bytes_eqb [])]).
Example filter_cardinality_cardinality_field_lt : filter_cardinality_cardinality_field_lt_run = true.
Proof. reflexivity. Qed.

(** /repo/crates/pica-cli/tests/filter/cardinality.rs:301-327 *)
Definition filter_cardinality_cardinality_subfield_lt_run : bool := Eval vm_compute in
  (
    let main := pica [] [] in
    plays [(lit "ada.dat", ada)]
    [run main [lit "filter"; lit "042A{ #a <  100 }"; lit "ada.dat"]
      [] (Some 0) (bytes_eqb ada);
     run main [lit "filter"; lit "042A{ #a <  2 }"; lit "ada.dat"]
      [] (Some 0) (bytes_eqb [])]).
Example filter_cardinality_cardinality_subfield_lt : filter_cardinality_cardinality_subfield_lt_run = true.
Proof. reflexivity. Qed.

(** /repo/crates/pica-cli/tests/filter/cardinality.rs:330-356 *)
Definition filter_cardinality_cardinality_field_le_run : bool := Eval vm_compute in
  (
    let main := pica [] [] in
    plays [(lit "ada.dat", ada)]
    [run main [lit "filter"; lit "#028@ <= 100"; lit "ada.dat"]
      [] (Some 0) (bytes_eqb ada);
     run main [lit "filter"; lit "#028@ <= 5"; lit "ada.dat"]
      [] (Some 0) (bytes_eqb [])]).
Example filter_cardinality_cardinality_field_le : filter_cardinality_cardinality_field_le_run = true.
Proof. reflexivity. Qed.

(** /repo/crates/pica-cli/tests/filter/cardinality.rs:359-385 *)
Definition filter_cardinality_cardinality_subfield_le_run : bool := Eval vm_compute in
  (
    let main := pica [] [] in
    plays [(lit "ada.dat", ada)]
    [run main [lit "filter"; lit "042A{ #a <=  100 }"; lit "ada.dat"]
      [] (Some 0) (bytes_eqb ada);
     run main [lit "filter"; lit "042A{ #a <=  1 }"; lit "ada.dat"]
      [] (Some 0) (bytes_eqb [])]).
Example filter_cardinality_cardinality_subfield_le : filter_cardinality_cardinality_subfield_le_run = true.
Proof. reflexivity. Qed.

(** /repo/crates/pica-cli/tests/filter/connectives.rs:4-43 *)
Definition filter_connectives_and_connective_field_run : bool := Eval vm_compute in
  (
    let main := pica [] [] in
    plays [(lit "ada.dat", ada)]
    [run main [lit "filter"; lit "003@.0 == '119232022' && 002@.0 == 'Tp1'"; lit "ada.dat"]
      [] (Some 0) (bytes_eqb ada);
     run main [lit "filter"; lit "060R.a == '1815' && 060R.b == '1852' && 060R.4 == 'datl'"; lit "ada.dat"]
      [] (Some 0) (bytes_eqb ada);
     run main [lit "filter"; lit "003@.0 == '119232022' && 002@.0 == 'Tpz'"; lit "ada.dat"]
      [] (Some 0) (bytes_eqb [])]).
Example filter_connectives_and_connective_field : filter_connectives_and_connective_field_run = true.
Proof. reflexivity. Qed.

(** /repo/crates/pica-cli/tests/filter/connectives.rs:46-72 *)
Definition filter_connectives_and_connective_subfield_run : bool := Eval vm_compute in
  (
    let main := pica [] [] in
    plays [(lit "ada.dat", ada)]
    [run main [lit "filter"; lit "065R{ 9 == '040743357' && 4 == 'orts' }"; lit "ada.dat"]
      [] (Some 0) (bytes_eqb ada);
     run main [lit "filter"; lit "065R{ 9 == '040743357' && 4 == 'ortw' }"; lit "ada.dat"]
      [] (Some 0) (bytes_eqb [])]).
Example filter_connectives_and_connective_subfield : filter_connectives_and_connective_subfield_run = true.
Proof. reflexivity. Qed.

(** /repo/crates/pica-cli/tests/filter/connectives.rs:75-114 *)
Definition filter_connectives_or_connective_field_run : bool := Eval vm_compute in
  (
    let main := pica [] [] in
    plays [(lit "ada.dat", ada)]
    [run main [lit "filter"; lit "003@.0 == '118540238' || 002@.0 == 'Tp1'"; lit "ada.dat"]
      [] (Some 0) (bytes_eqb ada);
     run main [lit "filter"; lit "060R.a == '1816' || 060R.b == '1852' || 060R.4 == 'datx'"; lit "ada.dat"]
      [] (Some 0) (bytes_eqb ada);
     run main [lit "filter"; lit "003@.0 == '119232022' && 002@.0 == 'Tpz'"; lit "ada.dat"]
      [] (Some 0) (bytes_eqb [])]).
Example filter_connectives_or_connective_field : filter_connectives_or_connective_field_run = true.
Proof. reflexivity. Qed.

(** /repo/crates/pica-cli/tests/filter/connectives.rs:117-143 *)
Definition filter_connectives_or_connective_subfield_run : bool := Eval vm_compute in
  (
    let main := pica [] [] in
    plays [(lit "ada.dat", ada)]
    [run main [lit "filter"; lit "065R{ 9 == '040743357' || 4 == 'orts' }"; lit "ada.dat"]
      [] (Some 0) (bytes_eqb ada);
     run main [lit "filter"; lit "065R{ 9 == '118540238' || 4 == 'ortw' }"; lit "ada.dat"]
      [] (Some 0) (bytes_eqb [])]).
Example filter_connectives_or_connective_subfield : filter_connectives_or_connective_subfield_run = true.
Proof. reflexivity. Qed.

(** /repo/crates/pica-cli/tests/filter/connectives.rs:146-185 *)
Definition filter_connectives_xor_connective_field_run : bool := Eval vm_compute in
  (
    let main := pica [] [] in
    plays [(lit "ada.dat", ada)]
    [run main [lit "filter"; lit "003@.0 == '118540238' XOR 002@.0 == 'Tp1'"; lit "ada.dat"]
      [] (Some 0) (bytes_eqb ada);
     run main [lit "filter"; lit "060R.a == '1815' ^ 060R.b == '1852' ^ 060R.4 == 'datx'"; lit "ada.dat"]
      [] (Some 0) (bytes_eqb ada);
     run main [lit "filter"; lit "003@.0 == '118540238' XOR 002@.0 == 'Tpz'"; lit "ada.dat"]
      [] (Some 0) (bytes_eqb [])]).
Example filter_connectives_xor_connective_field : filter_connectives_xor_connective_field_run = true.
Proof. reflexivity. Qed.

(** /repo/crates/pica-cli/tests/filter/connectives.rs:188-214 *)
Definition filter_connectives_xor_connective_subfield_run : bool := Eval vm_compute in
  (
    let main := pica [] [] in
    plays [(lit "ada.dat", ada)]
    [run main [lit "filter"; lit "065R{ 9 == '040743357' XOR 4 == 'orts' }"; lit "ada.dat"]
      [] (Some 0) (bytes_eqb ada);
     run main [lit "filter"; lit "065R{ 9 == '118540238' XOR 4 == 'ortw' }"; lit "ada.dat"]
      [] (Some 0) (bytes_eqb [])]).
Example filter_connectives_xor_connective_subfield : filter_connectives_xor_connective_subfield_run = true.
Proof. reflexivity. Qed.

(** /repo/crates/pica-cli/tests/filter/contains.rs:4-30 *)
Definition filter_contains_contains_substring_run : bool := Eval vm_compute in
  (
    let main := pica [] [] in
    plays [(lit "ada.dat", ada)]
    [run main [lit "filter"; lit "028@.d =? 'August'"; lit "ada.dat"]
      [] (Some 0) (bytes_eqb ada);
     run main [lit "filter"; lit "028@.d =? 'November'"; lit "ada.dat"]
      [] (Some 0) (bytes_eqb [])]).
Example filter_contains_contains_substring : filter_contains_contains_substring_run = true.
Proof. reflexivity. Qed.

(** /repo/crates/pica-cli/tests/filter/contains.rs:33-59 *)
Definition filter_contains_contains_case_ignore_run : bool := Eval vm_compute in
  (
    let main := pica [] [] in
    plays [(lit "ada.dat", ada)]
    [run main [lit "filter"; lit "-i"; lit "028@.d =? 'august'"; lit "ada.dat"]
      [] (Some 0) (bytes_eqb ada);
     run main [lit "filter"; lit "-i"; lit "028@.d =? 'november'"; lit "ada.dat"]
      [] (Some 0) (bytes_eqb [])]).
Example filter_contains_contains_case_ignore : filter_contains_contains_case_ignore_run = true.
Proof. reflexivity. Qed.

(** /repo/crates/pica-cli/tests/filter/contains.rs:62-88 *)
Definition filter_contains_contains_set_run : bool := Eval vm_compute in
  (
    let main := pica [] [] in
    plays [(lit "ada.dat", ada)]
    [run main [lit "filter"; lit "028@.d =? ['September', 'August']"; lit "ada.dat"]
      [] (Some 0) (bytes_eqb ada);
     run main [lit "filter"; lit "028@.d =? ['Oktober', 'November']"; lit "ada.dat"]
      [] (Some 0) (bytes_eqb [])]).
Example filter_contains_contains_set : filter_contains_contains_set_run = true.
Proof. reflexivity. Qed.

(** /repo/crates/pica-cli/tests/filter/contains.rs:91-117 *)
Definition filter_contains_contains_set_case_ignore_run : bool := Eval vm_compute in
  (
    let main := pica [] [] in
    plays [(lit "ada.dat", ada)]
    [run main [lit "filter"; lit "-i"; lit "028@.d =? ['september', 'august']"; lit "ada.dat"]
      [] (Some 0) (bytes_eqb ada);
     run main [lit "filter"; lit "-i"; lit "028@.d =? ['oktober', 'november']"; lit "ada.dat"]
      [] (Some 0) (bytes_eqb [])]).
Example filter_contains_contains_set_case_ignore : filter_contains_contains_set_case_ignore_run = true.
Proof. reflexivity. Qed.

(** /repo/crates/pica-cli/tests/filter/contains.rs:120-170 *)
Definition filter_contains_contains_set_quantifier_run : bool := Eval vm_compute in
  (
    let main := pica [] [] in
    plays [(lit "ada.dat", ada)]
    [run main [lit "filter"; lit "028@{ ANY d =? ['eptemb', 'gust'] }"; lit "ada.dat"]
      [] (Some 0) (bytes_eqb ada);
     run main [lit "filter"; lit "028@{ ANY d =? ['tobe', 'ovemb'] }"; lit "ada.dat"]
      [] (Some 0) (bytes_eqb []);
     run main [lit "filter"; lit "028@{ ALL [ad] =? ['b', 'a'] }"; lit "ada.dat"]
      [] (Some 0) (bytes_eqb ada);
     run main [lit "filter"; lit "028@{ ALL [ad] =? ['x', 'y'] }"; lit "ada.dat"]
      [] (Some 0) (bytes_eqb [])]).
Example filter_contains_contains_set_quantifier : filter_contains_contains_set_quantifier_run = true.
Proof. reflexivity. Qed.

(** /repo/crates/pica-cli/tests/filter/contains.rs:173-199 *)
Definition filter_contains_contains_empty_string_run : bool := Eval vm_compute in
  (
    let main := pica [] [] in
    plays [(lit "ada.dat", ada)]
    [run main [lit "filter"; lit "028@.d =? ''"; lit "ada.dat"]
      [] (Some 0) (bytes_eqb ada);
     run main [lit "filter"; lit "028@.d =? ['Oktober', 'November', '']"; lit "ada.dat"]
      [] (Some 0) (bytes_eqb ada)]).
Example filter_contains_contains_empty_string : filter_contains_contains_empty_string_run = true.
Proof. reflexivity. Qed.

(** /repo/crates/pica-cli/tests/filter/exists.rs:4-66 *)
Definition filter_exists_field_exists_run : bool := Eval vm_compute in
  (
    let main := pica [] [] in
    plays [(lit "ada.dat", ada)]
    [run main [lit "filter"; lit "003@?"; lit "ada.dat"]
      [] (Some 0) (bytes_eqb ada);
     run main [lit "filter"; lit "ALL 028[A@].d?"; lit "ada.dat"]
      [] (Some 0) (bytes_eqb ada);
     run main [lit "filter"; lit "012A?"; lit "ada.dat"]
      [] (Some 0) (bytes_eqb []);
     run main [lit "filter"; lit "ANY 028[A@].d?"; lit "ada.dat"]
      [] (Some 0) (bytes_eqb ada);
     run main [lit "filter"; lit "ALL 028[A@].c?"; lit "ada.dat"]
      [] (Some 0) (bytes_eqb [])]).
Example filter_exists_field_exists : filter_exists_field_exists_run = true.
Proof. reflexivity. Qed.

(** /repo/crates/pica-cli/tests/filter/exists.rs:69-119 *)
Definition filter_exists_subfield_exists_run : bool := Eval vm_compute in
  (
    let main := pica [] [] in
    plays [(lit "ada.dat", ada)]
    [run main [lit "filter"; lit "003@.0?"; lit "ada.dat"]
      [] (Some 0) (bytes_eqb ada);
     run main [lit "filter"; lit "003@{ 0? }"; lit "ada.dat"]
      [] (Some 0) (bytes_eqb ada);
     run main [lit "filter"; lit "012A.a?"; lit "ada.dat"]
      [] (Some 0) (bytes_eqb []);
     run main [lit "filter"; lit "028A.P?"; lit "ada.dat"]
      [] (Some 0) (bytes_eqb [])]).
Example filter_exists_subfield_exists : filter_exists_subfield_exists_run = true.
Proof. reflexivity. Qed.

(** /repo/crates/pica-cli/tests/filter/filter_set.rs:11-32 *)
Definition filter_filter_set_allow_list_ppn_run : bool := Eval vm_compute in
  (
    let lists := [((lit "ppn" ++ [10] ++ lit "118540238"), [(lit "ppn", [Some (lit "118540238")])])] in
    let main := pica lists [] in
    plays [(lit "DUMP.dat.gz", gz_enc dump); (lit "goethe.dat", goethe)]
    [write (lit "d1/ALLOW.csv") (lit "ppn" ++ [10] ++ lit "118540238");
     run main [lit "filter"; lit "-s"; lit "003@?"; lit "-A"; lit "d1/ALLOW.csv"; lit "DUMP.dat.gz"]
      [] (Some 0) (bytes_eqb goethe)]).
Example filter_filter_set_allow_list_ppn : filter_filter_set_allow_list_ppn_run = true.
Proof. reflexivity. Qed.

(** /repo/crates/pica-cli/tests/filter/filter_set.rs:35-56 *)
Definition filter_filter_set_allow_list_idn_run : bool := Eval vm_compute in
  (
    let lists := [((lit "idn" ++ [10] ++ lit "118540238"), [(lit "idn", [Some (lit "118540238")])])] in
    let main := pica lists [] in
    plays [(lit "DUMP.dat.gz", gz_enc dump); (lit "goethe.dat", goethe)]
    [write (lit "d1/ALLOW.csv") (lit "idn" ++ [10] ++ lit "118540238");
     run main [lit "filter"; lit "-s"; lit "003@?"; lit "-A"; lit "d1/ALLOW.csv"; lit "DUMP.dat.gz"]
      [] (Some 0) (bytes_eqb goethe)]).
Example filter_filter_set_allow_list_idn : filter_filter_set_allow_list_idn_run = true.
Proof. reflexivity. Qed.

(** /repo/crates/pica-cli/tests/filter/filter_set.rs:59-81 *)
Definition filter_filter_set_allow_list_column_run : bool := Eval vm_compute in
  (
    let lists := [((lit "xyz" ++ [10] ++ lit "118540238"), [(lit "xyz", [Some (lit "118540238")])])] in
    let main := pica lists [] in
    plays [(lit "DUMP.dat.gz", gz_enc dump); (lit "goethe.dat", goethe)]
    [write (lit "d1/ALLOW.csv") (lit "xyz" ++ [10] ++ lit "118540238");
     run main [lit "filter"; lit "-s"; lit "003@?"; lit "--filter-set-column"; lit "xyz"; lit "-A"; lit "d1/ALLOW.csv"; lit "DUMP.dat.gz"]
      [] (Some 0) (bytes_eqb goethe)]).
Example filter_filter_set_allow_list_column : filter_filter_set_allow_list_column_run = true.
Proof. reflexivity. Qed.

(** /repo/crates/pica-cli/tests/filter/filter_set.rs:84-107 *)
Definition filter_filter_set_allow_list_source_run : bool := Eval vm_compute in
  (
    let lists := [((lit "wd_id" ++ [10] ++ lit "Q5879"), [(lit "wd_id", [Some (lit "Q5879")])])] in
    let main := pica lists [] in
    plays [(lit "DUMP.dat.gz", gz_enc dump); (lit "goethe.dat", goethe)]
    [write (lit "d1/ALLOW.csv") (lit "wd_id" ++ [10] ++ lit "Q5879");
     run main [lit "filter"; lit "-s"; lit "003@?"; lit "--filter-set-column"; lit "wd_id"; lit "--filter-set-source"; lit "006Y{ 0 | S == 'wikidata' }"; lit "-A"; lit "d1/ALLOW.csv"; lit "DUMP.dat.gz"]
      [] (Some 0) (bytes_eqb goethe)]).
Example filter_filter_set_allow_list_source : filter_filter_set_allow_list_source_run = true.
Proof. reflexivity. Qed.

(** /repo/crates/pica-cli/tests/filter/filter_set.rs:110-152 *)
Definition filter_filter_set_allow_list_mulval_run : bool := Eval vm_compute in
  (
    let lists := [((lit "code" ++ [10] ++ lit "x" ++ [10] ++ lit "f"), [(lit "code", [Some (lit "x"); Some (lit "f")])]); ((lit "code" ++ [10] ++ lit "x" ++ [10] ++ lit "y"), [(lit "code", [Some (lit "x"); Some (lit "y")])])] in
    let main := pica lists [] in
    plays [(lit "goethe.dat", goethe)]
    [write (lit "d1/DENY.csv") (lit "code" ++ [10] ++ lit "x" ++ [10] ++ lit "f");
     run main [lit "filter"; lit "-s"; lit "003@?"; lit "-A"; lit "d1/DENY.csv"; lit "--filter-set-column"; lit "code"; lit "--filter-set-source"; lit "008A.a"; lit "goethe.dat"]
      [] (Some 0) (bytes_eqb goethe);
     write (lit "d2/DENY.csv") (lit "code" ++ [10] ++ lit "x" ++ [10] ++ lit "y");
     run main [lit "filter"; lit "-s"; lit "003@?"; lit "-A"; lit "d2/DENY.csv"; lit "--filter-set-column"; lit "code"; lit "--filter-set-source"; lit "008A.a"; lit "goethe.dat"]
      [] (Some 0) (bytes_eqb [])]).
Example filter_filter_set_allow_list_mulval : filter_filter_set_allow_list_mulval_run = true.
Proof. reflexivity. Qed.

(** /repo/crates/pica-cli/tests/filter/filter_set.rs:155-174 *)
Definition filter_filter_set_allow_list_empty_run : bool := Eval vm_compute in
  (
    let lists := [(lit "ppn", [(lit "ppn", [])])] in
    let main := pica lists [] in
    plays [(lit "DUMP.dat.gz", gz_enc dump)]
    [write (lit "d1/ALLOW.csv") (lit "ppn");
     run main [lit "filter"; lit "-s"; lit "003@?"; lit "-A"; lit "d1/ALLOW.csv"; lit "DUMP.dat.gz"]
      [] (Some 0) (bytes_eqb [])]).
Example filter_filter_set_allow_list_empty : filter_filter_set_allow_list_empty_run = true.
Proof. reflexivity. Qed.

(** /repo/crates/pica-cli/tests/filter/filter_set.rs:177-197 *)
Definition filter_filter_set_deny_list_ppn_run : bool := Eval vm_compute in
  (
    let lists := [((lit "ppn" ++ [10] ++ lit "118540238"), [(lit "ppn", [Some (lit "118540238")])])] in
    let main := pica lists [] in
    plays [(lit "ada.dat", ada); (lit "goethe.dat", goethe)]
    [write (lit "d1/DENY.csv") (lit "ppn" ++ [10] ++ lit "118540238");
     run main [lit "filter"; lit "-s"; lit "003@?"; lit "-D"; lit "d1/DENY.csv"; lit "goethe.dat"; lit "ada.dat"]
      [] (Some 0) (bytes_eqb ada)]).
Example filter_filter_set_deny_list_ppn : filter_filter_set_deny_list_ppn_run = true.
Proof. reflexivity. Qed.

(** /repo/crates/pica-cli/tests/filter/filter_set.rs:200-220 *)
Definition filter_filter_set_deny_list_idn_run : bool := Eval vm_compute in
  (
    let lists := [((lit "idn" ++ [10] ++ lit "118540238"), [(lit "idn", [Some (lit "118540238")])])] in
    let main := pica lists [] in
    plays [(lit "ada.dat", ada); (lit "goethe.dat", goethe)]
    [write (lit "d1/DENY.csv") (lit "idn" ++ [10] ++ lit "118540238");
     run main [lit "filter"; lit "-s"; lit "003@?"; lit "-D"; lit "d1/DENY.csv"; lit "goethe.dat"; lit "ada.dat"]
      [] (Some 0) (bytes_eqb ada)]).
Example filter_filter_set_deny_list_idn : filter_filter_set_deny_list_idn_run = true.
Proof. reflexivity. Qed.

(** /repo/crates/pica-cli/tests/filter/filter_set.rs:223-244 *)
Definition filter_filter_set_deny_list_column_run : bool := Eval vm_compute in
  (
    let lists := [((lit "xyz" ++ [10] ++ lit "118540238"), [(lit "xyz", [Some (lit "118540238")])])] in
    let main := pica lists [] in
    plays [(lit "ada.dat", ada); (lit "goethe.dat", goethe)]
    [write (lit "d1/DENY.csv") (lit "xyz" ++ [10] ++ lit "118540238");
     run main [lit "filter"; lit "-s"; lit "003@?"; lit "-D"; lit "d1/DENY.csv"; lit "--filter-set-column"; lit "xyz"; lit "goethe.dat"; lit "ada.dat"]
      [] (Some 0) (bytes_eqb ada)]).
Example filter_filter_set_deny_list_column : filter_filter_set_deny_list_column_run = true.
Proof. reflexivity. Qed.

(** /repo/crates/pica-cli/tests/filter/filter_set.rs:247-269 *)
Definition filter_filter_set_deny_list_source_run : bool := Eval vm_compute in
  (
    let lists := [((lit "isni" ++ [10] ++ lit "0000 0001 2099 9104"), [(lit "isni", [Some (lit "0000 0001 2099 9104")])])] in
    let main := pica lists [] in
    plays [(lit "ada.dat", ada); (lit "goethe.dat", goethe)]
    [write (lit "d1/DENY.csv") (lit "isni" ++ [10] ++ lit "0000 0001 2099 9104");
     run main [lit "filter"; lit "-s"; lit "003@?"; lit "-D"; lit "d1/DENY.csv"; lit "--filter-set-column"; lit "isni"; lit "--filter-set-source"; lit "006Y{ 0 | S == 'isni' }"; lit "goethe.dat"; lit "ada.dat"]
      [] (Some 0) (bytes_eqb ada)]).
Example filter_filter_set_deny_list_source : filter_filter_set_deny_list_source_run = true.
Proof. reflexivity. Qed.

(** /repo/crates/pica-cli/tests/filter/filter_set.rs:272-314 *)
Definition filter_filter_set_deny_list_mulval_run : bool := Eval vm_compute in
  (
    let lists := [((lit "code" ++ [10] ++ lit "x" ++ [10] ++ lit "f"), [(lit "code", [Some (lit "x"); Some (lit "f")])]); ((lit "code" ++ [10] ++ lit "x" ++ [10] ++ lit "y"), [(lit "code", [Some (lit "x"); Some (lit "y")])])] in
    let main := pica lists [] in
    plays [(lit "goethe.dat", goethe)]
    [write (lit "d1/DENY.csv") (lit "code" ++ [10] ++ lit "x" ++ [10] ++ lit "f");
     run main [lit "filter"; lit "-s"; lit "003@?"; lit "-D"; lit "d1/DENY.csv"; lit "--filter-set-column"; lit "code"; lit "--filter-set-source"; lit "008A.a"; lit "goethe.dat"]
      [] (Some 0) (bytes_eqb []);
     write (lit "d2/DENY.csv") (lit "code" ++ [10] ++ lit "x" ++ [10] ++ lit "y");
     run main [lit "filter"; lit "-s"; lit "003@?"; lit "-D"; lit "d2/DENY.csv"; lit "--filter-set-column"; lit "code"; lit "--filter-set-source"; lit "008A.a"; lit "goethe.dat"]
      [] (Some 0) (bytes_eqb goethe)]).
Example filter_filter_set_deny_list_mulval : filter_filter_set_deny_list_mulval_run = true.
Proof. reflexivity. Qed.

(** /repo/crates/pica-cli/tests/filter/filter_set.rs:317-351 *)
Definition filter_filter_set_deny_list_empty_run : bool := Eval vm_compute in
  (
    let lists := [(lit "ppn", [(lit "ppn", [])])] in
    let main := pica lists [] in
    plays [(lit "DUMP.dat.gz", gz_enc dump)]
    [write (lit "d1/DENY.csv") (lit "ppn");
     run main [lit "filter"; lit "-s"; lit "003@?"; lit "-D"; lit "d1/DENY.csv"; lit "DUMP.dat.gz"; lit "-o"; lit "d1/out.dat"]
      [] (Some 0) (bytes_eqb []);
     run main [lit "count"; lit "-s"; lit "--records"; lit "d1/out.dat"]
      [] (Some 0) (bytes_eqb (lit "12" ++ [10]))]).
Example filter_filter_set_deny_list_empty : filter_filter_set_deny_list_empty_run = true.
Proof. reflexivity. Qed.

(** /repo/crates/pica-cli/tests/filter/filter_set.rs:354-375 *)
Definition filter_filter_set_allow_list_txt_run : bool := Eval vm_compute in
  (
    let lists := [(lit "118540238", [(lit "ppn", [Some (lit "118540238")])])] in
    let main := pica lists [] in
    plays [(lit "DUMP.dat.gz", gz_enc dump); (lit "goethe.dat", goethe)]
    [write (lit "d1/ALLOW.txt") (lit "118540238");
     run main [lit "filter"; lit "-s"; lit "003@?"; lit "-A"; lit "d1/ALLOW.txt"; lit "DUMP.dat.gz"]
      [] (Some 0) (bytes_eqb goethe)]).
Example filter_filter_set_allow_list_txt : filter_filter_set_allow_list_txt_run = true.
Proof. reflexivity. Qed.

(** /repo/crates/pica-cli/tests/filter/filter_set.rs:378-402 *)
Definition filter_filter_set_allow_list_txt_gz_run : bool := Eval vm_compute in
  (
    let lists := [((lit "118540238" ++ [10]), [(lit "ppn", [Some (lit "118540238")])])] in
    let main := pica lists [] in
    plays [(lit "DUMP.dat.gz", gz_enc dump); (lit "goethe.dat", goethe)]
    [write (lit "d1/ALLOW.txt") (lit "118540238" ++ [10]);
     run main [lit "filter"; lit "-s"; lit "003@?"; lit "-A"; lit "d1/ALLOW.txt"; lit "DUMP.dat.gz"]
      [] (Some 0) (bytes_eqb goethe)]).
Example filter_filter_set_allow_list_txt_gz : filter_filter_set_allow_list_txt_gz_run = true.
Proof. reflexivity. Qed.

(** /repo/crates/pica-cli/tests/filter/in.rs:45-83 *)
Definition filter_in_not_in_run : bool := Eval vm_compute in
  (
    let main := pica [] [] in
    plays [(lit "ada.dat", ada)]
    [run main [lit "filter"; lit "002@.0 not in ['Tsz', 'Tpz']"; lit "ada.dat"]
      [] (Some 0) (bytes_eqb ada);
     run main [lit "filter"; lit "002@{ 0 not in ['Tsz', 'Ts1'] }"; lit "ada.dat"]
      [] (Some 0) (bytes_eqb ada);
     run main [lit "filter"; lit "002@.0 not in ['Tpz', 'Tp1']"; lit "ada.dat"]
      [] (Some 0) (bytes_eqb [])]).
Example filter_in_not_in : filter_in_not_in_run = true.
Proof. reflexivity. Qed.

(** /repo/crates/pica-cli/tests/filter/mod.rs:20-36 *)
Definition filter_filter_stdout_run : bool := Eval vm_compute in
  (
    let main := pica [] [] in
    plays [(lit "DUMP.dat.gz", gz_enc dump); (lit "goethe.dat", goethe)]
    [run main [lit "filter"; lit "-s"; lit "003@.0 == '118540238'"; lit "DUMP.dat.gz"]
      [] (Some 0) (bytes_eqb goethe)]).
Example filter_filter_stdout : filter_filter_stdout_run = true.
Proof. reflexivity. Qed.

(** /repo/crates/pica-cli/tests/filter/mod.rs:39-86 *)
Definition filter_filter_stdin_run : bool := Eval vm_compute in
  (
    let main := pica [] [] in
    plays [(lit "ada.dat", ada); (lit "goethe.dat", goethe); (lit "math.dat.gz", gz_enc math)]
    [run main [lit "filter"; lit "003@.0 == '118540238'"]
      goethe (Some 0) (bytes_eqb goethe);
     run main [lit "filter"; lit "003@.0 == '118540238'"; lit "-"]
      goethe (Some 0) (bytes_eqb goethe);
     run main [lit "filter"; lit "-s"; lit "003@.0 == '118540238'"; lit "ada.dat"; lit "-"; lit "math.dat.gz"]
      goethe (Some 0) (bytes_eqb goethe)]).
Example filter_filter_stdin : filter_filter_stdin_run = true.
Proof. reflexivity. Qed.

(** /repo/crates/pica-cli/tests/filter/mod.rs:89-113 *)
Definition filter_filter_output_run : bool := Eval vm_compute in
  (
    let main := pica [] [] in
    plays [(lit "DUMP.dat.gz", gz_enc dump); (lit "goethe.dat", goethe)]
    [run main [lit "filter"; lit "-s"; lit "003@.0 == '118540238'"; lit "-o"; lit "d1/out.dat"; lit "DUMP.dat.gz"]
      [] (Some 0) (bytes_eqb []);
     file_is (lit "d1/out.dat") goethe]).
Example filter_filter_output : filter_filter_output_run = true.
Proof. reflexivity. Qed.

(** /repo/crates/pica-cli/tests/filter/mod.rs:116-144 *)
Definition filter_filter_skip_invalid_run : bool := Eval vm_compute in
  (
    let main := pica [] [] in
    plays [(lit "DUMP.dat.gz", gz_enc dump); (lit "invalid.dat", invalid_dat)]
    [run main [lit "filter"; lit "003@?"; lit "DUMP.dat.gz"]
      [] (Some 2) nonempty;
     run main [lit "filter"; lit "-s"; lit "003@?"; lit "invalid.dat"]
      [] (Some 0) (bytes_eqb [])]).
Example filter_filter_skip_invalid : filter_filter_skip_invalid_run = true.
Proof. reflexivity. Qed.

(** /repo/crates/pica-cli/tests/filter/mod.rs:147-162 *)
Definition filter_filter_invert_match_run : bool := Eval vm_compute in
  (
    let main := pica [] [] in
    plays [(lit "ada.dat", ada); (lit "math.dat.gz", gz_enc math)]
    [run main [lit "filter"; lit "-v"; lit "003@.0 == '040379442'"; lit "math.dat.gz"; lit "ada.dat"]
      [] (Some 0) (bytes_eqb ada)]).
Example filter_filter_invert_match : filter_filter_invert_match_run = true.
Proof. reflexivity. Qed.

(** /repo/crates/pica-cli/tests/filter/mod.rs:165-193 *)
Definition filter_filter_ignore_case_run : bool := Eval vm_compute in
  (
    let main := pica [] [] in
    plays [(lit "ada.dat", ada); (lit "math.dat.gz", gz_enc math)]
    [run main [lit "filter"; lit "-i"; lit "002@.0 == 'TP1'"; lit "math.dat.gz"; lit "ada.dat"]
      [] (Some 0) (bytes_eqb ada);
     run main [lit "filter"; lit "002@.0 == 'TP1'"; lit "math.dat.gz"; lit "ada.dat"]
      [] (Some 0) (bytes_eqb [])]).
Example filter_filter_ignore_case : filter_filter_ignore_case_run = true.
Proof. reflexivity. Qed.

(** /repo/crates/pica-cli/tests/filter/mod.rs:196-226 *)
Definition filter_filter_strsim_threshold_run : bool := Eval vm_compute in
  (
    let main := pica [] [] in
    plays [(lit "ada.dat", ada); (lit "math.dat.gz", gz_enc math)]
    [run main [lit "filter"; lit "028A.a =* 'Lovelaca'"; lit "--strsim-threshold"; lit "75"; lit "math.dat.gz"; lit "ada.dat"]
      [] (Some 0) (bytes_eqb ada);
     run main [lit "filter"; lit "028A.a =* 'Lovelaca'"; lit "--strsim-threshold"; lit "90"; lit "math.dat.gz"; lit "ada.dat"]
      [] (Some 0) (bytes_eqb [])]).
Example filter_filter_strsim_threshold : filter_filter_strsim_threshold_run = true.
Proof. reflexivity. Qed.

(** /repo/crates/pica-cli/tests/filter/mod.rs:229-246 *)
Definition filter_filter_keep_run : bool := Eval vm_compute in
  (
    let main := pica [] [] in
    plays [(lit "DUMP.dat.gz", gz_enc dump)]
    [run main [lit "filter"; lit "-s"; lit "003@.0 == '118540238'"; lit "--keep"; lit "003@, 002@"; lit "DUMP.dat.gz"]
      [] (Some 0) (bytes_eqb (lit "002@ " ++ [31] ++ lit "0Tpz" ++ [30] ++ lit "003@ " ++ [31] ++ lit "0118540238" ++ [30; 10]))]).
Example filter_filter_keep : filter_filter_keep_run = true.
Proof. reflexivity. Qed.

(** /repo/crates/pica-cli/tests/filter/mod.rs:249-266 *)
Definition filter_filter_discard_run : bool := Eval vm_compute in
  (
    let main := pica [] [] in
    plays []
    [run main [lit "filter"; lit "-s"; lit "003@.0 == '118540238'"; lit "--discard"; lit "002@,012A/*"]
      (lit "002@ " ++ [31] ++ lit "0Tpz" ++ [30] ++ lit "003@ " ++ [31] ++ lit "0118540238" ++ [30; 10]) (Some 0) (bytes_eqb (lit "003@ " ++ [31] ++ lit "0118540238" ++ [30; 10]))]).
Example filter_filter_discard : filter_filter_discard_run = true.
Proof. reflexivity. Qed.

(** /repo/crates/pica-cli/tests/filter/mod.rs:269-292 *)
Definition filter_filter_expr_file_run : bool := Eval vm_compute in
  (
    let main := pica [] [] in
    plays [(lit "DUMP.dat.gz", gz_enc dump); (lit "goethe.dat", goethe)]
    [write (lit "d1/expr.txt") (lit "003@.0 == '118540238'");
     run main [lit "filter"; lit "-s"; lit "-F"; lit "d1/expr.txt"; lit "DUMP.dat.gz"]
      [] (Some 0) (bytes_eqb goethe)]).
Example filter_filter_expr_file : filter_filter_expr_file_run = true.
Proof. reflexivity. Qed.

(** /repo/crates/pica-cli/tests/filter/mod.rs:295-379 *)
Definition filter_filter_allow_run : bool := Eval vm_compute in
  (
    let lists := [((lit "idn" ++ [10] ++ lit "118540238"), [(lit "idn", [Some (lit "118540238")])]); ((lit "idn,ppn" ++ [10] ++ lit "118607626,118540238"), [(lit "idn", [Some (lit "118607626")]); (lit "ppn", [Some (lit "118540238")])]); ((lit "idn" ++ [10]), [(lit "idn", [])])] in
    let main := pica lists [] in
    plays [(lit "DUMP.dat.gz", gz_enc dump); (lit "goethe.dat", goethe)]
    [write (lit "d1/allow.csv") (lit "idn" ++ [10] ++ lit "118540238");
     run main [lit "filter"; lit "-s"; lit "003@?"; lit "-A"; lit "d1/allow.csv"; lit "DUMP.dat.gz"]
      [] (Some 0) (bytes_eqb goethe);
     write (lit "d2/allow.csv") (lit "idn" ++ [10] ++ lit "118540238");
     run main [lit "filter"; lit "-s"; lit "003@?"; lit "-A"; lit "d2/allow.csv"; lit "DUMP.dat.gz"]
      [] (Some 0) (bytes_eqb goethe);
     write (lit "d3/allow.csv") (lit "idn,ppn" ++ [10] ++ lit "118607626,118540238");
     run main [lit "filter"; lit "-s"; lit "003@?"; lit "-A"; lit "d3/allow.csv"; lit "DUMP.dat.gz"]
      [] (Some 0) (bytes_eqb goethe);
     write (lit "d4/allow.csv") (lit "idn" ++ [10]);
     run main [lit "filter"; lit "-s"; lit "003@?"; lit "-A"; lit "d4/allow.csv"; lit "DUMP.dat.gz"]
      [] (Some 0) (bytes_eqb [])]).
Example filter_filter_allow : filter_filter_allow_run = true.
Proof. reflexivity. Qed.

(** /repo/crates/pica-cli/tests/filter/mod.rs:382-473 *)
Definition filter_filter_deny_run : bool := Eval vm_compute in
  (
    let lists := [((lit "idn" ++ [10] ++ lit "118607626" ++ [10] ++ lit "040993396" ++ [10] ++ lit "04099337X" ++ [10] ++ lit "040991970" ++ [10] ++ lit "040991989" ++ [10] ++ lit "041274377" ++ [10] ++ lit "964262134" ++ [10] ++ lit "040533093" ++ [10] ++ lit "040309606" ++ [10] ++ lit "040128997" ++ [10] ++ lit "040651053" ++ [10]), [(lit "idn", [Some (lit "118607626"); Some (lit "040993396"); Some (lit "04099337X"); Some (lit "040991970"); Some (lit "040991989"); Some (lit "041274377"); Some (lit "964262134"); Some (lit "040533093"); Some (lit "040309606"); Some (lit "040128997"); Some (lit "040651053")])]); ((lit "idn" ++ [10]), [(lit "idn", [])])] in
    let main := pica lists [] in
    plays [(lit "DUMP.dat.gz", gz_enc dump); (lit "ada.dat", ada); (lit "goethe.dat", goethe)]
    [write (lit "d1/deny.csv") (lit "idn" ++ [10] ++ lit "118607626" ++ [10] ++ lit "040993396" ++ [10] ++ lit "04099337X" ++ [10] ++ lit "040991970" ++ [10] ++ lit "040991989" ++ [10] ++ lit "041274377" ++ [10] ++ lit "964262134" ++ [10] ++ lit "040533093" ++ [10] ++ lit "040309606" ++ [10] ++ lit "040128997" ++ [10] ++ lit "040651053" ++ [10]);
     run main [lit "filter"; lit "-s"; lit "003@?"; lit "-D"; lit "d1/deny.csv"; lit "DUMP.dat.gz"]
      [] (Some 0) (bytes_eqb goethe);
     write (lit "d2/deny.csv") (lit "idn" ++ [10] ++ lit "118607626" ++ [10] ++ lit "040993396" ++ [10] ++ lit "04099337X" ++ [10] ++ lit "040991970" ++ [10] ++ lit "040991989" ++ [10] ++ lit "041274377" ++ [10] ++ lit "964262134" ++ [10] ++ lit "040533093" ++ [10] ++ lit "040309606" ++ [10] ++ lit "040128997" ++ [10] ++ lit "040651053" ++ [10]);
     run main [lit "filter"; lit "-s"; lit "003@?"; lit "-D"; lit "d2/deny.csv"; lit "DUMP.dat.gz"]
      [] (Some 0) (bytes_eqb goethe);
     write (lit "d3/deny.csv") (lit "idn" ++ [10]);
     run main [lit "filter"; lit "-s"; lit "003@?"; lit "-D"; lit "d3/deny.csv"; lit "ada.dat"]
      [] (Some 0) (bytes_eqb ada)]).
Example filter_filter_deny : filter_filter_deny_run = true.
Proof. reflexivity. Qed.

(** /repo/crates/pica-cli/tests/filter/mod.rs:476-520 *)
Definition filter_filter_limit_run : bool := Eval vm_compute in
  (
    let main := pica [] [] in
    plays [(lit "DUMP.dat.gz", gz_enc dump); (lit "ada.dat", ada); (lit "goethe.dat", goethe)]
    [run main [lit "filter"; lit "-s"; lit "003@?"; lit "--limit"; lit "1"; lit "DUMP.dat.gz"]
      [] (Some 0) (bytes_eqb goethe);
     run main [lit "filter"; lit "-l"; lit "2"; lit "003@?"; lit "-o"; lit "d1/out.dat"; lit "goethe.dat"; lit "ada.dat"]
      [] (Some 0) (bytes_eqb []);
     file_is (lit "d1/out.dat") (goethe ++ ada)]).
Example filter_filter_limit : filter_filter_limit_run = true.
Proof. reflexivity. Qed.

(** /repo/crates/pica-cli/tests/filter/mod.rs:523-540 *)
Definition filter_filter_and_run : bool := Eval vm_compute in
  (
    let main := pica [] [] in
    plays [(lit "DUMP.dat.gz", gz_enc dump); (lit "goethe.dat", goethe)]
    [run main [lit "filter"; lit "-s"; lit "003@.0 == '118540238'"; lit "--and"; lit "002@.0 == 'Tpz'"; lit "DUMP.dat.gz"]
      [] (Some 0) (bytes_eqb goethe)]).
Example filter_filter_and : filter_filter_and_run = true.
Proof. reflexivity. Qed.

(** /repo/crates/pica-cli/tests/filter/mod.rs:543-561 *)
Definition filter_filter_and_not_run : bool := Eval vm_compute in
  (
    let main := pica [] [] in
    plays [(lit "DUMP.dat.gz", gz_enc dump); (lit "goethe.dat", goethe)]
    [run main [lit "filter"; lit "-s"; lit "003@.0 == '118540238'"; lit "--and"; lit "002@.0 == 'Tpz'"; lit "--not"; lit "002@.0 == 'Tp1'"; lit "DUMP.dat.gz"]
      [] (Some 0) (bytes_eqb goethe)]).
Example filter_filter_and_not : filter_filter_and_not_run = true.
Proof. reflexivity. Qed.

(** /repo/crates/pica-cli/tests/filter/mod.rs:564-581 *)
Definition filter_filter_not_run : bool := Eval vm_compute in
  (
    let main := pica [] [] in
    plays [(lit "DUMP.dat.gz", gz_enc dump); (lit "goethe.dat", goethe)]
    [run main [lit "filter"; lit "-s"; lit "003@.0 == '118540238'"; lit "--not"; lit "002@.0 == 'Tp1'"; lit "DUMP.dat.gz"]
      [] (Some 0) (bytes_eqb goethe)]).
Example filter_filter_not : filter_filter_not_run = true.
Proof. reflexivity. Qed.

(** /repo/crates/pica-cli/tests/filter/mod.rs:584-601 *)
Definition filter_filter_or_run : bool := Eval vm_compute in
  (
    let main := pica [] [] in
    plays [(lit "DUMP.dat.gz", gz_enc dump); (lit "goethe.dat", goethe)]
    [run main [lit "filter"; lit "-s"; lit "002@.0 == 'Tuz'"; lit "--or"; lit "003@.0 == '118540238'"; lit "DUMP.dat.gz"]
      [] (Some 0) (bytes_eqb goethe)]).
Example filter_filter_or : filter_filter_or_run = true.
Proof. reflexivity. Qed.

(** /repo/crates/pica-cli/tests/filter/mod.rs:604-667 *)
Definition filter_filter_gzip_run : bool := Eval vm_compute in
  (
    let main := pica [] [] in
    plays [(lit "DUMP.dat.gz", gz_enc dump)]
    [run main [lit "filter"; lit "-s"; lit "--gzip"; lit "003@.0 == '118540238'"; lit "-o"; lit "d1/out.dat.gz"; lit "DUMP.dat.gz"]
      [] (Some 0) (bytes_eqb []);
     run main [lit "select"; lit "003@.0"; lit "d1/out.dat.gz"]
      [] (Some 0) (bytes_eqb (lit "118540238" ++ [10]));
     run main [lit "filter"; lit "-s"; lit "003@.0 == '118540238'"; lit "-o"; lit "d2/out.dat.gz"; lit "DUMP.dat.gz"]
      [] (Some 0) (bytes_eqb []);
     run main [lit "select"; lit "003@.0"; lit "d2/out.dat.gz"]
      [] (Some 0) (bytes_eqb (lit "118540238" ++ [10]))]).
Example filter_filter_gzip : filter_filter_gzip_run = true.
Proof. reflexivity. Qed.

(** /repo/crates/pica-cli/tests/filter/mod.rs:670-715 *)
Definition filter_filter_append_run : bool := Eval vm_compute in
  (
    let main := pica [] [] in
    plays [(lit "ada.dat", ada); (lit "goethe.dat", goethe)]
    [run main [lit "filter"; lit "-s"; lit "003@?"; lit "-o"; lit "d1/out.dat"; lit "ada.dat"]
      [] (Some 0) (bytes_eqb []);
     run main [lit "filter"; lit "-s"; lit "003@?"; lit "--append"; lit "-o"; lit "d1/out.dat"; lit "goethe.dat"]
      [] (Some 0) (bytes_eqb []);
     run main [lit "select"; lit "003@.0"; lit "d1/out.dat"]
      [] (Some 0) (bytes_eqb (lit "119232022" ++ [10] ++ lit "118540238" ++ [10]))]).
Example filter_filter_append : filter_filter_append_run = true.
Proof. reflexivity. Qed.

(** /repo/crates/pica-cli/tests/filter/mod.rs:718-744 *)
Definition filter_filter_tee_run : bool := Eval vm_compute in
  (
    let main := pica [] [] in
    plays [(lit "DUMP.dat.gz", gz_enc dump); (lit "goethe.dat", goethe)]
    [run main [lit "filter"; lit "-s"; lit "003@.0 == '118540238'"; lit "--tee"; lit "d1/tee.dat"; lit "DUMP.dat.gz"]
      [] (Some 0) (bytes_eqb goethe);
     file_is (lit "d1/tee.dat") goethe]).
Example filter_filter_tee : filter_filter_tee_run = true.
Proof. reflexivity. Qed.

(** /repo/crates/pica-cli/tests/filter/mod.rs:748-760 *)
Definition filter_filter_no_ppn_run : bool := Eval vm_compute in
  (
    let main := pica [] [] in
    plays []
    [run main [lit "filter"; lit "....?"]
      (lit "036E/00 " ++ [31] ++ lit "aSpringer-Lehrbuch" ++ [30] ++ lit "036E/01 " ++ [31] ++ lit "aSpringer-Link" ++ [31] ++ lit "pBücher" ++ [30; 10]) (Some 0) (bytes_eqb (lit "036E/00 " ++ [31] ++ lit "aSpringer-Lehrbuch" ++ [30] ++ lit "036E/01 " ++ [31] ++ lit "aSpringer-Link" ++ [31] ++ lit "pBücher" ++ [30; 10]))]).
Example filter_filter_no_ppn : filter_filter_no_ppn_run = true.
Proof. reflexivity. Qed.

(** /repo/crates/pica-cli/tests/filter/regex.rs:4-66 *)
Definition filter_regex_regex_run : bool := Eval vm_compute in
  (
    let main := pica [] [] in
    plays [(lit "ada.dat", ada)]
    [run main [lit "filter"; lit "002@.0 =~ '^T[bfgpsu][1-3z]$'"; lit "ada.dat"]
      [] (Some 0) (bytes_eqb ada);
     run main [lit "filter"; lit "002@.0 =~ '^T[bfgpsu][23z]$'"; lit "ada.dat"]
      [] (Some 0) (bytes_eqb []);
     run main [lit "filter"; lit "042A{ ALL a =~ '.*p$' }"; lit "ada.dat"]
      [] (Some 0) (bytes_eqb ada);
     run main [lit "filter"; lit "008A{ ALL a =~ '^[sz]$' }"; lit "ada.dat"]
      [] (Some 0) (bytes_eqb []);
     run main [lit "filter"; lit "-i"; lit "002@.0 =~ '^t[BFGPSU][1-3Z]$'"; lit "ada.dat"]
      [] (Some 0) (bytes_eqb ada)]).
Example filter_regex_regex : filter_regex_regex_run = true.
Proof. reflexivity. Qed.

(** /repo/crates/pica-cli/tests/filter/regex.rs:69-95 *)
Definition filter_regex_regex_inverted_run : bool := Eval vm_compute in
  (
    let main := pica [] [] in
    plays [(lit "ada.dat", ada)]
    [run main [lit "filter"; lit "002@.0 !~ '^O(af|lfo)$'"; lit "ada.dat"]
      [] (Some 0) (bytes_eqb ada);
     run main [lit "filter"; lit "-i"; lit "002@.0 !~ '^olfo'"; lit "ada.dat"]
      [] (Some 0) (bytes_eqb ada)]).
Example filter_regex_regex_inverted : filter_regex_regex_inverted_run = true.
Proof. reflexivity. Qed.

(** /repo/crates/pica-cli/tests/filter/regex_set.rs:4-69 *)
Definition filter_regex_set_regex_set_run : bool := Eval vm_compute in
  (
    let main := pica [] [] in
    plays [(lit "ada.dat", ada)]
    [run main [lit "filter"; lit "002@.0 =~ ['^T[bfg][1-3z]$', '^Tp[1z]$']"; lit "ada.dat"]
      [] (Some 0) (bytes_eqb ada);
     run main [lit "filter"; lit "002@.0 =~ ['^T[bfg][1-3z]$', '^Tp[23z]$']"; lit "ada.dat"]
      [] (Some 0) (bytes_eqb []);
     run main [lit "filter"; lit "-i"; lit "002@.0 =~ ['^t[BFG][1-3z]$', '^tP[1Z]$']"; lit "ada.dat"]
      [] (Some 0) (bytes_eqb ada);
     run main [lit "filter"; lit "042A{ ALL a =~ ['30p', '5p$'] }"; lit "ada.dat"]
      [] (Some 0) (bytes_eqb []);
     run main [lit "filter"; lit "042A{ ALL a =~ ['30p', 'p$'] }"; lit "ada.dat"]
      [] (Some 0) (bytes_eqb ada)]).
Example filter_regex_set_regex_set : filter_regex_set_regex_set_run = true.
Proof. reflexivity. Qed.

(** /repo/crates/pica-cli/tests/filter/regex_set.rs:72-111 *)
Definition filter_regex_set_regex_set_inverted_run : bool := Eval vm_compute in
  (
    let main := pica [] [] in
    plays [(lit "ada.dat", ada)]
    [run main [lit "filter"; lit "002@.0 !~ ['^T[bfg][1-3z]$', '^Tp[1z]$']"; lit "ada.dat"]
      [] (Some 0) (bytes_eqb []);
     run main [lit "filter"; lit "002@.0 !~ ['^T[bfg][1-3z]$', '^Tp[23z]$']"; lit "ada.dat"]
      [] (Some 0) (bytes_eqb ada);
     run main [lit "filter"; lit "-i"; lit "002@.0 !~ ['^t[BFG][1-3z]$', '^tP[1Z]$']"; lit "ada.dat"]
      [] (Some 0) (bytes_eqb [])]).
Example filter_regex_set_regex_set_inverted : filter_regex_set_regex_set_inverted_run = true.
Proof. reflexivity. Qed.

(** /repo/crates/pica-cli/tests/filter/relation.rs:4-65 *)
Definition filter_relation_relation_eq_run : bool := Eval vm_compute in
  (
    let main := pica [] [] in
    plays [(lit "ada.dat", ada)]
    [run main [lit "filter"; lit "003@.0 == '119232022'"; lit "ada.dat"]
      [] (Some 0) (bytes_eqb ada);
     run main [lit "filter"; lit "003@{ 0 == '119232022' }"; lit "ada.dat"]
      [] (Some 0) (bytes_eqb ada);
     run main [lit "filter"; lit "ANY 028@.a == 'Lovelace'"; lit "ada.dat"]
      [] (Some 0) (bytes_eqb ada);
     run main [lit "filter"; lit "ALL 028@.a == 'Lovelace'"; lit "ada.dat"]
      [] (Some 0) (bytes_eqb []);
     run main [lit "filter"; lit "-i"; lit "028@.a == 'LOVELACE'"; lit "ada.dat"]
      [] (Some 0) (bytes_eqb ada)]).
Example filter_relation_relation_eq : filter_relation_relation_eq_run = true.
Proof. reflexivity. Qed.

(** /repo/crates/pica-cli/tests/filter/relation.rs:68-130 *)
Definition filter_relation_relation_ne_run : bool := Eval vm_compute in
  (
    let main := pica [] [] in
    plays [(lit "ada.dat", ada)]
    [run main [lit "filter"; lit "003@.0 != '118540238'"; lit "ada.dat"]
      [] (Some 0) (bytes_eqb ada);
     run main [lit "filter"; lit "003@{ 0 != '118540238' }"; lit "ada.dat"]
      [] (Some 0) (bytes_eqb ada);
     run main [lit "filter"; lit "ANY 028@.a != 'Lovelace'"; lit "ada.dat"]
      [] (Some 0) (bytes_eqb ada);
     run main [lit "filter"; lit "ALL 028@.a != 'Lovelace'"; lit "ada.dat"]
      [] (Some 0) (bytes_eqb []);
     run main [lit "filter"; lit "-i"; lit "ALL 028@.a != 'LOVELACE'"; lit "ada.dat"]
      [] (Some 0) (bytes_eqb [])]).
Example filter_relation_relation_ne : filter_relation_relation_ne_run = true.
Proof. reflexivity. Qed.

(** /repo/crates/pica-cli/tests/filter/relation.rs:133-195 *)
Definition filter_relation_relation_starts_with_run : bool := Eval vm_compute in
  (
    let main := pica [] [] in
    plays [(lit "ada.dat", ada)]
    [run main [lit "filter"; lit "002@.0 =^ 'Tp'"; lit "ada.dat"]
      [] (Some 0) (bytes_eqb ada);
     run main [lit "filter"; lit "002@{ 0 =^ 'Tp' }"; lit "ada.dat"]
      [] (Some 0) (bytes_eqb ada);
     run main [lit "filter"; lit "ANY 028@.a =^ 'Love'"; lit "ada.dat"]
      [] (Some 0) (bytes_eqb ada);
     run main [lit "filter"; lit "ALL 028@.a =^ 'Love'"; lit "ada.dat"]
      [] (Some 0) (bytes_eqb []);
     run main [lit "filter"; lit "-i"; lit "028@.a =^ 'LOVE'"; lit "ada.dat"]
      [] (Some 0) (bytes_eqb ada)]).
Example filter_relation_relation_starts_with : filter_relation_relation_starts_with_run = true.
Proof. reflexivity. Qed.

(** /repo/crates/pica-cli/tests/filter/relation.rs:198-248 *)
Definition filter_relation_relation_starts_not_with_run : bool := Eval vm_compute in
  (
    let main := pica [] [] in
    plays [(lit "ada.dat", ada)]
    [run main [lit "filter"; lit "002@.0 !^ 'Ts'"; lit "ada.dat"]
      [] (Some 0) (bytes_eqb ada);
     run main [lit "filter"; lit "002@{ 0 !^ 'Ts' }"; lit "ada.dat"]
      [] (Some 0) (bytes_eqb ada);
     run main [lit "filter"; lit "ANY 028@.a !^ 'Love'"; lit "ada.dat"]
      [] (Some 0) (bytes_eqb ada);
     run main [lit "filter"; lit "ALL 028@.a =^ 'Hate'"; lit "ada.dat"]
      [] (Some 0) (bytes_eqb [])]).
Example filter_relation_relation_starts_not_with : filter_relation_relation_starts_not_with_run = true.
Proof. reflexivity. Qed.

(** /repo/crates/pica-cli/tests/filter/relation.rs:251-313 *)
Definition filter_relation_relation_ends_with_run : bool := Eval vm_compute in
  (
    let main := pica [] [] in
    plays [(lit "ada.dat", ada)]
    [run main [lit "filter"; lit "002@.0 =$ 'p1'"; lit "ada.dat"]
      [] (Some 0) (bytes_eqb ada);
     run main [lit "filter"; lit "002@{ 0 =$ 'p1' }"; lit "ada.dat"]
      [] (Some 0) (bytes_eqb ada);
     run main [lit "filter"; lit "ANY 028@.a =$ 'lace'"; lit "ada.dat"]
      [] (Some 0) (bytes_eqb ada);
     run main [lit "filter"; lit "ALL 028@.a =$ 'lace'"; lit "ada.dat"]
      [] (Some 0) (bytes_eqb []);
     run main [lit "filter"; lit "-i"; lit "002@.0 =$ 'P1'"; lit "ada.dat"]
      [] (Some 0) (bytes_eqb ada)]).
Example filter_relation_relation_ends_with : filter_relation_relation_ends_with_run = true.
Proof. reflexivity. Qed.

(** /repo/crates/pica-cli/tests/filter/relation.rs:316-378 *)
Definition filter_relation_relation_ends_not_with_run : bool := Eval vm_compute in
  (
    let main := pica [] [] in
    plays [(lit "ada.dat", ada)]
    [run main [lit "filter"; lit "002@.0 !$ 'sz'"; lit "ada.dat"]
      [] (Some 0) (bytes_eqb ada);
     run main [lit "filter"; lit "002@{ 0 !$ 'sz' }"; lit "ada.dat"]
      [] (Some 0) (bytes_eqb ada);
     run main [lit "filter"; lit "ANY 028@.a !$ 'lace'"; lit "ada.dat"]
      [] (Some 0) (bytes_eqb ada);
     run main [lit "filter"; lit "ALL 028@.a !$ 'lace'"; lit "ada.dat"]
      [] (Some 0) (bytes_eqb []);
     run main [lit "filter"; lit "-i"; lit "002@.0 !$ 'SZ'"; lit "ada.dat"]
      [] (Some 0) (bytes_eqb ada)]).
Example filter_relation_relation_ends_not_with : filter_relation_relation_ends_not_with_run = true.
Proof. reflexivity. Qed.

(** /repo/crates/pica-cli/tests/filter/relation.rs:381-442 *)
Definition filter_relation_relation_similar_run : bool := Eval vm_compute in
  (
    let main := pica [] [] in
    plays [(lit "ada.dat", ada)]
    [run main [lit "filter"; lit "028A.a =* 'LovelacE'"; lit "ada.dat"]
      [] (Some 0) (bytes_eqb ada);
     run main [lit "filter"; lit "028A{ a =* 'LovelacE' }"; lit "ada.dat"]
      [] (Some 0) (bytes_eqb ada);
     run main [lit "filter"; lit "ANY 028@.a =* 'LovelacE'"; lit "ada.dat"]
      [] (Some 0) (bytes_eqb ada);
     run main [lit "filter"; lit "ALL 028@.a =* 'Hatelace'"; lit "ada.dat"]
      [] (Some 0) (bytes_eqb []);
     run main [lit "filter"; lit "-i"; lit "028A.a =* 'lOVELACe'"; lit "ada.dat"]
      [] (Some 0) (bytes_eqb ada)]).
Example filter_relation_relation_similar : filter_relation_relation_similar_run = true.
Proof. reflexivity. Qed.

(** /repo/crates/pica-cli/tests/filter/relation.rs:445-507 *)
Definition filter_relation_relation_contains_run : bool := Eval vm_compute in
  (
    let main := pica [] [] in
    plays [(lit "ada.dat", ada)]
    [run main [lit "filter"; lit "028A.a =? 'ove'"; lit "ada.dat"]
      [] (Some 0) (bytes_eqb ada);
     run main [lit "filter"; lit "028A{ a =? 'ove' }"; lit "ada.dat"]
      [] (Some 0) (bytes_eqb ada);
     run main [lit "filter"; lit "ANY 028@.a =? 'ove'"; lit "ada.dat"]
      [] (Some 0) (bytes_eqb ada);
     run main [lit "filter"; lit "ALL 028@.a =? 'ove'"; lit "ada.dat"]
      [] (Some 0) (bytes_eqb []);
     run main [lit "filter"; lit "-i"; lit "028A.a =? 'OVE'"; lit "ada.dat"]
      [] (Some 0) (bytes_eqb ada)]).
Example filter_relation_relation_contains : filter_relation_relation_contains_run = true.
Proof. reflexivity. Qed.

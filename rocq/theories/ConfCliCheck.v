(** * Integration tests of check

    /repo/crates/pica-cli/tests/check, see [ConfCli.v]. *)

From Coq Require Import String ZArith.
From Verif Require Import Bytes Winnow RecordModel TagOccModel MatcherModel StateParser PathModel CliModel TableModel
  CheckModel RuleModel
  ConfBase ConfData ConfDump ConfCli.

(** /repo/crates/pica-cli/tests/check/allow.rs:7-60 *)
Definition check_allow_csv_list_run : bool := Eval vm_compute in
  (
    let lists := [((lit "hsg,label" ++ [10] ++ lit "004,Informatik" ++ [10] ++ lit "010,Bibliografien" ++ [10]), [(lit "hsg", [Some (lit "004"); Some (lit "010")]); (lit "label", [Some (lit "Informatik"); Some (lit "Bibliografien")])])] in
    let docs := [(([10] ++ lit "            [rule.R001]" ++ [10] ++ lit "            check = 'allow'" ++ [10] ++ lit "            list.filename = 'd1/ALLOW.csv'" ++ [10] ++ lit "            list.column = 'hsg'" ++ [10] ++ lit "            path = '045E.e'" ++ [10] ++ lit "        "), (TmTable [(lit "rule", (TmTable [(lit "R001", (TmTable [(lit "check", (TmText (lit "allow"))); (lit "list", (TmTable [(lit "filename", (TmText (lit "d1/ALLOW.csv"))); (lit "column", (TmText (lit "hsg")))])); (lit "path", (TmText (lit "045E.e")))]))]))]))] in
    let main := pica lists docs in
    plays []
    [write (lit "d1/ALLOW.csv") (lit "hsg,label" ++ [10] ++ lit "004,Informatik" ++ [10] ++ lit "010,Bibliografien" ++ [10]);
     write (lit "d1/rules.toml") ([10] ++ lit "            [rule.R001]" ++ [10] ++ lit "            check = 'allow'" ++ [10] ++ lit "            list.filename = 'd1/ALLOW.csv'" ++ [10] ++ lit "            list.column = 'hsg'" ++ [10] ++ lit "            path = '045E.e'" ++ [10] ++ lit "        ");
     run main [lit "check"; lit "-R"; lit "d1/rules.toml"]
      (lit "003@ " ++ [31] ++ lit "0123456789X" ++ [30] ++ lit "045E " ++ [31] ++ lit "e200" ++ [30; 10]) (Some 0) (bytes_eqb (lit "ppn,rule,level,message" ++ [10] ++ lit "123456789X,R001,error,200" ++ [10]));
     run main [lit "check"; lit "-R"; lit "d1/rules.toml"]
      (lit "003@ " ++ [31] ++ lit "0123456789X" ++ [30] ++ lit "045E " ++ [31] ++ lit "e010" ++ [30; 10]) (Some 0) (bytes_eqb [])]).
Example check_allow_csv_list : check_allow_csv_list_run = true.
Proof. reflexivity. Qed.

(** /repo/crates/pica-cli/tests/check/allow.rs:63-116 *)
Definition check_allow_tsv_list_run : bool := Eval vm_compute in
  (
    let lists := [((lit "hsg" ++ [9] ++ lit "label" ++ [10] ++ lit "004" ++ [9] ++ lit "Informatik" ++ [10] ++ lit "010" ++ [9] ++ lit "Bibliografien" ++ [10]), [(lit "hsg", [Some (lit "004"); Some (lit "010")]); (lit "label", [Some (lit "Informatik"); Some (lit "Bibliografien")])])] in
    let docs := [(([10] ++ lit "            [rule.R001]" ++ [10] ++ lit "            check = 'allow'" ++ [10] ++ lit "            list.filename = 'd1/ALLOW.tsv'" ++ [10] ++ lit "            list.column = 'hsg'" ++ [10] ++ lit "            path = '045E.e'" ++ [10] ++ lit "        "), (TmTable [(lit "rule", (TmTable [(lit "R001", (TmTable [(lit "check", (TmText (lit "allow"))); (lit "list", (TmTable [(lit "filename", (TmText (lit "d1/ALLOW.tsv"))); (lit "column", (TmText (lit "hsg")))])); (lit "path", (TmText (lit "045E.e")))]))]))]))] in
    let main := pica lists docs in
    plays []
    [write (lit "d1/ALLOW.tsv") (lit "hsg" ++ [9] ++ lit "label" ++ [10] ++ lit "004" ++ [9] ++ lit "Informatik" ++ [10] ++ lit "010" ++ [9] ++ lit "Bibliografien" ++ [10]);
     write (lit "d1/rules.toml") ([10] ++ lit "            [rule.R001]" ++ [10] ++ lit "            check = 'allow'" ++ [10] ++ lit "            list.filename = 'd1/ALLOW.tsv'" ++ [10] ++ lit "            list.column = 'hsg'" ++ [10] ++ lit "            path = '045E.e'" ++ [10] ++ lit "        ");
     run main [lit "check"; lit "-R"; lit "d1/rules.toml"]
      (lit "003@ " ++ [31] ++ lit "0123456789X" ++ [30] ++ lit "045E " ++ [31] ++ lit "e200" ++ [30; 10]) (Some 0) (bytes_eqb (lit "ppn,rule,level,message" ++ [10] ++ lit "123456789X,R001,error,200" ++ [10]));
     run main [lit "check"; lit "-R"; lit "d1/rules.toml"]
      (lit "003@ " ++ [31] ++ lit "0123456789X" ++ [30] ++ lit "045E " ++ [31] ++ lit "e010" ++ [30; 10]) (Some 0) (bytes_eqb [])]).
Example check_allow_tsv_list : check_allow_tsv_list_run = true.
Proof. reflexivity. Qed.

(** /repo/crates/pica-cli/tests/check/allow.rs:119-191 *)
Definition check_allow_case_ignore_run : bool := Eval vm_compute in
  (
    let lists := [((lit "hsg,label" ++ [10] ++ lit "004,Informatik" ++ [10] ++ lit "010,Bibliografien" ++ [10]), [(lit "hsg", [Some (lit "004"); Some (lit "010")]); (lit "label", [Some (lit "Informatik"); Some (lit "Bibliografien")])])] in
    let docs := [(([10] ++ lit "            [rule.R001]" ++ [10] ++ lit "            check = 'allow'" ++ [10] ++ lit "            list.filename = 'd1/ALLOW.csv'" ++ [10] ++ lit "            list.column = 'label'" ++ [10] ++ lit "            path = '012A.a'" ++ [10] ++ lit "        "), (TmTable [(lit "rule", (TmTable [(lit "R001", (TmTable [(lit "check", (TmText (lit "allow"))); (lit "list", (TmTable [(lit "filename", (TmText (lit "d1/ALLOW.csv"))); (lit "column", (TmText (lit "label")))])); (lit "path", (TmText (lit "012A.a")))]))]))])); (([10] ++ lit "            [rule.R001]" ++ [10] ++ lit "            check = 'allow'" ++ [10] ++ lit "            list.filename = 'd1/ALLOW.csv'" ++ [10] ++ lit "            list.column = 'label'" ++ [10] ++ lit "            case-ignore = true" ++ [10] ++ lit "            path = '012A.a'" ++ [10] ++ lit "        "), (TmTable [(lit "rule", (TmTable [(lit "R001", (TmTable [(lit "check", (TmText (lit "allow"))); (lit "list", (TmTable [(lit "filename", (TmText (lit "d1/ALLOW.csv"))); (lit "column", (TmText (lit "label")))])); (lit "case-ignore", (TmBool true)); (lit "path", (TmText (lit "012A.a")))]))]))]))] in
    let main := pica lists docs in
    plays []
    [write (lit "d1/ALLOW.csv") (lit "hsg,label" ++ [10] ++ lit "004,Informatik" ++ [10] ++ lit "010,Bibliografien" ++ [10]);
     write (lit "d1/rules.toml") ([10] ++ lit "            [rule.R001]" ++ [10] ++ lit "            check = 'allow'" ++ [10] ++ lit "            list.filename = 'd1/ALLOW.csv'" ++ [10] ++ lit "            list.column = 'label'" ++ [10] ++ lit "            path = '012A.a'" ++ [10] ++ lit "        ");
     run main [lit "check"; lit "-R"; lit "d1/rules.toml"]
      (lit "003@ " ++ [31] ++ lit "0123456789X" ++ [30] ++ lit "012A " ++ [31] ++ lit "ainformatik" ++ [30; 10]) (Some 0) (bytes_eqb (lit "ppn,rule,level,message" ++ [10] ++ lit "123456789X,R001,error,informatik" ++ [10]));
     write (lit "d1/rules.toml") ([10] ++ lit "            [rule.R001]" ++ [10] ++ lit "            check = 'allow'" ++ [10] ++ lit "            list.filename = 'd1/ALLOW.csv'" ++ [10] ++ lit "            list.column = 'label'" ++ [10] ++ lit "            case-ignore = true" ++ [10] ++ lit "            path = '012A.a'" ++ [10] ++ lit "        ");
     run main [lit "check"; lit "-R"; lit "d1/rules.toml"]
      (lit "003@ " ++ [31] ++ lit "0123456789X" ++ [30] ++ lit "012A " ++ [31] ++ lit "aInformatik" ++ [30; 10]) (Some 0) (bytes_eqb [])]).
Example check_allow_case_ignore : check_allow_case_ignore_run = true.
Proof. reflexivity. Qed.

(** /repo/crates/pica-cli/tests/check/datetime.rs:7-55 *)
Definition check_datetime_invalid_run : bool := Eval vm_compute in
  (
    let docs := [(([10] ++ lit "            [rule.R1]" ++ [10] ++ lit "            check = ""datetime""" ++ [10] ++ lit "            path = ""010@.D""" ++ [10] ++ lit "        "), (TmTable [(lit "rule", (TmTable [(lit "R1", (TmTable [(lit "check", (TmText (lit "datetime"))); (lit "path", (TmText (lit "010@.D")))]))]))]))] in
    let main := pica [] docs in
    plays []
    [write (lit "d1/rules.toml") ([10] ++ lit "            [rule.R1]" ++ [10] ++ lit "            check = ""datetime""" ++ [10] ++ lit "            path = ""010@.D""" ++ [10] ++ lit "        ");
     run main [lit "check"; lit "-R"; lit "d1/rules.toml"]
      (lit "003@ " ++ [31] ++ lit "0123456789X" ++ [30] ++ lit "010@ " ++ [31] ++ lit "D2025-02-29" ++ [30; 10]) (Some 0) (bytes_eqb (lit "ppn,rule,level,message" ++ [10] ++ lit "123456789X,R1,error,2025-02-29" ++ [10]));
     run main [lit "check"; lit "-R"; lit "d1/rules.toml"]
      (lit "003@ " ++ [31] ++ lit "0123456789X" ++ [30] ++ lit "010@ " ++ [31] ++ lit "D2024-02-29" ++ [30; 10]) (Some 0) (bytes_eqb [])]).
Example check_datetime_invalid : check_datetime_invalid_run = true.
Proof. reflexivity. Qed.

(** /repo/crates/pica-cli/tests/check/datetime.rs:58-90 *)
Definition check_datetime_message_run : bool := Eval vm_compute in
  (
    let docs := [(([10] ++ lit "            [rule.R1]" ++ [10] ++ lit "            check = ""datetime""" ++ [10] ++ lit "            path = ""010@.D""" ++ [10] ++ lit "        "), (TmTable [(lit "rule", (TmTable [(lit "R1", (TmTable [(lit "check", (TmText (lit "datetime"))); (lit "path", (TmText (lit "010@.D")))]))]))]))] in
    let main := pica [] docs in
    plays []
    [write (lit "d1/rules.toml") ([10] ++ lit "            [rule.R1]" ++ [10] ++ lit "            check = ""datetime""" ++ [10] ++ lit "            path = ""010@.D""" ++ [10] ++ lit "        ");
     run main [lit "check"; lit "-R"; lit "d1/rules.toml"]
      (lit "003@ " ++ [31] ++ lit "0123456789X" ++ [30] ++ lit "010@ " ++ [31] ++ lit "DXYZ" ++ [31] ++ lit "DABC" ++ [30; 10]) (Some 0) (bytes_eqb (lit "ppn,rule,level,message" ++ [10] ++ lit "123456789X,R1,error,""XYZ, ABC""" ++ [10]))]).
Example check_datetime_message : check_datetime_message_run = true.
Proof. reflexivity. Qed.

(** /repo/crates/pica-cli/tests/check/datetime.rs:93-141 *)
Definition check_datetime_offset_run : bool := Eval vm_compute in
  (
    let docs := [(([10] ++ lit "            [rule.R3]" ++ [10] ++ lit "            check = ""datetime""" ++ [10] ++ lit "            path = ""010@.D""" ++ [10] ++ lit "            offset = 3" ++ [10] ++ lit "        "), (TmTable [(lit "rule", (TmTable [(lit "R3", (TmTable [(lit "check", (TmText (lit "datetime"))); (lit "path", (TmText (lit "010@.D"))); (lit "offset", (TmInt (3)%Z))]))]))]))] in
    let main := pica [] docs in
    plays []
    [write (lit "d1/rules.toml") ([10] ++ lit "            [rule.R3]" ++ [10] ++ lit "            check = ""datetime""" ++ [10] ++ lit "            path = ""010@.D""" ++ [10] ++ lit "            offset = 3" ++ [10] ++ lit "        ");
     run main [lit "check"; lit "-R"; lit "d1/rules.toml"]
      (lit "003@ " ++ [31] ++ lit "0123456789X" ++ [30] ++ lit "010@ " ++ [31] ++ lit "DXYZ2025-02-29" ++ [30; 10]) (Some 0) (bytes_eqb (lit "ppn,rule,level,message" ++ [10] ++ lit "123456789X,R3,error,XYZ2025-02-29" ++ [10]));
     run main [lit "check"; lit "-R"; lit "d1/rules.toml"]
      (lit "003@ " ++ [31] ++ lit "0123456789X" ++ [30] ++ lit "010@ " ++ [31] ++ lit "DXYZ2024-02-29" ++ [30; 10]) (Some 0) (bytes_eqb [])]).
Example check_datetime_offset : check_datetime_offset_run = true.
Proof. reflexivity. Qed.

(** /repo/crates/pica-cli/tests/check/datetime.rs:144-193 *)
Definition check_datetime_format_run : bool := Eval vm_compute in
  (
    let docs := [(([10] ++ lit "            [rule.R4]" ++ [10] ++ lit "            check = ""datetime""" ++ [10] ++ lit "            format = ""%y-%m-%d""" ++ [10] ++ lit "            path = ""010@.D""" ++ [10] ++ lit "        "), (TmTable [(lit "rule", (TmTable [(lit "R4", (TmTable [(lit "check", (TmText (lit "datetime"))); (lit "format", (TmText (lit "%y-%m-%d"))); (lit "path", (TmText (lit "010@.D")))]))]))]))] in
    let main := pica [] docs in
    plays []
    [write (lit "d1/rules.toml") ([10] ++ lit "            [rule.R4]" ++ [10] ++ lit "            check = ""datetime""" ++ [10] ++ lit "            format = ""%y-%m-%d""" ++ [10] ++ lit "            path = ""010@.D""" ++ [10] ++ lit "        ");
     run main [lit "check"; lit "-R"; lit "d1/rules.toml"]
      (lit "003@ " ++ [31] ++ lit "0123456789X" ++ [30] ++ lit "010@ " ++ [31] ++ lit "D25-02-29" ++ [30; 10]) (Some 0) (bytes_eqb (lit "ppn,rule,level,message" ++ [10] ++ lit "123456789X,R4,error,25-02-29" ++ [10]));
     run main [lit "check"; lit "-R"; lit "d1/rules.toml"]
      (lit "003@ " ++ [31] ++ lit "0123456789X" ++ [30] ++ lit "010@ " ++ [31] ++ lit "D24-02-29" ++ [30; 10]) (Some 0) (bytes_eqb [])]).
Example check_datetime_format : check_datetime_format_run = true.
Proof. reflexivity. Qed.

(** /repo/crates/pica-cli/tests/check/datetime.rs:196-256 *)
Definition check_datetime_case_ignore_run : bool := Eval vm_compute in
  (
    let docs := [(([10] ++ lit "            [rule.R5]" ++ [10] ++ lit "            check = 'datetime'" ++ [10] ++ lit "            case-ignore = true" ++ [10] ++ lit "            path = '010@{ D | X == ""foo"" }'" ++ [10] ++ lit "        "), (TmTable [(lit "rule", (TmTable [(lit "R5", (TmTable [(lit "check", (TmText (lit "datetime"))); (lit "case-ignore", (TmBool true)); (lit "path", (TmText (lit "010@{ D | X == ""foo"" }")))]))]))])); (([10] ++ lit "            [rule.R6]" ++ [10] ++ lit "            check = 'datetime'" ++ [10] ++ lit "            case-ignore = false" ++ [10] ++ lit "            path = '010@{ D | X == ""foo"" }'" ++ [10] ++ lit "        "), (TmTable [(lit "rule", (TmTable [(lit "R6", (TmTable [(lit "check", (TmText (lit "datetime"))); (lit "case-ignore", (TmBool false)); (lit "path", (TmText (lit "010@{ D | X == ""foo"" }")))]))]))]))] in
    let main := pica [] docs in
    plays []
    [write (lit "d1/rules1.toml") ([10] ++ lit "            [rule.R5]" ++ [10] ++ lit "            check = 'datetime'" ++ [10] ++ lit "            case-ignore = true" ++ [10] ++ lit "            path = '010@{ D | X == ""foo"" }'" ++ [10] ++ lit "        ");
     run main [lit "check"; lit "-R"; lit "d1/rules1.toml"]
      (lit "003@ " ++ [31] ++ lit "0123456789X" ++ [30] ++ lit "010@ " ++ [31] ++ lit "D25-02-29" ++ [31] ++ lit "XFoo" ++ [30; 10]) (Some 0) (bytes_eqb (lit "ppn,rule,level,message" ++ [10] ++ lit "123456789X,R5,error,25-02-29" ++ [10]));
     write (lit "d1/rules1.toml") ([10] ++ lit "            [rule.R6]" ++ [10] ++ lit "            check = 'datetime'" ++ [10] ++ lit "            case-ignore = false" ++ [10] ++ lit "            path = '010@{ D | X == ""foo"" }'" ++ [10] ++ lit "        ");
     run main [lit "check"; lit "-R"; lit "d1/rules1.toml"]
      (lit "003@ " ++ [31] ++ lit "0123456789X" ++ [30] ++ lit "010@ " ++ [31] ++ lit "D24-02-29" ++ [30; 10]) (Some 0) (bytes_eqb [])]).
Example check_datetime_case_ignore : check_datetime_case_ignore_run = true.
Proof. reflexivity. Qed.

(** /repo/crates/pica-cli/tests/check/duplicates.rs:7-54 *)
Definition check_duplicates_check_duplicates_path_run : bool := Eval vm_compute in
  (
    let docs := [(([10] ++ lit "            [rule.R001]" ++ [10] ++ lit "            check = 'duplicates'" ++ [10] ++ lit "            query = '045Z{ a | b == ""jelc"" }'" ++ [10] ++ lit "        "), (TmTable [(lit "rule", (TmTable [(lit "R001", (TmTable [(lit "check", (TmText (lit "duplicates"))); (lit "query", (TmText (lit "045Z{ a | b == ""jelc"" }")))]))]))]))] in
    let main := pica [] docs in
    plays []
    [write (lit "d1/rules.toml") ([10] ++ lit "            [rule.R001]" ++ [10] ++ lit "            check = 'duplicates'" ++ [10] ++ lit "            query = '045Z{ a | b == ""jelc"" }'" ++ [10] ++ lit "        ");
     run main [lit "check"; lit "-R"; lit "d1/rules.toml"]
      (lit "003@ " ++ [31] ++ lit "0123456789X" ++ [30] ++ lit "045Z " ++ [31] ++ lit "bjelc" ++ [31] ++ lit "aD63" ++ [31] ++ lit "aD63" ++ [30; 10]) (Some 0) (bytes_eqb (lit "ppn,rule,level,message" ++ [10] ++ lit "123456789X,R001,error,D63" ++ [10]));
     run main [lit "check"; lit "-R"; lit "d1/rules.toml"]
      (lit "003@ " ++ [31] ++ lit "0123456789X" ++ [30] ++ lit "045Z " ++ [31] ++ lit "bjelc" ++ [31] ++ lit "aD63" ++ [30; 10]) (Some 0) (bytes_eqb [])]).
Example check_duplicates_check_duplicates_path : check_duplicates_check_duplicates_path_run = true.
Proof. reflexivity. Qed.

(** /repo/crates/pica-cli/tests/check/duplicates.rs:57-102 *)
Definition check_duplicates_check_duplicates_query_run : bool := Eval vm_compute in
  (
    let docs := [(([10] ++ lit "            [rule.R001]" ++ [10] ++ lit "            check = 'duplicates'" ++ [10] ++ lit "            query = '045E{ E, H }'" ++ [10] ++ lit "        "), (TmTable [(lit "rule", (TmTable [(lit "R001", (TmTable [(lit "check", (TmText (lit "duplicates"))); (lit "query", (TmText (lit "045E{ E, H }")))]))]))]))] in
    let main := pica [] docs in
    plays []
    [write (lit "d1/rules.toml") ([10] ++ lit "            [rule.R001]" ++ [10] ++ lit "            check = 'duplicates'" ++ [10] ++ lit "            query = '045E{ E, H }'" ++ [10] ++ lit "        ");
     run main [lit "check"; lit "-R"; lit "d1/rules.toml"]
      (lit "003@ " ++ [31] ++ lit "0123456789X" ++ [30] ++ lit "045E " ++ [31] ++ lit "e100" ++ [31] ++ lit "Ei" ++ [31] ++ lit "Hdnb" ++ [30] ++ lit "045E " ++ [31] ++ lit "e110" ++ [31] ++ lit "Ei" ++ [31] ++ lit "Hdnb" ++ [30; 10]) (Some 0) (bytes_eqb (lit "ppn,rule,level,message" ++ [10] ++ lit "123456789X,R001,error,i|dnb" ++ [10]));
     run main [lit "check"; lit "-R"; lit "d1/rules.toml"]
      (lit "003@ " ++ [31] ++ lit "0123456789X" ++ [30] ++ lit "045E " ++ [31] ++ lit "e100" ++ [31] ++ lit "Em" ++ [31] ++ lit "Hdnb" ++ [30] ++ lit "045E " ++ [31] ++ lit "e110" ++ [31] ++ lit "Ei" ++ [31] ++ lit "Hdnb" ++ [30; 10]) (Some 0) (bytes_eqb [])]).
Example check_duplicates_check_duplicates_query : check_duplicates_check_duplicates_query_run = true.
Proof. reflexivity. Qed.

(** /repo/crates/pica-cli/tests/check/duplicates.rs:105-151 *)
Definition check_duplicates_check_duplicates_threshold_run : bool := Eval vm_compute in
  (
    let docs := [(([10] ++ lit "            [rule.R001]" ++ [10] ++ lit "            check = 'duplicates'" ++ [10] ++ lit "            threshold = 3" ++ [10] ++ lit "            query = '045E{ E, H }'" ++ [10] ++ lit "        "), (TmTable [(lit "rule", (TmTable [(lit "R001", (TmTable [(lit "check", (TmText (lit "duplicates"))); (lit "threshold", (TmInt (3)%Z)); (lit "query", (TmText (lit "045E{ E, H }")))]))]))]))] in
    let main := pica [] docs in
    plays []
    [write (lit "d1/rules.toml") ([10] ++ lit "            [rule.R001]" ++ [10] ++ lit "            check = 'duplicates'" ++ [10] ++ lit "            threshold = 3" ++ [10] ++ lit "            query = '045E{ E, H }'" ++ [10] ++ lit "        ");
     run main [lit "check"; lit "-R"; lit "d1/rules.toml"]
      (lit "003@ " ++ [31] ++ lit "0123456789X" ++ [30] ++ lit "045E " ++ [31] ++ lit "e100" ++ [31] ++ lit "Ei" ++ [31] ++ lit "Hdnb" ++ [30] ++ lit "045E " ++ [31] ++ lit "e110" ++ [31] ++ lit "Ei" ++ [31] ++ lit "Hdnb" ++ [30; 10]) (Some 0) (bytes_eqb []);
     run main [lit "check"; lit "-R"; lit "d1/rules.toml"]
      (lit "003@ " ++ [31] ++ lit "0123456789X" ++ [30] ++ lit "045E " ++ [31] ++ lit "e100" ++ [31] ++ lit "Ei" ++ [31] ++ lit "Hdnb" ++ [30] ++ lit "045E " ++ [31] ++ lit "e110" ++ [31] ++ lit "Ei" ++ [31] ++ lit "Hdnb" ++ [30] ++ lit "045E " ++ [31] ++ lit "e200" ++ [31] ++ lit "Ei" ++ [31] ++ lit "Hdnb" ++ [30; 10]) (Some 0) (bytes_eqb (lit "ppn,rule,level,message" ++ [10] ++ lit "123456789X,R001,error,i|dnb" ++ [10]))]).
Example check_duplicates_check_duplicates_threshold : check_duplicates_check_duplicates_threshold_run = true.
Proof. reflexivity. Qed.

(** /repo/crates/pica-cli/tests/check/duplicates.rs:154-187 *)
Definition check_duplicates_check_duplicates_ignore_case_run : bool := Eval vm_compute in
  (
    let docs := [(([10] ++ lit "            [rule.R001]" ++ [10] ++ lit "            check = 'duplicates'" ++ [10] ++ lit "            case-ignore = true" ++ [10] ++ lit "            query = '045Z{ a | b =^ ""JEL"" }'" ++ [10] ++ lit "        "), (TmTable [(lit "rule", (TmTable [(lit "R001", (TmTable [(lit "check", (TmText (lit "duplicates"))); (lit "case-ignore", (TmBool true)); (lit "query", (TmText (lit "045Z{ a | b =^ ""JEL"" }")))]))]))]))] in
    let main := pica [] docs in
    plays []
    [write (lit "d1/rules.toml") ([10] ++ lit "            [rule.R001]" ++ [10] ++ lit "            check = 'duplicates'" ++ [10] ++ lit "            case-ignore = true" ++ [10] ++ lit "            query = '045Z{ a | b =^ ""JEL"" }'" ++ [10] ++ lit "        ");
     run main [lit "check"; lit "-R"; lit "d1/rules.toml"]
      (lit "003@ " ++ [31] ++ lit "0123456789X" ++ [30] ++ lit "045Z " ++ [31] ++ lit "bjelc" ++ [31] ++ lit "aD63" ++ [31] ++ lit "aD63" ++ [30; 10]) (Some 0) (bytes_eqb (lit "ppn,rule,level,message" ++ [10] ++ lit "123456789X,R001,error,D63" ++ [10]))]).
Example check_duplicates_check_duplicates_ignore_case : check_duplicates_check_duplicates_ignore_case_run = true.
Proof. reflexivity. Qed.

(** /repo/crates/pica-cli/tests/check/duplicates.rs:190-222 *)
Definition check_duplicates_check_duplicates_separator_run : bool := Eval vm_compute in
  (
    let docs := [(([10] ++ lit "            [rule.R001]" ++ [10] ++ lit "            check = 'duplicates'" ++ [10] ++ lit "            separator = '+'" ++ [10] ++ lit "            query = '045E{ E, H }'" ++ [10] ++ lit "        "), (TmTable [(lit "rule", (TmTable [(lit "R001", (TmTable [(lit "check", (TmText (lit "duplicates"))); (lit "separator", (TmText (lit "+"))); (lit "query", (TmText (lit "045E{ E, H }")))]))]))]))] in
    let main := pica [] docs in
    plays []
    [write (lit "d1/rules.toml") ([10] ++ lit "            [rule.R001]" ++ [10] ++ lit "            check = 'duplicates'" ++ [10] ++ lit "            separator = '+'" ++ [10] ++ lit "            query = '045E{ E, H }'" ++ [10] ++ lit "        ");
     run main [lit "check"; lit "-R"; lit "d1/rules.toml"]
      (lit "003@ " ++ [31] ++ lit "0123456789X" ++ [30] ++ lit "045E " ++ [31] ++ lit "e100" ++ [31] ++ lit "Ei" ++ [31] ++ lit "Hdnb" ++ [30] ++ lit "045E " ++ [31] ++ lit "e110" ++ [31] ++ lit "Ei" ++ [31] ++ lit "Hdnb" ++ [30; 10]) (Some 0) (bytes_eqb (lit "ppn,rule,level,message" ++ [10] ++ lit "123456789X,R001,error,i+dnb" ++ [10]))]).
Example check_duplicates_check_duplicates_separator : check_duplicates_check_duplicates_separator_run = true.
Proof. reflexivity. Qed.

(** /repo/crates/pica-cli/tests/check/filter.rs:7-51 *)
Definition check_filter_invalid_run : bool := Eval vm_compute in
  (
    let docs := [(([10] ++ lit "            [rule.R1]" ++ [10] ++ lit "            check = ""filter""" ++ [10] ++ lit "            filter = '017C.a not in [""a"",""d"",""f"",""i"",""m"",""n"",""t""]'" ++ [10] ++ lit "        "), (TmTable [(lit "rule", (TmTable [(lit "R1", (TmTable [(lit "check", (TmText (lit "filter"))); (lit "filter", (TmText (lit "017C.a not in [""a"",""d"",""f"",""i"",""m"",""n"",""t""]")))]))]))]))] in
    let main := pica [] docs in
    plays []
    [write (lit "d1/rules.toml") ([10] ++ lit "            [rule.R1]" ++ [10] ++ lit "            check = ""filter""" ++ [10] ++ lit "            filter = '017C.a not in [""a"",""d"",""f"",""i"",""m"",""n"",""t""]'" ++ [10] ++ lit "        ");
     run main [lit "check"; lit "-R"; lit "d1/rules.toml"]
      (lit "003@ " ++ [31] ++ lit "0123456789X" ++ [30] ++ lit "017C " ++ [31] ++ lit "ax" ++ [30; 10]) (Some 0) (bytes_eqb (lit "ppn,rule,level,message" ++ [10] ++ lit "123456789X,R1,error," ++ [10]));
     run main [lit "check"; lit "-R"; lit "d1/rules.toml"]
      (lit "003@ " ++ [31] ++ lit "0123456789X" ++ [30] ++ lit "017C " ++ [31] ++ lit "af" ++ [30; 10]) (Some 0) (bytes_eqb [])]).
Example check_filter_invalid : check_filter_invalid_run = true.
Proof. reflexivity. Qed.

(** /repo/crates/pica-cli/tests/check/filter.rs:54-99 *)
Definition check_filter_invert_match_run : bool := Eval vm_compute in
  (
    let docs := [(([10] ++ lit "            [rule.R2]" ++ [10] ++ lit "            check = ""filter""" ++ [10] ++ lit "            filter = '012A.a == ""abc""'" ++ [10] ++ lit "            invert-match = true" ++ [10] ++ lit "        "), (TmTable [(lit "rule", (TmTable [(lit "R2", (TmTable [(lit "check", (TmText (lit "filter"))); (lit "filter", (TmText (lit "012A.a == ""abc"""))); (lit "invert-match", (TmBool true))]))]))]))] in
    let main := pica [] docs in
    plays []
    [write (lit "d1/rules.toml") ([10] ++ lit "            [rule.R2]" ++ [10] ++ lit "            check = ""filter""" ++ [10] ++ lit "            filter = '012A.a == ""abc""'" ++ [10] ++ lit "            invert-match = true" ++ [10] ++ lit "        ");
     run main [lit "check"; lit "-R"; lit "d1/rules.toml"]
      (lit "003@ " ++ [31] ++ lit "0123456789X" ++ [30] ++ lit "012A " ++ [31] ++ lit "adef" ++ [30; 10]) (Some 0) (bytes_eqb (lit "ppn,rule,level,message" ++ [10] ++ lit "123456789X,R2,error," ++ [10]));
     run main [lit "check"; lit "-R"; lit "d1/rules.toml"]
      (lit "003@ " ++ [31] ++ lit "0123456789X" ++ [30] ++ lit "012A " ++ [31] ++ lit "aabc" ++ [30; 10]) (Some 0) (bytes_eqb [])]).
Example check_filter_invert_match : check_filter_invert_match_run = true.
Proof. reflexivity. Qed.

(** /repo/crates/pica-cli/tests/check/filter.rs:102-191 *)
Definition check_filter_case_ignore_run : bool := Eval vm_compute in
  (
    let docs := [(([10] ++ lit "            [rule.R3]" ++ [10] ++ lit "            check = ""filter""" ++ [10] ++ lit "            filter = '012A.a == ""abc""'" ++ [10] ++ lit "            case-ignore = true" ++ [10] ++ lit "        "), (TmTable [(lit "rule", (TmTable [(lit "R3", (TmTable [(lit "check", (TmText (lit "filter"))); (lit "filter", (TmText (lit "012A.a == ""abc"""))); (lit "case-ignore", (TmBool true))]))]))])); (([10] ++ lit "            [rule.R4]" ++ [10] ++ lit "            check = ""filter""" ++ [10] ++ lit "            filter = '012A.a == ""abc""'" ++ [10] ++ lit "            case-ignore = false" ++ [10] ++ lit "        "), (TmTable [(lit "rule", (TmTable [(lit "R4", (TmTable [(lit "check", (TmText (lit "filter"))); (lit "filter", (TmText (lit "012A.a == ""abc"""))); (lit "case-ignore", (TmBool false))]))]))]))] in
    let main := pica [] docs in
    plays []
    [write (lit "d1/rules.toml") ([10] ++ lit "            [rule.R3]" ++ [10] ++ lit "            check = ""filter""" ++ [10] ++ lit "            filter = '012A.a == ""abc""'" ++ [10] ++ lit "            case-ignore = true" ++ [10] ++ lit "        ");
     run main [lit "check"; lit "-R"; lit "d1/rules.toml"]
      (lit "003@ " ++ [31] ++ lit "0123456789X" ++ [30] ++ lit "012A " ++ [31] ++ lit "aABC" ++ [30; 10]) (Some 0) (bytes_eqb (lit "ppn,rule,level,message" ++ [10] ++ lit "123456789X,R3,error," ++ [10]));
     run main [lit "check"; lit "-R"; lit "d1/rules.toml"]
      (lit "003@ " ++ [31] ++ lit "0123456789X" ++ [30] ++ lit "012A " ++ [31] ++ lit "aabc" ++ [30; 10]) (Some 0) (bytes_eqb (lit "ppn,rule,level,message" ++ [10] ++ lit "123456789X,R3,error," ++ [10]));
     write (lit "d2/rules.toml") ([10] ++ lit "            [rule.R4]" ++ [10] ++ lit "            check = ""filter""" ++ [10] ++ lit "            filter = '012A.a == ""abc""'" ++ [10] ++ lit "            case-ignore = false" ++ [10] ++ lit "        ");
     run main [lit "check"; lit "-R"; lit "d2/rules.toml"]
      (lit "003@ " ++ [31] ++ lit "0123456789X" ++ [30] ++ lit "012A " ++ [31] ++ lit "aABC" ++ [30; 10]) (Some 0) (bytes_eqb []);
     run main [lit "check"; lit "-R"; lit "d2/rules.toml"]
      (lit "003@ " ++ [31] ++ lit "0123456789X" ++ [30] ++ lit "012A " ++ [31] ++ lit "aabc" ++ [30; 10]) (Some 0) (bytes_eqb (lit "ppn,rule,level,message" ++ [10] ++ lit "123456789X,R4,error," ++ [10]))]).
Example check_filter_case_ignore : check_filter_case_ignore_run = true.
Proof. reflexivity. Qed.

(** /repo/crates/pica-cli/tests/check/isni.rs:7-87 *)
Definition check_isni_orcid_run : bool := Eval vm_compute in
  (
    let docs := [(([10] ++ lit "            [rule.R1]" ++ [10] ++ lit "            check = ""isni""" ++ [10] ++ lit "            path = ""028[AC]/*.y""" ++ [10] ++ lit "        "), (TmTable [(lit "rule", (TmTable [(lit "R1", (TmTable [(lit "check", (TmText (lit "isni"))); (lit "path", (TmText (lit "028[AC]/*.y")))]))]))]))] in
    let main := pica [] docs in
    plays []
    [write (lit "d1/rules.toml") ([10] ++ lit "            [rule.R1]" ++ [10] ++ lit "            check = ""isni""" ++ [10] ++ lit "            path = ""028[AC]/*.y""" ++ [10] ++ lit "        ");
     run main [lit "check"; lit "-R"; lit "d1/rules.toml"]
      (lit "003@ " ++ [31] ++ lit "0123456789X" ++ [30] ++ lit "028A " ++ [31] ++ lit "y0000-0002-9079-5939" ++ [30; 10]) (Some 0) (bytes_eqb (lit "ppn,rule,level,message" ++ [10] ++ lit "123456789X,R1,error,0000-0002-9079-5939" ++ [10]));
     run main [lit "check"; lit "-R"; lit "d1/rules.toml"]
      (lit "003@ " ++ [31] ++ lit "0123456789X" ++ [30] ++ lit "028A " ++ [31] ++ lit "y0000000290795939" ++ [30; 10]) (Some 0) (bytes_eqb (lit "ppn,rule,level,message" ++ [10] ++ lit "123456789X,R1,error,0000000290795939" ++ [10]));
     run main [lit "check"; lit "-R"; lit "d1/rules.toml"]
      (lit "003@ " ++ [31] ++ lit "0123456789X" ++ [30] ++ lit "028A " ++ [31] ++ lit "y0000-0002-9079-593X" ++ [30; 10]) (Some 0) (bytes_eqb []);
     run main [lit "check"; lit "-R"; lit "d1/rules.toml"]
      (lit "003@ " ++ [31] ++ lit "0123456789X" ++ [30] ++ lit "028A " ++ [31] ++ lit "y000000029079593X" ++ [30; 10]) (Some 0) (bytes_eqb [])]).
Example check_isni_orcid : check_isni_orcid_run = true.
Proof. reflexivity. Qed.

(** /repo/crates/pica-cli/tests/check/isni.rs:90-185 *)
Definition check_isni_isni_run : bool := Eval vm_compute in
  (
    let docs := [(([10] ++ lit "            [rule.R2]" ++ [10] ++ lit "            check = ""isni""" ++ [10] ++ lit "            path = ""028[AC]/*.y""" ++ [10] ++ lit "        "), (TmTable [(lit "rule", (TmTable [(lit "R2", (TmTable [(lit "check", (TmText (lit "isni"))); (lit "path", (TmText (lit "028[AC]/*.y")))]))]))]))] in
    let main := pica [] docs in
    plays []
    [write (lit "d1/rules.toml") ([10] ++ lit "            [rule.R2]" ++ [10] ++ lit "            check = ""isni""" ++ [10] ++ lit "            path = ""028[AC]/*.y""" ++ [10] ++ lit "        ");
     run main [lit "check"; lit "-R"; lit "d1/rules.toml"]
      (lit "003@ " ++ [31] ++ lit "0123456789X" ++ [30] ++ lit "028A " ++ [31] ++ lit "y0000-0001-2146-4389" ++ [30; 10]) (Some 0) (bytes_eqb (lit "ppn,rule,level,message" ++ [10] ++ lit "123456789X,R2,error,0000-0001-2146-4389" ++ [10]));
     run main [lit "check"; lit "-R"; lit "d1/rules.toml"]
      (lit "003@ " ++ [31] ++ lit "0123456789X" ++ [30] ++ lit "028A " ++ [31] ++ lit "y0000000121464389" ++ [30; 10]) (Some 0) (bytes_eqb (lit "ppn,rule,level,message" ++ [10] ++ lit "123456789X,R2,error,0000000121464389" ++ [10]));
     run main [lit "check"; lit "-R"; lit "d1/rules.toml"]
      (lit "003@ " ++ [31] ++ lit "0123456789X" ++ [30] ++ lit "028A " ++ [31] ++ lit "y000000012146438X" ++ [30; 10]) (Some 0) (bytes_eqb []);
     run main [lit "check"; lit "-R"; lit "d1/rules.toml"]
      (lit "003@ " ++ [31] ++ lit "0123456789X" ++ [30] ++ lit "028A " ++ [31] ++ lit "y0000 0001 2146 438X" ++ [30; 10]) (Some 0) (bytes_eqb []);
     run main [lit "check"; lit "-R"; lit "d1/rules.toml"]
      (lit "003@ " ++ [31] ++ lit "0123456789X" ++ [30] ++ lit "028A " ++ [31] ++ lit "y0000-0001-2146-438X" ++ [30; 10]) (Some 0) (bytes_eqb [])]).
Example check_isni_isni : check_isni_isni_run = true.
Proof. reflexivity. Qed.

(** /repo/crates/pica-cli/tests/check/isni.rs:188-284 *)
Definition check_isni_prefix_run : bool := Eval vm_compute in
  (
    let docs := [(([10] ++ lit "            [rule.R3]" ++ [10] ++ lit "            check = ""isni""" ++ [10] ++ lit "            path = ""028[AC]/*.y""" ++ [10] ++ lit "            prefix = ""(isni)""" ++ [10] ++ lit "        "), (TmTable [(lit "rule", (TmTable [(lit "R3", (TmTable [(lit "check", (TmText (lit "isni"))); (lit "path", (TmText (lit "028[AC]/*.y"))); (lit "prefix", (TmText (lit "(isni)")))]))]))]))] in
    let main := pica [] docs in
    plays []
    [write (lit "d1/rules.toml") ([10] ++ lit "            [rule.R3]" ++ [10] ++ lit "            check = ""isni""" ++ [10] ++ lit "            path = ""028[AC]/*.y""" ++ [10] ++ lit "            prefix = ""(isni)""" ++ [10] ++ lit "        ");
     run main [lit "check"; lit "-R"; lit "d1/rules.toml"]
      (lit "003@ " ++ [31] ++ lit "0123456789X" ++ [30] ++ lit "028A " ++ [31] ++ lit "y(isni)0000-0001-2146-4389" ++ [30; 10]) (Some 0) (bytes_eqb (lit "ppn,rule,level,message" ++ [10] ++ lit "123456789X,R3,error,(isni)0000-0001-2146-4389" ++ [10]));
     run main [lit "check"; lit "-R"; lit "d1/rules.toml"]
      (lit "003@ " ++ [31] ++ lit "0123456789X" ++ [30] ++ lit "028A " ++ [31] ++ lit "y(isni)0000000121464389" ++ [30; 10]) (Some 0) (bytes_eqb (lit "ppn,rule,level,message" ++ [10] ++ lit "123456789X,R3,error,(isni)0000000121464389" ++ [10]));
     run main [lit "check"; lit "-R"; lit "d1/rules.toml"]
      (lit "003@ " ++ [31] ++ lit "0123456789X" ++ [30] ++ lit "028A " ++ [31] ++ lit "y(isni)000000012146438X" ++ [30; 10]) (Some 0) (bytes_eqb []);
     run main [lit "check"; lit "-R"; lit "d1/rules.toml"]
      (lit "003@ " ++ [31] ++ lit "0123456789X" ++ [30] ++ lit "028A " ++ [31] ++ lit "y(isni)0000 0001 2146 438X" ++ [30; 10]) (Some 0) (bytes_eqb []);
     run main [lit "check"; lit "-R"; lit "d1/rules.toml"]
      (lit "003@ " ++ [31] ++ lit "0123456789X" ++ [30] ++ lit "028A " ++ [31] ++ lit "y(isni)0000-0001-2146-438X" ++ [30; 10]) (Some 0) (bytes_eqb [])]).
Example check_isni_prefix : check_isni_prefix_run = true.
Proof. reflexivity. Qed.

(** /repo/crates/pica-cli/tests/check/isni.rs:287-337 *)
Definition check_isni_case_ignore_run : bool := Eval vm_compute in
  (
    let docs := [(([10] ++ lit "            [rule.R3]" ++ [10] ++ lit "            check = ""isni""" ++ [10] ++ lit "            path = '028[AC]/*{ y | y =? ""ISNI"" }'" ++ [10] ++ lit "            case-ignore = true" ++ [10] ++ lit "            prefix = ""(isni)""" ++ [10] ++ lit "        "), (TmTable [(lit "rule", (TmTable [(lit "R3", (TmTable [(lit "check", (TmText (lit "isni"))); (lit "path", (TmText (lit "028[AC]/*{ y | y =? ""ISNI"" }"))); (lit "case-ignore", (TmBool true)); (lit "prefix", (TmText (lit "(isni)")))]))]))]))] in
    let main := pica [] docs in
    plays []
    [write (lit "d1/rules.toml") ([10] ++ lit "            [rule.R3]" ++ [10] ++ lit "            check = ""isni""" ++ [10] ++ lit "            path = '028[AC]/*{ y | y =? ""ISNI"" }'" ++ [10] ++ lit "            case-ignore = true" ++ [10] ++ lit "            prefix = ""(isni)""" ++ [10] ++ lit "        ");
     run main [lit "check"; lit "-R"; lit "d1/rules.toml"]
      (lit "003@ " ++ [31] ++ lit "0123456789X" ++ [30] ++ lit "028A " ++ [31] ++ lit "y(isni)0000-0001-2146-4389" ++ [30; 10]) (Some 0) (bytes_eqb (lit "ppn,rule,level,message" ++ [10] ++ lit "123456789X,R3,error,(isni)0000-0001-2146-4389" ++ [10]));
     run main [lit "check"; lit "-R"; lit "d1/rules.toml"]
      (lit "003@ " ++ [31] ++ lit "0123456789X" ++ [30] ++ lit "028A " ++ [31] ++ lit "y(isni)000000012146438X" ++ [30; 10]) (Some 0) (bytes_eqb [])]).
Example check_isni_case_ignore : check_isni_case_ignore_run = true.
Proof. reflexivity. Qed.

(** /repo/crates/pica-cli/tests/check/iso639.rs:7-68 *)
Definition check_iso639_default_run : bool := Eval vm_compute in
  (
    let docs := [(([10] ++ lit "            [rule.R001]" ++ [10] ++ lit "            check = 'iso639-2b'" ++ [10] ++ lit "            path = '010@.a'" ++ [10] ++ lit "        "), (TmTable [(lit "rule", (TmTable [(lit "R001", (TmTable [(lit "check", (TmText (lit "iso639-2b"))); (lit "path", (TmText (lit "010@.a")))]))]))]))] in
    let main := pica [] docs in
    plays []
    [write (lit "d1/rules.toml") ([10] ++ lit "            [rule.R001]" ++ [10] ++ lit "            check = 'iso639-2b'" ++ [10] ++ lit "            path = '010@.a'" ++ [10] ++ lit "        ");
     run main [lit "check"; lit "-R"; lit "d1/rules.toml"]
      (lit "003@ " ++ [31] ++ lit "0123456789X" ++ [30] ++ lit "010@ " ++ [31] ++ lit "adeu" ++ [30; 10]) (Some 0) (bytes_eqb (lit "ppn,rule,level,message" ++ [10] ++ lit "123456789X,R001,error,deu" ++ [10]));
     run main [lit "check"; lit "-R"; lit "d1/rules.toml"]
      (lit "003@ " ++ [31] ++ lit "0123456789X" ++ [30] ++ lit "010@ " ++ [31] ++ lit "adeu" ++ [31] ++ lit "aDE" ++ [30; 10]) (Some 0) (bytes_eqb (lit "ppn,rule,level,message" ++ [10] ++ lit "123456789X,R001,error,""deu, DE""" ++ [10]));
     run main [lit "check"; lit "-R"; lit "d1/rules.toml"]
      (lit "003@ " ++ [31] ++ lit "0123456789X" ++ [30] ++ lit "010@ " ++ [31] ++ lit "ager" ++ [30; 10]) (Some 0) (bytes_eqb [])]).
Example check_iso639_default : check_iso639_default_run = true.
Proof. reflexivity. Qed.

(** /repo/crates/pica-cli/tests/check/iso639.rs:71-115 *)
Definition check_iso639_case_ignore_run : bool := Eval vm_compute in
  (
    let docs := [(([10] ++ lit "            [rule.R001]" ++ [10] ++ lit "            check = 'iso639-2b'" ++ [10] ++ lit "            path = '010@{ a | a in [""DEU"", ""GER""]}'" ++ [10] ++ lit "            case-ignore = true" ++ [10] ++ lit "        "), (TmTable [(lit "rule", (TmTable [(lit "R001", (TmTable [(lit "check", (TmText (lit "iso639-2b"))); (lit "path", (TmText (lit "010@{ a | a in [""DEU"", ""GER""]}"))); (lit "case-ignore", (TmBool true))]))]))]))] in
    let main := pica [] docs in
    plays []
    [write (lit "d1/rules.toml") ([10] ++ lit "            [rule.R001]" ++ [10] ++ lit "            check = 'iso639-2b'" ++ [10] ++ lit "            path = '010@{ a | a in [""DEU"", ""GER""]}'" ++ [10] ++ lit "            case-ignore = true" ++ [10] ++ lit "        ");
     run main [lit "check"; lit "-R"; lit "d1/rules.toml"]
      (lit "003@ " ++ [31] ++ lit "0123456789X" ++ [30] ++ lit "010@ " ++ [31] ++ lit "adeu" ++ [30; 10]) (Some 0) (bytes_eqb (lit "ppn,rule,level,message" ++ [10] ++ lit "123456789X,R001,error,deu" ++ [10]));
     run main [lit "check"; lit "-R"; lit "d1/rules.toml"]
      (lit "003@ " ++ [31] ++ lit "0123456789X" ++ [30] ++ lit "010@ " ++ [31] ++ lit "ager" ++ [30; 10]) (Some 0) (bytes_eqb [])]).
Example check_iso639_case_ignore : check_iso639_case_ignore_run = true.
Proof. reflexivity. Qed.

(** /repo/crates/pica-cli/tests/check/jelc.rs:7-54 *)
Definition check_jelc_check_jel_default_run : bool := Eval vm_compute in
  (
    let docs := [(([10] ++ lit "            [rule.R001]" ++ [10] ++ lit "            check = 'jelc'" ++ [10] ++ lit "            path = '045Z{ a | b == ""jelc"" }'" ++ [10] ++ lit "        "), (TmTable [(lit "rule", (TmTable [(lit "R001", (TmTable [(lit "check", (TmText (lit "jelc"))); (lit "path", (TmText (lit "045Z{ a | b == ""jelc"" }")))]))]))]))] in
    let main := pica [] docs in
    plays []
    [write (lit "d1/rules.toml") ([10] ++ lit "            [rule.R001]" ++ [10] ++ lit "            check = 'jelc'" ++ [10] ++ lit "            path = '045Z{ a | b == ""jelc"" }'" ++ [10] ++ lit "        ");
     run main [lit "check"; lit "-R"; lit "d1/rules.toml"]
      (lit "003@ " ++ [31] ++ lit "0123456789X" ++ [30] ++ lit "045Z " ++ [31] ++ lit "bjelc" ++ [31] ++ lit "a<D63>" ++ [30; 10]) (Some 0) (bytes_eqb (lit "ppn,rule,level,message" ++ [10] ++ lit "123456789X,R001,error,<D63>" ++ [10]));
     run main [lit "check"; lit "-R"; lit "d1/rules.toml"]
      (lit "003@ " ++ [31] ++ lit "0123456789X" ++ [30] ++ lit "045Z " ++ [31] ++ lit "bjelc" ++ [31] ++ lit "aD63" ++ [30; 10]) (Some 0) (bytes_eqb [])]).
Example check_jelc_check_jel_default : check_jelc_check_jel_default_run = true.
Proof. reflexivity. Qed.

(** /repo/crates/pica-cli/tests/check/jelc.rs:57-105 *)
Definition check_jelc_check_jel_case_ignore_run : bool := Eval vm_compute in
  (
    let docs := [(([10] ++ lit "            [rule.R001]" ++ [10] ++ lit "            check = 'jelc'" ++ [10] ++ lit "            case-ignore = true" ++ [10] ++ lit "            path = '045Z{ a | b =^ ""JEL"" }'" ++ [10] ++ lit "        "), (TmTable [(lit "rule", (TmTable [(lit "R001", (TmTable [(lit "check", (TmText (lit "jelc"))); (lit "case-ignore", (TmBool true)); (lit "path", (TmText (lit "045Z{ a | b =^ ""JEL"" }")))]))]))]))] in
    let main := pica [] docs in
    plays []
    [write (lit "d1/rules.toml") ([10] ++ lit "            [rule.R001]" ++ [10] ++ lit "            check = 'jelc'" ++ [10] ++ lit "            case-ignore = true" ++ [10] ++ lit "            path = '045Z{ a | b =^ ""JEL"" }'" ++ [10] ++ lit "        ");
     run main [lit "check"; lit "-R"; lit "d1/rules.toml"]
      (lit "003@ " ++ [31] ++ lit "0123456789X" ++ [30] ++ lit "045Z " ++ [31] ++ lit "bjelc" ++ [31] ++ lit "a<D63>" ++ [30; 10]) (Some 0) (bytes_eqb (lit "ppn,rule,level,message" ++ [10] ++ lit "123456789X,R001,error,<D63>" ++ [10]));
     run main [lit "check"; lit "-R"; lit "d1/rules.toml"]
      (lit "003@ " ++ [31] ++ lit "0123456789X" ++ [30] ++ lit "045Z " ++ [31] ++ lit "bJEL" ++ [31] ++ lit "aD63" ++ [30; 10]) (Some 0) (bytes_eqb [])]).
Example check_jelc_check_jel_case_ignore : check_jelc_check_jel_case_ignore_run = true.
Proof. reflexivity. Qed.

(** /repo/crates/pica-cli/tests/check/link.rs:7-41 *)
Definition check_link_simple_run : bool := Eval vm_compute in
  (
    let docs := [(([10] ++ lit "            [rule.R01]" ++ [10] ++ lit "            check = 'link'" ++ [10] ++ lit "            source.path = '065R.9'" ++ [10] ++ lit "            target.path = '003@.0'" ++ [10] ++ lit "        "), (TmTable [(lit "rule", (TmTable [(lit "R01", (TmTable [(lit "check", (TmText (lit "link"))); (lit "source", (TmTable [(lit "path", (TmText (lit "065R.9")))])); (lit "target", (TmTable [(lit "path", (TmText (lit "003@.0")))]))]))]))]))] in
    let main := pica [] docs in
    plays [(lit "DUMP.dat.gz", gz_enc dump)]
    [write (lit "d1/rules.toml") ([10] ++ lit "            [rule.R01]" ++ [10] ++ lit "            check = 'link'" ++ [10] ++ lit "            source.path = '065R.9'" ++ [10] ++ lit "            target.path = '003@.0'" ++ [10] ++ lit "        ");
     run main [lit "check"; lit "-s"; lit "-R"; lit "d1/rules.toml"; lit "DUMP.dat.gz"]
      [] (Some 0) (contains (lit "118540238,R01,error,040181189" ++ [10]))]).
Example check_link_simple : check_link_simple_run = true.
Proof. reflexivity. Qed.

(** /repo/crates/pica-cli/tests/check/link.rs:44-75 *)
Definition check_link_path_filter_run : bool := Eval vm_compute in
  (
    let docs := [(([10] ++ lit "            [rule.R01]" ++ [10] ++ lit "            check = 'link'" ++ [10] ++ lit "            source.path = '065R{ 9 | 4 == ""ortw"" }'" ++ [10] ++ lit "            target.path = '003@.0'" ++ [10] ++ lit "        "), (TmTable [(lit "rule", (TmTable [(lit "R01", (TmTable [(lit "check", (TmText (lit "link"))); (lit "source", (TmTable [(lit "path", (TmText (lit "065R{ 9 | 4 == ""ortw"" }")))])); (lit "target", (TmTable [(lit "path", (TmText (lit "003@.0")))]))]))]))]))] in
    let main := pica [] docs in
    plays [(lit "DUMP.dat.gz", gz_enc dump)]
    [write (lit "d1/rules.toml") ([10] ++ lit "            [rule.R01]" ++ [10] ++ lit "            check = 'link'" ++ [10] ++ lit "            source.path = '065R{ 9 | 4 == ""ortw"" }'" ++ [10] ++ lit "            target.path = '003@.0'" ++ [10] ++ lit "        ");
     run main [lit "check"; lit "-s"; lit "-R"; lit "d1/rules.toml"; lit "DUMP.dat.gz"]
      [] (Some 0) (contains (lit "118607626,R01,error,""04028557X, 04037372X""" ++ [10]))]).
Example check_link_path_filter : check_link_path_filter_run = true.
Proof. reflexivity. Qed.

(** /repo/crates/pica-cli/tests/check/link.rs:78-112 *)
Definition check_link_condition_run : bool := Eval vm_compute in
  (
    let docs := [(([10] ++ lit "            [rule.R01]" ++ [10] ++ lit "            check = 'link'" ++ [10] ++ lit "            source.path = '065R{ 9 | 4 == ""ortw"" }'" ++ [10] ++ lit "            target = { path = '003@.0', filter  = '002@.0 == ""Tgz""' }" ++ [10] ++ lit "        "), (TmTable [(lit "rule", (TmTable [(lit "R01", (TmTable [(lit "check", (TmText (lit "link"))); (lit "source", (TmTable [(lit "path", (TmText (lit "065R{ 9 | 4 == ""ortw"" }")))])); (lit "target", (TmTable [(lit "path", (TmText (lit "003@.0"))); (lit "filter", (TmText (lit "002@.0 == ""Tgz""")))]))]))]))]))] in
    let main := pica [] docs in
    plays [(lit "DUMP.dat.gz", gz_enc dump)]
    [write (lit "d1/rules.toml") ([10] ++ lit "            [rule.R01]" ++ [10] ++ lit "            check = 'link'" ++ [10] ++ lit "            source.path = '065R{ 9 | 4 == ""ortw"" }'" ++ [10] ++ lit "            target = { path = '003@.0', filter  = '002@.0 == ""Tgz""' }" ++ [10] ++ lit "        ");
     run main [lit "check"; lit "-s"; lit "-R"; lit "d1/rules.toml"; lit "DUMP.dat.gz"]
      [] (Some 0) (contains (lit "118540238,R01,error,040651053" ++ [10]))]).
Example check_link_condition : check_link_condition_run = true.
Proof. reflexivity. Qed.

(** /repo/crates/pica-cli/tests/check/mod.rs:20-63 *)
Definition check_check_skip_invalid_run : bool := Eval vm_compute in
  (
    let docs := [(([10] ++ lit "            scope = '003@.0 != ""123456789X""'" ++ [10] ++ lit "        "), (TmTable [(lit "scope", (TmText (lit "003@.0 != ""123456789X""")))]))] in
    let main := pica [] docs in
    plays [(lit "ada.dat", ada); (lit "invalid.dat", invalid_dat)]
    [write (lit "d1/rules.toml") ([10] ++ lit "            scope = '003@.0 != ""123456789X""'" ++ [10] ++ lit "        ");
     run main [lit "check"; lit "-R"; lit "d1/rules.toml"; lit "invalid.dat"; lit "ada.dat"]
      [] (Some 2) (bytes_eqb []);
     run main [lit "check"; lit "-s"; lit "-R"; lit "d1/rules.toml"; lit "invalid.dat"; lit "ada.dat"]
      [] (Some 0) (bytes_eqb [])]).
Example check_check_skip_invalid : check_check_skip_invalid_run = true.
Proof. reflexivity. Qed.

(** /repo/crates/pica-cli/tests/check/mod.rs:66-97 *)
Definition check_check_scope_run : bool := Eval vm_compute in
  (
    let docs := [(([10] ++ lit "            scope = '003@.0 != ""123456789X""'" ++ [10] ++ lit "            " ++ [10] ++ lit "            [rule.UNICODE]" ++ [10] ++ lit "            check = ""unicode""" ++ [10] ++ lit "        "), (TmTable [(lit "scope", (TmText (lit "003@.0 != ""123456789X"""))); (lit "rule", (TmTable [(lit "UNICODE", (TmTable [(lit "check", (TmText (lit "unicode")))]))]))]))] in
    let main := pica [] docs in
    plays []
    [write (lit "d1/rules.toml") ([10] ++ lit "            scope = '003@.0 != ""123456789X""'" ++ [10] ++ lit "            " ++ [10] ++ lit "            [rule.UNICODE]" ++ [10] ++ lit "            check = ""unicode""" ++ [10] ++ lit "        ");
     run main [lit "check"; lit "-R"; lit "d1/rules.toml"]
      (lit "003@ " ++ [31] ++ lit "0123456789X" ++ [30] ++ lit "012A " ++ [31] ++ lit "0" ++ [0; 159; 30; 10]) (Some 0) (bytes_eqb [])]).
Example check_check_scope : check_check_scope_run = true.
Proof. reflexivity. Qed.

(** /repo/crates/pica-cli/tests/check/mod.rs:100-127 *)
Definition check_check_limit_run : bool := Eval vm_compute in
  (
    let docs := [(([10] ++ lit "            scope = '003@.0 != ""123456789X""'" ++ [10] ++ lit "        "), (TmTable [(lit "scope", (TmText (lit "003@.0 != ""123456789X""")))]))] in
    let main := pica [] docs in
    plays [(lit "ada.dat", ada); (lit "invalid.dat", invalid_dat)]
    [write (lit "d1/rules.toml") ([10] ++ lit "            scope = '003@.0 != ""123456789X""'" ++ [10] ++ lit "        ");
     run main [lit "check"; lit "--limit"; lit "1"; lit "-R"; lit "d1/rules.toml"; lit "ada.dat"; lit "invalid.dat"]
      [] (Some 0) (bytes_eqb [])]).
Example check_check_limit : check_check_limit_run = true.
Proof. reflexivity. Qed.

(** /repo/crates/pica-cli/tests/check/mod.rs:130-176 *)
Definition check_check_where_run : bool := Eval vm_compute in
  (
    let docs := [(([10] ++ lit "            [rule.R001]" ++ [10] ++ lit "            check = ""filter""" ++ [10] ++ lit "            filter = '004B.a != ""pik""'" ++ [10] ++ lit "        "), (TmTable [(lit "rule", (TmTable [(lit "R001", (TmTable [(lit "check", (TmText (lit "filter"))); (lit "filter", (TmText (lit "004B.a != ""pik""")))]))]))]))] in
    let main := pica [] docs in
    plays [(lit "ada.dat", ada); (lit "algebra.dat", algebra)]
    [write (lit "d1/rules.toml") ([10] ++ lit "            [rule.R001]" ++ [10] ++ lit "            check = ""filter""" ++ [10] ++ lit "            filter = '004B.a != ""pik""'" ++ [10] ++ lit "        ");
     run main [lit "check"; lit "-R"; lit "d1/rules.toml"; lit "algebra.dat"; lit "ada.dat"]
      [] (Some 0) (bytes_eqb (lit "ppn,rule,level,message" ++ [10] ++ lit "040011569,R001,error," ++ [10]));
     run main [lit "check"; lit "-R"; lit "d1/rules.toml"; lit "algebra.dat"; lit "ada.dat"; lit "--where"; lit "003@.0 == '119232022'"]
      [] (Some 0) (bytes_eqb [])]).
Example check_check_where : check_check_where_run = true.
Proof. reflexivity. Qed.

(** /repo/crates/pica-cli/tests/check/mod.rs:179-212 *)
Definition check_check_txt_output_run : bool := Eval vm_compute in
  (
    let docs := [(([10] ++ lit "            [rule.R001]" ++ [10] ++ lit "            check = ""filter""" ++ [10] ++ lit "            filter = '002@.0 =^ ""Tp""'" ++ [10] ++ lit "        "), (TmTable [(lit "rule", (TmTable [(lit "R001", (TmTable [(lit "check", (TmText (lit "filter"))); (lit "filter", (TmText (lit "002@.0 =^ ""Tp""")))]))]))]))] in
    let main := pica [] docs in
    plays [(lit "DUMP.dat.gz", gz_enc dump)]
    [write (lit "d1/rules.toml") ([10] ++ lit "            [rule.R001]" ++ [10] ++ lit "            check = ""filter""" ++ [10] ++ lit "            filter = '002@.0 =^ ""Tp""'" ++ [10] ++ lit "        ");
     run main [lit "check"; lit "-s"; lit "-R"; lit "d1/rules.toml"; lit "DUMP.dat.gz"; lit "-o"; lit "d1/out.txt"]
      [] (Some 0) (bytes_eqb []);
     file_is (lit "d1/out.txt") (lit "118540238" ++ [10] ++ lit "118607626" ++ [10])]).
Example check_check_txt_output : check_check_txt_output_run = true.
Proof. reflexivity. Qed.

(** /repo/crates/pica-cli/tests/check/mod.rs:215-251 *)
Definition check_check_tsv_output_run : bool := Eval vm_compute in
  (
    let docs := [(([10] ++ lit "            [rule.R001]" ++ [10] ++ lit "            check = ""filter""" ++ [10] ++ lit "            filter = '002@.0 =^ ""Tp""'" ++ [10] ++ lit "        "), (TmTable [(lit "rule", (TmTable [(lit "R001", (TmTable [(lit "check", (TmText (lit "filter"))); (lit "filter", (TmText (lit "002@.0 =^ ""Tp""")))]))]))]))] in
    let main := pica [] docs in
    plays [(lit "DUMP.dat.gz", gz_enc dump)]
    [write (lit "d1/rules.toml") ([10] ++ lit "            [rule.R001]" ++ [10] ++ lit "            check = ""filter""" ++ [10] ++ lit "            filter = '002@.0 =^ ""Tp""'" ++ [10] ++ lit "        ");
     run main [lit "check"; lit "-s"; lit "-R"; lit "d1/rules.toml"; lit "DUMP.dat.gz"; lit "-o"; lit "d1/out.tsv"]
      [] (Some 0) (bytes_eqb []);
     file_is (lit "d1/out.tsv") (lit "ppn" ++ [9] ++ lit "rule" ++ [9] ++ lit "level" ++ [9] ++ lit "message" ++ [10] ++ lit "118540238" ++ [9] ++ lit "R001" ++ [9] ++ lit "error" ++ [9; 10] ++ lit "118607626" ++ [9] ++ lit "R001" ++ [9] ++ lit "error" ++ [9; 10])]).
Example check_check_tsv_output : check_check_tsv_output_run = true.
Proof. reflexivity. Qed.

(** /repo/crates/pica-cli/tests/check/mod.rs:254-326 *)
Definition check_check_termination_run : bool := Eval vm_compute in
  (
    let docs := [(([10] ++ lit "            termination = 'default'" ++ [10; 10] ++ lit "            [rule.R001]" ++ [10] ++ lit "            check = ""unicode""" ++ [10; 10] ++ lit "            [rule.R002]" ++ [10] ++ lit "            check = ""unicode""" ++ [10] ++ lit "        "), (TmTable [(lit "termination", (TmText (lit "default"))); (lit "rule", (TmTable [(lit "R001", (TmTable [(lit "check", (TmText (lit "unicode")))])); (lit "R002", (TmTable [(lit "check", (TmText (lit "unicode")))]))]))])); (([10] ++ lit "            termination = 'fast'" ++ [10] ++ lit "            " ++ [10] ++ lit "            [rule.R001]" ++ [10] ++ lit "            check = ""unicode""" ++ [10; 10] ++ lit "            [rule.R002]" ++ [10] ++ lit "            check = ""unicode""" ++ [10] ++ lit "        "), (TmTable [(lit "termination", (TmText (lit "fast"))); (lit "rule", (TmTable [(lit "R001", (TmTable [(lit "check", (TmText (lit "unicode")))])); (lit "R002", (TmTable [(lit "check", (TmText (lit "unicode")))]))]))]))] in
    let main := pica [] docs in
    plays []
    [write (lit "d1/rules.toml") ([10] ++ lit "            termination = 'default'" ++ [10; 10] ++ lit "            [rule.R001]" ++ [10] ++ lit "            check = ""unicode""" ++ [10; 10] ++ lit "            [rule.R002]" ++ [10] ++ lit "            check = ""unicode""" ++ [10] ++ lit "        ");
     run main [lit "check"; lit "-R"; lit "d1/rules.toml"]
      (lit "003@ " ++ [31] ++ lit "0123456789X" ++ [30] ++ lit "012A " ++ [31] ++ lit "0" ++ [0; 159; 30; 10]) (Some 0) (contains (lit "123456789X,R002,error," ++ [10]));
     write (lit "d1/rules.toml") ([10] ++ lit "            termination = 'fast'" ++ [10] ++ lit "            " ++ [10] ++ lit "            [rule.R001]" ++ [10] ++ lit "            check = ""unicode""" ++ [10; 10] ++ lit "            [rule.R002]" ++ [10] ++ lit "            check = ""unicode""" ++ [10] ++ lit "        ");
     run main [lit "check"; lit "-R"; lit "d1/rules.toml"]
      (lit "003@ " ++ [31] ++ lit "0123456789X" ++ [30] ++ lit "012A " ++ [31] ++ lit "0" ++ [0; 159; 30; 10]) (Some 0) (bytes_eqb (lit "ppn,rule,level,message" ++ [10] ++ lit "123456789X,R001,error," ++ [10]))]).
Example check_check_termination : check_check_termination_run = true.
Proof. reflexivity. Qed.

(** /repo/crates/pica-cli/tests/check/mod.rs:329-388 *)
Definition check_check_translit_run : bool := Eval vm_compute in
  (
    let docs := [(([10] ++ lit "            [rule.R001]" ++ [10] ++ lit "            check = ""filter""" ++ [10] ++ lit "            filter = '028@.P == ""Göthe""'" ++ [10] ++ lit "        "), (TmTable [(lit "rule", (TmTable [(lit "R001", (TmTable [(lit "check", (TmText (lit "filter"))); (lit "filter", (TmText (lit "028@.P == ""Göthe""")))]))]))])); (([10] ++ lit "            [rule.R001]" ++ [10] ++ lit "            check = ""filter""" ++ [10] ++ lit "            filter = '028@.P == ""Göthe""'" ++ [10] ++ lit "        "), (TmTable [(lit "rule", (TmTable [(lit "R001", (TmTable [(lit "check", (TmText (lit "filter"))); (lit "filter", (TmText (lit "028@.P == ""Göthe""")))]))]))]))] in
    let main := pica [] docs in
    plays [(lit "goethe.dat", goethe)]
    [write (lit "d1/rules.toml") ([10] ++ lit "            [rule.R001]" ++ [10] ++ lit "            check = ""filter""" ++ [10] ++ lit "            filter = '028@.P == ""Göthe""'" ++ [10] ++ lit "        ");
     run main [lit "--config"; lit "d1/pica.toml"; lit "check"; lit "-R"; lit "d1/rules.toml"; lit "goethe.dat"]
      [] (Some 0) (bytes_eqb []);
     run main [lit "--config"; lit "d1/pica.toml"; lit "config"; lit "normalization"; lit "nfd"]
      [] (Some 0) (bytes_eqb []);
     run main [lit "--config"; lit "d1/pica.toml"; lit "check"; lit "-R"; lit "d1/rules.toml"; lit "goethe.dat"]
      [] (Some 0) (bytes_eqb (lit "ppn,rule,level,message" ++ [10] ++ lit "118540238,R001,error," ++ [10]))]).
Example check_check_translit : check_check_translit_run = true.
Proof. reflexivity. Qed.

(** /repo/crates/pica-cli/tests/check/mod.rs:391-452 *)
Definition check_check_rule_filter_run : bool := Eval vm_compute in
  (
    let docs := [(([10] ++ lit "            [rule.R001]" ++ [10] ++ lit "            check = ""filter""" ++ [10] ++ lit "            filter = '004B.a != ""pik""'" ++ [10] ++ lit "        "), (TmTable [(lit "rule", (TmTable [(lit "R001", (TmTable [(lit "check", (TmText (lit "filter"))); (lit "filter", (TmText (lit "004B.a != ""pik""")))]))]))]))] in
    let main := pica [] docs in
    plays [(lit "ada.dat", ada); (lit "algebra.dat", algebra)]
    [write (lit "d1/rules.toml") ([10] ++ lit "            [rule.R001]" ++ [10] ++ lit "            check = ""filter""" ++ [10] ++ lit "            filter = '004B.a != ""pik""'" ++ [10] ++ lit "        ");
     run main [lit "check"; lit "-R"; lit "d1/rules.toml"; lit "algebra.dat"; lit "ada.dat"]
      [] (Some 0) (bytes_eqb (lit "ppn,rule,level,message" ++ [10] ++ lit "040011569,R001,error," ++ [10]));
     run main [lit "check"; lit "-r"; lit "^R0\d+"; lit "-R"; lit "d1/rules.toml"; lit "algebra.dat"; lit "ada.dat"]
      [] (Some 0) (bytes_eqb (lit "ppn,rule,level,message" ++ [10] ++ lit "040011569,R001,error," ++ [10]));
     run main [lit "check"; lit "-r"; lit "R002"; lit "-R"; lit "d1/rules.toml"; lit "algebra.dat"; lit "ada.dat"]
      [] (Some 0) (bytes_eqb [])]).
Example check_check_rule_filter : check_check_rule_filter_run = true.
Proof. reflexivity. Qed.

(** /repo/crates/pica-cli/tests/check/mod.rs:455-519 *)
Definition check_check_tags_filter_run : bool := Eval vm_compute in
  (
    let docs := [(([10] ++ lit "            [rule.R001]" ++ [10] ++ lit "            check = ""filter""" ++ [10] ++ lit "            tags = [""foo"", ""bar""]" ++ [10] ++ lit "            filter = '002@.0 == ""Tp1""'" ++ [10; 10] ++ lit "            [rule.R002]" ++ [10] ++ lit "            check = ""filter""" ++ [10] ++ lit "            tags = [""bar"", ""baz""]" ++ [10] ++ lit "            filter = '002@.0 == ""Tpz""'" ++ [10] ++ lit "        "), (TmTable [(lit "rule", (TmTable [(lit "R001", (TmTable [(lit "check", (TmText (lit "filter"))); (lit "tags", (TmArray [(TmText (lit "foo")); (TmText (lit "bar"))])); (lit "filter", (TmText (lit "002@.0 == ""Tp1""")))])); (lit "R002", (TmTable [(lit "check", (TmText (lit "filter"))); (lit "tags", (TmArray [(TmText (lit "bar")); (TmText (lit "baz"))])); (lit "filter", (TmText (lit "002@.0 == ""Tpz""")))]))]))]))] in
    let main := pica [] docs in
    plays [(lit "ada.dat", ada)]
    [write (lit "d1/rules.toml") ([10] ++ lit "            [rule.R001]" ++ [10] ++ lit "            check = ""filter""" ++ [10] ++ lit "            tags = [""foo"", ""bar""]" ++ [10] ++ lit "            filter = '002@.0 == ""Tp1""'" ++ [10; 10] ++ lit "            [rule.R002]" ++ [10] ++ lit "            check = ""filter""" ++ [10] ++ lit "            tags = [""bar"", ""baz""]" ++ [10] ++ lit "            filter = '002@.0 == ""Tpz""'" ++ [10] ++ lit "        ");
     run main [lit "check"; lit "-R"; lit "d1/rules.toml"; lit "ada.dat"]
      [] (Some 0) (bytes_eqb (lit "ppn,rule,level,message" ++ [10] ++ lit "119232022,R001,error," ++ [10]));
     run main [lit "check"; lit "--tags"; lit "bar"; lit "-R"; lit "d1/rules.toml"; lit "ada.dat"]
      [] (Some 0) (bytes_eqb (lit "ppn,rule,level,message" ++ [10] ++ lit "119232022,R001,error," ++ [10]));
     run main [lit "check"; lit "--tags"; lit "baz,frob"; lit "-R"; lit "d1/rules.toml"; lit "ada.dat"]
      [] (Some 0) (bytes_eqb [])]).
Example check_check_tags_filter : check_check_tags_filter_run = true.
Proof. reflexivity. Qed.

(** /repo/crates/pica-cli/tests/check/unicode.rs:7-39 *)
Definition check_unicode_invalid_run : bool := Eval vm_compute in
  (
    let docs := [(([10] ++ lit "            [rule.UNICODE]" ++ [10] ++ lit "            check = ""unicode""" ++ [10] ++ lit "        "), (TmTable [(lit "rule", (TmTable [(lit "UNICODE", (TmTable [(lit "check", (TmText (lit "unicode")))]))]))]))] in
    let main := pica [] docs in
    plays []
    [write (lit "d1/rules.toml") ([10] ++ lit "            [rule.UNICODE]" ++ [10] ++ lit "            check = ""unicode""" ++ [10] ++ lit "        ");
     run main [lit "check"; lit "-R"; lit "d1/rules.toml"]
      (lit "003@ " ++ [31] ++ lit "0123456789X" ++ [30] ++ lit "012A " ++ [31] ++ lit "0" ++ [0; 159; 30; 10]) (Some 0) (bytes_eqb (lit "ppn,rule,level,message" ++ [10] ++ lit "123456789X,UNICODE,error," ++ [10]))]).
Example check_unicode_invalid : check_unicode_invalid_run = true.
Proof. reflexivity. Qed.

(** /repo/crates/pica-cli/tests/check/unicode.rs:42-102 *)
Definition check_unicode_normalization_run : bool := Eval vm_compute in
  (
    let docs := [(([10] ++ lit "            [rule.UNICODE]" ++ [10] ++ lit "            check = ""unicode""" ++ [10] ++ lit "            normalization = ""nfd""" ++ [10] ++ lit "        "), (TmTable [(lit "rule", (TmTable [(lit "UNICODE", (TmTable [(lit "check", (TmText (lit "unicode"))); (lit "normalization", (TmText (lit "nfd")))]))]))]))] in
    let main := pica [] docs in
    plays []
    [write (lit "d1/rules.toml") ([10] ++ lit "            [rule.UNICODE]" ++ [10] ++ lit "            check = ""unicode""" ++ [10] ++ lit "            normalization = ""nfd""" ++ [10] ++ lit "        ");
     run main [lit "check"; lit "-R"; lit "d1/rules.toml"]
      (lit "003@ " ++ [31] ++ lit "0123456789X" ++ [30] ++ lit "012A " ++ [31] ++ lit "0ä" ++ [30; 10]) (Some 0) (bytes_eqb (lit "ppn,rule,level,message" ++ [10] ++ lit "123456789X,UNICODE,error,ä" ++ [10]));
     write (lit "d2/rules.toml") ([10] ++ lit "            [rule.UNICODE]" ++ [10] ++ lit "            check = ""unicode""" ++ [10] ++ lit "            normalization = ""nfd""" ++ [10] ++ lit "        ");
     run main [lit "check"; lit "-R"; lit "d2/rules.toml"]
      (lit "003@ " ++ [31] ++ lit "0123456789X" ++ [30] ++ lit "012A " ++ [31] ++ lit "0ä" ++ [30; 10]) (Some 0) (bytes_eqb [])]).
Example check_unicode_normalization : check_unicode_normalization_run = true.
Proof. reflexivity. Qed.

(** * Tests and documentation examples of paths, queries and formats

    /repo/src/path.rs, /repo/src/query.rs, /repo/src/fmt/mod.rs and
    /repo/src/fmt/parser.rs.  Each [Example] replays one test function or one
    documentation example. *)

From Coq Require Import String.
From Verif Require Import Bytes Winnow RecordModel TagOccModel Utf8Model StateParser MatcherModel
  MatcherParserModel PathModel FmtModel QueryModel ConfBase ConfData.

(** none of these tests has a regular expression or a similarity *)
Definition qO : oracles :=
  mkOracles ascii_lower (similar 80) (fun _ _ => true) (fun _ _ => true) (fun _ _ _ => false).

(** the text functions of bstr, for ASCII *)
Definition ascii_upper (b : bytes) : bytes := map (fun c => if is_lower c then c - 32 else c) b.
Fixpoint drop_blanks (b : bytes) : bytes :=
  match b with c :: b' => if (c =? 32) || ((9 <=? c) && (c <=? 13)) then drop_blanks b' else b | [] => [] end.
Definition qT : text_fns :=
  mkTextFns ascii_lower ascii_upper (fun b => rev (drop_blanks (rev (drop_blanks b)))).

(** /repo/src/path.rs:43-50 *)
Example path_doc_43 :
  (let s := fresh in
   with_new (path_new qO) s (lit "041A/*{ (9, a) | 9? }") (fun m1 s =>
   with_new (path_new qO) s (lit "003@.0") (fun m2 s => true))) = true.
Proof. vm_compute. reflexivity. Qed.

(** /repo/src/path.rs:165-172 *)
Example path_doc_165 :
  (let s := fresh in
   with_new (path_new qO) s (lit "002@{ 0 | 0 =^ 'O'}") (fun m1 s =>
   bytes_eqb (path_display m1) (lit "002@{ 0 | 0 =^ 'O'}") && true)) = true.
Proof. vm_compute. reflexivity. Qed.

(** /repo/src/path.rs:216-229 *)
Example path_doc_216 :
  (let s := fresh in
   with_some (record_from_bytes (lit "042A " ++ [31] ++ lit "a12.2p" ++ [31] ++ lit "18p" ++ [30; 10])) (fun r1 =>
   andb (record_validate r1) (
   with_new (path_new qO) s (lit "042A.a") (fun m2 s =>
   option_eqb (option_eqb bytes_eqb) (record_first qO false m2 r1) (Some (Some (lit "12.2p"))) && true)))) = true.
Proof. vm_compute. reflexivity. Qed.

(** /repo/src/path.rs:249-256 *)
Example path_doc_249 :
  (let s := fresh in
   with_some (record_from_bytes (lit "003@ " ++ [31] ++ lit "0118540238" ++ [30; 10])) (fun r1 =>
   option_eqb (option_eqb bytes_eqb) (record_ppn qO r1) (Some (Some (lit "118540238"))) && true)) = true.
Proof. vm_compute. reflexivity. Qed.

(** /repo/src/path.rs:271-281 *)
Example path_doc_271 :
  (let s := fresh in
   with_some (record_from_bytes (lit "002@ " ++ [31] ++ lit "0Abvz" ++ [30; 10])) (fun r1 =>
   with_new (path_new qO) s (lit "002@.0") (fun m2 s =>
   option_eqb (list_eqb bytes_eqb) (record_path qO false m2 r1) (Some [(lit "Abvz")]) && true))) = true.
Proof. vm_compute. reflexivity. Qed.

(** /repo/src/path.rs:324-335 *)
Example path_doc_324 :
  (let s := fresh in
   with_some (record_from_bytes (lit "002@ " ++ [31] ++ lit "0Abvz" ++ [30; 10])) (fun r1 =>
   andb (record_validate r1) (
   with_new (path_new qO) s (lit "002@.0") (fun m2 s =>
   option_eqb (list_eqb bytes_eqb) (record_path qO false m2 r1) (Some [(lit "Abvz")]) && true)))) = true.
Proof. vm_compute. reflexivity. Qed.

(** /repo/src/path.rs:373-381 *)
Example path_test_path_serde :
  (let s := fresh in
   with_new (path_new qO) s (lit "003@.0") (fun m1 s =>
   bytes_eqb (path_display m1) (lit "003@.0") &&
   with_new (path_new qO) s (lit "041A/*{ 9 | 9? }") (fun m2 s =>
   bytes_eqb (path_display m2) (lit "041A/*{ 9 | 9? }") && true))) = true.
Proof. vm_compute. reflexivity. Qed.

(** /repo/src/path.rs:425-435 *)
Example path_test_path_new :
  (let s := fresh in
   with_some (record_from_bytes ada) (fun r1 =>
   with_new (path_new qO) s (lit "008B.a") (fun m2 s =>
   option_eqb (list_eqb bytes_eqb) (record_path qO false m2 r1) (Some [(lit "w"); (lit "k"); (lit "v")]) && true))) = true.
Proof. vm_compute. reflexivity. Qed.

(** /repo/src/path.rs:444-453 *)
Example path_test_byte_record_path :
  (let s := fresh in
   with_some (record_from_bytes ada) (fun r1 =>
   with_new (path_new qO) s (lit "008A.a") (fun m2 s =>
   option_eqb (list_eqb bytes_eqb) (record_path qO false m2 r1) (Some [(lit "s"); (lit "z"); (lit "f")]) && true))) = true.
Proof. vm_compute. reflexivity. Qed.

(** /repo/src/path.rs:456-467 *)
Example path_test_string_record_path :
  (let s := fresh in
   with_some (record_from_bytes ada) (fun r1 =>
   andb (record_validate r1) (
   with_new (path_new qO) s (lit "008A.a") (fun m2 s =>
   option_eqb (list_eqb bytes_eqb) (record_path qO false m2 r1) (Some [(lit "s"); (lit "z"); (lit "f")]) && true)))) = true.
Proof. vm_compute. reflexivity. Qed.

(** /repo/src/path.rs:470-479 *)
Example path_test_path_with_predicate :
  (let s := fresh in
   with_some (record_from_bytes ada) (fun r1 =>
   with_new (path_new qO) s (lit "007N{ 0 | a == 'swd'}") (fun m2 s =>
   option_eqb (list_eqb bytes_eqb) (record_path qO false m2 r1) (Some [(lit "4370325-2")]) && true))) = true.
Proof. vm_compute. reflexivity. Qed.

(** /repo/src/path.rs:482-489 *)
Example path_test_path_first :
  (let s := fresh in
   with_some (record_from_bytes ada) (fun r1 =>
   with_new (path_new qO) s (lit "007[KN]{0 | a in ['pnd','swd']}") (fun m2 s =>
   option_eqb (option_eqb bytes_eqb) (record_first qO false m2 r1) (Some (Some (lit "172642531"))) && true))) = true.
Proof. vm_compute. reflexivity. Qed.

(** /repo/src/path.rs:492-497 *)
Example path_test_path_ppn :
  (let s := fresh in
   with_some (record_from_bytes ada) (fun r1 =>
   option_eqb (option_eqb bytes_eqb) (record_ppn qO r1) (Some (Some (lit "119232022"))) && true)) = true.
Proof. vm_compute. reflexivity. Qed.

(** /repo/src/query.rs:36-43 *)
Example query_doc_36 :
  (let s := fresh in
   with_new (query_new qO) s (lit "003@.0,002@.0") (fun m1 s =>
   with_new (query_new qO) s (lit "'x', 002@.0") (fun m2 s => true))) = true.
Proof. vm_compute. reflexivity. Qed.

(** /repo/src/query.rs:73-80 *)
Example query_doc_73 :
  (let s := fresh in
   with_new (query_new qO) s (lit "'X', 002@{ 0 | 0 =^ 'O'}") (fun m1 s =>
   bytes_eqb (query_display m1) (lit "'X', 002@{ 0 | 0 =^ 'O'}") && true)) = true.
Proof. vm_compute. reflexivity. Qed.

(** /repo/src/query.rs:435-444 *)
Example query_doc_435 :
  (let s := fresh in
   with_some (record_from_bytes (lit "002@ " ++ [31] ++ lit "0Abvz" ++ [30; 10])) (fun r1 =>
   with_new (query_new qO) s (lit "002@.0") (fun m2 s =>
   option_eqb (list_eqb (list_eqb bytes_eqb)) (record_query qO qT (mkQueryOptions false (lit "|") false false) m2 r1) (Some [[(lit "Abvz")]]) && true))) = true.
Proof. vm_compute. reflexivity. Qed.

(** /repo/src/query.rs:474-484 *)
Example query_doc_474 :
  (let s := fresh in
   with_some (record_from_bytes (lit "002@ " ++ [31] ++ lit "0Abvz" ++ [30; 10])) (fun r1 =>
   andb (record_validate r1) (
   with_new (query_new qO) s (lit "002@.0") (fun m2 s =>
   option_eqb (list_eqb (list_eqb bytes_eqb)) (record_query qO qT (mkQueryOptions false (lit "|") false false) m2 r1) (Some [[(lit "Abvz")]]) && true)))) = true.
Proof. vm_compute. reflexivity. Qed.

(** /repo/src/query.rs:524-537 *)
Example query_test_query_serde :
  (let s := fresh in
   with_new (query_new qO) s (lit "003@.0") (fun m1 s =>
   bytes_eqb (query_display m1) (lit "003@.0") &&
   with_new (query_new qO) s (lit "'foo'") (fun m2 s =>
   bytes_eqb (query_display m2) (lit "'foo'") &&
   with_new (query_new qO) s (lit "'x', 002@.0") (fun m3 s =>
   bytes_eqb (query_display m3) (lit "'x', 002@.0") &&
   with_new (query_new qO) s (lit "041A/*{ 9 | 9? }") (fun m4 s =>
   bytes_eqb (query_display m4) (lit "041A/*{ 9 | 9? }") && true))))) = true.
Proof. vm_compute. reflexivity. Qed.

(** /repo/src/query.rs:540-558 *)
Example query_test_query_literal :
  (let s := fresh in
   with_some (record_from_bytes ada) (fun r1 =>
   with_new (query_new qO) s (lit "'foo'") (fun m2 s =>
   option_eqb (list_eqb (list_eqb bytes_eqb)) (record_query qO qT (mkQueryOptions false (lit "|") false false) m2 r1) (Some [[(lit "foo")]]) &&
   with_new (query_new qO) s (lit "'foo','bar'") (fun m3 s =>
   option_eqb (list_eqb (list_eqb bytes_eqb)) (record_query qO qT (mkQueryOptions false (lit "|") false false) m3 r1) (Some [[(lit "foo"); (lit "bar")]]) && true)))) = true.
Proof. vm_compute. reflexivity. Qed.

(** /repo/src/query.rs:561-617 *)
Example query_test_query_path :
  (let s := fresh in
   with_some (record_from_bytes ada) (fun r1 =>
   with_new (query_new qO) s (lit "003@.0") (fun m2 s =>
   option_eqb (list_eqb (list_eqb bytes_eqb)) (record_query qO qT (mkQueryOptions false (lit "|") false false) m2 r1) (Some [[(lit "119232022")]]) &&
   with_new (query_new qO) s (lit "003@.0, 002@.0") (fun m3 s =>
   option_eqb (list_eqb (list_eqb bytes_eqb)) (record_query qO qT (mkQueryOptions false (lit "|") false false) m3 r1) (Some [[(lit "119232022"); (lit "Tp1")]]) &&
   with_new (query_new qO) s (lit "003@.0, 008A.a") (fun m4 s =>
   option_eqb (list_eqb (list_eqb bytes_eqb)) (record_query qO qT (mkQueryOptions false (lit "|") false false) m4 r1) (Some [[(lit "119232022"); (lit "s")]; [(lit "119232022"); (lit "z")]; [(lit "119232022"); (lit "f")]]) &&
   with_new (query_new qO) s (lit "003@.0, 008X.a") (fun m5 s =>
   option_eqb (list_eqb (list_eqb bytes_eqb)) (record_query qO qT (mkQueryOptions false (lit "|") false false) m5 r1) (Some [[(lit "119232022"); []]]) &&
   with_new (query_new qO) s (lit "008X.a,008Y.a") (fun m6 s =>
   option_eqb (list_eqb (list_eqb bytes_eqb)) (record_query qO qT (mkQueryOptions false (lit "|") false false) m6 r1) (Some [[[]; []]]) &&
   with_new (query_new qO) s (lit "008A.a,008B.a") (fun m7 s =>
   option_eqb (list_eqb (list_eqb bytes_eqb)) (record_query qO qT (mkQueryOptions false (lit "|") false false) m7 r1) (Some [[(lit "s"); (lit "w")]; [(lit "s"); (lit "k")]; [(lit "s"); (lit "v")]; [(lit "z"); (lit "w")]; [(lit "z"); (lit "k")]; [(lit "z"); (lit "v")]; [(lit "f"); (lit "w")]; [(lit "f"); (lit "k")]; [(lit "f"); (lit "v")]]) && true)))))))) = true.
Proof. vm_compute. reflexivity. Qed.

(** /repo/src/query.rs:620-656 *)
Example query_test_query_path_squash :
  (let s := fresh in
   with_some (record_from_bytes ada) (fun r1 =>
   with_new (query_new qO) s (lit "003@.0, 008A.a") (fun m2 s =>
   option_eqb (list_eqb (list_eqb bytes_eqb)) (record_query qO qT (mkQueryOptions false (lit "|") true false) m2 r1) (Some [[(lit "119232022"); (lit "s|z|f")]]) &&
   with_new (query_new qO) s (lit "008A.a,008B.a") (fun m3 s =>
   option_eqb (list_eqb (list_eqb bytes_eqb)) (record_query qO qT (mkQueryOptions false (lit "|") true false) m3 r1) (Some [[(lit "s|z|f"); (lit "w|k|v")]]) &&
   with_new (query_new qO) s (lit "003@.0, 008A.a") (fun m4 s =>
   option_eqb (list_eqb (list_eqb bytes_eqb)) (record_query qO qT (mkQueryOptions false (lit "+++") true false) m4 r1) (Some [[(lit "119232022"); (lit "s+++z+++f")]]) &&
   with_some (record_from_bytes (lit "012A " ++ [31] ++ lit "aX" ++ [31] ++ lit "b1" ++ [31] ++ lit "b2" ++ [30] ++ lit "012A " ++ [31] ++ lit "aX" ++ [31] ++ lit "b3" ++ [30; 10])) (fun r5 =>
   with_new (query_new qO) s (lit "012A{ a, b }") (fun m6 s =>
   option_eqb (list_eqb (list_eqb bytes_eqb)) (record_query qO qT (mkQueryOptions false (lit "|") true false) m6 r5) (Some [[(lit "X"); (lit "1|2")]; [(lit "X"); (lit "3")]]) && true))))))) = true.
Proof. vm_compute. reflexivity. Qed.

(** /repo/src/query.rs:659-688 *)
Example query_test_query_path_merge :
  (let s := fresh in
   with_some (record_from_bytes ada) (fun r1 =>
   with_new (query_new qO) s (lit "003@.0, 008A.a") (fun m2 s =>
   option_eqb (list_eqb (list_eqb bytes_eqb)) (record_query qO qT (mkQueryOptions false (lit "|") false true) m2 r1) (Some [[(lit "119232022"); (lit "s|z|f")]]) &&
   with_new (query_new qO) s (lit "008A.a,008B.a") (fun m3 s =>
   option_eqb (list_eqb (list_eqb bytes_eqb)) (record_query qO qT (mkQueryOptions false (lit "|") false true) m3 r1) (Some [[(lit "s|z|f"); (lit "w|k|v")]]) &&
   with_some (record_from_bytes (lit "012A " ++ [31] ++ lit "aX" ++ [31] ++ lit "b1" ++ [31] ++ lit "b2" ++ [30] ++ lit "012A " ++ [31] ++ lit "aX" ++ [31] ++ lit "b3" ++ [30; 10])) (fun r4 =>
   with_new (query_new qO) s (lit "012A{ a, b }") (fun m5 s =>
   option_eqb (list_eqb (list_eqb bytes_eqb)) (record_query qO qT (mkQueryOptions false (lit "|") false true) m5 r4) (Some [[(lit "X|X|X"); (lit "1|2|3")]]) && true)))))) = true.
Proof. vm_compute. reflexivity. Qed.

(** /repo/src/query.rs:691-721 *)
Example query_test_query_format :
  (let s := fresh in
   with_some (record_from_bytes ada) (fun r1 =>
   with_new (query_new qO) s (lit "003@{ 'https://d-nb.info/gnd/' 0 }") (fun m2 s =>
   option_eqb (list_eqb (list_eqb bytes_eqb)) (record_query qO qT (mkQueryOptions false (lit "|") false false) m2 r1) (Some [[(lit "https://d-nb.info/gnd/119232022")]]) &&
   with_new (query_new qO) s (lit "003@{'https://d-nb.info/gnd/' 0}, 028A{a <$> ', ' d}") (fun m3 s =>
   option_eqb (list_eqb (list_eqb bytes_eqb)) (record_query qO qT (mkQueryOptions false (lit "|") false false) m3 r1) (Some [[(lit "https://d-nb.info/gnd/119232022"); (lit "Lovelace, Ada King")]]) &&
   with_new (query_new qO) s (lit "003@.0, 029A{?u a}") (fun m4 s =>
   option_eqb (list_eqb (list_eqb bytes_eqb)) (record_query qO qT (mkQueryOptions false (lit "|") false false) m4 r1) (Some [[(lit "119232022"); []]]) && true))))) = true.
Proof. vm_compute. reflexivity. Qed.

(** /repo/src/fmt/mod.rs:40-46 *)
Example format_doc_40 :
  (let s := fresh in
   with_new (format_new qO) s (lit "028[A@]{ a }") (fun m1 s => true)) = true.
Proof. vm_compute. reflexivity. Qed.

(** /repo/src/fmt/mod.rs:362-369 *)
Example format_doc_362 :
  (let s := fresh in
   with_new (format_new qO) s (lit "028@{ a <$> d }") (fun m1 s =>
   bytes_eqb (format_display m1) (lit "028@{ a <$> d }") && true)) = true.
Proof. vm_compute. reflexivity. Qed.

(** /repo/src/fmt/mod.rs:444-456 *)
Example format_doc_444 :
  (let s := fresh in
   with_some (record_from_bytes (lit "021A " ++ [31] ++ lit "afoo" ++ [31] ++ lit "dbar" ++ [30; 10])) (fun r1 =>
   andb (record_validate r1) (
   with_new (format_new qO) s (lit "021A{ a <$> ' ' d }") (fun m2 s =>
   option_eqb (list_eqb bytes_eqb) (record_format qO qT false false m2 r1) (Some [(lit "foo bar")]) && true)))) = true.
Proof. vm_compute. reflexivity. Qed.

(** /repo/src/fmt/mod.rs:491-499 *)
Example format_test_format_serde :
  (let s := fresh in
   with_new (format_new qO) s (lit "028@{ a <$> d }") (fun m1 s =>
   bytes_eqb (format_display m1) (lit "028@{ a <$> d }") && true)) = true.
Proof. vm_compute. reflexivity. Qed.

(** /repo/src/fmt/mod.rs:502-519 *)
Example format_test_format_value :
  (let s := fresh in
   with_some (record_from_bytes ada) (fun r1 =>
   with_new (format_new qO) s (lit "028A{ a }") (fun m2 s =>
   option_eqb (list_eqb bytes_eqb) (record_format qO qT false false m2 r1) (Some [(lit "Lovelace")]) &&
   with_new (format_new qO) s (lit "028A{ ?t *..2 ' ' }") (fun m3 s =>
   option_eqb (list_eqb bytes_eqb) (record_format qO qT false false m3 r1) (Some [(lit "Ada King of")]) && true)))) = true.
Proof. vm_compute. reflexivity. Qed.

(** /repo/src/fmt/mod.rs:522-554 *)
Example format_test_format_list :
  (let s := fresh in
   with_some (record_from_bytes ada) (fun r1 =>
   with_new (format_new qO) s (lit "028A{ d ' ' <$> a }") (fun m2 s =>
   option_eqb (list_eqb bytes_eqb) (record_format qO qT false false m2 r1) (Some [(lit "Ada King Lovelace")]) &&
   with_new (format_new qO) s (lit "028A{ x  <$> ' ' a }") (fun m3 s =>
   (option_eqb (list_eqb bytes_eqb) (record_format qO qT false false m3 r1) (Some [])) &&
   with_new (format_new qO) s (lit "028A{ d ' ' <*> a }") (fun m4 s =>
   option_eqb (list_eqb bytes_eqb) (record_format qO qT false false m4 r1) (Some [(lit "Ada King Lovelace")]) &&
   with_new (format_new qO) s (lit "028A{ x <*> ' 'a }") (fun m5 s =>
   option_eqb (list_eqb bytes_eqb) (record_format qO qT false false m5 r1) (Some [(lit " Lovelace")]) &&
   with_new (format_new qO) s (lit "028A{ d ' ' <$> c ' ' <*> a }") (fun m6 s =>
   option_eqb (list_eqb bytes_eqb) (record_format qO qT false false m6 r1) (Some [(lit "Ada King of Lovelace")]) && true))))))) = true.
Proof. vm_compute. reflexivity. Qed.

(** /repo/src/fmt/mod.rs:557-576 *)
Example format_test_format_group :
  (let s := fresh in
   with_some (record_from_bytes ada) (fun r1 =>
   with_new (format_new qO) s (lit "028A{ a <$> ( ', ' d <*> ' (' c ')' ) }") (fun m2 s =>
   option_eqb (list_eqb bytes_eqb) (record_format qO qT false false m2 r1) (Some [(lit "Lovelace, Ada King (of)")]) &&
   with_new (format_new qO) s (lit "028A{ (a <$> ( ', ' d <*> ' (' c ')' )) }") (fun m3 s =>
   option_eqb (list_eqb bytes_eqb) (record_format qO qT false false m3 r1) (Some [(lit "Lovelace, Ada King (of)")]) && true)))) = true.
Proof. vm_compute. reflexivity. Qed.

(** /repo/src/path.rs:66-73 ([parse] is [Path::new]) *)
Example path_doc_66 :
  with_new (path_new qO) fresh (lit "041A/*{ (9, a) | 9? }") (fun _ s =>
  with_new (path_new qO) s (lit "003@.0") (fun _ _ => true)) = true.
Proof. vm_compute. reflexivity. Qed.

(** /repo/src/path.rs:384-399 *)
Example path_test_parse_path_simple :
  parse_all parse_path_simple (lit "003@.0")
  = do t <- tag_matcher_new (lit "003@"); Some (mkPath t OMNone None [lit "0"] (lit "003@.0")).
Proof. vm_compute. reflexivity. Qed.

(** /repo/src/path.rs:402-422 *)
Example path_test_parse_path_curly :
  fst (sparse_all (parse_path_curly qO) fresh (lit "045E{ (e, f) | E == 'm' }"))
  = match tag_matcher_new (lit "045E"), subfield_matcher_new qO fresh (lit "E == 'm'") with
    | Some t, (Some (Some m), _) =>
        Some (Some (mkPath t OMNone (Some m) [lit "e"; lit "f"] (lit "045E{ (e, f) | E == 'm' }")))
    | _, _ => None
    end.
Proof. vm_compute. reflexivity. Qed.

(** /repo/src/path.rs:438-441, the construction fails *)
Example path_test_path_new_panic : fst (path_new qO fresh (lit "003@.!")) = Some None.
Proof. vm_compute. reflexivity. Qed.

(** /repo/src/fmt/parser.rs:213-277 *)
Example fmt_test_parse_modifier :
  map (parse_all parse_modifier)
    [lit "?o"; lit "?l"; lit "?u"; lit "?w"; lit "?t"; lit "?luwto"; lit "?luwtoluwto"]
  = map (fun m => Some (Some m))
    [mkModifier false false false false true; mkModifier true false false false false;
     mkModifier false true false false false; mkModifier false false true false false;
     mkModifier false false false true false; mkModifier true true true true true;
     mkModifier true true true true true].
Proof. vm_compute. reflexivity. Qed.

(** /repo/src/fmt/parser.rs:280-347 *)
Example fmt_test_parse_value :
  map (parse_all parse_value)
    [lit "a"; lit "a..2"; lit "a.."; lit "a..2 'def'"; lit "'abc' a..2 'def'"]
  = map Some
    [FValue (lit "a") None None 1 no_modifier; FValue (lit "a") None None 2 no_modifier;
     FValue (lit "a") None None usize_max no_modifier; FValue (lit "a") None (Some (lit "def")) 2 no_modifier;
     FValue (lit "a") (Some (lit "abc")) (Some (lit "def")) 2 no_modifier].
Proof. vm_compute. reflexivity. Qed.

(** a value of one code and nothing else *)
Definition code_value (c : string) : fragments := FValue (lit c) None None 1 no_modifier.

(** /repo/src/fmt/parser.rs:350-369 *)
Example fmt_test_parse_group :
  fst (sparse_all (fmt_group 64) fresh (lit "(a)"))
  = Some (Some (FGroup (code_value "a") usize_max no_modifier)).
Proof. vm_compute. reflexivity. Qed.

(** /repo/src/fmt/parser.rs:372-472 *)
Example fmt_test_parse_list_cons :
  map (fun i => fst (sparse_all (fmt_list_cons (fmt_group 64)) fresh i))
    [lit "a <*> b"; lit "a <*> b <*> c"; lit "a <*> (b <*> c)"]
  = map (fun l => Some (Some (FCons l)))
    [[code_value "a"; code_value "b"];
     [code_value "a"; code_value "b"; code_value "c"];
     [code_value "a"; FGroup (FCons [code_value "b"; code_value "c"]) usize_max no_modifier]].
Proof. vm_compute. reflexivity. Qed.

(** /repo/src/fmt/parser.rs:475-542 *)
Example fmt_test_parse_list_and_then :
  map (fun i => fst (sparse_all (fmt_and_then (fmt_group 64)) fresh i))
    [lit "a <$> b"; lit "a <$> (b <*> c)"]
  = map (fun l => Some (Some (FAndThen l)))
    [[code_value "a"; code_value "b"];
     [code_value "a"; FGroup (FCons [code_value "b"; code_value "c"]) usize_max no_modifier]].
Proof. vm_compute. reflexivity. Qed.

(** /repo/src/fmt/parser.rs:545-561 *)
Example fmt_test_parse_format :
  in_thread (parse_format qO) fmt_raw (fun _ => true)
    [lit "028[A@]{[aP] <$> (', ' d <*> ' ' c) | !U? || U == 'Latn'}";
     lit "042A{'https://d-nb.info/standards/vocab/gnd/gnd-sc#' a }";
     lit "006Y{(?w 'https://isni.org/isni/' 0) | S == 'isni' }";
     lit "029A{a <$> (' (' g ')' <*> ' / ' [xb] <*> ', ' n)..1}";
     lit "029A{a <$> (' (' g ')' <*> ' / ' [xb] <*> ', ' n)..2}";
     lit "029A{a <$> (' (' g ')' <*> ' / ' [xb] <*> ', ' n)..3}";
     lit "029A{a <$> (' (' g ')' <*> ' / ' [xb] <*> ', ' n)..}";
     lit "029A{a <$> (' (' g ')' <*> ' / ' [xb] <*> ', ' n)}";
     lit "041A{ x.. <$> (a <*> b)..2 <$> (c <*> d).. | a? }"] [] = true.
Proof. vm_compute. reflexivity. Qed.

(** /repo/src/fmt/parser.rs:567-591 *)
Example fmt_test_invalid_byte_seq :
  in_thread (parse_format qO) fmt_raw (fun _ => true) []
    [[48; 50; 50; 88; 13; 13; 13; 13; 13; 10; 123] ++ repeat 40 97%nat;
     [48; 50; 50; 88; 13; 13; 13; 13; 13; 13; 10; 123; 13] ++ repeat 40 33%nat
     ++ [13; 13; 13; 88; 13; 13; 19; 13; 34; 10; 49; 50; 46; 48; 50; 50; 88; 13; 13; 10; 13; 13; 13;
         123; 13; 13; 34; 10; 9; 10; 13; 13; 13; 13; 13; 88]] = true.
Proof. vm_compute. reflexivity. Qed.

(** * Tests and documentation examples of tags, occurrences, subfields, fields,
    records and the small parsers

    Each [Example] replays the test functions and documentation examples it cites.
    The examples of [from_unchecked], [as_bytes], [len], [Index] and of the
    iterators over one element are left out: the model has a tag, an occurrence or
    a value as the list of its bytes. *)

From Coq Require Import String.
From Verif Require Import Bytes Winnow RecordModel TagOccModel Utf8Model StrParserModel StateParser
  MatcherModel MatcherParserModel OwnedModel ByteRecordModel ConfBase.

(** /repo/src/primitives/tag.rs:53-60, 95-102, 197-204, 216-223, 244-251, 260-267,
    321-328 *)
Example tag_new_examples :
  (tag_from_bytes (lit "003@"), otag_new (lit "003@")) = (Some (lit "003@"), Some (OTag (lit "003@"))).
Proof. vm_compute. reflexivity. Qed.

(** /repo/src/primitives/tag.rs:116-124 *)
Example tag_level_examples :
  map (fun t => do x <- tag_from_bytes t; tag_level x) [lit "003@"; lit "101@"; lit "203@"]
  = [Some LMain; Some LLocal; Some LCopy].
Proof. vm_compute. reflexivity. Qed.

(** /repo/src/primitives/tag.rs:138-150, 277-289, 301-309, 379-386 *)
Example tag_write_examples :
  (do t <- otag_new (lit "003@"); Some (write_otag t, show_otag t)) = Some (lit "003@", lit "003@")
  /\ (do t <- tag_from_bytes (lit "003@"); Some (tag_owned t)) = otag_new (lit "003@").
Proof. vm_compute. split; reflexivity. Qed.

(** /repo/src/primitives/tag.rs:339-347, 359-367 *)
Example tag_eq_examples :
  (do t <- otag_new (lit "003@"); do r <- tag_from_bytes (lit "003@");
   Some (tag_eq_owned r t, otag_eq_ref t r)) = Some (true, true).
Proof. vm_compute. reflexivity. Qed.

(** /repo/src/primitives/occurrence.rs:28-35, 72-79, 95-102, 136-143, 170-177,
    189-196, 206-213, 272-279 *)
Example occ_new_examples :
  map occ_from_bytes [lit "001"; lit "00"; lit "01"; lit "999"]
  = [Some (lit "001"); Some (lit "00"); Some (lit "01"); Some (lit "999")]
  /\ oocc_new (lit "001") = Some (OOcc (lit "001")).
Proof. vm_compute. split; reflexivity. Qed.

(** /repo/src/primitives/occurrence.rs:112-124, 223-234 *)
Example occ_write_examples :
  (do o <- occ_from_bytes (lit "01"); Some (write_occ o)) = Some (lit "/01")
  /\ (do o <- oocc_new (lit "01"); Some (write_oocc o)) = Some (lit "/01").
Proof. vm_compute. split; reflexivity. Qed.

(** /repo/src/primitives/occurrence.rs:252-260, 290-298 *)
Example occ_owned_examples :
  (do r <- occ_from_bytes (lit "001"); Some (occ_owned r)) = oocc_new (lit "001")
  /\ (do r <- occ_from_bytes (lit "999"); do o <- oocc_new (lit "999"); Some (occ_eq_owned r o)) = Some true.
Proof. vm_compute. split; reflexivity. Qed.

(** /repo/src/primitives/subfield.rs:33-40, 76-83, 103-131 *)
Example code_examples : code_new 97 = Some 97.
Proof. vm_compute. reflexivity. Qed.

(** /repo/src/primitives/subfield.rs:175-182, 226-233, 328-335, 396-424, 436-484 *)
Example value_examples :
  value_new (lit "abc") = Some (lit "abc") /\ value_from_bytes (lit "abc") = Some (lit "abc")
  /\ (do v <- ovalue_new (lit "abc"); do r <- value_new (lit "abc");
      Some (value_eq_owned r v, ovalue_eq_ref v r, ovalue_eq_ref v (lit "def"))) = Some (true, true, false)
  /\ (do r <- value_new (lit "abc"); Some (value_owned r)) = ovalue_new (lit "abc").
Proof. vm_compute. repeat split. Qed.

(** /repo/src/primitives/subfield.rs:513-521, 540-548, 563-570, 580-587, 679-723 *)
Example subfield_examples :
  [subfield_new 97 (lit "abc"); subfield_from_bytes (31 :: lit "0123456789X"); subfield_new 88 []]
  = [Some (mkSubfield 97 (lit "abc")); Some (mkSubfield 48 (lit "123456789X")); Some (mkSubfield 88 [])]
  /\ [osubfield_new 97 (lit "abc"); osubfield_new 88 []]
     = [Some (OSubfield 97 (OValue (lit "abc"))); Some (OSubfield 88 (OValue []))].
Proof. vm_compute. split; reflexivity. Qed.

(** /repo/src/primitives/subfield.rs:598-608 *)
Example subfield_validate_examples :
  map (fun s => match s with Some x => Some (subfield_validate x) | None => None end)
    [subfield_new 48 (lit "123456789X"); subfield_from_bytes [31; 48; 0; 159]]
  = [Some true; Some false].
Proof. vm_compute. reflexivity. Qed.

(** /repo/src/primitives/subfield.rs:622-637, 733-748, 761-791 *)
Example subfield_write_examples :
  (do s <- subfield_new 48 (lit "123456789X"); Some (write_subfield s)) = Some (31 :: lit "0123456789X")
  /\ (do s <- osubfield_new 48 (lit "123456789X"); Some (write_osubfield s)) = Some (31 :: lit "0123456789X")
  /\ (do s <- subfield_new 48 (lit "123456789X"); Some (subfield_owned s)) = osubfield_new 48 (lit "123456789X")
  /\ (do s <- subfield_new 48 (lit "123456789X"); do o <- osubfield_new 48 (lit "123456789X");
      Some (subfield_eq_owned s o)) = Some true.
Proof. vm_compute. repeat split. Qed.

(** /repo/src/primitives/field.rs:35-42, 77-85, 101-126, 136-144 *)
Example field_new_examples :
  field_new (lit "003@") None [(48, lit "123456789X")]
  = Some (mkField (lit "003@") None [mkSubfield 48 (lit "123456789X")])
  /\ field_from_bytes (lit "003@ " ++ [31] ++ lit "0123456789X" ++ [30])
     = Some (mkField (lit "003@") None [mkSubfield 48 (lit "123456789X")])
  /\ field_new (lit "003@") (Some (lit "01")) [(48, lit "123456789X")]
     = Some (mkField (lit "003@") (Some (lit "01")) [mkSubfield 48 (lit "123456789X")]).
Proof. vm_compute. repeat split. Qed.

(** /repo/src/primitives/field.rs:155-163, 176-189 *)
Example field_find_examples :
  (do f <- field_new (lit "003@") None [(48, lit "123456789X")];
   Some (field_contains f 97, field_contains f 48)) = Some (false, true)
  /\ (do f <- field_new (lit "012A") None [(97, lit "b"); (99, lit "d")];
      Some (field_find f (fun s => sf_code s =? 98), field_find f (fun s => sf_code s =? 97)))
     = Some (None, subfield_new 97 (lit "b")).
Proof. vm_compute. split; reflexivity. Qed.

(** /repo/src/primitives/field.rs:202-209, 220-230 *)
Example field_level_validate_examples :
  (do f <- field_from_bytes (lit "012A/01 " ++ [31] ++ lit "ab" ++ [31] ++ lit "cd" ++ [30]); tag_level (f_tag f))
  = Some LMain
  /\ (do f <- field_from_bytes (lit "003@ " ++ [31] ++ lit "0123" ++ [30]); Some (field_validate f)) = Some true
  /\ (do f <- field_from_bytes (lit "003@ " ++ [31; 48; 0; 159; 30]); Some (field_validate f)) = Some false.
Proof. vm_compute. repeat split. Qed.

(** /repo/src/primitives/field.rs:244-259, 322-328, 360-376 *)
Example field_write_examples :
  let b := lit "012A/01 " ++ [31] ++ lit "ab" ++ [31] ++ lit "cd" ++ [30] in
  (do f <- field_from_bytes b; Some (write_field f)) = Some b
  /\ (do f <- ofield_new (lit "012A") (Some (lit "01")) [(97, lit "b"); (99, lit "d")]; Some (write_ofield f))
     = Some b
  /\ is_some (ofield_new (lit "003@") None [(48, lit "123456789X")]) = true.
Proof. vm_compute. repeat split. Qed.

(** /repo/src/primitives/record.rs:29-40, 61-68, 84-92, 103-110, 121-135 *)
Example record_examples :
  (do r <- record_new [(lit "003@", None, [(48, lit "123456789X")]); (lit "002@", None, [(48, lit "Tp1")])];
   Some (length r)) = Some 2%nat
  /\ (do r <- record_from_bytes (lit "012A " ++ [31] ++ lit "0abc" ++ [30; 10]);
      do f <- field_from_bytes (lit "012A " ++ [31] ++ lit "0abc" ++ [30]);
      Some (length r, record_eqb r [f])) = Some (1%nat, true)
  /\ (do r <- record_from_bytes (lit "002@ " ++ [31] ++ lit "0Oaf" ++ [30; 10]); Some (record_is_empty r)) = Some false
  /\ (do r <- record_new [(lit "003@", None, [(48, lit "123456789X")]); (lit "002@", None, [(48, lit "Oaf")])];
      Some (length r, length (record_retain (fun f => bytes_eqb (f_tag f) (lit "003@")) r))) = Some (2%nat, 1%nat).
Proof. vm_compute. repeat split. Qed.

(** /repo/src/primitives/record.rs:146-153, 166-181, 206-222, 242-250 *)
Example record_write_examples :
  let b := lit "003@ " ++ [31] ++ lit "0a" ++ [30; 10] in
  (do r <- record_from_bytes b; Some (record_validate r, write_record r, write_orecord (record_owned r),
     record_eq_owned r (record_owned r))) = Some (true, b, b, true).
Proof. vm_compute. reflexivity. Qed.

(** /repo/src/record.rs:30-37, 51-66, 271-280, 324-332 *)
Example byte_record_examples :
  let b := lit "003@ " ++ [31] ++ lit "0a" ++ [30; 10] in
  (do r <- br_from_bytes b; Some (length (br_record r), br_write r)) = Some (1%nat, b)
  /\ (do r <- br_from_bytes (lit "012A " ++ [31] ++ lit "a123" ++ [30; 10]); do s <- sr_try_from r;
      Some (length (br_record s))) = Some 1%nat.
Proof. vm_compute. split; reflexivity. Qed.

(** /repo/src/record.rs:80-89, 101-117, 143-159 *)
Example byte_record_retain_keep_examples :
  (do r <- br_from_bytes (lit "003@ " ++ [31] ++ lit "0a" ++ [30] ++ lit "002@ " ++ [31] ++ lit "0Olfo" ++ [30; 10]);
   Some (length (br_record (br_retain (fun _ f => bytes_eqb (f_tag f) (lit "003@")) r)))) = Some 1%nat
  /\ (do r <- br_from_bytes (lit "003@ " ++ [31] ++ lit "0a" ++ [30] ++ lit "012A " ++ [31] ++ lit "aABC" ++ [30; 10]);
      do t <- tag_matcher_new (lit "012A"); do o <- occ_matcher_new (lit "/*");
      Some (length (br_record r), length (br_record (br_keep [(t, o)] r)), length (br_record (br_discard [(t, o)] r))))
     = Some (2%nat, 1%nat, 1%nat).
Proof. vm_compute. split; reflexivity. Qed.

(** /repo/src/record.rs:183-199 *)
Example byte_record_sha256_example :
  (do r <- br_from_bytes (lit "012A " ++ [31] ++ lit "a123" ++ [30; 10]);
   Some (firstn 3 (br_sha256 sha256 r))) = Some [149; 226; 102] (* 95e266 *).
Proof. vm_compute. reflexivity. Qed.

(** /repo/src/record.rs:242-256 *)
Example byte_record_eq_example :
  (do a <- br_from_bytes (lit "012A " ++ [31] ++ lit "a123" ++ [30; 10]);
   do r <- record_new [(lit "012A", None, [(97, lit "123")])];
   Some (br_eqb a (br_from_record r))) = Some true.
Proof. vm_compute. reflexivity. Qed.

(** /repo/src/primitives/parse.rs:105-116 *)
Example parse_subfield_code_test :
  forallb (fun c => option_eqb N.eqb (parse_all parse_subfield_code [c]) (if is_alnum c then Some c else None))
    (byte_range 0 255) = true.
Proof. vm_compute. reflexivity. Qed.

(** /repo/src/primitives/parse.rs:127-144 *)
Example parse_subfield_value_test :
  map parse_subfield_value [lit "abc"; [97; 30; 98; 99]; [97; 31; 98; 99]; []]
  = [Some (lit "abc", []); Some (lit "a", 30 :: lit "bc"); Some (lit "a", 31 :: lit "bc"); Some ([], [])].
Proof. vm_compute. reflexivity. Qed.

(** the codes of [SUBFIELD_CODES] *)
Definition all_codes : bytes := lit "0123456789abcdefghijklmnopqrstuvwxyzABCDEFGHIJKLMNOPQRSTUVWXYZ".

(** /repo/src/parser.rs:241-265, 268-294, 343-351 (298-340 are of the feature
    "compat") *)
Example parse_code_range_test :
  map (parse_all parse_code_range)
    [lit "a-b"; lit "a-c"; lit "a-z"; lit "0-9"; lit "A-Z"; lit "a-a"; lit "a-!"; lit "c-a"]
  = [Some (lit "ab"); Some (lit "abc"); Some (lit "abcdefghijklmnopqrstuvwxyz"); Some (lit "0123456789");
     Some (lit "ABCDEFGHIJKLMNOPQRSTUVWXYZ"); None; None; None].
Proof. vm_compute. reflexivity. Qed.
Example parse_code_list_test :
  map (parse_all parse_code_list) [lit "[ab]"; lit "[abc]"; lit "[a-z]"; lit "[0-9]"; lit "[A-Z]"; lit "[0a-cz]"]
  = [Some (lit "ab"); Some (lit "abc"); Some (lit "abcdefghijklmnopqrstuvwxyz"); Some (lit "0123456789");
     Some (lit "ABCDEFGHIJKLMNOPQRSTUVWXYZ"); Some (lit "0abcz")]
  /\ map (parse_all parse_code_range) [lit "[ab!]"; lit "[a-a]"; lit "[a-!]"; lit "[c-a]"] = [None; None; None; None].
Proof. vm_compute. split; reflexivity. Qed.
Example parse_code_all_test : parse_all parse_code_all (lit "*") = Some all_codes.
Proof. vm_compute. reflexivity. Qed.

(** /repo/src/parser.rs:354-377, 380-402 *)
Example parse_string_single_quoted_test :
  map (parse_all (parse_quoted_string 39))
    [lit "'abc'"; lit "'a\nbc'"; lit "'a\rbc'"; lit "'a\tbc'"; lit "'a\bbc'"; lit "'a\fbc'"; lit "'a\\c'";
     lit "'a\'c'"; lit "'a""c'"; lit "'a\/bc'"; lit "'a\ bc'"]
  = map Some [lit "abc"; lit "a" ++ 10 :: lit "bc"; lit "a" ++ 13 :: lit "bc"; lit "a" ++ 9 :: lit "bc";
     lit "a" ++ 8 :: lit "bc"; lit "a" ++ 12 :: lit "bc"; lit "a\c"; lit "a'c"; lit "a""c"; lit "a/bc"; lit "abc"].
Proof. vm_compute. reflexivity. Qed.
Example parse_string_double_quoted_test :
  map (parse_all (parse_quoted_string 34))
    [lit """abc"""; lit """a\nbc"""; lit """a\rbc"""; lit """a\tbc"""; lit """a\bbc"""; lit """a\fbc""";
     lit """a\\c"""; lit """a'c"""; lit """a\/bc"""; lit """a\ bc"""]
  = map Some [lit "abc"; lit "a" ++ 10 :: lit "bc"; lit "a" ++ 13 :: lit "bc"; lit "a" ++ 9 :: lit "bc";
     lit "a" ++ 8 :: lit "bc"; lit "a" ++ 12 :: lit "bc"; lit "a\c"; lit "a'c"; lit "a/bc"; lit "abc"].
Proof. vm_compute. reflexivity. Qed.

(** /repo/src/parser.rs:409-420 *)
Example parse_string_invalid_test :
  parse_all parse_string ([39] ++ repeat 255 25%nat ++ [61; 92; 92; 4; 39]) = None.
Proof. vm_compute. reflexivity. Qed.

(** /repo/src/matcher/tag.rs:32-40, 53-62, 81-91, 197-205 *)
Example tag_matcher_examples :
  forallb (fun t => is_some (tag_matcher_new t)) [lit "041[A@]"; lit "003@"; lit "00.@"] = true
  /\ (do m <- tag_matcher_new (lit "00[3-5]@"); Some (tm_is_match m (lit "002@"), tm_is_match m (lit "003@")))
     = Some (false, true)
  /\ map (fun t => do m <- tag_matcher_new t; Some (tm_display m)) [lit "00[3-5]@"; lit "003@"; lit ".0[2-3][A@]"]
     = [Some (lit "00[3-5]@"); Some (lit "003@"); Some (lit ".0[2-3][A@]")].
Proof. vm_compute. repeat split. Qed.

(** /repo/src/matcher/tag.rs:208-243 *)
Example parse_tag_matcher_test :
  map (parse_all parse_tag_matcher) [lit "003@"; lit "002@"; lit ".0[2-4]@"; lit "00[23]@"]
  = [Some (TMTag (lit "003@")); Some (TMTag (lit "002@"));
     Some (TMPattern (lit "012") (lit "0") (lit "234") (lit "@") (lit ".0[2-4]@"));
     Some (TMPattern (lit "0") (lit "0") (lit "23") (lit "@") (lit "00[23]@"))].
Proof. vm_compute. reflexivity. Qed.

(** /repo/src/matcher/occurrence.rs:31-40, 56-68, 90-97 *)
Example occ_matcher_examples :
  forallb (fun t => is_some (occ_matcher_new t)) [lit "/01"; lit "/01-09"; lit "/001"; lit "/*"] = true
  /\ (do m <- occ_matcher_new (lit "/01-03");
      Some (om_is_match m (Some (lit "02")), om_is_match m (Some (lit "04")), om_display m))
     = Some (true, false, lit "/01-03")
  /\ (do m <- occ_matcher_new (lit "/*"); Some (om_is_match m None)) = Some true.
Proof. vm_compute. repeat split. Qed.

(** /repo/src/matcher/occurrence.rs:164-211 *)
Example parse_occ_matcher_test :
  map (fun i => do m <- parse_all parse_occ_matcher i; Some (om_display m, m))
    [[]; lit "/*"; lit "/01"; lit "/999"; lit "/01-99"]
  = [Some ([], OMNone); Some (lit "/*", OMAny); Some (lit "/01", OMExact (lit "01"));
     Some (lit "/999", OMExact (lit "999")); Some (lit "/01-99", OMRange (lit "01") (lit "99"))]
  /\ parse_all parse_occ_matcher (lit "/00") = Some OMNone.
Proof. vm_compute. split; reflexivity. Qed.

(** /repo/src/matcher/operator.rs:28-45, 63-80, 186-211 *)
Example operator_tests :
  map is_usize_applicable
    [OpEq; OpNe; OpGe; OpGt; OpLe; OpLt; OpEndsNotWith; OpEndsWith; OpSimilar; OpStartsNotWith; OpStartsWith]
  = [true; true; true; true; true; true; false; false; false; false; false]
  /\ map is_str_applicable
    [OpEq; OpNe; OpEndsNotWith; OpEndsWith; OpSimilar; OpStartsNotWith; OpStartsWith; OpGe; OpGt; OpLe; OpLt]
  = [true; true; true; true; true; true; true; false; false; false; false]
  /\ map (parse_all parse_rel_op)
    [lit "=="; lit "!="; lit ">="; lit ">"; lit "<="; lit "<"; lit "=^"; lit "!^"; lit "=$"; lit "!$"; lit "=*"]
  = map Some [OpEq; OpNe; OpGe; OpGt; OpLe; OpLt; OpStartsWith; OpStartsNotWith; OpEndsWith; OpEndsNotWith; OpSimilar].
Proof. vm_compute. repeat split. Qed.

(** /repo/src/matcher/quantifier.rs:45-50 *)
Example quantifier_test : map (parse_all parse_quantifier) [lit "ALL"; lit "ANY"] = [Some QAll; Some QAny].
Proof. vm_compute. reflexivity. Qed.

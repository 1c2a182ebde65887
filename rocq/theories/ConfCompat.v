(** * Tests of the feature "compat", run on the model

    The parts of the tests of /repo that are compiled with the feature only.  Tests of
    the model, not proofs of properties. *)

From Coq Require Import String.
From Verif Require Import Bytes Winnow RecordModel TagOccModel StrParserModel StateParser MatcherModel
  MatcherParserModel PathModel QueryModel CompatModel ConfBase ConfData ConfQuery.
From Verif Require FmtModel.

(** /repo/src/parser.rs:296-316 test_parse_subfield_code_list_compat and 318-344
    test_parse_subfield_code_compat *)
Example parser_codes_compat :
  map (fun t => parse_codes_compat (lit t)) ["a"; "ab"; "abc"; "aabc"]%string
  = map (fun t => Some (lit t, [])) ["a"; "ab"; "abc"; "aabc"]%string.
Proof. vm_compute. reflexivity. Qed.

(** /repo/src/matcher/field/parser.rs:443-457 test_parse_subfields_matcher *)
Example field_subfields_compat :
  match c_parse_f_singleton qO fresh (lit "003@$0 == '0123456789X'"),
        subfield_matcher_new qO fresh (lit "0 == '0123456789X'"),
        parse_all parse_tag_matcher (lit "003@") with
  | (POk m [], _), (Some (Some sm), _), Some t => m = FSubfields QAny t OMNone sm (lit "003@$0 == '0123456789X'")
  | _, _, _ => False
  end.
Proof. vm_compute. reflexivity. Qed.

(** /repo/src/matcher/field/parser.rs:564-581 test_parse_field_exists_matcher *)
Example field_exists_compat :
  match c_f_exists (lit "003@$0?"), parse_all parse_exists (lit "0?"), parse_all parse_tag_matcher (lit "003@") with
  | Some (m, []), Some sm, Some t =>
      m = FMSingleton (FSubfields QAny t OMNone (SMSingleton sm) (lit "003@$0?"))
  | _, _, _ => False
  end.
Proof. vm_compute. reflexivity. Qed.

(** /repo/crates/pica-cli/tests/select/mod.rs:926-967 select_compat: the rows of the
    queries *)
Definition compat_rows (q rec : bytes) : option (list (list bytes)) :=
  match record_from_bytes rec, c_query_new qO fresh q with
  | Some r, (Some (Some m), _) => record_query qO qT (mkQueryOptions false (lit "|") false false) m r
  | _, _ => None
  end.

Example select_compat :
  (compat_rows (lit "003@ $0,002@$0") algebra, compat_rows (lit "003@ $0,002@$0") ada,
   compat_rows (lit "003@$0,028@{ $d, $a | $4 == 'nafr'}") ada,
   compat_rows (lit "003@$0,028@{ ($d, $a) | $4 == 'nafr'}") ada)
  = (Some [[lit "040011569"; lit "Ts1"]], Some [[lit "119232022"; lit "Tp1"]],
     Some [[lit "119232022"; lit "Ada Augusta"; lit "Byron"]],
     Some [[lit "119232022"; lit "Ada Augusta"; lit "Byron"]]).
Proof. vm_compute. reflexivity. Qed.

(** * The expression parsers with the cargo feature "compat"

    The feature (/repo/Cargo.toml:25, /repo/crates/pica-cli/Cargo.toml:14; off by
    default) admits a dollar sign where the expression languages have a dot, and in
    front of the codes of some matchers.  The definitions below are those of
    [StrParserModel], [MatcherParserModel], [PathModel], [FmtModel] and [QueryModel]
    with the alternatives marked [#[cfg(feature = "compat")]]; parsers that the
    feature does not reach are used as they are. *)

From Coq Require Import String.
From Verif Require Import Bytes Winnow RecordModel TagOccModel Utf8Model StrParserModel
  MatcherModel StateParser MatcherParserModel PathModel QueryModel.
From Verif Require FmtModel.
Import FmtModel.

(** /repo/src/parser.rs:83-101 parse_subfield_code_list_compat and
    parse_subfield_codes_compat *)
Definition parse_codes_compat : parser bytes :=
  alt (pmap (@concat byte) (repeat1 (pmap (fun c => [c]) parse_subfield_code))) parse_code_all.

(** [preceded(ws('$'), ws(parse_subfield_codes_compat))], /repo/src/path.rs:86-89,
    113-116, /repo/src/matcher/subfield/parser.rs:48-51, 83-86 *)
Definition dollar_codes : parser bytes := preceded (ws (ch 36)) (ws parse_codes_compat).

(** /repo/src/matcher/subfield/parser.rs:39-71 parse_relation_matcher *)
Definition c_relation : parser singleton := fun i =>
  do (q, r1) <- opt (ws (terminated parse_quantifier multispace1)) i;
  do (codes, r2) <- alt (ws parse_codes) dollar_codes r1;
  do (op, r3) <- pverify is_str_applicable (ws parse_rel_op) r2;
  do (v, r4) <- ws parse_string r3;
  Some (SRelation (quant_default q) codes op v (trim (taken i r4)), r4).

(** /repo/src/matcher/subfield/parser.rs:74-117 parse_contains_matcher *)
Definition c_contains : parser singleton := fun i =>
  do (q, r1) <- opt (ws parse_quantifier) i;
  do (codes, r2) <- alt (ws parse_codes) dollar_codes r1;
  do (_, r3) <- ws (tok (lit "=?")) r2;
  do (vs, r4) <- alt (parse_list_of parse_string) (pmap (fun v => [v]) (ws parse_string)) r3;
  Some (SContains (quant_default q) codes vs (taken i r4), r4).

Section Compat.
  Variable O : oracles.

  (** /repo/src/matcher/subfield/parser.rs:259-272 parse_singleton_matcher *)
  Definition c_singleton : parser singleton :=
    alt c_relation
    (alt c_contains
    (alt parse_in
    (alt parse_exists
    (alt parse_card
    (alt (parse_regex_set O) (parse_regex O)))))).

  (** /repo/src/matcher/subfield/parser.rs:275-281 parse_subfield_singleton_matcher *)
  Definition c_sub_singleton : sparser subfield_matcher :=
    slift (pmap SMSingleton c_singleton).

  Section SubKnot.
    (** the group and not parsers of the next recursion depth *)
    Variable grp nt : sparser subfield_matcher.

    (** /repo/src/matcher/subfield/parser.rs:394-411 parse_subfield_and_matcher *)
    Definition c_sub_and : sparser subfield_matcher :=
      let atom := sws (salt grp (salt c_sub_singleton nt)) in
      smap (fold_ops sm_and) (s_operands atom (slift (tok (lit "&&")))).

    (** /repo/src/matcher/subfield/parser.rs:374-392 parse_subfield_xor_matcher *)
    Definition c_sub_xor : sparser subfield_matcher :=
      let atom := sws (salt c_sub_and (salt grp (salt c_sub_singleton nt))) in
      smap (fold_ops sm_xor)
        (s_operands atom (slift (alt (tok (lit "^")) (tok (lit "XOR"))))).

    (** /repo/src/matcher/subfield/parser.rs:353-372 parse_subfield_or_matcher *)
    Definition c_sub_or : sparser subfield_matcher :=
      let atom := sws (salt c_sub_and (salt c_sub_xor (salt grp (salt c_sub_singleton nt)))) in
      smap (fold_ops sm_or) (s_operands atom (slift (tok (lit "||")))).

    (** /repo/src/matcher/subfield/parser.rs:413-423 parse_subfield_composite_matcher *)
    Definition c_sub_composite : sparser subfield_matcher :=
      salt c_sub_or (salt c_sub_xor c_sub_and).

    (** /repo/src/matcher/subfield/parser.rs:310-325 parse_subfield_group_matcher, as
        [sub_group_body] *)
    Definition c_sub_group_body : sparser subfield_matcher :=
      smap SMGroup
        (sdelim (sbind (slift (ws (ch 40))) (fun _ => sub_inc))
           (salt c_sub_composite (salt c_sub_singleton (salt nt grp)))
           (slift (ws (ch 41)))).
  End SubKnot.

  (** the group and not parsers with [n] levels of recursion; the parser of negations
      (parser.rs:338-351) is [sub_not_body]: parse_exists_matcher has no alternative of
      the feature *)
  Fixpoint c_sub_gn (n : nat) : sparser subfield_matcher * sparser subfield_matcher :=
    match n with
    | 0%nat => (sfuel, sfuel)
    | S n' => let '(g, t) := c_sub_gn n' in (c_sub_group_body g t, sub_not_body g t)
    end.

  (** /repo/src/matcher/subfield/parser.rs:425-439 parse_subfield_matcher *)
  Definition c_parse_subfield_matcher : sparser subfield_matcher := fun s i =>
    let '(g, t) := c_sub_gn (S (length i)) in
    match salt (c_sub_composite g t) (salt c_sub_singleton (salt g t)) s i with
    | (POk m r, s') => (POk m r, sub_reset s')
    | x => x
    end.

  (** /repo/src/matcher/subfield/mod.rs:1059-1067 SubfieldMatcher::new *)
  Definition c_subfield_matcher_new
    : levels -> bytes -> option (option subfield_matcher) * levels :=
    sparse_all c_parse_subfield_matcher.

  (** /repo/src/matcher/field/parser.rs:37-59 parse_subfields_matcher_dot *)
  Definition c_f_dot : parser field_singleton := fun i =>
    do (q, r1) <- opt (ws parse_quantifier) i;
    do (t, r2) <- parse_tag_matcher r1;
    do (o, r3) <- parse_occ_matcher r2;
    do (_, r4) <- ch 46 r3;
    do (m, r5) <- c_singleton r4;
    Some (FSubfields (quant_default q) t o (SMSingleton m) (trim_end (taken i r5)), r5).

  (** /repo/src/matcher/field/parser.rs:61-84 parse_subfields_matcher_dollar *)
  Definition c_f_dollar : parser field_singleton := fun i =>
    do (q, r1) <- opt (ws parse_quantifier) i;
    do (t, r2) <- parse_tag_matcher r1;
    do (o, r3) <- parse_occ_matcher r2;
    do (_, r4) <- ch 36 r3;
    do (m, r5) <- c_singleton r4;
    Some (FSubfields (quant_default q) t o (SMSingleton m) (trim_end (taken i r5)), r5).

  (** [delimited(ws('{'), parse_subfield_matcher, ws('}'))] *)
  Definition c_braced : sparser subfield_matcher :=
    sdelim (slift (ws (ch 123))) c_parse_subfield_matcher (slift (ws (ch 125))).

  (** /repo/src/matcher/field/parser.rs:86-107 parse_subfields_matcher_bracket *)
  Definition c_f_bracket : sparser field_singleton :=
    staken (fun x raw => let '(q, t, o, m) := x in FSubfields (quant_default q) t o m raw)
      (sbind (slift (opt (ws parse_quantifier))) (fun q =>
       sbind (slift parse_tag_matcher) (fun t =>
       sbind (slift parse_occ_matcher) (fun o =>
       smap (fun m => (q, t, o, m)) c_braced)))).

  (** /repo/src/matcher/field/parser.rs:111-121 parse_subfields_matcher and
      125-133 parse_singleton_matcher *)
  Definition c_parse_f_singleton : sparser field_singleton :=
    salt (slift parse_f_exists) (salt (slift c_f_dot) (salt c_f_bracket (slift c_f_dollar))).

  (** /repo/src/matcher/field/parser.rs:136-165 parse_cardinality_matcher *)
  Definition c_f_card : sparser field_matcher :=
    staken (fun x raw => let '(t, o, m, op, v) := x in FMCard t o m op v raw)
      (spreceded (slift (ws (ch 35)))
        (sbind (slift (ws parse_tag_matcher)) (fun t =>
         sbind (slift (ws parse_occ_matcher)) (fun o =>
         sbind (sopt c_braced) (fun m =>
         sbind (slift (pverify is_usize_applicable (ws parse_rel_op))) (fun op =>
         smap (fun v => (t, o, m, op, v)) (slift parse_usize))))))).

  (** /repo/src/matcher/field/parser.rs:168-174 parse_field_singleton_matcher *)
  Definition c_f_singleton : sparser field_matcher := smap FMSingleton c_parse_f_singleton.

  (** /repo/src/matcher/field/parser.rs:186-228 parse_field_exists_matcher *)
  Definition c_f_exists : parser field_matcher :=
    alt (pmap FMSingleton parse_f_exists)
        (fun i =>
           do (q, r1) <- opt parse_quantifier i;
           do (t, r2) <- parse_tag_matcher r1;
           do (o, r3) <- parse_occ_matcher r2;
           do (m, r5) <- alt (preceded (ws (ch 46)) parse_exists)
                             (preceded (ws (ch 36)) parse_exists) r3;
           Some (FMSingleton (FSubfields (quant_default q) t o (SMSingleton m) (taken i r5)), r5)).

  Section FieldKnot.
    (** the group and not parsers of the next recursion depth *)
    Variable grp nt : sparser field_matcher.

    (** the common tail of the atoms, field/parser.rs:295-303, 316-323, 336-342 *)
    Definition c_f_atoms : sparser field_matcher :=
      salt grp (salt c_f_card (salt c_f_singleton (salt nt (slift c_f_exists)))).

    (** /repo/src/matcher/field/parser.rs:333-350 parse_field_and_matcher *)
    Definition c_f_and : sparser field_matcher :=
      smap (fold_ops fm_and) (s_operands (sws c_f_atoms) (slift (ws (tok (lit "&&"))))).

    (** /repo/src/matcher/field/parser.rs:313-331 parse_field_xor_matcher *)
    Definition c_f_xor : sparser field_matcher :=
      smap (fold_ops fm_xor)
        (s_operands (sws (salt c_f_and c_f_atoms)) (slift (alt (tok (lit "^")) (tok (lit "XOR"))))).

    (** /repo/src/matcher/field/parser.rs:292-311 parse_field_or_matcher *)
    Definition c_f_or : sparser field_matcher :=
      smap (fold_ops fm_or)
        (s_operands (sws (salt c_f_and (salt c_f_xor c_f_atoms))) (slift (ws (tok (lit "||"))))).

    (** /repo/src/matcher/field/parser.rs:352-362 parse_field_composite_matcher *)
    Definition c_f_composite : sparser field_matcher := salt c_f_or (salt c_f_xor c_f_and).

    (** /repo/src/matcher/field/parser.rs:256-273 parse_field_group_matcher *)
    Definition c_f_group_body : sparser field_matcher :=
      smap FMGroup
        (sdelim (sbind (slift (ws (ch 40))) (fun _ => field_inc))
           (salt c_f_composite (salt c_f_singleton (salt nt (salt c_f_card grp))))
           f_close).

    (** /repo/src/matcher/field/parser.rs:276-290 parse_field_not_matcher *)
    Definition c_f_not_body : sparser field_matcher :=
      smap FMNot
        (spreceded (slift (ws (ch 33)))
           (salt grp (salt (smap FMSingleton c_f_bracket) (salt (slift c_f_exists) nt)))).
  End FieldKnot.

  (** the group and not parsers with [n] levels of recursion *)
  Fixpoint c_field_gn (n : nat) : sparser field_matcher * sparser field_matcher :=
    match n with
    | 0%nat => (sfuel, sfuel)
    | S n' => let '(g, t) := c_field_gn n' in (c_f_group_body g t, c_f_not_body g t)
    end.

  (** /repo/src/matcher/field/parser.rs:365-380 parse_field_matcher *)
  Definition c_parse_field_matcher : sparser field_matcher := fun s i =>
    let '(g, t) := c_field_gn (S (length i)) in
    match sws (salt (c_f_composite g t) (salt g (salt t (salt c_f_singleton c_f_card)))) s i with
    | (POk m r, s') => (POk m r, field_reset s')
    | x => x
    end.

  (** /repo/src/matcher/field/mod.rs:432-438 FieldMatcher::new and
      /repo/src/matcher/record.rs:35-48 RecordMatcher::new *)
  Definition c_field_matcher_new : levels -> bytes -> option (option field_matcher) * levels :=
    sparse_all c_parse_field_matcher.

  (** /repo/src/path.rs:80-105 parse_path_simple *)
  Definition c_path_simple : parser path := fun i =>
    do (x, r) <- ws (fun i =>
      do (t, r1) <- parse_tag_matcher i;
      do (o, r2) <- parse_occ_matcher r1;
      do (c, r3) <- alt (preceded (ch 46) parse_codes) dollar_codes r2;
      Some ((t, o, c), r3)) i;
    let '(t, o, c) := x in Some (mkPath t o None [c] (taken i r), r).

  (** /repo/src/path.rs:107-119 parse_codes and 127-137 the code groups *)
  Definition c_path_codes : parser (list bytes) :=
    let codes := separated1 (alt parse_codes dollar_codes) (ws (ch 44)) in
    alt codes (delimited (ws (ch 40)) codes (ws (ch 41))).

  (** path.rs:138, /repo/src/fmt/parser.rs:26 *)
  Definition c_condition : sparser (option subfield_matcher) :=
    sopt (spreceded (slift (ws (ch 124))) c_parse_subfield_matcher).

  (** /repo/src/path.rs:121-153 parse_path_curly *)
  Definition c_path_curly : sparser path :=
    staken (fun x raw => let '(t, o, c, m) := x in mkPath t o m c raw)
      (sws (sbind (slift parse_tag_matcher) (fun t =>
            sbind (slift parse_occ_matcher) (fun o =>
            sdelim (slift (ws (ch 123)))
              (sbind (slift c_path_codes) (fun c =>
               smap (fun m => (t, o, c, m)) c_condition))
              (slift (ws (ch 125))))))).

  (** /repo/src/path.rs:155-158 parse_path *)
  Definition c_parse_path : sparser path := salt (slift c_path_simple) c_path_curly.

  (** /repo/src/path.rs:51-55 Path::new *)
  Definition c_path_new : levels -> bytes -> option (option path) * levels :=
    sparse_all c_parse_path.

  (** /repo/src/fmt/parser.rs:18-43 parse_format *)
  Definition c_parse_format : sparser format :=
    staken (fun x raw => let '(t, o, f, m) := x in mkFormat t o m (trim raw) f)
      (sbind (slift parse_tag_matcher) (fun t =>
       sbind (slift parse_occ_matcher) (fun o =>
       sdelim (slift (ws (ch 123)))
         (sbind parse_fragments (fun f =>
          smap (fun m => (t, o, f, m)) c_condition))
         (slift (ws (ch 125)))))).

  (** /repo/src/fmt/mod.rs:47-51 Format::new *)
  Definition c_format_new : levels -> bytes -> option (option format) * levels :=
    sparse_all c_parse_format.

  (** /repo/src/query.rs:214-222 parse_fragment *)
  Definition c_qfragment : sparser qfragment :=
    salt (smap QPath c_parse_path)
    (salt (slift (pmap QLiteral parse_string))
          (smap QFormat c_parse_format)).

  (** /repo/src/query.rs:55-66 parse_query *)
  Definition c_parse_query : sparser query :=
    staken (fun fs raw => mkQuery fs raw) (sseparated1 c_qfragment (ws (ch 44))).

  (** /repo/src/query.rs:44-52 Query::new *)
  Definition c_query_new : levels -> bytes -> option (option query) * levels :=
    sparse_all c_parse_query.
End Compat.

(** * Parsers of subfield and field matchers *)

From Coq Require Import String.
From Verif Require Import Bytes Winnow RecordModel TagOccModel Utf8Model StrParserModel
  MatcherModel StateParser.

(** /repo/src/matcher/quantifier.rs:33-38 parse_quantifier *)
Definition parse_quantifier : parser quantifier :=
  alt (pvalue QAll (tok (lit "ALL"))) (pvalue QAny (tok (lit "ANY"))).

(** /repo/src/matcher/operator.rs:133-154 parse_relational_operator *)
Definition parse_rel_op : parser rel_op :=
  alt (pvalue OpEq (tok (lit "==")))
  (alt (pvalue OpNe (tok (lit "!=")))
  (alt (pvalue OpStartsWith (tok (lit "=^")))
  (alt (pvalue OpStartsNotWith (tok (lit "!^")))
  (alt (pvalue OpEndsWith (tok (lit "=$")))
  (alt (pvalue OpEndsNotWith (tok (lit "!$")))
  (alt (pvalue OpSimilar (tok (lit "=*")))
  (alt (pvalue OpGe (tok (lit ">=")))
  (alt (pvalue OpGt (tok (lit ">")))
  (alt (pvalue OpLe (tok (lit "<=")))
       (pvalue OpLt (tok (lit "<")))))))))))).

(** [.map(Option::unwrap_or_default)] on a quantifier: the default is ANY *)
Definition quant_default (q : option quantifier) : quantifier :=
  match q with Some q' => q' | None => QAny end.

(** The UTF-8 [unwrap]s on consumed text in these parsers are total when the
    whole input is UTF-8 (it comes from a [&str]). *)

(** /repo/src/matcher/subfield/parser.rs:25-35 parse_exists_matcher *)
Definition parse_exists : parser singleton := fun i =>
  do (codes, r) <- terminated parse_codes (ch 63) i;
  Some (SExists codes (taken i r), r).

(** /repo/src/matcher/subfield/parser.rs:39-71 parse_relation_matcher *)
Definition parse_relation : parser singleton := fun i =>
  do (q, r1) <- opt (ws (terminated parse_quantifier multispace1)) i;
  do (codes, r2) <- ws parse_codes r1;
  do (op, r3) <- pverify is_str_applicable (ws parse_rel_op) r2;
  do (v, r4) <- ws parse_string r3;
  Some (SRelation (quant_default q) codes op v (trim (taken i r4)), r4).

(** the bracketed list of strings used at parser.rs:88-100, 153-169, 194-201 *)
Definition parse_list_of (p : parser bytes) : parser (list bytes) :=
  delimited (ws (ch 91)) (terminated (separated1 p (ws (ch 44))) (opt (ws (ch 44)))) (ws (ch 93)).

(** /repo/src/matcher/subfield/parser.rs:74-117 parse_contains_matcher *)
Definition parse_contains : parser singleton := fun i =>
  do (q, r1) <- opt (ws parse_quantifier) i;
  do (codes, r2) <- ws parse_codes r1;
  do (_, r3) <- ws (tok (lit "=?")) r2;
  do (vs, r4) <- alt (parse_list_of parse_string) (pmap (fun v => [v]) (ws parse_string)) r3;
  Some (SContains (quant_default q) codes vs (taken i r4), r4).

(** bstr's [chars] on UTF-8: the list of encoded characters.  Total: an
    ill-formed sequence (which [parse_string] excludes) is cut bytewise. *)
Fixpoint utf8_chars_fuel (n : nat) (b : bytes) : list bytes :=
  match n, b with
  | S n', x :: _ =>
      let w := if x <? 128 then 1%nat else if x <? 224 then 2%nat
               else if x <? 240 then 3%nat else 4%nat in
      firstn w b :: utf8_chars_fuel n' (skipn w b)
  | _, _ => []
  end.
Definition utf8_chars (b : bytes) : list bytes := utf8_chars_fuel (length b) b.

(** /repo/src/matcher/subfield/parser.rs:185-227 parse_in_matcher *)
Definition parse_in : parser singleton := fun i =>
  do (q, r1) <- opt (ws parse_quantifier) i;
  do (codes, r2) <- ws parse_codes r1;
  do (neg, r3) <- opt (ws (tok (lit "not"))) r2;
  do (_, r4) <- ws (tok (lit "in")) r3;
  do (vs, r5) <-
    alt (parse_list_of parse_string)
        (pverify_map (fun s => let cs := utf8_chars s in
           if Nat.ltb 1 (length cs) then Some cs else None) parse_string) r4;
  Some (SIn (quant_default q) codes vs (match neg with Some _ => true | None => false end)
          (taken i r5), r5).

(** /repo/src/matcher/subfield/parser.rs:230-256 parse_cardinality_matcher *)
Definition parse_card : parser singleton := fun i =>
  do (_, r1) <- ws (ch 35) i;
  do (codes, r2) <- ws parse_codes r1;
  do (op, r3) <- pverify is_usize_applicable (ws parse_rel_op) r2;
  do (v, r4) <- parse_usize r3;
  Some (SCard codes op v (taken i r4), r4).

(** the operator of the regex matchers ([=~] / [!~]), true for the latter *)
Definition parse_re_op : parser bool :=
  ws (alt (pvalue false (tok (lit "=~"))) (pvalue true (tok (lit "!~")))).

Section Parsers.
  Variable O : oracles.

  (** the string of a regular expression that compiles (parser.rs:127-129,
      160-164) *)
  Definition parse_regex_string : parser bytes := pverify (o_re_ok O false) parse_string.

  (** /repo/src/matcher/subfield/parser.rs:120-143 parse_regex_matcher *)
  Definition parse_regex : parser singleton := fun i =>
    do (q, r1) <- opt (ws parse_quantifier) i;
    do (codes, r2) <- ws parse_codes r1;
    do (invert, r3) <- parse_re_op r2;
    do (re, r4) <- parse_regex_string r3;
    Some (SRegex (quant_default q) codes re invert (taken i r4), r4).

  (** /repo/src/matcher/subfield/parser.rs:146-182 parse_regex_set_matcher *)
  Definition parse_regex_set : parser singleton := fun i =>
    do (q, r1) <- opt (ws parse_quantifier) i;
    do (codes, r2) <- ws parse_codes r1;
    do (invert, r3) <- parse_re_op r2;
    do (res, r4) <- parse_list_of parse_regex_string r3;
    Some (SRegexSet (quant_default q) codes res invert (taken i r4), r4).

  (** /repo/src/matcher/subfield/parser.rs:259-272 parse_singleton_matcher *)
  Definition parse_singleton : parser singleton :=
    alt parse_relation
    (alt parse_contains
    (alt parse_in
    (alt parse_exists
    (alt parse_card
    (alt parse_regex_set parse_regex))))).

  (** /repo/src/matcher/subfield/parser.rs:275-281 parse_subfield_singleton_matcher *)
  Definition sub_singleton : sparser subfield_matcher :=
    slift (pmap SMSingleton parse_singleton).

  (** /repo/src/matcher/subfield/parser.rs:292-301 group_level_inc *)
  Definition sub_inc : sparser unit := fun s i =>
    let n := lv_sub s + 1 in
    let s' := mkLevels n (lv_field s) (lv_fmt s) in
    if 256 <=? n then (PErr, s') else (POk tt i, s').

  (** /repo/src/matcher/subfield/parser.rs:288-290 group_level_reset *)
  Definition sub_reset (s : levels) : levels := mkLevels 0 (lv_field s) (lv_fmt s).

  (** folding of the operands of one operator, parser.rs:366-370, 387-391, 405-409 *)
  Definition fold_ops {A} (op : A -> A -> A) (ht : A * list A) : A :=
    fold_left op (snd ht) (fst ht).

  (** operands separated by an operator token *)
  Definition s_operands {A} (atom : sparser A) (tokp : sparser unit) : sparser (A * list A) :=
    sbind atom (fun h => smap (pair h) (srepeat1 (spreceded tokp atom))).

  Section SubKnot.
    (** the group and not parsers of the next recursion depth *)
    Variable grp nt : sparser subfield_matcher.

    (** /repo/src/matcher/subfield/parser.rs:394-411 parse_subfield_and_matcher *)
    Definition sub_and : sparser subfield_matcher :=
      let atom := sws (salt grp (salt sub_singleton nt)) in
      smap (fold_ops sm_and) (s_operands atom (slift (tok (lit "&&")))).

    (** /repo/src/matcher/subfield/parser.rs:374-392 parse_subfield_xor_matcher *)
    Definition sub_xor : sparser subfield_matcher :=
      let atom := sws (salt sub_and (salt grp (salt sub_singleton nt))) in
      smap (fold_ops sm_xor)
        (s_operands atom (slift (alt (tok (lit "^")) (tok (lit "XOR"))))).

    (** /repo/src/matcher/subfield/parser.rs:353-372 parse_subfield_or_matcher *)
    Definition sub_or : sparser subfield_matcher :=
      let atom := sws (salt sub_and (salt sub_xor (salt grp (salt sub_singleton nt)))) in
      smap (fold_ops sm_or) (s_operands atom (slift (tok (lit "||")))).

    (** /repo/src/matcher/subfield/parser.rs:413-423 parse_subfield_composite_matcher *)
    Definition sub_composite : sparser subfield_matcher := salt sub_or (salt sub_xor sub_and).

    (** /repo/src/matcher/subfield/parser.rs:310-325 parse_subfield_group_matcher.
        The closing parenthesis maps to the function [group_level_dec] without
        calling it, so the level is not decremented. *)
    Definition sub_group_body : sparser subfield_matcher :=
      smap SMGroup
        (sdelim (sbind (slift (ws (ch 40))) (fun _ => sub_inc))
           (salt sub_composite (salt sub_singleton (salt nt grp)))
           (slift (ws (ch 41)))).

    (** /repo/src/matcher/subfield/parser.rs:338-351 parse_subfield_not_matcher *)
    Definition sub_not_body : sparser subfield_matcher :=
      smap SMNot
        (spreceded (slift (ws (ch 33)))
           (salt grp (salt (slift (pmap SMSingleton parse_exists)) nt))).
  End SubKnot.

  (** the group and not parsers with [n] levels of recursion *)
  Fixpoint sub_gn (n : nat) : sparser subfield_matcher * sparser subfield_matcher :=
    match n with
    | 0%nat => (sfuel, sfuel)
    | S n' => let '(g, t) := sub_gn n' in (sub_group_body g t, sub_not_body g t)
    end.

  (** /repo/src/matcher/subfield/parser.rs:425-439 parse_subfield_matcher *)
  Definition parse_subfield_matcher : sparser subfield_matcher := fun s i =>
    let '(g, t) := sub_gn (S (length i)) in
    match salt (sub_composite g t) (salt sub_singleton (salt g t)) s i with
    | (POk m r, s') => (POk m r, sub_reset s')
    | x => x
    end.

  (** /repo/src/matcher/subfield/mod.rs:1059-1067 SubfieldMatcher::new *)
  Definition subfield_matcher_new : levels -> bytes -> option (option subfield_matcher) * levels :=
    sparse_all parse_subfield_matcher.

  (** /repo/src/matcher/field/parser.rs:26-35 parse_exists_matcher *)
  Definition parse_f_exists : parser field_singleton :=
    terminated
      (ws (fun i => do (t, r1) <- parse_tag_matcher i; do (o, r2) <- parse_occ_matcher r1;
                    Some (FExists t o, r2)))
      (ch 63).

  (** /repo/src/matcher/field/parser.rs:37-59 parse_subfields_matcher_dot *)
  Definition parse_f_dot : parser field_singleton := fun i =>
    do (q, r1) <- opt (ws parse_quantifier) i;
    do (t, r2) <- parse_tag_matcher r1;
    do (o, r3) <- parse_occ_matcher r2;
    do (_, r4) <- ch 46 r3;
    do (m, r5) <- parse_singleton r4;
    Some (FSubfields (quant_default q) t o (SMSingleton m) (trim_end (taken i r5)), r5).

  (** [delimited(ws('{'), parse_subfield_matcher, ws('}'))] *)
  Definition s_braced : sparser subfield_matcher :=
    sdelim (slift (ws (ch 123))) parse_subfield_matcher (slift (ws (ch 125))).

  (** /repo/src/matcher/field/parser.rs:86-107 parse_subfields_matcher_bracket *)
  Definition parse_f_bracket : sparser field_singleton :=
    staken (fun x raw => let '(q, t, o, m) := x in FSubfields (quant_default q) t o m raw)
      (sbind (slift (opt (ws parse_quantifier))) (fun q =>
       sbind (slift parse_tag_matcher) (fun t =>
       sbind (slift parse_occ_matcher) (fun o =>
       smap (fun m => (q, t, o, m)) s_braced)))).

  (** /repo/src/matcher/field/parser.rs:111-121 parse_subfields_matcher and
      125-133 parse_singleton_matcher *)
  Definition parse_f_singleton : sparser field_singleton :=
    salt (slift parse_f_exists) (salt (slift parse_f_dot) parse_f_bracket).

  (** /repo/src/matcher/field/parser.rs:136-165 parse_cardinality_matcher *)
  Definition parse_f_card : sparser field_matcher :=
    staken (fun x raw => let '(t, o, m, op, v) := x in FMCard t o m op v raw)
      (spreceded (slift (ws (ch 35)))
        (sbind (slift (ws parse_tag_matcher)) (fun t =>
         sbind (slift (ws parse_occ_matcher)) (fun o =>
         sbind (sopt s_braced) (fun m =>
         sbind (slift (pverify is_usize_applicable (ws parse_rel_op))) (fun op =>
         smap (fun v => (t, o, m, op, v)) (slift parse_usize))))))).

  (** /repo/src/matcher/field/parser.rs:168-174 parse_field_singleton_matcher *)
  Definition f_singleton : sparser field_matcher := smap FMSingleton parse_f_singleton.

  (** /repo/src/matcher/field/parser.rs:186-228 parse_field_exists_matcher *)
  Definition f_exists : parser field_matcher :=
    alt (pmap FMSingleton parse_f_exists)
        (fun i =>
           do (q, r1) <- opt parse_quantifier i;
           do (t, r2) <- parse_tag_matcher r1;
           do (o, r3) <- parse_occ_matcher r2;
           do (_, r4) <- ws (ch 46) r3;
           do (m, r5) <- parse_exists r4;
           Some (FMSingleton (FSubfields (quant_default q) t o (SMSingleton m) (taken i r5)), r5)).

  (** /repo/src/matcher/field/parser.rs:239-248 group_level_inc *)
  Definition field_inc : sparser unit := fun s i =>
    let n := lv_field s + 1 in
    let s' := mkLevels (lv_sub s) n (lv_fmt s) in
    if 256 <=? n then (PErr, s') else (POk tt i, s').
  (** /repo/src/matcher/field/parser.rs:250-254 group_level_dec; only called
      after an increment, so the truncated subtraction never truncates *)
  Definition field_dec (s : levels) : levels := mkLevels (lv_sub s) (lv_field s - 1) (lv_fmt s).
  (** /repo/src/matcher/field/parser.rs:235-237 group_level_reset *)
  Definition field_reset (s : levels) : levels := mkLevels (lv_sub s) 0 (lv_fmt s).

  Section FieldKnot.
    Variable grp nt : sparser field_matcher.

    (** the common tail of the atoms, field/parser.rs:295-303, 316-323, 336-342 *)
    Definition f_atoms : sparser field_matcher :=
      salt grp (salt parse_f_card (salt f_singleton (salt nt (slift f_exists)))).

    (** /repo/src/matcher/field/parser.rs:333-350 parse_field_and_matcher *)
    Definition f_and : sparser field_matcher :=
      smap (fold_ops fm_and) (s_operands (sws f_atoms) (slift (ws (tok (lit "&&"))))).

    (** /repo/src/matcher/field/parser.rs:313-331 parse_field_xor_matcher *)
    Definition f_xor : sparser field_matcher :=
      smap (fold_ops fm_xor)
        (s_operands (sws (salt f_and f_atoms)) (slift (alt (tok (lit "^")) (tok (lit "XOR"))))).

    (** /repo/src/matcher/field/parser.rs:292-311 parse_field_or_matcher *)
    Definition f_or : sparser field_matcher :=
      smap (fold_ops fm_or)
        (s_operands (sws (salt f_and (salt f_xor f_atoms))) (slift (ws (tok (lit "||"))))).

    (** /repo/src/matcher/field/parser.rs:352-362 parse_field_composite_matcher *)
    Definition f_composite : sparser field_matcher := salt f_or (salt f_xor f_and).

    (** [ws(')').map(|_| group_level_dec())] *)
    Definition f_close : sparser unit := fun s i =>
      match ws (ch 41) i with
      | Some (_, r) => (POk tt r, field_dec s)
      | None => (PErr, s)
      end.

    (** /repo/src/matcher/field/parser.rs:256-273 parse_field_group_matcher *)
    Definition f_group_body : sparser field_matcher :=
      smap FMGroup
        (sdelim (sbind (slift (ws (ch 40))) (fun _ => field_inc))
           (salt f_composite (salt f_singleton (salt nt (salt parse_f_card grp))))
           f_close).

    (** /repo/src/matcher/field/parser.rs:276-290 parse_field_not_matcher *)
    Definition f_not_body : sparser field_matcher :=
      smap FMNot
        (spreceded (slift (ws (ch 33)))
           (salt grp (salt (smap FMSingleton parse_f_bracket) (salt (slift f_exists) nt)))).
  End FieldKnot.

  Fixpoint field_gn (n : nat) : sparser field_matcher * sparser field_matcher :=
    match n with
    | 0%nat => (sfuel, sfuel)
    | S n' => let '(g, t) := field_gn n' in (f_group_body g t, f_not_body g t)
    end.

  (** /repo/src/matcher/field/parser.rs:365-380 parse_field_matcher *)
  Definition parse_field_matcher : sparser field_matcher := fun s i =>
    let '(g, t) := field_gn (S (length i)) in
    match sws (salt (f_composite g t) (salt g (salt t (salt f_singleton parse_f_card)))) s i with
    | (POk m r, s') => (POk m r, field_reset s')
    | x => x
    end.

  (** /repo/src/matcher/field/mod.rs:432-438 FieldMatcher::new and
      /repo/src/matcher/record.rs:35-48 RecordMatcher::new *)
  Definition field_matcher_new : levels -> bytes -> option (option field_matcher) * levels :=
    sparse_all parse_field_matcher.
End Parsers.

(** * Matchers: data types, evaluation, operators, printing

    Evaluation returns [option bool]; [None] is a panic. *)

From Coq Require Import String.
From Verif Require Import Bytes Winnow RecordModel TagOccModel Utf8Model StrParserModel.

(** External functions used by the matchers, quantified in every theorem:
    - [o_lower]: bstr's [to_lowercase] on byte strings
    - [o_similar ci a b]: /repo/src/matcher/subfield/mod.rs:352-367 is_similar, i.e.
      strsim's normalized Levenshtein score compared with the threshold
      (including the lossy UTF-8 decoding and lower-casing when [ci])
    - [o_re_ok ci re]: the regex crate compiles [re] with the given case flag
    - [o_reset_ok ci res]: the same for a regex set
    - [o_re ci re v]: the compiled regex matches the value [v] *)
Record oracles := mkOracles {
  o_lower : bytes -> bytes;
  o_similar : bool -> bytes -> bytes -> bool;
  o_re_ok : bool -> bytes -> bool;
  o_reset_ok : bool -> list bytes -> bool;
  o_re : bool -> bytes -> bytes -> bool }.

(** /repo/src/matcher/quantifier.rs:7-11 Quantifier *)
Inductive quantifier := QAll | QAny.

(** /repo/src/matcher/operator.rs:8-20 RelationalOp *)
Inductive rel_op :=
| OpEq | OpNe | OpGt | OpGe | OpLt | OpLe
| OpStartsWith | OpStartsNotWith | OpEndsWith | OpEndsNotWith | OpSimilar.

(** /repo/src/matcher/operator.rs:46-56 is_usize_applicable *)
Definition is_usize_applicable (op : rel_op) : bool :=
  match op with OpEq | OpNe | OpGe | OpGt | OpLt | OpLe => true | _ => false end.

(** /repo/src/matcher/operator.rs:81-89 is_str_applicable *)
Definition is_str_applicable (op : rel_op) : bool :=
  match op with OpGe | OpGt | OpLt | OpLe => false | _ => true end.

(** /repo/src/matcher/operator.rs:158-162 BooleanOp *)
Inductive bool_op := BAnd | BOr | BXor.

(** /repo/src/matcher/operator.rs:164-172 Display for BooleanOp *)
Definition bool_op_display (op : bool_op) : bytes :=
  match op with BAnd => lit "&&" | BOr => lit "||" | BXor => lit "^" end.

(** /repo/src/matcher/subfield/mod.rs:926-934 SingletonMatcher with the
    structs it wraps (ExistsMatcher 29-32, RelationMatcher 126-132,
    ContainsMatcher 393-398, RegexMatcher 503-509, RegexSetMatcher 606-612,
    InMatcher 713-719, CardinalityMatcher 816-821).  The hash set of
    ContainsMatcher is a list; only membership is used. *)
Inductive singleton :=
| SExists (codes : bytes) (raw : bytes)
| SRelation (q : quantifier) (codes : bytes) (op : rel_op) (value : bytes) (raw : bytes)
| SContains (q : quantifier) (codes : bytes) (values : list bytes) (raw : bytes)
| SRegex (q : quantifier) (codes : bytes) (re : bytes) (invert : bool) (raw : bytes)
| SRegexSet (q : quantifier) (codes : bytes) (res : list bytes) (invert : bool) (raw : bytes)
| SIn (q : quantifier) (codes : bytes) (values : list bytes) (invert : bool) (raw : bytes)
| SCard (codes : bytes) (op : rel_op) (value : N) (raw : bytes).

(** /repo/src/matcher/subfield/mod.rs:1031-1040 SubfieldMatcher *)
Inductive subfield_matcher :=
| SMSingleton (s : singleton)
| SMGroup (m : subfield_matcher)
| SMNot (m : subfield_matcher)
| SMComposite (lhs : subfield_matcher) (op : bool_op) (rhs : subfield_matcher).

(** short-circuit [Iterator::any] / [Iterator::all] with a check that may
    panic *)
Fixpoint any_p {A} (f : A -> option bool) (l : list A) : option bool :=
  match l with
  | [] => Some false
  | x :: l' => do b <- f x; if b then Some true else any_p f l'
  end.
Fixpoint all_p {A} (f : A -> option bool) (l : list A) : option bool :=
  match l with
  | [] => Some true
  | x :: l' => do b <- f x; if b then all_p f l' else Some false
  end.
(** [Iterator::filter] with a check that may panic *)
Fixpoint filter_p {A} (f : A -> option bool) (l : list A) : option (list A) :=
  match l with
  | [] => Some []
  | x :: l' => do b <- f x; do r <- filter_p f l'; Some (if b then x :: r else r)
  end.

Definition quantify {A} (q : quantifier) (f : A -> option bool) (l : list A) : option bool :=
  match q with QAll => all_p f l | QAny => any_p f l end.

(** the codes of a matcher select a subfield ([codes.contains(subfield.code())]) *)
Definition code_in (codes : bytes) (s : subfield) : bool := mem_byte (sf_code s) codes.

(** bstr's [contains_str] *)
Fixpoint contains_str (h n : bytes) : bool :=
  starts_with h n || match h with [] => false | _ :: h' => contains_str h' n end.

Section Eval.
  Variable O : oracles.
  Variable ci : bool. (* MatcherOptions::case_ignore, options.rs:3-8 *)

  (** /repo/src/matcher/subfield/mod.rs:234-244 RelationMatcher::compare *)
  Definition rel_compare (mv value : bytes) : bool :=
    if negb (Nat.eqb (length value) (length mv)) then false
    else if ci then bytes_eqb (o_lower O mv) (o_lower O value)
    else bytes_eqb mv value.

  (** /repo/src/matcher/subfield/mod.rs:268-285 RelationMatcher::starts_with *)
  Definition rel_starts_with (mv value : bytes) (invert : bool) : bool :=
    let result := if ci then starts_with (o_lower O value) (o_lower O mv)
                  else starts_with value mv in
    if invert then negb result else result.

  (** /repo/src/matcher/subfield/mod.rs:309-326 RelationMatcher::ends_with *)
  Definition rel_ends_with (mv value : bytes) (invert : bool) : bool :=
    let result := if ci then ends_with (o_lower O value) (o_lower O mv)
                  else ends_with value mv in
    if invert then negb result else result.

  (** /repo/src/matcher/subfield/mod.rs:191-204: the check closure of
      RelationMatcher::is_match; [None] is the [unreachable!()] *)
  Definition rel_check (op : rel_op) (mv : bytes) (s : subfield) : option bool :=
    let value := sf_value s in
    match op with
    | OpEq => Some (rel_compare mv value)
    | OpNe => Some (negb (rel_compare mv value))
    | OpStartsWith => Some (rel_starts_with mv value false)
    | OpStartsNotWith => Some (rel_starts_with mv value true)
    | OpEndsWith => Some (rel_ends_with mv value false)
    | OpEndsNotWith => Some (rel_ends_with mv value true)
    | OpSimilar => Some (o_similar O ci mv value)
    | _ => None
    end.

  (** /repo/src/matcher/subfield/mod.rs:461-472: the check closure of
      ContainsMatcher::is_match *)
  Definition contains_check (values : list bytes) (s : subfield) : bool :=
    if ci then existsb (fun n => contains_str (o_lower O (sf_value s)) (o_lower O n)) values
    else existsb (fun n => contains_str (sf_value s) n) values.

  (** /repo/src/matcher/subfield/mod.rs:774-785: the check closure of
      InMatcher::is_match *)
  Definition in_check (values : list bytes) (invert : bool) (s : subfield) : bool :=
    let result := existsb (fun rhs =>
      if ci then bytes_eqb (o_lower O (sf_value s)) (o_lower O rhs)
      else bytes_eqb (sf_value s) rhs) values in
    if invert then negb result else result.

  (** /repo/src/matcher/subfield/mod.rs:889-897 and field/mod.rs:367-375:
      comparison of a count; [None] is the [unreachable!()] *)
  Definition count_check (op : rel_op) (count value : N) : option bool :=
    match op with
    | OpEq => Some (count =? value)
    | OpNe => Some (negb (count =? value))
    | OpGe => Some (value <=? count)
    | OpGt => Some (value <? count)
    | OpLe => Some (count <=? value)
    | OpLt => Some (count <? value)
    | _ => None
    end.

  (** /repo/src/matcher/subfield/mod.rs:984-998 SingletonMatcher::is_match
      and the methods it calls: ExistsMatcher 92-100, RelationMatcher 180-210,
      ContainsMatcher 451-478, RegexMatcher 557-582, RegexSetMatcher 662-687,
      InMatcher 765-791, CardinalityMatcher 879-898.  Building a regular
      expression that the regex crate rejects is a panic ([unwrap]). *)
  Definition singleton_is_match (m : singleton) (sfs : list subfield) : option bool :=
    match m with
    | SExists codes _ => Some (existsb (code_in codes) sfs)
    | SRelation q codes op v _ => quantify q (rel_check op v) (filter (code_in codes) sfs)
    | SContains q codes vs _ =>
        quantify q (fun s => Some (contains_check vs s)) (filter (code_in codes) sfs)
    | SRegex q codes re invert _ =>
        if o_re_ok O ci re then
          quantify q (fun s => Some (xorb invert (o_re O ci re (sf_value s))))
            (filter (code_in codes) sfs)
        else None
    | SRegexSet q codes res invert _ =>
        if o_reset_ok O ci res then
          quantify q (fun s => Some (xorb invert (existsb (fun re => o_re O ci re (sf_value s)) res)))
            (filter (code_in codes) sfs)
        else None
    | SIn q codes vs invert _ =>
        quantify q (fun s => Some (in_check vs invert s)) (filter (code_in codes) sfs)
    | SCard codes op v _ => count_check op (N.of_nat (length (filter (code_in codes) sfs))) v
    end.

  (** /repo/src/matcher/subfield/mod.rs:1087-1107 SubfieldMatcher::is_match *)
  Fixpoint sm_is_match (m : subfield_matcher) (sfs : list subfield) : option bool :=
    match m with
    | SMSingleton s => singleton_is_match s sfs
    | SMGroup m' => sm_is_match m' sfs
    | SMNot m' => do b <- sm_is_match m' sfs; Some (negb b)
    | SMComposite l op r =>
        do lb <- sm_is_match l sfs;
        match op with
        | BXor => do rb <- sm_is_match r sfs; Some (negb (Bool.eqb lb rb))
        | BAnd => if lb then sm_is_match r sfs else Some false
        | BOr => if lb then Some true else sm_is_match r sfs
        end
    end.
End Eval.

(** Display of the singleton matchers: the raw text
    (/repo/src/matcher/subfield/mod.rs:119, 385, 496, 599, 706, 809, 916,
    1015-1026) *)
Definition singleton_display (m : singleton) : bytes :=
  match m with
  | SExists _ raw | SRelation _ _ _ _ raw | SContains _ _ _ raw | SRegex _ _ _ _ raw
  | SRegexSet _ _ _ _ raw | SIn _ _ _ _ raw | SCard _ _ _ raw => raw
  end.

(** /repo/src/matcher/subfield/mod.rs:1138-1146 Display for SubfieldMatcher *)
Fixpoint sm_display (m : subfield_matcher) : bytes :=
  match m with
  | SMSingleton s => singleton_display s
  | SMGroup m' => lit "(" ++ sm_display m' ++ lit ")"
  | SMNot m' => lit "!" ++ sm_display m'
  | SMComposite l op r =>
      sm_display l ++ lit " " ++ bool_op_display op ++ lit " " ++ sm_display r
  end.

(** the [maybe_group] closure of BitAnd
    (/repo/src/matcher/subfield/mod.rs:1174-1184) *)
Definition sm_group_or_xor (m : subfield_matcher) : subfield_matcher :=
  match m with
  | SMComposite _ BOr _ | SMComposite _ BXor _ => SMGroup m
  | _ => m
  end.
(** the [maybe_group] closure of BitXor
    (/repo/src/matcher/subfield/mod.rs:1318-1327) *)
Definition sm_group_or (m : subfield_matcher) : subfield_matcher :=
  match m with SMComposite _ BOr _ => SMGroup m | _ => m end.

(** /repo/src/matcher/subfield/mod.rs:1173-1191 BitAnd *)
Definition sm_and (a b : subfield_matcher) : subfield_matcher :=
  SMComposite (sm_group_or_xor a) BAnd (sm_group_or_xor b).
(** /repo/src/matcher/subfield/mod.rs:1214-1232 BitAndAssign, as a function
    returning the new value of [self]; likewise below *)
Definition sm_and_assign (a b : subfield_matcher) : subfield_matcher :=
  let maybe_group m :=
    match m with
    | SMComposite _ BOr _ | SMComposite _ BXor _ => SMGroup m
    | _ => m
    end in
  SMComposite (maybe_group a) BAnd (maybe_group b).
(** /repo/src/matcher/subfield/mod.rs:1257-1263 BitOr *)
Definition sm_or (a b : subfield_matcher) : subfield_matcher := SMComposite a BOr b.
(** /repo/src/matcher/subfield/mod.rs:1286-1292 BitOrAssign *)
Definition sm_or_assign (a b : subfield_matcher) : subfield_matcher := SMComposite a BOr b.
(** /repo/src/matcher/subfield/mod.rs:1317-1333 BitXor *)
Definition sm_xor (a b : subfield_matcher) : subfield_matcher :=
  SMComposite (sm_group_or a) BXor (sm_group_or b).
(** /repo/src/matcher/subfield/mod.rs:1356-1371 BitXorAssign *)
Definition sm_xor_assign (a b : subfield_matcher) : subfield_matcher :=
  let maybe_group m := match m with SMComposite _ BOr _ => SMGroup m | _ => m end in
  SMComposite (maybe_group a) BXor (maybe_group b).
(** /repo/src/matcher/subfield/mod.rs:1398-1405 Not *)
Definition sm_not (a : subfield_matcher) : subfield_matcher :=
  match a with
  | SMSingleton (SExists _ _) | SMGroup _ | SMNot _ => SMNot a
  | _ => SMNot (SMGroup a)
  end.

(** /repo/src/matcher/field/mod.rs:201-205 SingletonMatcher with ExistsMatcher
    (25-29) and SubfieldsMatcher (105-112) *)
Inductive field_singleton :=
| FExists (t : tag_matcher) (o : occ_matcher)
| FSubfields (q : quantifier) (t : tag_matcher) (o : occ_matcher)
    (m : subfield_matcher) (raw : bytes).

(** /repo/src/matcher/field/mod.rs:400-411 FieldMatcher with CardinalityMatcher
    (290-298) *)
Inductive field_matcher :=
| FMSingleton (s : field_singleton)
| FMCard (t : tag_matcher) (o : occ_matcher) (m : option subfield_matcher)
    (op : rel_op) (value : N) (raw : bytes)
| FMGroup (m : field_matcher)
| FMNot (m : field_matcher)
| FMComposite (lhs : field_matcher) (op : bool_op) (rhs : field_matcher).

Section FieldEval.
  Variable O : oracles.
  Variable ci : bool.

  (** tag and occurrence of a field, as used throughout *)
  Definition tag_occ_match (t : tag_matcher) (o : occ_matcher) (f : field) : bool :=
    tm_is_match t (f_tag f) && om_is_match o (f_occ f).

  (** /repo/src/matcher/field/mod.rs:262-265 SingletonMatcher::is_match,
      with ExistsMatcher 74-83 and SubfieldsMatcher 160-178 *)
  Definition fs_is_match (m : field_singleton) (fs : list field) : option bool :=
    match m with
    | FExists t o => Some (existsb (tag_occ_match t o) fs)
    | FSubfields q t o sm _ =>
        quantify q (fun f => sm_is_match O ci sm (f_subfields f)) (filter (tag_occ_match t o) fs)
    end.

  (** /repo/src/matcher/field/mod.rs:354-364 (also src/path.rs:289-301,
      src/fmt/mod.rs:417-432): tag, occurrence and the optional subfield
      condition; the condition is only evaluated if tag and occurrence match *)
  Definition tag_occ_sub_match (t : tag_matcher) (o : occ_matcher)
      (sm : option subfield_matcher) (f : field) : option bool :=
    match sm with
    | Some m => if tag_occ_match t o f then sm_is_match O ci m (f_subfields f) else Some false
    | None => Some (tag_occ_match t o f)
    end.

  (** /repo/src/matcher/field/mod.rs:459-480 FieldMatcher::is_match, with
      CardinalityMatcher 347-376 *)
  Fixpoint fm_is_match (m : field_matcher) (fs : list field) : option bool :=
    match m with
    | FMSingleton s => fs_is_match s fs
    | FMCard t o sm op v _ =>
        do sel <- filter_p (tag_occ_sub_match t o sm) fs;
        count_check op (N.of_nat (length sel)) v
    | FMGroup m' => fm_is_match m' fs
    | FMNot m' => do b <- fm_is_match m' fs; Some (negb b)
    | FMComposite l op r =>
        do lb <- fm_is_match l fs;
        match op with
        | BXor => do rb <- fm_is_match r fs; Some (negb (Bool.eqb lb rb))
        | BAnd => if lb then fm_is_match r fs else Some false
        | BOr => if lb then Some true else fm_is_match r fs
        end
    end.

  (** /repo/src/matcher/record.rs:71-77 RecordMatcher::is_match; the wrapper
      struct RecordMatcher(FieldMatcher) is identified with its content, its
      operators (record.rs:125-300) delegate *)
  Definition rm_is_match (m : field_matcher) (r : record) : option bool := fm_is_match m r.
End FieldEval.

(** /repo/src/matcher/field/mod.rs:282-287, 194-196, 99-101 Display of singletons *)
Definition fs_display (m : field_singleton) : bytes :=
  match m with
  | FExists t o => tm_display t ++ om_display o ++ lit "?"
  | FSubfields _ _ _ _ raw => raw
  end.

(** /repo/src/matcher/field/mod.rs:505-515 Display for FieldMatcher (and
    393-395 for CardinalityMatcher) *)
Fixpoint fm_display (m : field_matcher) : bytes :=
  match m with
  | FMCard _ _ _ _ _ raw => raw
  | FMSingleton s => fs_display s
  | FMGroup m' => lit "(" ++ fm_display m' ++ lit ")"
  | FMNot m' => lit "!" ++ fm_display m'
  | FMComposite l op r =>
      fm_display l ++ lit " " ++ bool_op_display op ++ lit " " ++ fm_display r
  end.

(** the [group] closure of BitAnd (/repo/src/matcher/field/mod.rs:543-553) *)
Definition fm_group_or_xor (m : field_matcher) : field_matcher :=
  match m with
  | FMComposite _ BOr _ | FMComposite _ BXor _ => FMGroup m
  | _ => m
  end.
(** the [group] closure of BitXor (/repo/src/matcher/field/mod.rs:691-700) *)
Definition fm_group_or (m : field_matcher) : field_matcher :=
  match m with FMComposite _ BOr _ => FMGroup m | _ => m end.

(** /repo/src/matcher/field/mod.rs:542-560 BitAnd *)
Definition fm_and (a b : field_matcher) : field_matcher :=
  FMComposite (fm_group_or_xor a) BAnd (fm_group_or_xor b).
(** /repo/src/matcher/field/mod.rs:583-601 BitAndAssign *)
Definition fm_and_assign (a b : field_matcher) : field_matcher :=
  let group m :=
    match m with
    | FMComposite _ BOr _ | FMComposite _ BXor _ => FMGroup m
    | _ => m
    end in
  FMComposite (group a) BAnd (group b).
(** /repo/src/matcher/field/mod.rs:628-634 BitOr *)
Definition fm_or (a b : field_matcher) : field_matcher := FMComposite a BOr b.
(** /repo/src/matcher/field/mod.rs:657-663 BitOrAssign *)
Definition fm_or_assign (a b : field_matcher) : field_matcher := FMComposite a BOr b.
(** /repo/src/matcher/field/mod.rs:690-707 BitXor *)
Definition fm_xor (a b : field_matcher) : field_matcher :=
  FMComposite (fm_group_or a) BXor (fm_group_or b).
(** /repo/src/matcher/field/mod.rs:730-745 BitXorAssign *)
Definition fm_xor_assign (a b : field_matcher) : field_matcher :=
  let group m := match m with FMComposite _ BOr _ => FMGroup m | _ => m end in
  FMComposite (group a) BXor (group b).
(** /repo/src/matcher/field/mod.rs:772-787 Not *)
Definition fm_not (a : field_matcher) : field_matcher :=
  match a with
  | FMSingleton (FSubfields _ _ _ (SMSingleton (SExists _ _)) _) | FMGroup _ | FMNot _ => FMNot a
  | _ => FMNot (FMGroup a)
  end.

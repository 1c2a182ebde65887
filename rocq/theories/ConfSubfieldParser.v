(** * Tests of the subfield matcher parsers

    /repo/src/matcher/subfield/parser.rs:441-1153, module tests.  Each [Example]
    has the name of the test function. *)

From Coq Require Import String.
From Verif Require Import Bytes Winnow RecordModel StateParser MatcherModel MatcherParserModel ConfBase.

(** the regular expressions of these tests compile, except those with an
    unclosed bracket *)
Definition tO : oracles :=
  mkOracles ascii_lower (fun _ _ _ => false) (fun _ re => negb (starts_with re (lit "[[")))
    (fun _ _ => true) (fun _ _ _ => false).

Inductive skind := KExists | KRelation | KContains | KRegex | KRegexSet | KIn | KCard.
Definition skind_of (m : singleton) : skind :=
  match m with
  | SExists _ _ => KExists | SRelation _ _ _ _ _ => KRelation | SContains _ _ _ _ => KContains
  | SRegex _ _ _ _ _ => KRegex | SRegexSet _ _ _ _ _ => KRegexSet | SIn _ _ _ _ _ => KIn | SCard _ _ _ _ => KCard
  end.
Definition singles (l : list (bytes * skind)) : bool :=
  forallb (fun x => match parse_all (parse_singleton tO) (fst x) with
                    | Some m => bytes_eqb (singleton_display m) (fst x) &&
                        match skind_of m, snd x with
                        | KExists, KExists | KRelation, KRelation | KContains, KContains | KRegex, KRegex
                        | KRegexSet, KRegexSet | KIn, KIn | KCard, KCard => true
                        | _, _ => false
                        end
                    | None => false
                    end) l.
Definition is_sm_not (m : subfield_matcher) : bool := match m with SMNot _ => true | _ => false end.
Definition is_sm_group (m : subfield_matcher) : bool := match m with SMGroup _ => true | _ => false end.
Definition is_sm_op (op : bool_op) (m : subfield_matcher) : bool :=
  match m, op with
  | SMComposite _ BAnd _, BAnd | SMComposite _ BOr _, BOr | SMComposite _ BXor _, BXor => true
  | _, _ => false
  end.
Definition any_sm (_ : subfield_matcher) : bool := true.

(** /repo/src/matcher/subfield/parser.rs:453-489 *)
Example test_parse_exists_matcher : map (parse_all parse_exists) [
    lit "a?";
    lit "[ab]?";
    lit "[abc]?";
    lit "[a-c]?";
    lit "[a-cd]?";
    lit "[a-cde]?";
    lit "[a-cde-f]?";
    lit "[a-cde-fx]?";
    lit "*?"]
  = [
    Some (SExists (lit "a") (lit "a?"));
    Some (SExists (lit "ab") (lit "[ab]?"));
    Some (SExists (lit "abc") (lit "[abc]?"));
    Some (SExists (lit "abc") (lit "[a-c]?"));
    Some (SExists (lit "abcd") (lit "[a-cd]?"));
    Some (SExists (lit "abcde") (lit "[a-cde]?"));
    Some (SExists (lit "abcdef") (lit "[a-cde-f]?"));
    Some (SExists (lit "abcdefx") (lit "[a-cde-fx]?"));
    Some (SExists (lit "0123456789abcdefghijklmnopqrstuvwxyzABCDEFGHIJKLMNOPQRSTUVWXYZ") (lit "*?"))].
Proof. vm_compute. reflexivity. Qed.

(** /repo/src/matcher/subfield/parser.rs:453-489 *)
Example test_parse_exists_matcher_err : map (parse_all parse_exists) [lit "=?"; lit "=?"; lit "[a-a]?"; lit "[b-a]?"; lit "[a-c=]?"; lit "ALL a?"; lit "ANY a?"] = [None; None; None; None; None; None; None].
Proof. vm_compute. reflexivity. Qed.

(** /repo/src/matcher/subfield/parser.rs:492-524 *)
Example test_parse_relation_matcher : map (parse_all parse_relation) [
    lit "0 == 'abc'";
    lit "ALL 0 != 'abc'";
    lit "ANY [ab] == 'abc'";
    lit "a =^ 'abc'";
    lit "a !^ 'abc'";
    lit "a =$ 'abc'";
    lit "a !$ 'abc'";
    lit "a =* 'abc'"]
  = [
    Some (SRelation QAny (lit "0") OpEq (lit "abc") (lit "0 == 'abc'"));
    Some (SRelation QAll (lit "0") OpNe (lit "abc") (lit "ALL 0 != 'abc'"));
    Some (SRelation QAny (lit "ab") OpEq (lit "abc") (lit "ANY [ab] == 'abc'"));
    Some (SRelation QAny (lit "a") OpStartsWith (lit "abc") (lit "a =^ 'abc'"));
    Some (SRelation QAny (lit "a") OpStartsNotWith (lit "abc") (lit "a !^ 'abc'"));
    Some (SRelation QAny (lit "a") OpEndsWith (lit "abc") (lit "a =$ 'abc'"));
    Some (SRelation QAny (lit "a") OpEndsNotWith (lit "abc") (lit "a !$ 'abc'"));
    Some (SRelation QAny (lit "a") OpSimilar (lit "abc") (lit "a =* 'abc'"))].
Proof. vm_compute. reflexivity. Qed.

(** /repo/src/matcher/subfield/parser.rs:527-598 *)
Example test_parse_contains_matcher : map (parse_all parse_contains) [
    lit "a =? ['foo']";
    lit "a =? 'foo'";
    lit "ANY a =? ['foo']";
    lit "ANY a =? 'foo'";
    lit "ALL a =? ['foo']";
    lit "ALL a =? 'foo'";
    lit "[a-c] =? ['foo']";
    lit "[a-c] =? 'foo'";
    lit "ANY [ab] =? ['foo']";
    lit "ANY [ab] =? 'foo'";
    lit "ALL [a-d] =? 'foo'";
    lit "ALL [a-d] =? ['foo']";
    lit "ALL [a-d] =? ['foo',]";
    lit "a =? ['foo','bar']";
    lit "a =? ['foo','bar',]"]
  = [
    Some (SContains QAny (lit "a") [lit "foo"] (lit "a =? ['foo']"));
    Some (SContains QAny (lit "a") [lit "foo"] (lit "a =? 'foo'"));
    Some (SContains QAny (lit "a") [lit "foo"] (lit "ANY a =? ['foo']"));
    Some (SContains QAny (lit "a") [lit "foo"] (lit "ANY a =? 'foo'"));
    Some (SContains QAll (lit "a") [lit "foo"] (lit "ALL a =? ['foo']"));
    Some (SContains QAll (lit "a") [lit "foo"] (lit "ALL a =? 'foo'"));
    Some (SContains QAny (lit "abc") [lit "foo"] (lit "[a-c] =? ['foo']"));
    Some (SContains QAny (lit "abc") [lit "foo"] (lit "[a-c] =? 'foo'"));
    Some (SContains QAny (lit "ab") [lit "foo"] (lit "ANY [ab] =? ['foo']"));
    Some (SContains QAny (lit "ab") [lit "foo"] (lit "ANY [ab] =? 'foo'"));
    Some (SContains QAll (lit "abcd") [lit "foo"] (lit "ALL [a-d] =? 'foo'"));
    Some (SContains QAll (lit "abcd") [lit "foo"] (lit "ALL [a-d] =? ['foo']"));
    Some (SContains QAll (lit "abcd") [lit "foo"] (lit "ALL [a-d] =? ['foo',]"));
    Some (SContains QAny (lit "a") [lit "foo"; lit "bar"] (lit "a =? ['foo','bar']"));
    Some (SContains QAny (lit "a") [lit "foo"; lit "bar"] (lit "a =? ['foo','bar',]"))].
Proof. vm_compute. reflexivity. Qed.

(** /repo/src/matcher/subfield/parser.rs:601-632 *)
Example test_parse_regex_matcher : map (parse_all (parse_regex tO)) [
    lit "ALL [ab] =~ ""foo""";
    lit "[ab] =~ 'foo'";
    lit "ANY 0 =~ '^Tp'";
    lit "ALL 0 =~ '^Tp'";
    lit "0 =~ '^Tp'";
    lit "0 !~ '^Tp'"]
  = [
    Some (SRegex QAll (lit "ab") (lit "foo") false (lit "ALL [ab] =~ ""foo"""));
    Some (SRegex QAny (lit "ab") (lit "foo") false (lit "[ab] =~ 'foo'"));
    Some (SRegex QAny (lit "0") (lit "^Tp") false (lit "ANY 0 =~ '^Tp'"));
    Some (SRegex QAll (lit "0") (lit "^Tp") false (lit "ALL 0 =~ '^Tp'"));
    Some (SRegex QAny (lit "0") (lit "^Tp") false (lit "0 =~ '^Tp'"));
    Some (SRegex QAny (lit "0") (lit "^Tp") true (lit "0 !~ '^Tp'"))].
Proof. vm_compute. reflexivity. Qed.

(** /repo/src/matcher/subfield/parser.rs:601-632 *)
Example test_parse_regex_matcher_err : map (parse_all (parse_regex tO)) [lit "0 =~ '[[ab]'"; lit "0 !~ '[[ab]'"] = [None; None].
Proof. vm_compute. reflexivity. Qed.

(** /repo/src/matcher/subfield/parser.rs:635-737 *)
Example test_parse_regex_set_matcher : map (parse_all (parse_regex_set tO)) [
    lit "ALL [ab] =~ [""^foo"", ""bar$""]";
    lit "ALL [ab] =~ [""^foo"", ""bar$"", ]";
    lit "[ab] =~ ['foo', 'bar']";
    lit "[ab] =~ ['foo', 'bar',]";
    lit "ANY 0 =~ ['^Tp', '^Ts']";
    lit "ALL 0 =~ ['^Tp', '^Ts']";
    lit "0 =~ ['^Tp', '^Ts']";
    lit "0 !~ ['^Tp', '^Ts']"]
  = [
    Some (SRegexSet QAll (lit "ab") [lit "^foo"; lit "bar$"] false (lit "ALL [ab] =~ [""^foo"", ""bar$""]"));
    Some (SRegexSet QAll (lit "ab") [lit "^foo"; lit "bar$"] false (lit "ALL [ab] =~ [""^foo"", ""bar$"", ]"));
    Some (SRegexSet QAny (lit "ab") [lit "foo"; lit "bar"] false (lit "[ab] =~ ['foo', 'bar']"));
    Some (SRegexSet QAny (lit "ab") [lit "foo"; lit "bar"] false (lit "[ab] =~ ['foo', 'bar',]"));
    Some (SRegexSet QAny (lit "0") [lit "^Tp"; lit "^Ts"] false (lit "ANY 0 =~ ['^Tp', '^Ts']"));
    Some (SRegexSet QAll (lit "0") [lit "^Tp"; lit "^Ts"] false (lit "ALL 0 =~ ['^Tp', '^Ts']"));
    Some (SRegexSet QAny (lit "0") [lit "^Tp"; lit "^Ts"] false (lit "0 =~ ['^Tp', '^Ts']"));
    Some (SRegexSet QAny (lit "0") [lit "^Tp"; lit "^Ts"] true (lit "0 !~ ['^Tp', '^Ts']"))].
Proof. vm_compute. reflexivity. Qed.

(** /repo/src/matcher/subfield/parser.rs:635-737 *)
Example test_parse_regex_set_matcher_err : map (parse_all (parse_regex tO)) [lit "0 =~ ['[[ab]', 'Ts1']"; lit "0 !~ ['Tp3', '[[ab]']"] = [None; None].
Proof. vm_compute. reflexivity. Qed.

(** /repo/src/matcher/subfield/parser.rs:740-834 *)
Example test_parse_in_matcher : map (parse_all parse_in) [
    lit "0 in ['Tp1']";
    lit "0 in ['Tp1',]";
    lit "0 in ['Tp1', 'Tpz']";
    lit "0 in ['Tp1', 'Tpz',]";
    lit "a not in 'adimnt'";
    lit "ANY [ab] in ['Tp1', 'Tpz']";
    lit "ANY [ab] in ['Tp1', 'Tpz', ]";
    lit "ALL 0 in ['Tp1', 'Tpz']";
    lit "0 not in ['Tp1', 'Tpz']";
    lit "0 not in ['Tp1', 'Tpz',]"]
  = [
    Some (SIn QAny (lit "0") [lit "Tp1"] false (lit "0 in ['Tp1']"));
    Some (SIn QAny (lit "0") [lit "Tp1"] false (lit "0 in ['Tp1',]"));
    Some (SIn QAny (lit "0") [lit "Tp1"; lit "Tpz"] false (lit "0 in ['Tp1', 'Tpz']"));
    Some (SIn QAny (lit "0") [lit "Tp1"; lit "Tpz"] false (lit "0 in ['Tp1', 'Tpz',]"));
    Some (SIn QAny (lit "a") [lit "a"; lit "d"; lit "i"; lit "m"; lit "n"; lit "t"] true (lit "a not in 'adimnt'"));
    Some (SIn QAny (lit "ab") [lit "Tp1"; lit "Tpz"] false (lit "ANY [ab] in ['Tp1', 'Tpz']"));
    Some (SIn QAny (lit "ab") [lit "Tp1"; lit "Tpz"] false (lit "ANY [ab] in ['Tp1', 'Tpz', ]"));
    Some (SIn QAll (lit "0") [lit "Tp1"; lit "Tpz"] false (lit "ALL 0 in ['Tp1', 'Tpz']"));
    Some (SIn QAny (lit "0") [lit "Tp1"; lit "Tpz"] true (lit "0 not in ['Tp1', 'Tpz']"));
    Some (SIn QAny (lit "0") [lit "Tp1"; lit "Tpz"] true (lit "0 not in ['Tp1', 'Tpz',]"))].
Proof. vm_compute. reflexivity. Qed.

(** /repo/src/matcher/subfield/parser.rs:740-834 *)
Example test_parse_in_matcher_err : map (parse_all parse_in) [lit "a in []"; lit "a in [,]"; lit "a in ''"] = [None; None; None].
Proof. vm_compute. reflexivity. Qed.

(** /repo/src/matcher/subfield/parser.rs:837-878 *)
Example test_parse_cardinality_matcher : map (parse_all parse_card) [
    lit "#a == 1";
    lit "#a != 2";
    lit "#a >= 3";
    lit "#a > 4";
    lit "#a <= 5";
    lit "#a < 6";
    lit "#[ab] == 1";
    lit "#[a-cx] == 1"]
  = [
    Some (SCard (lit "a") OpEq 1 (lit "#a == 1"));
    Some (SCard (lit "a") OpNe 2 (lit "#a != 2"));
    Some (SCard (lit "a") OpGe 3 (lit "#a >= 3"));
    Some (SCard (lit "a") OpGt 4 (lit "#a > 4"));
    Some (SCard (lit "a") OpLe 5 (lit "#a <= 5"));
    Some (SCard (lit "a") OpLt 6 (lit "#a < 6"));
    Some (SCard (lit "ab") OpEq 1 (lit "#[ab] == 1"));
    Some (SCard (lit "abcx") OpEq 1 (lit "#[a-cx] == 1"))].
Proof. vm_compute. reflexivity. Qed.

(** /repo/src/matcher/subfield/parser.rs:837-878 *)
Example test_parse_cardinality_matcher_err : map (parse_all parse_card) [lit "#a > -1"; lit "#a > '2'"; lit "#a =^ 5"; lit "#a !^ 5"; lit "#a =$ 5"; lit "#a !$ 5"; lit "#a =* 5"; lit "#a =? 5"] = [None; None; None; None; None; None; None; None].
Proof. vm_compute. reflexivity. Qed.

(** /repo/src/matcher/subfield/parser.rs:881-925 *)
Example test_parse_singleton_matcher : singles [
    (lit "ALL a == 'foo'", KRelation);
    (lit "a?", KExists);
    (lit "a not in ['Tp1', 'Tsz']", KIn);
    (lit "#a > 3", KCard);
    (lit "a !~ '^Tp'", KRegex);
    (lit "a =~ ['^Tp', '^Ts']", KRegexSet)] = true.
Proof. vm_compute. reflexivity. Qed.

(** /repo/src/matcher/subfield/parser.rs:928-971 *)
Example test_parse_subfield_singleton_matcher : singles [
    (lit "a == 'foo'", KRelation);
    (lit "a != 'foo'", KRelation);
    (lit "a =^ 'foo'", KRelation);
    (lit "a !^ 'foo'", KRelation);
    (lit "a =$ 'foo'", KRelation);
    (lit "a !$ 'foo'", KRelation);
    (lit "a =* 'foo'", KRelation);
    (lit "a =? ['foo', 'bar']", KContains);
    (lit "a =? 'foo'", KContains);
    (lit "#a == 1", KCard);
    (lit "#a != 1", KCard);
    (lit "#a >= 1", KCard);
    (lit "#a > 1", KCard);
    (lit "#a <= 1", KCard);
    (lit "#a < 1", KCard);
    (lit "a in ['foo', 'bar']", KIn);
    (lit "a not in ['foo', 'bar']", KIn);
    (lit "a =~ ['^Tp1', '^Ts']", KRegexSet);
    (lit "a !~ ['^Tp1', '^Ts']", KRegexSet);
    (lit "a =~ '^Tp1'", KRegex);
    (lit "a !~ '^Tp1'", KRegex);
    (lit "a?", KExists)] = true.
Proof. vm_compute. reflexivity. Qed.

(** /repo/src/matcher/subfield/parser.rs:974-993 *)
Example test_parse_subfield_not_matcher : in_thread (snd (sub_gn tO 40)) sm_display (is_sm_not)
    [lit "!(a? && b == 'foo')"; lit "!!a?"; lit "!a?"]
    [lit "!a == 'foo'"] = true.
Proof. vm_compute. reflexivity. Qed.

(** /repo/src/matcher/subfield/parser.rs:996-1012 *)
Example test_parse_subfield_group_matcher : in_thread (fst (sub_gn tO 40)) sm_display (is_sm_group)
    [lit "(a? && b?)"; lit "(a == 'foo')"; lit "(!(a == 'foo'))"; lit "((a == 'foo'))"]
    [] = true.
Proof. vm_compute. reflexivity. Qed.

(** /repo/src/matcher/subfield/parser.rs:1015-1055 *)
Example test_parse_subfield_and_matcher : in_thread (sub_and tO (fst (sub_gn tO 40)) (snd (sub_gn tO 40))) sm_display (is_sm_op BAnd)
    [lit "a? && b?"; lit "a? && b? && c?"; lit "a? && b? && c? && d?"; lit "a? && (b?)"; lit "a? && (b? && c?)"; lit "(a? && b?) && c?"; lit "a? && (b? && (c? && d?))"; lit "a? && !b?"; lit "a? && !(b? && c?)"; lit "!(a? && !(b? && c?)) && d?"]
    [lit "a? && b? || c?"; lit "a? && b? ^ c?"] = true.
Proof. vm_compute. reflexivity. Qed.

(** /repo/src/matcher/subfield/parser.rs:1058-1092 *)
Example test_parse_subfield_xor_matcher : in_thread (sub_xor tO (fst (sub_gn tO 40)) (snd (sub_gn tO 40))) sm_display (is_sm_op BXor)
    [lit "a? ^ b?"; lit "a? ^ b? ^ c?"; lit "a? ^ b? ^ c? ^ d?"; lit "!a? ^ b? ^ c? ^ d?"; lit "!a? ^ !b? ^ c? ^ d?"; lit "!a? ^ !b? ^ !c? ^ d?"; lit "!a? ^ !b? ^ !c? ^ !d?"; lit "a? ^ b? && c? && d?"; lit "a? && b? ^ c? && d?"; lit "a? && b? && c? ^ d?"; lit "a? ^ (b? ^ c?) ^ d?"; lit "a? ^ ((b? ^ c?) ^ d?)"]
    [lit "a? ^ b? || c?"] = true.
Proof. vm_compute. reflexivity. Qed.

(** /repo/src/matcher/subfield/parser.rs:1095-1125 *)
Example test_parse_subfield_or_matcher : in_thread (sub_or tO (fst (sub_gn tO 40)) (snd (sub_gn tO 40))) sm_display (is_sm_op BOr)
    [lit "a? || b?"; lit "a? || b? || c?"; lit "a? || b? || c? || d?"; lit "a? || !b?"; lit "a? || !(b? || c?)"; lit "!a? || !(b? || c?)"; lit "a? || b? && c?"; lit "a? && b? || c? && d?"; lit "a? || b? ^ c?"; lit "a? ^ b? || c? ^ d?"; lit "a? || (b? && c?)"; lit "(a? && b?) || (c? ^ d?)"]
    [] = true.
Proof. vm_compute. reflexivity. Qed.

(** /repo/src/matcher/subfield/parser.rs:1128-1152 *)
Example test_parse_subfield_matcher : in_thread (parse_subfield_matcher tO) sm_display (any_sm)
    [lit "(a? && b?) || (c == 'foo' ^ d == 'bar')"; lit "0 in [""Olfo"",""Oaf"",""Oa""]"; lit "0 =^ ""A"" || 0 =^ ""O"""; lit "c == '01' && d == 'MVB'"; lit "p =~ '^\\[publtype\\]([bB]ookPart|[cC]onferencePaper)$'"; lit "a =~ '(?i)(Zeitschrift|Journal)' && a !~ '(?i)(Abdr|Sonderdr|Diss(\\.|ertation)|Teile)'"]
    [] = true.
Proof. vm_compute. reflexivity. Qed.

(** * Tests and documentation examples of the matchers

    /repo/src/matcher/subfield/mod.rs, field/mod.rs and record.rs.  Each [Example]
    replays one test function or one documentation example; all its parses run in
    one thread.  [assert_tokens] compares with what serde writes, the text of the
    matcher. *)

From Coq Require Import String.
From Verif Require Import Bytes Winnow RecordModel TagOccModel StateParser MatcherModel MatcherParserModel SingleModel ConfBase ConfData.

(** which values of these tests the regular expressions of these tests match,
    with and without regard to case *)
Definition re_table : list (bool * bytes * bytes) := [
  (true, lit "^BAR", lit "Baron");
  (true, lit "^BAR", lit "bar");
  (false, lit "^DE-\d+6", lit "DE-386");
  (true, lit "^DE-\d+6", lit "DE-386");
  (false, lit "^DE-\d+6", lit "DE-576");
  (true, lit "^DE-\d+6", lit "DE-576");
  (false, lit "^F.O$", lit "FOO");
  (true, lit "^F.O$", lit "FOO");
  (true, lit "^F.O$", lit "foo");
  (false, lit "^Tp", lit "Tp1");
  (true, lit "^Tp", lit "Tp1");
  (false, lit "^Ts", lit "Ts1");
  (true, lit "^Ts", lit "Ts1");
  (false, lit "^b.z$", lit "baz");
  (true, lit "^b.z$", lit "baz");
  (true, lit "^bar", lit "Baron");
  (false, lit "^bar", lit "bar");
  (true, lit "^bar", lit "bar");
  (true, lit "^f.*o$", lit "FOO");
  (false, lit "^f.*o$", lit "foo");
  (true, lit "^f.*o$", lit "foo");
  (true, lit "^f.o$", lit "FOO");
  (false, lit "^f.o$", lit "foo");
  (true, lit "^f.o$", lit "foo");
  (false, lit "bar", lit "(012A.a == 'foo' || 012A.a == 'bar') && 012A.c == 'baz'");
  (true, lit "bar", lit "(012A.a == 'foo' || 012A.a == 'bar') && 012A.c == 'baz'");
  (false, lit "bar", lit "(a == 'foo' || a == 'bar') && c == 'baz'");
  (true, lit "bar", lit "(a == 'foo' || a == 'bar') && c == 'baz'");
  (false, lit "bar", lit "ANY [ab] !~ ['^f.*o$', 'bar']");
  (true, lit "bar", lit "ANY [ab] !~ ['^f.*o$', 'bar']");
  (false, lit "bar", lit "ANY [ab] =? ['foo', 'bar']");
  (true, lit "bar", lit "ANY [ab] =? ['foo', 'bar']");
  (false, lit "bar", lit "ANY [ab] in ['foo', 'bar']");
  (true, lit "bar", lit "ANY [ab] in ['foo', 'bar']");
  (true, lit "bar", lit "Baron");
  (true, lit "bar", lit "Der Ehemann Baron William King (1805-1893) wurde 1838 zum 1. Earl of Lovelace erhoben.");
  (false, lit "bar", lit "a == 'foo' && (b == 'bar' ^ b == 'baz')");
  (true, lit "bar", lit "a == 'foo' && (b == 'bar' ^ b == 'baz')");
  (false, lit "bar", lit "bar");
  (true, lit "bar", lit "bar");
  (false, lit "bar", lit "foobar");
  (true, lit "bar", lit "foobar")].

(** the regex crate on the expressions of these tests; similarity by the given
    threshold in percent *)
Definition tO (percent : N) : oracles :=
  mkOracles ascii_lower (similar percent) (fun _ _ => true) (fun _ _ => true)
    (fun ci re v => existsb (fun x => Bool.eqb (fst (fst x)) ci && bytes_eqb (snd (fst x)) re && bytes_eqb (snd x) v) re_table).

(** /repo/src/matcher/subfield/mod.rs:46-54 *)
Example sub_doc_46 :
  (let s := fresh in
   with_new0 (exists_new) (lit "a?") (fun m1 =>
   with_new0 (exists_new) (lit "[a-c]?") (fun m2 =>
   with_new0 (exists_new) (lit "*?") (fun m3 => true)))) = true.
Proof. vm_compute. reflexivity. Qed.

(** /repo/src/matcher/subfield/mod.rs:68-90 *)
Example sub_doc_68 :
  (let s := fresh in
   with_new0 (exists_new) (lit "a?") (fun m1 =>
   with_some (subfield_new 97 (lit "abc")) (fun f2 =>
   (is_true (singleton_is_match (tO 80) false m1 [f2])) &&
   with_some (subfield_new 98 (lit "def")) (fun f3 =>
   (negb (is_true (singleton_is_match (tO 80) false m1 [f3]))) &&
   with_some (subfield_new 98 (lit "abc")) (fun f4 =>
   with_some (subfield_new 97 (lit "def")) (fun f5 =>
   (is_true (singleton_is_match (tO 80) false m1 [f4; f5])) && true)))))) = true.
Proof. vm_compute. reflexivity. Qed.

(** /repo/src/matcher/subfield/mod.rs:108-117 *)
Example sub_doc_108 :
  (let s := fresh in
   with_new0 (exists_new) (lit "[a0-3]?") (fun m1 =>
   bytes_eqb (singleton_display m1) (lit "[a0-3]?") && true)) = true.
Proof. vm_compute. reflexivity. Qed.

(** /repo/src/matcher/subfield/mod.rs:144-150 *)
Example sub_doc_144 :
  (let s := fresh in
   with_new0 (relation_new) (lit "0 == 'Tp1'") (fun m1 => true)) = true.
Proof. vm_compute. reflexivity. Qed.

(** /repo/src/matcher/subfield/mod.rs:168-179 *)
Example sub_doc_168 :
  (let s := fresh in
   with_new0 (relation_new) (lit "0 == 'Tp1'") (fun m1 =>
   with_some (subfield_new 48 (lit "Tp1")) (fun f2 =>
   (is_true (singleton_is_match (tO 80) false m1 [f2])) && true))) = true.
Proof. vm_compute. reflexivity. Qed.

(** /repo/src/matcher/subfield/mod.rs:218-233 *)
Example sub_doc_218 :
  (let s := fresh in
   with_some (subfield_new 97 (lit "FOO")) (fun f1 =>
   with_new0 (relation_new) (lit "a == 'foo'") (fun m2 =>
   (is_true (singleton_is_match (tO 80) true m2 [f1])) &&
   with_new0 (relation_new) (lit "a != 'bar'") (fun m3 =>
   (is_true (singleton_is_match (tO 80) true m3 [f1])) && true)))) = true.
Proof. vm_compute. reflexivity. Qed.

(** /repo/src/matcher/subfield/mod.rs:252-267 *)
Example sub_doc_252 :
  (let s := fresh in
   with_some (subfield_new 97 (lit "foobar")) (fun f1 =>
   with_new0 (relation_new) (lit "a =^ 'foo'") (fun m2 =>
   (is_true (singleton_is_match (tO 80) false m2 [f1])) &&
   with_new0 (relation_new) (lit "a !^ 'bar'") (fun m3 =>
   (is_true (singleton_is_match (tO 80) false m3 [f1])) && true)))) = true.
Proof. vm_compute. reflexivity. Qed.

(** /repo/src/matcher/subfield/mod.rs:293-308 *)
Example sub_doc_293 :
  (let s := fresh in
   with_some (subfield_new 97 (lit "foobar")) (fun f1 =>
   with_new0 (relation_new) (lit "a =$ 'bar'") (fun m2 =>
   (is_true (singleton_is_match (tO 80) false m2 [f1])) &&
   with_new0 (relation_new) (lit "a !$ 'foo'") (fun m3 =>
   (is_true (singleton_is_match (tO 80) false m3 [f1])) && true)))) = true.
Proof. vm_compute. reflexivity. Qed.

(** /repo/src/matcher/subfield/mod.rs:336-351 *)
Example sub_doc_336 :
  (let s := fresh in
   with_some (subfield_new 97 (lit "baz")) (fun f1 =>
   with_new0 (relation_new) (lit "a =* 'bar'") (fun m2 =>
   (is_true (singleton_is_match (tO 65) false m2 [f1])) &&
   (negb (is_true (singleton_is_match (tO 75) false m2 [f1]))) && true))) = true.
Proof. vm_compute. reflexivity. Qed.

(** /repo/src/matcher/subfield/mod.rs:374-383 *)
Example sub_doc_374 :
  (let s := fresh in
   with_new0 (relation_new) (lit "[a0-3] == 'foo'") (fun m1 =>
   bytes_eqb (singleton_display m1) (lit "[a0-3] == 'foo'") && true)) = true.
Proof. vm_compute. reflexivity. Qed.

(** /repo/src/matcher/subfield/mod.rs:410-416 *)
Example sub_doc_410 :
  (let s := fresh in
   with_new0 (contains_new) (lit "0 =? ['Olfo','Oa']") (fun m1 => true)) = true.
Proof. vm_compute. reflexivity. Qed.

(** /repo/src/matcher/subfield/mod.rs:432-450 *)
Example sub_doc_432 :
  (let s := fresh in
   with_some (subfield_new 48 (lit "foobar")) (fun f1 =>
   with_new0 (contains_new) (lit "0 =? ['foo','bar']") (fun m2 =>
   (is_true (singleton_is_match (tO 80) false m2 [f1])) && true))) = true.
Proof. vm_compute. reflexivity. Qed.

(** /repo/src/matcher/subfield/mod.rs:486-494 *)
Example sub_doc_486 :
  (let s := fresh in
   with_new0 (contains_new) (lit "ANY [ab] =? ['foo', 'bar']") (fun m1 =>
   bytes_eqb (singleton_display m1) (lit "ANY [ab] =? ['foo', 'bar']") && true)) = true.
Proof. vm_compute. reflexivity. Qed.

(** /repo/src/matcher/subfield/mod.rs:521-527 *)
Example sub_doc_521 :
  (let s := fresh in
   with_new0 (regex_new (tO 80)) (lit "0 =~ '^Tp'") (fun m1 => true)) = true.
Proof. vm_compute. reflexivity. Qed.

(** /repo/src/matcher/subfield/mod.rs:541-556 *)
Example sub_doc_541 :
  (let s := fresh in
   with_some (subfield_new 48 (lit "Tp1")) (fun f1 =>
   with_new0 (regex_new (tO 80)) (lit "0 =~ '^Tp'") (fun m2 =>
   (is_true (singleton_is_match (tO 80) false m2 [f1])) &&
   with_new0 (regex_new (tO 80)) (lit "0 !~ '^Ts'") (fun m3 =>
   (is_true (singleton_is_match (tO 80) false m3 [f1])) && true)))) = true.
Proof. vm_compute. reflexivity. Qed.

(** /repo/src/matcher/subfield/mod.rs:590-597 *)
Example sub_doc_590 :
  (let s := fresh in
   with_new0 (regex_new (tO 80)) (lit "ALL [ab] =~ '^f.*o$'") (fun m1 =>
   bytes_eqb (singleton_display m1) (lit "ALL [ab] =~ '^f.*o$'") && true)) = true.
Proof. vm_compute. reflexivity. Qed.

(** /repo/src/matcher/subfield/mod.rs:624-630 *)
Example sub_doc_624 :
  (let s := fresh in
   with_new0 (regex_new (tO 80)) (lit "0 =~ '^Tp'") (fun m1 => true)) = true.
Proof. vm_compute. reflexivity. Qed.

(** /repo/src/matcher/subfield/mod.rs:646-661 *)
Example sub_doc_646 :
  (let s := fresh in
   with_some (subfield_new 48 (lit "Tp1")) (fun f1 =>
   with_new0 (regex_set_new (tO 80)) (lit "0 =~ ['^Ts', '^Tp']") (fun m2 =>
   (is_true (singleton_is_match (tO 80) false m2 [f1])) &&
   with_new0 (regex_set_new (tO 80)) (lit "0 !~ ['^Ts', '^Tu']") (fun m3 =>
   (is_true (singleton_is_match (tO 80) false m3 [f1])) && true)))) = true.
Proof. vm_compute. reflexivity. Qed.

(** /repo/src/matcher/subfield/mod.rs:695-704 *)
Example sub_doc_695 :
  (let s := fresh in
   with_new0 (regex_set_new (tO 80)) (lit "ANY [ab] !~ ['^f.*o$', 'bar']") (fun m1 =>
   bytes_eqb (singleton_display m1) (lit "ANY [ab] !~ ['^f.*o$', 'bar']") && true)) = true.
Proof. vm_compute. reflexivity. Qed.

(** /repo/src/matcher/subfield/mod.rs:731-737 *)
Example sub_doc_731 :
  (let s := fresh in
   with_new0 (in_new) (lit "0 in ['Tp1', 'Tpz']") (fun m1 => true)) = true.
Proof. vm_compute. reflexivity. Qed.

(** /repo/src/matcher/subfield/mod.rs:749-764 *)
Example sub_doc_749 :
  (let s := fresh in
   with_some (subfield_new 48 (lit "Tp1")) (fun f1 =>
   with_new0 (in_new) (lit "0 in ['Tp1', 'Tpz']") (fun m2 =>
   (is_true (singleton_is_match (tO 80) false m2 [f1])) &&
   with_new0 (in_new) (lit "0 not in ['Ts1', 'Tsz']") (fun m3 =>
   (is_true (singleton_is_match (tO 80) false m3 [f1])) && true)))) = true.
Proof. vm_compute. reflexivity. Qed.

(** /repo/src/matcher/subfield/mod.rs:799-807 *)
Example sub_doc_799 :
  (let s := fresh in
   with_new0 (in_new) (lit "ANY [ab] in ['foo', 'bar']") (fun m1 =>
   bytes_eqb (singleton_display m1) (lit "ANY [ab] in ['foo', 'bar']") && true)) = true.
Proof. vm_compute. reflexivity. Qed.

(** /repo/src/matcher/subfield/mod.rs:833-839 *)
Example sub_doc_833 :
  (let s := fresh in
   with_new0 (card_new) (lit "#a > 5") (fun m1 => true)) = true.
Proof. vm_compute. reflexivity. Qed.

(** /repo/src/matcher/subfield/mod.rs:856-878 *)
Example sub_doc_856 :
  (let s := fresh in
   with_some (subfield_new 97 (lit "foo")) (fun f1 =>
   with_some (subfield_new 97 (lit "bar")) (fun f2 =>
   with_some (subfield_new 98 (lit "baz")) (fun f3 =>
   with_new0 (card_new) (lit "#a >= 2") (fun m4 =>
   (is_true (singleton_is_match (tO 80) false m4 [f1; f2; f3])) &&
   with_new0 (card_new) (lit "#b < 2") (fun m5 =>
   (is_true (singleton_is_match (tO 80) false m5 [f1; f2; f3])) &&
   with_new0 (card_new) (lit "#c == 0") (fun m6 =>
   (is_true (singleton_is_match (tO 80) false m6 [f1; f2; f3])) && true))))))) = true.
Proof. vm_compute. reflexivity. Qed.

(** /repo/src/matcher/subfield/mod.rs:906-914 *)
Example sub_doc_906 :
  (let s := fresh in
   with_new0 (card_new) (lit "#a >= 3") (fun m1 =>
   bytes_eqb (singleton_display m1) (lit "#a >= 3") && true)) = true.
Proof. vm_compute. reflexivity. Qed.

(** /repo/src/matcher/subfield/mod.rs:946-952 *)
Example sub_doc_946 :
  (let s := fresh in
   with_new0 (card_new) (lit "#a > 5") (fun m1 => true)) = true.
Proof. vm_compute. reflexivity. Qed.

(** /repo/src/matcher/subfield/mod.rs:967-982 *)
Example sub_doc_967 :
  (let s := fresh in
   with_some (subfield_new 97 (lit "foo")) (fun f1 =>
   with_new0 (singleton_new (tO 80)) (lit "a == 'foo'") (fun m2 =>
   (is_true (singleton_is_match (tO 80) false m2 [f1])) &&
   with_new0 (singleton_new (tO 80)) (lit "#a == 1") (fun m3 =>
   (is_true (singleton_is_match (tO 80) false m3 [f1])) && true)))) = true.
Proof. vm_compute. reflexivity. Qed.

(** /repo/src/matcher/subfield/mod.rs:1006-1013 *)
Example sub_doc_1006 :
  (let s := fresh in
   with_new0 (singleton_new (tO 80)) (lit "#a >= 3") (fun m1 =>
   bytes_eqb (singleton_display m1) (lit "#a >= 3") && true)) = true.
Proof. vm_compute. reflexivity. Qed.

(** /repo/src/matcher/subfield/mod.rs:1052-1058 *)
Example sub_doc_1052 :
  (let s := fresh in
   with_new (subfield_matcher_new (tO 80)) s (lit "a == 'foo'") (fun m1 s => true)) = true.
Proof. vm_compute. reflexivity. Qed.

(** /repo/src/matcher/subfield/mod.rs:1073-1085 *)
Example sub_doc_1073 :
  (let s := fresh in
   with_some (subfield_new 97 (lit "foo")) (fun f1 =>
   with_new (subfield_matcher_new (tO 80)) s (lit "a =^ 'f' && (a =$ 'o')") (fun m2 s =>
   (is_true (sm_is_match (tO 80) false m2 [f1])) && true))) = true.
Proof. vm_compute. reflexivity. Qed.

(** /repo/src/matcher/subfield/mod.rs:1115-1136 *)
Example sub_doc_1115 :
  (let s := fresh in
   with_new (subfield_matcher_new (tO 80)) s (lit "#a >= 3") (fun m1 s =>
   bytes_eqb (sm_display m1) (lit "#a >= 3") &&
   with_new (subfield_matcher_new (tO 80)) s (lit "a == 'foo' || a == 'bar'") (fun m2 s =>
   with_new (subfield_matcher_new (tO 80)) s (lit "c == 'baz'") (fun m3 s =>
   let m4 := sm_and_assign m2 m3 in
   bytes_eqb (sm_display m4) (lit "(a == 'foo' || a == 'bar') && c == 'baz'") &&
   with_new (subfield_matcher_new (tO 80)) s (lit "a == 'foo'") (fun m5 s =>
   with_new (subfield_matcher_new (tO 80)) s (lit "b == 'bar' ^ b == 'baz'") (fun m6 s =>
   let m7 := sm_and_assign m5 m6 in
   bytes_eqb (sm_display m7) (lit "a == 'foo' && (b == 'bar' ^ b == 'baz')") && true)))))) = true.
Proof. vm_compute. reflexivity. Qed.

(** /repo/src/matcher/subfield/mod.rs:1157-1171 *)
Example sub_doc_1157 :
  (let s := fresh in
   with_some (subfield_new 97 (lit "foobar")) (fun f1 =>
   with_new (subfield_matcher_new (tO 80)) s (lit "a =^ 'foo'") (fun m2 s =>
   with_new (subfield_matcher_new (tO 80)) s (lit "a =$ 'bar'") (fun m3 s =>
   (is_true (sm_is_match (tO 80) false (sm_and m2 m3) [f1])) && true)))) = true.
Proof. vm_compute. reflexivity. Qed.

(** /repo/src/matcher/subfield/mod.rs:1200-1212 *)
Example sub_doc_1200 :
  (let s := fresh in
   with_some (subfield_new 97 (lit "foobar")) (fun f1 =>
   with_new (subfield_matcher_new (tO 80)) s (lit "a =^ 'foo'") (fun m2 s =>
   with_new (subfield_matcher_new (tO 80)) s (lit "a =$ 'bar'") (fun m3 s =>
   let m4 := sm_and_assign m2 m3 in
   (is_true (sm_is_match (tO 80) false m4 [f1])) && true)))) = true.
Proof. vm_compute. reflexivity. Qed.

(** /repo/src/matcher/subfield/mod.rs:1242-1255 *)
Example sub_doc_1242 :
  (let s := fresh in
   with_some (subfield_new 97 (lit "bar")) (fun f1 =>
   with_new (subfield_matcher_new (tO 80)) s (lit "a == 'foo'") (fun m2 s =>
   with_new (subfield_matcher_new (tO 80)) s (lit "a == 'bar'") (fun m3 s =>
   (is_true (sm_is_match (tO 80) false (sm_or m2 m3) [f1])) && true)))) = true.
Proof. vm_compute. reflexivity. Qed.

(** /repo/src/matcher/subfield/mod.rs:1272-1284 *)
Example sub_doc_1272 :
  (let s := fresh in
   with_some (subfield_new 97 (lit "foo")) (fun f1 =>
   with_new (subfield_matcher_new (tO 80)) s (lit "a == 'foo'") (fun m2 s =>
   with_new (subfield_matcher_new (tO 80)) s (lit "a == 'bar'") (fun m3 s =>
   let m4 := sm_or_assign m2 m3 in
   (is_true (sm_is_match (tO 80) false m4 [f1])) && true)))) = true.
Proof. vm_compute. reflexivity. Qed.

(** /repo/src/matcher/subfield/mod.rs:1302-1315 *)
Example sub_doc_1302 :
  (let s := fresh in
   with_some (subfield_new 97 (lit "bar")) (fun f1 =>
   with_new (subfield_matcher_new (tO 80)) s (lit "a == 'foo'") (fun m2 s =>
   with_new (subfield_matcher_new (tO 80)) s (lit "a == 'bar'") (fun m3 s =>
   (is_true (sm_is_match (tO 80) false (sm_xor m2 m3) [f1])) && true)))) = true.
Proof. vm_compute. reflexivity. Qed.

(** /repo/src/matcher/subfield/mod.rs:1342-1354 *)
Example sub_doc_1342 :
  (let s := fresh in
   with_some (subfield_new 97 (lit "foo")) (fun f1 =>
   with_new (subfield_matcher_new (tO 80)) s (lit "a == 'foo'") (fun m2 s =>
   with_new (subfield_matcher_new (tO 80)) s (lit "a == 'bar'") (fun m3 s =>
   let m4 := sm_xor_assign m2 m3 in
   (is_true (sm_is_match (tO 80) false m4 [f1])) && true)))) = true.
Proof. vm_compute. reflexivity. Qed.

(** /repo/src/matcher/subfield/mod.rs:1382-1396 *)
Example sub_doc_1382 :
  (let s := fresh in
   with_some (subfield_new 97 (lit "foo")) (fun f1 =>
   with_new (subfield_matcher_new (tO 80)) s (lit "a == 'bar'") (fun m2 s =>
   (is_true (sm_is_match (tO 80) false (sm_not m2) [f1])) &&
   with_new (subfield_matcher_new (tO 80)) s (lit "a == 'foo'") (fun m3 s =>
   (negb (is_true (sm_is_match (tO 80) false (sm_not m3) [f1]))) && true)))) = true.
Proof. vm_compute. reflexivity. Qed.

(** /repo/src/matcher/subfield/mod.rs:1438-1445 *)
Example sub_test_subfield_matcher_serde :
  (let s := fresh in
   with_new (subfield_matcher_new (tO 80)) s (lit "a? && (b? || c?)") (fun m1 s =>
   bytes_eqb (sm_display m1) (lit "a? && (b? || c?)") &&
   with_new (subfield_matcher_new (tO 80)) s (lit "a? && (b? || c?) ") (fun m2 s =>
   bytes_eqb (sm_display m2) (lit "a? && (b? || c?)") && true))) = true.
Proof. vm_compute. reflexivity. Qed.

(** /repo/src/matcher/subfield/mod.rs:1448-1476 *)
Example sub_test_cardinality_matcher :
  (let s := fresh in
   with_some (subfield_new 97 (lit "foo")) (fun f1 =>
   with_some (subfield_new 97 (lit "bar")) (fun f2 =>
   with_some (subfield_new 98 (lit "baz")) (fun f3 =>
   with_new0 (card_new) (lit "#c == 0") (fun m4 =>
   (is_true (singleton_is_match (tO 80) false m4 [f1; f2; f3])) &&
   with_new0 (card_new) (lit "#a != 1") (fun m5 =>
   (is_true (singleton_is_match (tO 80) false m5 [f1; f2; f3])) &&
   with_new0 (card_new) (lit "#a >= 2") (fun m6 =>
   (is_true (singleton_is_match (tO 80) false m6 [f1; f2; f3])) &&
   with_new0 (card_new) (lit "#a > 1") (fun m7 =>
   (is_true (singleton_is_match (tO 80) false m7 [f1; f2; f3])) &&
   with_new0 (card_new) (lit "#b <= 2") (fun m8 =>
   (is_true (singleton_is_match (tO 80) false m8 [f1; f2; f3])) &&
   with_new0 (card_new) (lit "#c < 1") (fun m9 =>
   (is_true (singleton_is_match (tO 80) false m9 [f1; f2; f3])) && true)))))))))) = true.
Proof. vm_compute. reflexivity. Qed.

(** /repo/src/matcher/subfield/mod.rs:1479-1513 *)
Example sub_test_regex_matcher :
  (let s := fresh in
   with_some (subfield_new 97 (lit "foo")) (fun f1 =>
   with_some (subfield_new 97 (lit "bar")) (fun f2 =>
   with_some (subfield_new 98 (lit "baz")) (fun f3 =>
   with_new0 (regex_new (tO 80)) (lit "a =~ '^f.o$'") (fun m4 =>
   (is_true (singleton_is_match (tO 80) false m4 [f1; f2; f3])) &&
   with_new0 (regex_new (tO 80)) (lit "ANY a =~ '^f.o$'") (fun m5 =>
   (is_true (singleton_is_match (tO 80) false m5 [f1; f2; f3])) &&
   with_new0 (regex_new (tO 80)) (lit "ALL a =~ '^f.o$'") (fun m6 =>
   (negb (is_true (singleton_is_match (tO 80) false m6 [f1; f2; f3]))) &&
   with_new0 (regex_new (tO 80)) (lit "a !~ '^f.o$'") (fun m7 =>
   (is_true (singleton_is_match (tO 80) false m7 [f1; f2; f3])) &&
   with_new0 (regex_new (tO 80)) (lit "ANY a !~ '^f.o$'") (fun m8 =>
   (is_true (singleton_is_match (tO 80) false m8 [f1; f2; f3])) &&
   with_new0 (regex_new (tO 80)) (lit "ALL a !~ '^f.o$'") (fun m9 =>
   (negb (is_true (singleton_is_match (tO 80) false m9 [f1; f2; f3]))) &&
   with_new0 (regex_new (tO 80)) (lit "b !~ '^b.z$'") (fun m10 =>
   (negb (is_true (singleton_is_match (tO 80) false m10 [f1; f2; f3]))) &&
   with_new0 (regex_new (tO 80)) (lit "a =~ '^F.O$'") (fun m11 =>
   (is_true (singleton_is_match (tO 80) true m11 [f1; f2; f3])) && true)))))))))))) = true.
Proof. vm_compute. reflexivity. Qed.

(** /repo/src/matcher/subfield/mod.rs:1516-1551 *)
Example sub_test_regex_set_matcher :
  (let s := fresh in
   with_some (subfield_new 97 (lit "foo")) (fun f1 =>
   with_some (subfield_new 97 (lit "bar")) (fun f2 =>
   with_some (subfield_new 98 (lit "baz")) (fun f3 =>
   with_new0 (regex_set_new (tO 80)) (lit "a =~ ['^f.o$', '^bar']") (fun m4 =>
   (is_true (singleton_is_match (tO 80) false m4 [f1; f2; f3])) &&
   with_new0 (regex_set_new (tO 80)) (lit "ANY a =~ ['^f.o$', '^bar']") (fun m5 =>
   (is_true (singleton_is_match (tO 80) false m5 [f1; f2; f3])) &&
   with_new0 (regex_set_new (tO 80)) (lit "ALL a =~ ['^f.o$', '^bar']") (fun m6 =>
   (is_true (singleton_is_match (tO 80) false m6 [f1; f2; f3])) &&
   with_new0 (regex_set_new (tO 80)) (lit "a !~ ['^f.o$', '^bar']") (fun m7 =>
   (negb (is_true (singleton_is_match (tO 80) false m7 [f1; f2; f3]))) &&
   with_new0 (regex_set_new (tO 80)) (lit "ANY a !~ ['^f.o$', '^bar']") (fun m8 =>
   (negb (is_true (singleton_is_match (tO 80) false m8 [f1; f2; f3]))) &&
   with_new0 (regex_set_new (tO 80)) (lit "ALL a !~ ['^f.o$', '^bar']") (fun m9 =>
   (negb (is_true (singleton_is_match (tO 80) false m9 [f1; f2; f3]))) &&
   with_new0 (regex_set_new (tO 80)) (lit "a =~ ['^F.O$', '^BAR']") (fun m10 =>
   (is_true (singleton_is_match (tO 80) true m10 [f1; f2; f3])) && true))))))))))) = true.
Proof. vm_compute. reflexivity. Qed.

(** /repo/src/matcher/subfield/mod.rs:1554-1617 *)
Example sub_test_relation_matcher :
  (let s := fresh in
   with_some (subfield_new 97 (lit "foo")) (fun f1 =>
   with_some (subfield_new 97 (lit "bar")) (fun f2 =>
   with_some (subfield_new 98 (lit "baz")) (fun f3 =>
   with_new0 (relation_new) (lit "a == 'foo'") (fun m4 =>
   (is_true (singleton_is_match (tO 80) false m4 [f1; f2; f3])) &&
   with_new0 (relation_new) (lit "a == 'baz'") (fun m5 =>
   (negb (is_true (singleton_is_match (tO 80) false m5 [f1; f2; f3]))) &&
   with_new0 (relation_new) (lit "a != 'foo'") (fun m6 =>
   (is_true (singleton_is_match (tO 80) false m6 [f1; f2; f3])) &&
   with_new0 (relation_new) (lit "b != 'baz'") (fun m7 =>
   (negb (is_true (singleton_is_match (tO 80) false m7 [f1; f2; f3]))) &&
   with_new0 (relation_new) (lit "a =^ 'fo'") (fun m8 =>
   (is_true (singleton_is_match (tO 80) false m8 [f1; f2; f3])) &&
   with_new0 (relation_new) (lit "a =^ 'FO'") (fun m9 =>
   (negb (is_true (singleton_is_match (tO 80) false m9 [f1; f2; f3]))) &&
   with_new0 (relation_new) (lit "a !^ 'fo'") (fun m10 =>
   (is_true (singleton_is_match (tO 80) false m10 [f1; f2; f3])) &&
   with_new0 (relation_new) (lit "b !^ 'b'") (fun m11 =>
   (negb (is_true (singleton_is_match (tO 80) false m11 [f1; f2; f3]))) &&
   with_new0 (relation_new) (lit "a =$ 'o'") (fun m12 =>
   (is_true (singleton_is_match (tO 80) false m12 [f1; f2; f3])) &&
   with_new0 (relation_new) (lit "a =$ 'O'") (fun m13 =>
   (negb (is_true (singleton_is_match (tO 80) false m13 [f1; f2; f3]))) &&
   with_new0 (relation_new) (lit "a !$ 'o'") (fun m14 =>
   (is_true (singleton_is_match (tO 80) false m14 [f1; f2; f3])) &&
   with_new0 (relation_new) (lit "b !$ 'z'") (fun m15 =>
   (negb (is_true (singleton_is_match (tO 80) false m15 [f1; f2; f3]))) &&
   with_new0 (relation_new) (lit "a =* 'foo'") (fun m16 =>
   (is_true (singleton_is_match (tO 80) false m16 [f1; f2; f3])) &&
   with_new0 (relation_new) (lit "a =* 'foO'") (fun m17 =>
   (negb (is_true (singleton_is_match (tO 80) false m17 [f1; f2; f3]))) &&
   with_new0 (relation_new) (lit "a == 'FOO'") (fun m18 =>
   (is_true (singleton_is_match (tO 80) true m18 [f1; f2; f3])) &&
   with_new0 (relation_new) (lit "a =* 'foO'") (fun m19 =>
   (is_true (singleton_is_match (tO 80) true m19 [f1; f2; f3])) &&
   with_new0 (relation_new) (lit "a =* 'foO'") (fun m20 =>
   (is_true (singleton_is_match (tO 65) false m20 [f1; f2; f3])) && true))))))))))))))))))))) = true.
Proof. vm_compute. reflexivity. Qed.

(** /repo/src/matcher/subfield/mod.rs:1620-1635 *)
Example sub_test_exists_matcher :
  (let s := fresh in
   with_some (subfield_new 97 (lit "foo")) (fun f1 =>
   with_some (subfield_new 97 (lit "bar")) (fun f2 =>
   with_some (subfield_new 98 (lit "baz")) (fun f3 =>
   with_new0 (exists_new) (lit "a?") (fun m4 =>
   (is_true (singleton_is_match (tO 80) false m4 [f1; f2; f3])) &&
   with_new0 (exists_new) (lit "c?") (fun m5 =>
   (negb (is_true (singleton_is_match (tO 80) false m5 [f1; f2; f3]))) && true)))))) = true.
Proof. vm_compute. reflexivity. Qed.

(** /repo/src/matcher/subfield/mod.rs:1638-1663 *)
Example sub_test_in_matcher :
  (let s := fresh in
   with_some (subfield_new 97 (lit "foo")) (fun f1 =>
   with_some (subfield_new 97 (lit "bar")) (fun f2 =>
   with_some (subfield_new 98 (lit "baz")) (fun f3 =>
   with_new0 (in_new) (lit "a in ['foo', 'baz']") (fun m4 =>
   (is_true (singleton_is_match (tO 80) false m4 [f1; f2; f3])) &&
   with_new0 (in_new) (lit "a in ['frob', 'baz']") (fun m5 =>
   (negb (is_true (singleton_is_match (tO 80) false m5 [f1; f2; f3]))) &&
   with_new0 (in_new) (lit "a not in ['foo', 'baz']") (fun m6 =>
   (is_true (singleton_is_match (tO 80) false m6 [f1; f2; f3])) &&
   with_new0 (in_new) (lit "b not in ['frob', 'baz']") (fun m7 =>
   (negb (is_true (singleton_is_match (tO 80) false m7 [f1; f2; f3]))) &&
   with_new0 (in_new) (lit "a in ['FOO', 'BAZ']") (fun m8 =>
   (is_true (singleton_is_match (tO 80) true m8 [f1; f2; f3])) && true))))))))) = true.
Proof. vm_compute. reflexivity. Qed.

(** /repo/src/matcher/subfield/mod.rs:1666-1758 *)
Example sub_test_contains_set_matcher :
  (let s := fresh in
   with_some (subfield_new 97 (lit "foo")) (fun f1 =>
   with_some (subfield_new 97 (lit "bar")) (fun f2 =>
   with_some (subfield_new 98 (lit "baz")) (fun f3 =>
   with_new0 (contains_new) (lit "a =? ['foo', 'baz']") (fun m4 =>
   (is_true (singleton_is_match (tO 80) false m4 [f1; f2; f3])) &&
   with_new0 (contains_new) (lit "a =? 'foo'") (fun m5 =>
   (is_true (singleton_is_match (tO 80) false m5 [f1; f2; f3])) &&
   with_new0 (contains_new) (lit "a =? ['xy', 'ba']") (fun m6 =>
   (is_true (singleton_is_match (tO 80) false m6 [f1; f2; f3])) &&
   with_new0 (contains_new) (lit "a =? 'ba'") (fun m7 =>
   (is_true (singleton_is_match (tO 80) false m7 [f1; f2; f3])) &&
   with_new0 (contains_new) (lit "a =? ['xy', '']") (fun m8 =>
   (is_true (singleton_is_match (tO 80) false m8 [f1; f2; f3])) &&
   with_new0 (contains_new) (lit "a =? ''") (fun m9 =>
   (is_true (singleton_is_match (tO 80) false m9 [f1; f2; f3])) &&
   with_new0 (contains_new) (lit "a =? ['xy', 'yz']") (fun m10 =>
   (negb (is_true (singleton_is_match (tO 80) false m10 [f1; f2; f3]))) &&
   with_new0 (contains_new) (lit "a =? 'xy'") (fun m11 =>
   (negb (is_true (singleton_is_match (tO 80) false m11 [f1; f2; f3]))) &&
   with_new0 (contains_new) (lit "a =? ['xy', 'OO']") (fun m12 =>
   (negb (is_true (singleton_is_match (tO 80) false m12 [f1; f2; f3]))) &&
   with_new0 (contains_new) (lit "a =? 'OO'") (fun m13 =>
   (negb (is_true (singleton_is_match (tO 80) false m13 [f1; f2; f3]))) &&
   with_new0 (contains_new) (lit "a =? ['xy', 'OO']") (fun m14 =>
   (is_true (singleton_is_match (tO 80) true m14 [f1; f2; f3])) &&
   with_new0 (contains_new) (lit "a =? 'OO'") (fun m15 =>
   (is_true (singleton_is_match (tO 80) true m15 [f1; f2; f3])) &&
   with_some (subfield_new 97 (lit "bar")) (fun f16 =>
   with_some (subfield_new 97 (lit "baz")) (fun f17 =>
   with_new0 (contains_new) (lit "ANY a =? ['xy','ba']") (fun m18 =>
   (is_true (singleton_is_match (tO 80) false m18 [f16; f17])) &&
   with_new0 (contains_new) (lit "ANY a =? 'ba'") (fun m19 =>
   (is_true (singleton_is_match (tO 80) false m19 [f16; f17])) &&
   with_new0 (contains_new) (lit "ALL a =? ['xy','ba']") (fun m20 =>
   (is_true (singleton_is_match (tO 80) false m20 [f16; f17])) &&
   with_new0 (contains_new) (lit "ALL a =? 'ba'") (fun m21 =>
   (is_true (singleton_is_match (tO 80) false m21 [f16; f17])) &&
   with_new0 (contains_new) (lit "ANY a =? ['xy','bar']") (fun m22 =>
   (is_true (singleton_is_match (tO 80) false m22 [f16; f17])) &&
   with_new0 (contains_new) (lit "ANY a =? 'bar'") (fun m23 =>
   (is_true (singleton_is_match (tO 80) false m23 [f16; f17])) &&
   with_new0 (contains_new) (lit "ALL a =? ['xy','bar']") (fun m24 =>
   (negb (is_true (singleton_is_match (tO 80) false m24 [f16; f17]))) &&
   with_new0 (contains_new) (lit "ALL a =? 'bar'") (fun m25 =>
   (negb (is_true (singleton_is_match (tO 80) false m25 [f16; f17]))) && true)))))))))))))))))))))))))) = true.
Proof. vm_compute. reflexivity. Qed.

(** /repo/src/matcher/subfield/mod.rs:1761-1776 *)
Example sub_test_subfield_matcher_group :
  (let s := fresh in
   with_some (subfield_new 97 (lit "foo")) (fun f1 =>
   with_some (subfield_new 98 (lit "bar")) (fun f2 =>
   with_some (subfield_new 99 (lit "baz")) (fun f3 =>
   with_new (subfield_matcher_new (tO 80)) s (lit "(a?)") (fun m4 s =>
   (is_true (sm_is_match (tO 80) false m4 [f1; f2; f3])) &&
   with_new (subfield_matcher_new (tO 80)) s (lit "(a? && b == 'bar')") (fun m5 s =>
   (is_true (sm_is_match (tO 80) false m5 [f1; f2; f3])) && true)))))) = true.
Proof. vm_compute. reflexivity. Qed.

(** /repo/src/matcher/subfield/mod.rs:1779-1797 *)
Example sub_test_subfield_matcher_not :
  (let s := fresh in
   with_some (subfield_new 97 (lit "foo")) (fun f1 =>
   with_some (subfield_new 98 (lit "bar")) (fun f2 =>
   with_some (subfield_new 99 (lit "baz")) (fun f3 =>
   with_new (subfield_matcher_new (tO 80)) s (lit "!d?") (fun m4 s =>
   (is_true (sm_is_match (tO 80) false m4 [f1; f2; f3])) &&
   with_new (subfield_matcher_new (tO 80)) s (lit "!a?") (fun m5 s =>
   (negb (is_true (sm_is_match (tO 80) false m5 [f1; f2; f3]))) &&
   with_new (subfield_matcher_new (tO 80)) s (lit "!(d? || a?)") (fun m6 s =>
   (negb (is_true (sm_is_match (tO 80) false m6 [f1; f2; f3]))) && true))))))) = true.
Proof. vm_compute. reflexivity. Qed.

(** /repo/src/matcher/subfield/mod.rs:1800-1827 *)
Example sub_test_subfield_matcher_and :
  (let s := fresh in
   with_some (subfield_new 97 (lit "foo")) (fun f1 =>
   with_some (subfield_new 97 (lit "bar")) (fun f2 =>
   with_some (subfield_new 98 (lit "baz")) (fun f3 =>
   with_new (subfield_matcher_new (tO 80)) s (lit "a? && b?") (fun m4 s =>
   (is_true (sm_is_match (tO 80) false m4 [f1; f2; f3])) &&
   with_new (subfield_matcher_new (tO 80)) s (lit "a? && b? && c?") (fun m5 s =>
   (negb (is_true (sm_is_match (tO 80) false m5 [f1; f2; f3]))) &&
   with_new (subfield_matcher_new (tO 80)) s (lit "a? && b? || c?") (fun m6 s =>
   (is_true (sm_is_match (tO 80) false m6 [f1; f2; f3])) &&
   with_new (subfield_matcher_new (tO 80)) s (lit "a? || b? && c?") (fun m7 s =>
   (is_true (sm_is_match (tO 80) false m7 [f1; f2; f3])) &&
   with_new (subfield_matcher_new (tO 80)) s (lit "c? || b? && c?") (fun m8 s =>
   (negb (is_true (sm_is_match (tO 80) false m8 [f1; f2; f3]))) &&
   with_new (subfield_matcher_new (tO 80)) s (lit "b? && c? || c?") (fun m9 s =>
   (negb (is_true (sm_is_match (tO 80) false m9 [f1; f2; f3]))) && true)))))))))) = true.
Proof. vm_compute. reflexivity. Qed.

(** /repo/src/matcher/subfield/mod.rs:1830-1857 *)
Example sub_test_subfield_matcher_or :
  (let s := fresh in
   with_some (subfield_new 97 (lit "foo")) (fun f1 =>
   with_some (subfield_new 97 (lit "bar")) (fun f2 =>
   with_some (subfield_new 98 (lit "baz")) (fun f3 =>
   with_new (subfield_matcher_new (tO 80)) s (lit "a? || b?") (fun m4 s =>
   (is_true (sm_is_match (tO 80) false m4 [f1; f2; f3])) &&
   with_new (subfield_matcher_new (tO 80)) s (lit "a? || b? || c?") (fun m5 s =>
   (is_true (sm_is_match (tO 80) false m5 [f1; f2; f3])) &&
   with_new (subfield_matcher_new (tO 80)) s (lit "(a? && b?) || c?") (fun m6 s =>
   (is_true (sm_is_match (tO 80) false m6 [f1; f2; f3])) &&
   with_new (subfield_matcher_new (tO 80)) s (lit "a? || (b? && c?)") (fun m7 s =>
   (is_true (sm_is_match (tO 80) false m7 [f1; f2; f3])) &&
   with_new (subfield_matcher_new (tO 80)) s (lit "(a? || b?) && c? || d?") (fun m8 s =>
   (negb (is_true (sm_is_match (tO 80) false m8 [f1; f2; f3]))) &&
   with_new (subfield_matcher_new (tO 80)) s (lit "a? && (b? || c?) || d?") (fun m9 s =>
   (is_true (sm_is_match (tO 80) false m9 [f1; f2; f3])) && true)))))))))) = true.
Proof. vm_compute. reflexivity. Qed.

(** /repo/src/matcher/subfield/mod.rs:1860-1884 *)
Example sub_test_subfield_matcher_xor :
  (let s := fresh in
   with_some (subfield_new 97 (lit "foo")) (fun f1 =>
   with_some (subfield_new 97 (lit "bar")) (fun f2 =>
   with_some (subfield_new 98 (lit "baz")) (fun f3 =>
   with_new (subfield_matcher_new (tO 80)) s (lit "a? ^ b?") (fun m4 s =>
   (negb (is_true (sm_is_match (tO 80) false m4 [f1; f2; f3]))) &&
   with_new (subfield_matcher_new (tO 80)) s (lit "a? ^ b? ^ c?") (fun m5 s =>
   (negb (is_true (sm_is_match (tO 80) false m5 [f1; f2; f3]))) &&
   with_new (subfield_matcher_new (tO 80)) s (lit "a? ^ c?") (fun m6 s =>
   (is_true (sm_is_match (tO 80) false m6 [f1; f2; f3])) &&
   with_new (subfield_matcher_new (tO 80)) s (lit "c? ^ a?") (fun m7 s =>
   (is_true (sm_is_match (tO 80) false m7 [f1; f2; f3])) &&
   with_new (subfield_matcher_new (tO 80)) s (lit "c? ^ d?") (fun m8 s =>
   (negb (is_true (sm_is_match (tO 80) false m8 [f1; f2; f3]))) && true))))))))) = true.
Proof. vm_compute. reflexivity. Qed.

(** /repo/src/matcher/subfield/mod.rs:1887-1919 *)
Example sub_test_subfield_matcher_bitand :
  (let s := fresh in
   with_new (subfield_matcher_new (tO 80)) s (lit "a? && b?") (fun m1 s =>
   with_new (subfield_matcher_new (tO 80)) s (lit "a?") (fun m2 s =>
   with_new (subfield_matcher_new (tO 80)) s (lit "b?") (fun m3 s =>
   sm_same (sm_and m2 m3) m1 &&
   with_new (subfield_matcher_new (tO 80)) s (lit "(a? || b?) && c?") (fun m4 s =>
   with_new (subfield_matcher_new (tO 80)) s (lit "a? || b?") (fun m5 s =>
   with_new (subfield_matcher_new (tO 80)) s (lit "c?") (fun m6 s =>
   sm_same (sm_and m5 m6) m4 &&
   with_new (subfield_matcher_new (tO 80)) s (lit "a? && (b? || c?)") (fun m7 s =>
   with_new (subfield_matcher_new (tO 80)) s (lit "a?") (fun m8 s =>
   with_new (subfield_matcher_new (tO 80)) s (lit "(b? || c?)") (fun m9 s =>
   sm_same (sm_and m8 m9) m7 &&
   with_new (subfield_matcher_new (tO 80)) s (lit "(a? ^ b?) && c?") (fun m10 s =>
   with_new (subfield_matcher_new (tO 80)) s (lit "a? ^ b?") (fun m11 s =>
   with_new (subfield_matcher_new (tO 80)) s (lit "c?") (fun m12 s =>
   sm_same (sm_and m11 m12) m10 &&
   with_new (subfield_matcher_new (tO 80)) s (lit "a? && (b? ^ c?)") (fun m13 s =>
   with_new (subfield_matcher_new (tO 80)) s (lit "a?") (fun m14 s =>
   with_new (subfield_matcher_new (tO 80)) s (lit "(b? ^ c?)") (fun m15 s =>
   sm_same (sm_and m14 m15) m13 &&
   with_new (subfield_matcher_new (tO 80)) s (lit "a? && b? && c?") (fun m16 s =>
   with_new (subfield_matcher_new (tO 80)) s (lit "a? && b?") (fun m17 s =>
   with_new (subfield_matcher_new (tO 80)) s (lit "c?") (fun m18 s =>
   sm_same (sm_and m17 m18) m16 && true))))))))))))))))))) = true.
Proof. vm_compute. reflexivity. Qed.

(** /repo/src/matcher/subfield/mod.rs:1922-1949 *)
Example sub_test_subfield_matcher_bitand_assign :
  (let s := fresh in
   with_new (subfield_matcher_new (tO 80)) s (lit "a? && b?") (fun m1 s =>
   with_new (subfield_matcher_new (tO 80)) s (lit "a?") (fun m2 s =>
   with_new (subfield_matcher_new (tO 80)) s (lit "b?") (fun m3 s =>
   let m4 := sm_and_assign m2 m3 in
   sm_same m4 m1 &&
   with_new (subfield_matcher_new (tO 80)) s (lit "(a? || b?) && c?") (fun m5 s =>
   with_new (subfield_matcher_new (tO 80)) s (lit "a? || b?") (fun m6 s =>
   with_new (subfield_matcher_new (tO 80)) s (lit "c?") (fun m7 s =>
   let m8 := sm_and_assign m6 m7 in
   sm_same m8 m5 &&
   with_new (subfield_matcher_new (tO 80)) s (lit "a? && (b? || c?)") (fun m9 s =>
   with_new (subfield_matcher_new (tO 80)) s (lit "a?") (fun m10 s =>
   with_new (subfield_matcher_new (tO 80)) s (lit "(b? || c?)") (fun m11 s =>
   let m12 := sm_and_assign m10 m11 in
   sm_same m12 m9 &&
   with_new (subfield_matcher_new (tO 80)) s (lit "(a? ^ b?) && c?") (fun m13 s =>
   with_new (subfield_matcher_new (tO 80)) s (lit "a? ^ b?") (fun m14 s =>
   with_new (subfield_matcher_new (tO 80)) s (lit "c?") (fun m15 s =>
   let m16 := sm_and_assign m14 m15 in
   sm_same m16 m13 &&
   with_new (subfield_matcher_new (tO 80)) s (lit "a? && (b? ^ c?)") (fun m17 s =>
   with_new (subfield_matcher_new (tO 80)) s (lit "a?") (fun m18 s =>
   with_new (subfield_matcher_new (tO 80)) s (lit "(b? ^ c?)") (fun m19 s =>
   let m20 := sm_and_assign m18 m19 in
   sm_same m20 m17 && true)))))))))))))))) = true.
Proof. vm_compute. reflexivity. Qed.

(** /repo/src/matcher/subfield/mod.rs:1952-1974 *)
Example sub_test_subfield_matcher_bitxor :
  (let s := fresh in
   with_new (subfield_matcher_new (tO 80)) s (lit "a? ^ b?") (fun m1 s =>
   with_new (subfield_matcher_new (tO 80)) s (lit "a?") (fun m2 s =>
   with_new (subfield_matcher_new (tO 80)) s (lit "b?") (fun m3 s =>
   sm_same (sm_xor m2 m3) m1 &&
   with_new (subfield_matcher_new (tO 80)) s (lit "(a? || b?) ^ c?") (fun m4 s =>
   with_new (subfield_matcher_new (tO 80)) s (lit "a? || b?") (fun m5 s =>
   with_new (subfield_matcher_new (tO 80)) s (lit "c?") (fun m6 s =>
   sm_same (sm_xor m5 m6) m4 &&
   with_new (subfield_matcher_new (tO 80)) s (lit "a? ^ (b? || c?)") (fun m7 s =>
   with_new (subfield_matcher_new (tO 80)) s (lit "a?") (fun m8 s =>
   with_new (subfield_matcher_new (tO 80)) s (lit "(b? || c?)") (fun m9 s =>
   sm_same (sm_xor m8 m9) m7 &&
   with_new (subfield_matcher_new (tO 80)) s (lit "a? ^ b? ^ c?") (fun m10 s =>
   with_new (subfield_matcher_new (tO 80)) s (lit "a? ^ b?") (fun m11 s =>
   with_new (subfield_matcher_new (tO 80)) s (lit "c?") (fun m12 s =>
   sm_same (sm_xor m11 m12) m10 && true))))))))))))) = true.
Proof. vm_compute. reflexivity. Qed.

(** /repo/src/matcher/subfield/mod.rs:1977-1999 *)
Example sub_test_subfield_matcher_bitxor_assign :
  (let s := fresh in
   with_new (subfield_matcher_new (tO 80)) s (lit "a? ^ b?") (fun m1 s =>
   with_new (subfield_matcher_new (tO 80)) s (lit "a?") (fun m2 s =>
   with_new (subfield_matcher_new (tO 80)) s (lit "b?") (fun m3 s =>
   let m4 := sm_xor_assign m2 m3 in
   sm_same m4 m1 &&
   with_new (subfield_matcher_new (tO 80)) s (lit "(a? || b?) ^ c?") (fun m5 s =>
   with_new (subfield_matcher_new (tO 80)) s (lit "a? || b?") (fun m6 s =>
   with_new (subfield_matcher_new (tO 80)) s (lit "c?") (fun m7 s =>
   let m8 := sm_xor_assign m6 m7 in
   sm_same m8 m5 &&
   with_new (subfield_matcher_new (tO 80)) s (lit "a? ^ (b? || c?)") (fun m9 s =>
   with_new (subfield_matcher_new (tO 80)) s (lit "a?") (fun m10 s =>
   with_new (subfield_matcher_new (tO 80)) s (lit "(b? || c?)") (fun m11 s =>
   let m12 := sm_xor_assign m10 m11 in
   sm_same m12 m9 &&
   with_new (subfield_matcher_new (tO 80)) s (lit "a? ^ b? ^ c?") (fun m13 s =>
   with_new (subfield_matcher_new (tO 80)) s (lit "a? ^ b?") (fun m14 s =>
   with_new (subfield_matcher_new (tO 80)) s (lit "c?") (fun m15 s =>
   let m16 := sm_xor_assign m14 m15 in
   sm_same m16 m13 && true))))))))))))) = true.
Proof. vm_compute. reflexivity. Qed.

(** /repo/src/matcher/subfield/mod.rs:2002-2014 *)
Example sub_test_subfield_matcher_bitor :
  (let s := fresh in
   with_new (subfield_matcher_new (tO 80)) s (lit "a? || b?") (fun m1 s =>
   with_new (subfield_matcher_new (tO 80)) s (lit "a?") (fun m2 s =>
   with_new (subfield_matcher_new (tO 80)) s (lit "b?") (fun m3 s =>
   sm_same (sm_or m2 m3) m1 &&
   with_new (subfield_matcher_new (tO 80)) s (lit "a? || b? || c?") (fun m4 s =>
   with_new (subfield_matcher_new (tO 80)) s (lit "a? || b?") (fun m5 s =>
   with_new (subfield_matcher_new (tO 80)) s (lit "c?") (fun m6 s =>
   sm_same (sm_or m5 m6) m4 && true))))))) = true.
Proof. vm_compute. reflexivity. Qed.

(** /repo/src/matcher/subfield/mod.rs:2017-2029 *)
Example sub_test_subfield_matcher_bitor_assign :
  (let s := fresh in
   with_new (subfield_matcher_new (tO 80)) s (lit "a? || b?") (fun m1 s =>
   with_new (subfield_matcher_new (tO 80)) s (lit "a?") (fun m2 s =>
   with_new (subfield_matcher_new (tO 80)) s (lit "b?") (fun m3 s =>
   let m4 := sm_or_assign m2 m3 in
   sm_same m4 m1 &&
   with_new (subfield_matcher_new (tO 80)) s (lit "a? || b? || c?") (fun m5 s =>
   with_new (subfield_matcher_new (tO 80)) s (lit "a? || b?") (fun m6 s =>
   with_new (subfield_matcher_new (tO 80)) s (lit "c?") (fun m7 s =>
   let m8 := sm_or_assign m6 m7 in
   sm_same m8 m5 && true))))))) = true.
Proof. vm_compute. reflexivity. Qed.

(** /repo/src/matcher/subfield/mod.rs:2032-2062 *)
Example sub_test_subfield_matcher_bitnot :
  (let s := fresh in
   with_new (subfield_matcher_new (tO 80)) s (lit "!(a?)") (fun m1 s =>
   with_new (subfield_matcher_new (tO 80)) s (lit "(a?)") (fun m2 s =>
   sm_same (sm_not m2) m1 &&
   with_new (subfield_matcher_new (tO 80)) s (lit "!a?") (fun m3 s =>
   with_new (subfield_matcher_new (tO 80)) s (lit "a?") (fun m4 s =>
   sm_same (sm_not m4) m3 &&
   with_new (subfield_matcher_new (tO 80)) s (lit "!!a?") (fun m5 s =>
   with_new (subfield_matcher_new (tO 80)) s (lit "!a?") (fun m6 s =>
   sm_same (sm_not m6) m5 &&
   with_new (subfield_matcher_new (tO 80)) s (lit "!(a == 'foo')") (fun m7 s =>
   with_new (subfield_matcher_new (tO 80)) s (lit "a == 'foo'") (fun m8 s =>
   sm_same (sm_not m8) m7 &&
   with_new (subfield_matcher_new (tO 80)) s (lit "!(a? && b?)") (fun m9 s =>
   with_new (subfield_matcher_new (tO 80)) s (lit "a? && b?") (fun m10 s =>
   sm_same (sm_not m10) m9 &&
   with_new (subfield_matcher_new (tO 80)) s (lit "!(a? || b?)") (fun m11 s =>
   with_new (subfield_matcher_new (tO 80)) s (lit "a? || b?") (fun m12 s =>
   sm_same (sm_not m12) m11 &&
   with_new (subfield_matcher_new (tO 80)) s (lit "!(a? ^ b?)") (fun m13 s =>
   with_new (subfield_matcher_new (tO 80)) s (lit "a? ^ b?") (fun m14 s =>
   sm_same (sm_not m14) m13 && true))))))))))))))) = true.
Proof. vm_compute. reflexivity. Qed.

(** /repo/src/matcher/field/mod.rs:41-48 *)
Example field_doc_41 :
  (let s := fresh in
   with_new0 (f_exists_new) (lit "003@?") (fun m1 =>
   with_new0 (f_exists_new) (lit "041[A@]?") (fun m2 => true))) = true.
Proof. vm_compute. reflexivity. Qed.

(** /repo/src/matcher/field/mod.rs:62-73 *)
Example field_doc_62 :
  (let s := fresh in
   with_some (field_new (lit "003@") None [(48, (lit "123456789X"))]) (fun f1 =>
   with_new0 (f_exists_new) (lit "003@?") (fun m2 =>
   (is_true (fs_is_match (tO 80) false m2 [f1])) && true))) = true.
Proof. vm_compute. reflexivity. Qed.

(** /repo/src/matcher/field/mod.rs:91-98 *)
Example field_doc_91 :
  (let s := fresh in
   with_new0 (f_exists_new) (lit "..../*?") (fun m1 =>
   bytes_eqb (fs_display m1) (lit "..../*?") && true)) = true.
Proof. vm_compute. reflexivity. Qed.

(** /repo/src/matcher/field/mod.rs:124-132 *)
Example field_doc_124 :
  (let s := fresh in
   with_new (f_subfields_new (tO 80)) s (lit "003@.0 == '0123456789X'") (fun m1 s =>
   with_new (f_subfields_new (tO 80)) s (lit "002@{0 == 'Oaf' || 0 == 'Olfo'}") (fun m2 s => true))) = true.
Proof. vm_compute. reflexivity. Qed.

(** /repo/src/matcher/field/mod.rs:148-159 *)
Example field_doc_148 :
  (let s := fresh in
   with_some (field_new (lit "003@") None [(48, (lit "123456789X"))]) (fun f1 =>
   with_new (f_subfields_new (tO 80)) s (lit "003@.0 == '123456789X'") (fun m2 s =>
   (is_true (fs_is_match (tO 80) false m2 [f1])) && true))) = true.
Proof. vm_compute. reflexivity. Qed.

(** /repo/src/matcher/field/mod.rs:186-193 *)
Example field_doc_186 :
  (let s := fresh in
   with_new (f_subfields_new (tO 80)) s (lit "..../*.* == 'foo'") (fun m1 s =>
   bytes_eqb (fs_display m1) (lit "..../*.* == 'foo'") && true)) = true.
Proof. vm_compute. reflexivity. Qed.

(** /repo/src/matcher/field/mod.rs:217-224 *)
Example field_doc_217 :
  (let s := fresh in
   with_new (f_singleton_new (tO 80)) s (lit "003@.0 == '0123456789X'") (fun m1 s =>
   with_new (f_singleton_new (tO 80)) s (lit "041A/*?") (fun m2 s => true))) = true.
Proof. vm_compute. reflexivity. Qed.

(** /repo/src/matcher/field/mod.rs:240-255 *)
Example field_doc_240 :
  (let s := fresh in
   with_some (field_new (lit "003@") None [(48, (lit "123456789X"))]) (fun f1 =>
   with_new (f_singleton_new (tO 80)) s (lit "003@.0 == '123456789X'") (fun m2 s =>
   (is_true (fs_is_match (tO 80) false m2 [f1])) &&
   with_new (f_singleton_new (tO 80)) s (lit "003@?") (fun m3 s =>
   (is_true (fs_is_match (tO 80) false m3 [f1])) && true)))) = true.
Proof. vm_compute. reflexivity. Qed.

(** /repo/src/matcher/field/mod.rs:274-281 *)
Example field_doc_274 :
  (let s := fresh in
   with_new (f_singleton_new (tO 80)) s (lit "..../*.* == 'foo'") (fun m1 s =>
   bytes_eqb (fs_display m1) (lit "..../*.* == 'foo'") && true)) = true.
Proof. vm_compute. reflexivity. Qed.

(** /repo/src/matcher/field/mod.rs:310-317 *)
Example field_doc_310 :
  (let s := fresh in
   with_new (f_card_new (tO 80)) s (lit "#010@{a == 'ger'} > 1") (fun m1 s =>
   with_new (f_card_new (tO 80)) s (lit "#003@ > 1") (fun m2 s => true))) = true.
Proof. vm_compute. reflexivity. Qed.

(** /repo/src/matcher/field/mod.rs:333-345 *)
Example field_doc_333 :
  (let s := fresh in
   with_some (field_new (lit "003@") None [(48, (lit "123456789X"))]) (fun f1 =>
   with_new (f_card_new (tO 80)) s (lit "#003@ == 1") (fun m2 s =>
   (is_true (fm_is_match (tO 80) false m2 [f1])) && true))) = true.
Proof. vm_compute. reflexivity. Qed.

(** /repo/src/matcher/field/mod.rs:384-391 *)
Example field_doc_384 :
  (let s := fresh in
   with_new (f_card_new (tO 80)) s (lit "#010@{ a == 'ger' } > 1") (fun m1 s =>
   bytes_eqb (fm_display m1) (lit "#010@{ a == 'ger' } > 1") && true)) = true.
Proof. vm_compute. reflexivity. Qed.

(** /repo/src/matcher/field/mod.rs:423-431 *)
Example field_doc_423 :
  (let s := fresh in
   with_new (field_matcher_new (tO 80)) s (lit "#003@ > 1") (fun m1 s =>
   with_new (field_matcher_new (tO 80)) s (lit "010@.a == 'ger'") (fun m2 s =>
   with_new (field_matcher_new (tO 80)) s (lit "(010@.a == 'ger')") (fun m3 s => true)))) = true.
Proof. vm_compute. reflexivity. Qed.

(** /repo/src/matcher/field/mod.rs:445-458 *)
Example field_doc_445 :
  (let s := fresh in
   with_some (field_new (lit "003@") None [(48, (lit "0123456789X"))]) (fun f1 =>
   with_new (field_matcher_new (tO 80)) s (lit "#003@ == 1") (fun m2 s =>
   (is_true (fm_is_match (tO 80) false m2 [f1])) && true))) = true.
Proof. vm_compute. reflexivity. Qed.

(** /repo/src/matcher/field/mod.rs:488-503 *)
Example field_doc_488 :
  (let s := fresh in
   with_new (field_matcher_new (tO 80)) s (lit "#012A > 3") (fun m1 s =>
   bytes_eqb (fm_display m1) (lit "#012A > 3") &&
   with_new (field_matcher_new (tO 80)) s (lit "012A.a == 'foo' || 012A.a == 'bar'") (fun m2 s =>
   with_new (field_matcher_new (tO 80)) s (lit "012A.c == 'baz'") (fun m3 s =>
   let m4 := fm_and_assign m2 m3 in
   bytes_eqb (fm_display m4) (lit "(012A.a == 'foo' || 012A.a == 'bar') && 012A.c == 'baz'") && true)))) = true.
Proof. vm_compute. reflexivity. Qed.

(** /repo/src/matcher/field/mod.rs:525-540 *)
Example field_doc_525 :
  (let s := fresh in
   with_some (field_new (lit "012A") None [(97, (lit "A")); (98, (lit "B"))]) (fun f1 =>
   with_new (field_matcher_new (tO 80)) s (lit "012A.a == 'A'") (fun m2 s =>
   with_new (field_matcher_new (tO 80)) s (lit "012A.b == 'B'") (fun m3 s =>
   (is_true (fm_is_match (tO 80) false (fm_and m2 m3) [f1])) && true)))) = true.
Proof. vm_compute. reflexivity. Qed.

(** /repo/src/matcher/field/mod.rs:568-581 *)
Example field_doc_568 :
  (let s := fresh in
   with_some (field_new (lit "012A") None [(97, (lit "A")); (98, (lit "B"))]) (fun f1 =>
   with_new (field_matcher_new (tO 80)) s (lit "012A.a == 'A'") (fun m2 s =>
   with_new (field_matcher_new (tO 80)) s (lit "012A.b == 'B'") (fun m3 s =>
   let m4 := fm_and_assign m2 m3 in
   (is_true (fm_is_match (tO 80) false m4 [f1])) && true)))) = true.
Proof. vm_compute. reflexivity. Qed.

(** /repo/src/matcher/field/mod.rs:611-626 *)
Example field_doc_611 :
  (let s := fresh in
   with_some (field_new (lit "012A") None [(97, (lit "A")); (98, (lit "B"))]) (fun f1 =>
   with_new (field_matcher_new (tO 80)) s (lit "012A.a == 'X'") (fun m2 s =>
   with_new (field_matcher_new (tO 80)) s (lit "012A.b == 'B'") (fun m3 s =>
   (is_true (fm_is_match (tO 80) false (fm_or m2 m3) [f1])) && true)))) = true.
Proof. vm_compute. reflexivity. Qed.

(** /repo/src/matcher/field/mod.rs:642-655 *)
Example field_doc_642 :
  (let s := fresh in
   with_some (field_new (lit "012A") None [(97, (lit "A")); (98, (lit "B"))]) (fun f1 =>
   with_new (field_matcher_new (tO 80)) s (lit "012A.a == 'X'") (fun m2 s =>
   with_new (field_matcher_new (tO 80)) s (lit "012A.b == 'B'") (fun m3 s =>
   let m4 := fm_or_assign m2 m3 in
   (is_true (fm_is_match (tO 80) false m4 [f1])) && true)))) = true.
Proof. vm_compute. reflexivity. Qed.

(** /repo/src/matcher/field/mod.rs:673-688 *)
Example field_doc_673 :
  (let s := fresh in
   with_some (field_new (lit "012A") None [(97, (lit "A")); (98, (lit "B"))]) (fun f1 =>
   with_new (field_matcher_new (tO 80)) s (lit "012A.a == 'X'") (fun m2 s =>
   with_new (field_matcher_new (tO 80)) s (lit "012A.b == 'B'") (fun m3 s =>
   (is_true (fm_is_match (tO 80) false (fm_xor m2 m3) [f1])) && true)))) = true.
Proof. vm_compute. reflexivity. Qed.

(** /repo/src/matcher/field/mod.rs:715-728 *)
Example field_doc_715 :
  (let s := fresh in
   with_some (field_new (lit "012A") None [(97, (lit "A")); (98, (lit "B"))]) (fun f1 =>
   with_new (field_matcher_new (tO 80)) s (lit "012A.a == 'X'") (fun m2 s =>
   with_new (field_matcher_new (tO 80)) s (lit "012A.b == 'B'") (fun m3 s =>
   let m4 := fm_xor_assign m2 m3 in
   (is_true (fm_is_match (tO 80) false m4 [f1])) && true)))) = true.
Proof. vm_compute. reflexivity. Qed.

(** /repo/src/matcher/field/mod.rs:756-770 *)
Example field_doc_756 :
  (let s := fresh in
   with_some (field_new (lit "012A") None [(97, (lit "A")); (98, (lit "B"))]) (fun f1 =>
   with_new (field_matcher_new (tO 80)) s (lit "012A.a == 'X'") (fun m2 s =>
   (is_true (fm_is_match (tO 80) false (fm_not m2) [f1])) && true))) = true.
Proof. vm_compute. reflexivity. Qed.

(** /repo/src/matcher/field/mod.rs:821-836 *)
Example field_test_field_matcher_serde :
  (let s := fresh in
   with_new (field_matcher_new (tO 80)) s (lit "012A.a? && (012A.b? || 012A.c?)") (fun m1 s =>
   bytes_eqb (fm_display m1) (lit "012A.a? && (012A.b? || 012A.c?)") &&
   with_new (field_matcher_new (tO 80)) s (lit "012A.a? && !(012A.b? || 012A.c?) ") (fun m2 s =>
   bytes_eqb (fm_display m2) (lit "012A.a? && !(012A.b? || 012A.c?)") && true))) = true.
Proof. vm_compute. reflexivity. Qed.

(** /repo/src/matcher/field/mod.rs:839-850 *)
Example field_test_exists_matcher :
  (let s := fresh in
   with_some (field_new (lit "012A") None [(97, (lit "abc"))]) (fun f1 =>
   with_new0 (f_exists_new) (lit "012A?") (fun m2 =>
   (is_true (fs_is_match (tO 80) false m2 [f1])) &&
   with_new0 (f_exists_new) (lit "013A?") (fun m3 =>
   (negb (is_true (fs_is_match (tO 80) false m3 [f1]))) && true)))) = true.
Proof. vm_compute. reflexivity. Qed.

(** /repo/src/matcher/field/mod.rs:853-884 *)
Example field_test_singleton_matcher :
  (let s := fresh in
   with_some (field_new (lit "012A") None [(97, (lit "abc")); (97, (lit "def")); (98, (lit "hij"))]) (fun f1 =>
   with_new (f_singleton_new (tO 80)) s (lit "012A.a == 'def'") (fun m2 s =>
   (is_true (fs_is_match (tO 80) false m2 [f1])) &&
   with_new (f_singleton_new (tO 80)) s (lit "012A.a == 'hij'") (fun m3 s =>
   (negb (is_true (fs_is_match (tO 80) false m3 [f1]))) &&
   with_new (f_singleton_new (tO 80)) s (lit "012A{ b? && a == 'def' }") (fun m4 s =>
   (is_true (fs_is_match (tO 80) false m4 [f1])) &&
   with_some (field_new (lit "012A") (Some (lit "03")) [(97, (lit "abc"))]) (fun f5 =>
   with_new (f_singleton_new (tO 80)) s (lit "012A/03.a == 'abc'") (fun m6 s =>
   (is_true (fs_is_match (tO 80) false m6 [f5])) &&
   with_new (f_singleton_new (tO 80)) s (lit "012A/*.a == 'abc'") (fun m7 s =>
   (is_true (fs_is_match (tO 80) false m7 [f5])) &&
   with_new (f_singleton_new (tO 80)) s (lit "012A/02-04.a == 'abc'") (fun m8 s =>
   (is_true (fs_is_match (tO 80) false m8 [f5])) && true))))))))) = true.
Proof. vm_compute. reflexivity. Qed.

(** /repo/src/matcher/field/mod.rs:887-938 *)
Example field_test_cardinality_matcher :
  (let s := fresh in
   with_some (field_new (lit "012A") None [(97, (lit "abc")); (97, (lit "def")); (98, (lit "hij"))]) (fun f1 =>
   with_new (f_card_new (tO 80)) s (lit "#013A == 0") (fun m2 s =>
   (is_true (fm_is_match (tO 80) false m2 [f1])) &&
   with_new (f_card_new (tO 80)) s (lit "#012A == 1") (fun m3 s =>
   (is_true (fm_is_match (tO 80) false m3 [f1])) &&
   with_new (f_card_new (tO 80)) s (lit "#012A != 2") (fun m4 s =>
   (is_true (fm_is_match (tO 80) false m4 [f1])) &&
   with_new (f_card_new (tO 80)) s (lit "#012A >= 1") (fun m5 s =>
   (is_true (fm_is_match (tO 80) false m5 [f1])) &&
   with_new (f_card_new (tO 80)) s (lit "#012A > 0") (fun m6 s =>
   (is_true (fm_is_match (tO 80) false m6 [f1])) &&
   with_new (f_card_new (tO 80)) s (lit "#012A <= 100") (fun m7 s =>
   (is_true (fm_is_match (tO 80) false m7 [f1])) &&
   with_new (f_card_new (tO 80)) s (lit "#012A < 100") (fun m8 s =>
   (is_true (fm_is_match (tO 80) false m8 [f1])) &&
   with_new (f_card_new (tO 80)) s (lit "#012A{ c? } == 0") (fun m9 s =>
   (is_true (fm_is_match (tO 80) false m9 [f1])) &&
   with_new (f_card_new (tO 80)) s (lit "#012A{ b? } == 1") (fun m10 s =>
   (is_true (fm_is_match (tO 80) false m10 [f1])) &&
   with_new (f_card_new (tO 80)) s (lit "#012A{ b? } != 2") (fun m11 s =>
   (is_true (fm_is_match (tO 80) false m11 [f1])) &&
   with_new (f_card_new (tO 80)) s (lit "#012A{ b? } >= 1") (fun m12 s =>
   (is_true (fm_is_match (tO 80) false m12 [f1])) &&
   with_new (f_card_new (tO 80)) s (lit "#012A{ b? } > 0") (fun m13 s =>
   (is_true (fm_is_match (tO 80) false m13 [f1])) &&
   with_new (f_card_new (tO 80)) s (lit "#012A{ b? } <= 1") (fun m14 s =>
   (is_true (fm_is_match (tO 80) false m14 [f1])) &&
   with_new (f_card_new (tO 80)) s (lit "#012A{ b? } < 100") (fun m15 s =>
   (is_true (fm_is_match (tO 80) false m15 [f1])) && true)))))))))))))))) = true.
Proof. vm_compute. reflexivity. Qed.

(** /repo/src/matcher/field/mod.rs:941-966 *)
Example field_test_field_matcher_singleton :
  (let s := fresh in
   with_some (field_new (lit "012A") None [(97, (lit "A")); (98, (lit "B"))]) (fun f1 =>
   with_new (field_matcher_new (tO 80)) s (lit "012A.a == 'A'") (fun m2 s =>
   (is_true (fm_is_match (tO 80) false m2 [f1])) &&
   with_new (field_matcher_new (tO 80)) s (lit "012A.[a-d] == 'B'") (fun m3 s =>
   (is_true (fm_is_match (tO 80) false m3 [f1])) &&
   with_some (field_new (lit "012A") None [(97, (lit "A")); (98, (lit "B"))]) (fun f4 =>
   with_some (field_new (lit "012A") None [(99, (lit "C")); (100, (lit "D"))]) (fun f5 =>
   with_new (field_matcher_new (tO 80)) s (lit "012A.[df] == 'D'") (fun m6 s =>
   (is_true (fm_is_match (tO 80) false m6 [f4; f5])) &&
   with_new (field_matcher_new (tO 80)) s (lit "ALL 012A.[a-d] in ['B', 'D']") (fun m7 s =>
   (is_true (fm_is_match (tO 80) false m7 [f4; f5])) && true)))))))) = true.
Proof. vm_compute. reflexivity. Qed.

(** /repo/src/matcher/field/mod.rs:969-994 *)
Example field_test_field_matcher_cardinality :
  (let s := fresh in
   with_some (field_new (lit "012A") None [(97, (lit "A")); (98, (lit "B"))]) (fun f1 =>
   with_new (field_matcher_new (tO 80)) s (lit "#012A{a == 'A'} == 1") (fun m2 s =>
   (is_true (fm_is_match (tO 80) false m2 [f1])) &&
   with_new (field_matcher_new (tO 80)) s (lit "#012A{ [a-d] == 'B'} >= 1") (fun m3 s =>
   (is_true (fm_is_match (tO 80) false m3 [f1])) &&
   with_some (field_new (lit "012A") None [(97, (lit "A")); (98, (lit "B"))]) (fun f4 =>
   with_some (field_new (lit "012A") None [(99, (lit "C")); (100, (lit "D"))]) (fun f5 =>
   with_new (field_matcher_new (tO 80)) s (lit "#012A{ [df] == 'D' } == 1") (fun m6 s =>
   (is_true (fm_is_match (tO 80) false m6 [f4; f5])) &&
   with_new (field_matcher_new (tO 80)) s (lit "#012A{ [a-d] in ['B', 'D']} <= 2") (fun m7 s =>
   (is_true (fm_is_match (tO 80) false m7 [f4; f5])) && true)))))))) = true.
Proof. vm_compute. reflexivity. Qed.

(** /repo/src/matcher/field/mod.rs:997-1009 *)
Example field_test_field_matcher_group :
  (let s := fresh in
   with_some (field_new (lit "012A") None [(97, (lit "A")); (98, (lit "B"))]) (fun f1 =>
   with_new (field_matcher_new (tO 80)) s (lit "(012A.a?)") (fun m2 s =>
   (is_true (fm_is_match (tO 80) false m2 [f1])) &&
   with_new (field_matcher_new (tO 80)) s (lit "((012A.b?))") (fun m3 s =>
   (is_true (fm_is_match (tO 80) false m3 [f1])) && true)))) = true.
Proof. vm_compute. reflexivity. Qed.

(** /repo/src/matcher/field/mod.rs:1012-1030 *)
Example field_test_field_matcher_not :
  (let s := fresh in
   with_some (field_new (lit "012A") None [(97, (lit "A")); (98, (lit "B"))]) (fun f1 =>
   with_new (field_matcher_new (tO 80)) s (lit "!(012A.c?)") (fun m2 s =>
   (is_true (fm_is_match (tO 80) false m2 [f1])) &&
   with_new (field_matcher_new (tO 80)) s (lit "!012A{ a? && c? }") (fun m3 s =>
   (is_true (fm_is_match (tO 80) false m3 [f1])) &&
   with_new (field_matcher_new (tO 80)) s (lit "!012A.c?") (fun m4 s =>
   (is_true (fm_is_match (tO 80) false m4 [f1])) &&
   with_new (field_matcher_new (tO 80)) s (lit "!!012A.a?") (fun m5 s =>
   (is_true (fm_is_match (tO 80) false m5 [f1])) && true)))))) = true.
Proof. vm_compute. reflexivity. Qed.

(** /repo/src/matcher/field/mod.rs:1033-1064 *)
Example field_test_field_matcher_and :
  (let s := fresh in
   with_some (field_new (lit "012A") None [(97, (lit "A")); (98, (lit "B"))]) (fun f1 =>
   with_some (field_new (lit "013A") None [(99, (lit "C"))]) (fun f2 =>
   with_new (field_matcher_new (tO 80)) s (lit "012A.a? && 013A.c?") (fun m3 s =>
   (is_true (fm_is_match (tO 80) false m3 [f1; f2])) &&
   with_new (field_matcher_new (tO 80)) s (lit "012A.a? && 012A.b? && 012A.c?") (fun m4 s =>
   (negb (is_true (fm_is_match (tO 80) false m4 [f1; f2]))) &&
   with_new (field_matcher_new (tO 80)) s (lit "012A.a? && 012A.b? || 014A.c?") (fun m5 s =>
   (is_true (fm_is_match (tO 80) false m5 [f1; f2])) &&
   with_new (field_matcher_new (tO 80)) s (lit "014A.c? || 012A.b? && 013A.c?") (fun m6 s =>
   (is_true (fm_is_match (tO 80) false m6 [f1; f2])) &&
   with_new (field_matcher_new (tO 80)) s (lit "012A.c? || 012A.b? && 012A.c?") (fun m7 s =>
   (negb (is_true (fm_is_match (tO 80) false m7 [f1; f2]))) &&
   with_new (field_matcher_new (tO 80)) s (lit "012A.b? && 012A.c? || 012A.c?") (fun m8 s =>
   (negb (is_true (fm_is_match (tO 80) false m8 [f1; f2]))) && true))))))))) = true.
Proof. vm_compute. reflexivity. Qed.

(** /repo/src/matcher/field/mod.rs:1067-1100 *)
Example field_test_field_matcher_or :
  (let s := fresh in
   with_some (field_new (lit "012A") None [(97, (lit "A")); (98, (lit "B"))]) (fun f1 =>
   with_some (field_new (lit "013A") None [(99, (lit "C"))]) (fun f2 =>
   with_new (field_matcher_new (tO 80)) s (lit "013A.a? || 012A.b?") (fun m3 s =>
   (is_true (fm_is_match (tO 80) false m3 [f1; f2])) &&
   with_new (field_matcher_new (tO 80)) s (lit "014A.a? || 013A.b? || 012A.b?") (fun m4 s =>
   (is_true (fm_is_match (tO 80) false m4 [f1; f2])) &&
   with_new (field_matcher_new (tO 80)) s (lit "(012A.a? && 012A.b?) || 012A.c?") (fun m5 s =>
   (is_true (fm_is_match (tO 80) false m5 [f1; f2])) &&
   with_new (field_matcher_new (tO 80)) s (lit "013A.a? || (012A.b? && 013A.c?)") (fun m6 s =>
   (is_true (fm_is_match (tO 80) false m6 [f1; f2])) &&
   with_new (field_matcher_new (tO 80)) s (lit "(012A.a? || 012A.b?) && 012A.c? || 013A.d?") (fun m7 s =>
   (negb (is_true (fm_is_match (tO 80) false m7 [f1; f2]))) &&
   with_new (field_matcher_new (tO 80)) s (lit "012A.a? && (012A.b? || 012A.c?) || 013A.c?") (fun m8 s =>
   (is_true (fm_is_match (tO 80) false m8 [f1; f2])) && true))))))))) = true.
Proof. vm_compute. reflexivity. Qed.

(** /repo/src/matcher/field/mod.rs:1103-1126 *)
Example field_test_field_matcher_xor :
  (let s := fresh in
   with_some (field_new (lit "012A") None [(97, (lit "A")); (98, (lit "B"))]) (fun f1 =>
   with_some (field_new (lit "013A") None [(99, (lit "C"))]) (fun f2 =>
   with_new (field_matcher_new (tO 80)) s (lit "012A.a? ^ 012A.b?") (fun m3 s =>
   (negb (is_true (fm_is_match (tO 80) false m3 [f1; f2]))) &&
   with_new (field_matcher_new (tO 80)) s (lit "012A.a? ^ 012A.b? ^ 012A.c?") (fun m4 s =>
   (negb (is_true (fm_is_match (tO 80) false m4 [f1; f2]))) &&
   with_new (field_matcher_new (tO 80)) s (lit "012A.a? ^ 012A.c?") (fun m5 s =>
   (is_true (fm_is_match (tO 80) false m5 [f1; f2])) &&
   with_new (field_matcher_new (tO 80)) s (lit "012A.c? ^ 012A.a?") (fun m6 s =>
   (is_true (fm_is_match (tO 80) false m6 [f1; f2])) &&
   with_new (field_matcher_new (tO 80)) s (lit "012A.c? ^ 012A.d?") (fun m7 s =>
   (negb (is_true (fm_is_match (tO 80) false m7 [f1; f2]))) && true)))))))) = true.
Proof. vm_compute. reflexivity. Qed.

(** /repo/src/matcher/field/mod.rs:1129-1166 *)
Example field_test_field_matcher_bitand :
  (let s := fresh in
   with_new (field_matcher_new (tO 80)) s (lit "012A.a? && 012A.b?") (fun m1 s =>
   with_new (field_matcher_new (tO 80)) s (lit "012A.a?") (fun m2 s =>
   with_new (field_matcher_new (tO 80)) s (lit "012A.b?") (fun m3 s =>
   fm_same (fm_and m2 m3) m1 &&
   with_new (field_matcher_new (tO 80)) s (lit "(012A.a? || 012A.b?) && 012A.c?") (fun m4 s =>
   with_new (field_matcher_new (tO 80)) s (lit "012A.a? || 012A.b?") (fun m5 s =>
   with_new (field_matcher_new (tO 80)) s (lit "012A.c?") (fun m6 s =>
   fm_same (fm_and m5 m6) m4 &&
   with_new (field_matcher_new (tO 80)) s (lit "012A.a? && (012A.b? || 012A.c?)") (fun m7 s =>
   with_new (field_matcher_new (tO 80)) s (lit "012A.a?") (fun m8 s =>
   with_new (field_matcher_new (tO 80)) s (lit "(012A.b? || 012A.c?)") (fun m9 s =>
   fm_same (fm_and m8 m9) m7 &&
   with_new (field_matcher_new (tO 80)) s (lit "(012A.a? ^ 012A.b?) && 012A.c?") (fun m10 s =>
   with_new (field_matcher_new (tO 80)) s (lit "012A.a? ^ 012A.b?") (fun m11 s =>
   with_new (field_matcher_new (tO 80)) s (lit "012A.c?") (fun m12 s =>
   fm_same (fm_and m11 m12) m10 &&
   with_new (field_matcher_new (tO 80)) s (lit "012A.a? && (012A.b? ^ 012A.c?)") (fun m13 s =>
   with_new (field_matcher_new (tO 80)) s (lit "012A.a?") (fun m14 s =>
   with_new (field_matcher_new (tO 80)) s (lit "(012A.b? ^ 012A.c?)") (fun m15 s =>
   fm_same (fm_and m14 m15) m13 &&
   with_new (field_matcher_new (tO 80)) s (lit "012A.a? && 012A.b? && 012A.c?") (fun m16 s =>
   with_new (field_matcher_new (tO 80)) s (lit "012A.a? && 012A.b?") (fun m17 s =>
   with_new (field_matcher_new (tO 80)) s (lit "012A.c?") (fun m18 s =>
   fm_same (fm_and m17 m18) m16 && true))))))))))))))))))) = true.
Proof. vm_compute. reflexivity. Qed.

(** /repo/src/matcher/field/mod.rs:1169-1200 *)
Example field_test_field_matcher_bitand_assign :
  (let s := fresh in
   with_new (field_matcher_new (tO 80)) s (lit "012A.a? && 012A.b?") (fun m1 s =>
   with_new (field_matcher_new (tO 80)) s (lit "012A.a?") (fun m2 s =>
   with_new (field_matcher_new (tO 80)) s (lit "012A.b?") (fun m3 s =>
   let m4 := fm_and_assign m2 m3 in
   fm_same m4 m1 &&
   with_new (field_matcher_new (tO 80)) s (lit "(012A.a? || 012A.b?) && 012A.c?") (fun m5 s =>
   with_new (field_matcher_new (tO 80)) s (lit "012A.a? || 012A.b?") (fun m6 s =>
   with_new (field_matcher_new (tO 80)) s (lit "012A.c?") (fun m7 s =>
   let m8 := fm_and_assign m6 m7 in
   fm_same m8 m5 &&
   with_new (field_matcher_new (tO 80)) s (lit "012A.a? && (012A.b? || 012A.c?)") (fun m9 s =>
   with_new (field_matcher_new (tO 80)) s (lit "012A.a?") (fun m10 s =>
   with_new (field_matcher_new (tO 80)) s (lit "(012A.b? || 012A.c?)") (fun m11 s =>
   let m12 := fm_and_assign m10 m11 in
   fm_same m12 m9 &&
   with_new (field_matcher_new (tO 80)) s (lit "(012A.a? ^ 012A.b?) && 012A.c?") (fun m13 s =>
   with_new (field_matcher_new (tO 80)) s (lit "012A.a? ^ 012A.b?") (fun m14 s =>
   with_new (field_matcher_new (tO 80)) s (lit "012A.c?") (fun m15 s =>
   let m16 := fm_and_assign m14 m15 in
   fm_same m16 m13 &&
   with_new (field_matcher_new (tO 80)) s (lit "012A.a? && (012A.b? ^ 012A.c?)") (fun m17 s =>
   with_new (field_matcher_new (tO 80)) s (lit "012A.a?") (fun m18 s =>
   with_new (field_matcher_new (tO 80)) s (lit "(012A.b? ^ 012A.c?)") (fun m19 s =>
   let m20 := fm_and_assign m18 m19 in
   fm_same m20 m17 && true)))))))))))))))) = true.
Proof. vm_compute. reflexivity. Qed.

(** /repo/src/matcher/field/mod.rs:1203-1228 *)
Example field_test_field_matcher_bitxor :
  (let s := fresh in
   with_new (field_matcher_new (tO 80)) s (lit "012A.a? ^ 012A.b?") (fun m1 s =>
   with_new (field_matcher_new (tO 80)) s (lit "012A.a?") (fun m2 s =>
   with_new (field_matcher_new (tO 80)) s (lit "012A.b?") (fun m3 s =>
   fm_same (fm_xor m2 m3) m1 &&
   with_new (field_matcher_new (tO 80)) s (lit "(012A.a? || 012A.b?) ^ 012A.c?") (fun m4 s =>
   with_new (field_matcher_new (tO 80)) s (lit "012A.a? || 012A.b?") (fun m5 s =>
   with_new (field_matcher_new (tO 80)) s (lit "012A.c?") (fun m6 s =>
   fm_same (fm_xor m5 m6) m4 &&
   with_new (field_matcher_new (tO 80)) s (lit "012A.a? ^ (012A.b? || 012A.c?)") (fun m7 s =>
   with_new (field_matcher_new (tO 80)) s (lit "012A.a?") (fun m8 s =>
   with_new (field_matcher_new (tO 80)) s (lit "(012A.b? || 012A.c?)") (fun m9 s =>
   fm_same (fm_xor m8 m9) m7 &&
   with_new (field_matcher_new (tO 80)) s (lit "012A.a? ^ 012A.b? ^ 012A.c?") (fun m10 s =>
   with_new (field_matcher_new (tO 80)) s (lit "012A.a? ^ 012A.b?") (fun m11 s =>
   with_new (field_matcher_new (tO 80)) s (lit "012A.c?") (fun m12 s =>
   fm_same (fm_xor m11 m12) m10 && true))))))))))))) = true.
Proof. vm_compute. reflexivity. Qed.

(** /repo/src/matcher/field/mod.rs:1231-1256 *)
Example field_test_field_matcher_bitxor_assign :
  (let s := fresh in
   with_new (field_matcher_new (tO 80)) s (lit "012A.a? ^ 012A.b?") (fun m1 s =>
   with_new (field_matcher_new (tO 80)) s (lit "012A.a?") (fun m2 s =>
   with_new (field_matcher_new (tO 80)) s (lit "012A.b?") (fun m3 s =>
   let m4 := fm_xor_assign m2 m3 in
   fm_same m4 m1 &&
   with_new (field_matcher_new (tO 80)) s (lit "(012A.a? || 012A.b?) ^ 012A.c?") (fun m5 s =>
   with_new (field_matcher_new (tO 80)) s (lit "012A.a? || 012A.b?") (fun m6 s =>
   with_new (field_matcher_new (tO 80)) s (lit "012A.c?") (fun m7 s =>
   let m8 := fm_xor_assign m6 m7 in
   fm_same m8 m5 &&
   with_new (field_matcher_new (tO 80)) s (lit "012A.a? ^ (012A.b? || 012A.c?)") (fun m9 s =>
   with_new (field_matcher_new (tO 80)) s (lit "012A.a?") (fun m10 s =>
   with_new (field_matcher_new (tO 80)) s (lit "(012A.b? || 012A.c?)") (fun m11 s =>
   let m12 := fm_xor_assign m10 m11 in
   fm_same m12 m9 &&
   with_new (field_matcher_new (tO 80)) s (lit "012A.a? ^ 012A.b? ^ 012A.c?") (fun m13 s =>
   with_new (field_matcher_new (tO 80)) s (lit "012A.a? ^ 012A.b?") (fun m14 s =>
   with_new (field_matcher_new (tO 80)) s (lit "012A.c?") (fun m15 s =>
   let m16 := fm_xor_assign m14 m15 in
   fm_same m16 m13 && true))))))))))))) = true.
Proof. vm_compute. reflexivity. Qed.

(** /repo/src/matcher/field/mod.rs:1259-1272 *)
Example field_test_field_matcher_bitor :
  (let s := fresh in
   with_new (field_matcher_new (tO 80)) s (lit "012A.a? || 012A.b?") (fun m1 s =>
   with_new (field_matcher_new (tO 80)) s (lit "012A.a?") (fun m2 s =>
   with_new (field_matcher_new (tO 80)) s (lit "012A.b?") (fun m3 s =>
   fm_same (fm_or m2 m3) m1 &&
   with_new (field_matcher_new (tO 80)) s (lit "012A.a? || 012A.b? || 012A.c?") (fun m4 s =>
   with_new (field_matcher_new (tO 80)) s (lit "012A.a? || 012A.b?") (fun m5 s =>
   with_new (field_matcher_new (tO 80)) s (lit "012A.c?") (fun m6 s =>
   fm_same (fm_or m5 m6) m4 && true))))))) = true.
Proof. vm_compute. reflexivity. Qed.

(** /repo/src/matcher/field/mod.rs:1275-1288 *)
Example field_test_field_matcher_bitor_assign :
  (let s := fresh in
   with_new (field_matcher_new (tO 80)) s (lit "012A.a? || 012A.b?") (fun m1 s =>
   with_new (field_matcher_new (tO 80)) s (lit "012A.a?") (fun m2 s =>
   with_new (field_matcher_new (tO 80)) s (lit "012A.b?") (fun m3 s =>
   let m4 := fm_or_assign m2 m3 in
   fm_same m4 m1 &&
   with_new (field_matcher_new (tO 80)) s (lit "012A.a? || 012A.b? || 012A.c?") (fun m5 s =>
   with_new (field_matcher_new (tO 80)) s (lit "012A.a? || 012A.b?") (fun m6 s =>
   with_new (field_matcher_new (tO 80)) s (lit "012A.c?") (fun m7 s =>
   let m8 := fm_or_assign m6 m7 in
   fm_same m8 m5 && true))))))) = true.
Proof. vm_compute. reflexivity. Qed.

(** /repo/src/matcher/field/mod.rs:1291-1321 *)
Example field_test_field_matcher_bitnot :
  (let s := fresh in
   with_new (field_matcher_new (tO 80)) s (lit "!(012A.a?)") (fun m1 s =>
   with_new (field_matcher_new (tO 80)) s (lit "(012A.a?)") (fun m2 s =>
   fm_same (fm_not m2) m1 &&
   with_new (field_matcher_new (tO 80)) s (lit "!012A.a?") (fun m3 s =>
   with_new (field_matcher_new (tO 80)) s (lit "012A.a?") (fun m4 s =>
   fm_same (fm_not m4) m3 &&
   with_new (field_matcher_new (tO 80)) s (lit "!!012A.a?") (fun m5 s =>
   with_new (field_matcher_new (tO 80)) s (lit "!012A.a?") (fun m6 s =>
   fm_same (fm_not m6) m5 &&
   with_new (field_matcher_new (tO 80)) s (lit "!(012A.a == 'foo')") (fun m7 s =>
   with_new (field_matcher_new (tO 80)) s (lit "012A.a == 'foo'") (fun m8 s =>
   fm_same (fm_not m8) m7 &&
   with_new (field_matcher_new (tO 80)) s (lit "!(012A.a? && 012A.b?)") (fun m9 s =>
   with_new (field_matcher_new (tO 80)) s (lit "012A.a? && 012A.b?") (fun m10 s =>
   fm_same (fm_not m10) m9 &&
   with_new (field_matcher_new (tO 80)) s (lit "!(012A.a? || 012A.b?)") (fun m11 s =>
   with_new (field_matcher_new (tO 80)) s (lit "012A.a? || 012A.b?") (fun m12 s =>
   fm_same (fm_not m12) m11 &&
   with_new (field_matcher_new (tO 80)) s (lit "!(012A.a? ^ 012A.b?)") (fun m13 s =>
   with_new (field_matcher_new (tO 80)) s (lit "012A.a? ^ 012A.b?") (fun m14 s =>
   fm_same (fm_not m14) m13 && true))))))))))))))) = true.
Proof. vm_compute. reflexivity. Qed.

(** /repo/src/matcher/record.rs:27-34 *)
Example record_doc_27 :
  (let s := fresh in
   with_new (field_matcher_new (tO 80)) s (lit "#003@ > 1") (fun m1 s =>
   with_new (field_matcher_new (tO 80)) s (lit "010@.a == 'ger'") (fun m2 s => true))) = true.
Proof. vm_compute. reflexivity. Qed.

(** /repo/src/matcher/record.rs:55-69 *)
Example record_doc_55 :
  (let s := fresh in
   with_some (record_new [(lit "003@", None, [(48, (lit "123456789X"))]); (lit "002@", None, [(48, (lit "Tp1"))])]) (fun r1 =>
   with_new (field_matcher_new (tO 80)) s (lit "002@.0 == 'Tp1'") (fun m2 s =>
   (is_true (fm_is_match (tO 80) false m2 r1)) && true))) = true.
Proof. vm_compute. reflexivity. Qed.

(** /repo/src/matcher/record.rs:85-92 *)
Example record_doc_85 :
  (let s := fresh in
   with_new (field_matcher_new (tO 80)) s (lit "002@.0 == 'Tp1'") (fun m1 s =>
   bytes_eqb (fm_display m1) (lit "002@.0 == 'Tp1'") && true)) = true.
Proof. vm_compute. reflexivity. Qed.

(** /repo/src/matcher/record.rs:106-123 *)
Example record_doc_106 :
  (let s := fresh in
   with_some (record_new [(lit "003@", None, [(48, (lit "123456789X"))]); (lit "002@", None, [(48, (lit "Tp1"))])]) (fun r1 =>
   with_new (field_matcher_new (tO 80)) s (lit "003@.0 == '123456789X'") (fun m2 s =>
   with_new (field_matcher_new (tO 80)) s (lit "002@.0 == 'Tp1'") (fun m3 s =>
   (is_true (fm_is_match (tO 80) false (fm_and m2 m3) r1)) && true)))) = true.
Proof. vm_compute. reflexivity. Qed.

(** /repo/src/matcher/record.rs:135-150 *)
Example record_doc_135 :
  (let s := fresh in
   with_some (record_new [(lit "003@", None, [(48, (lit "123456789X"))]); (lit "002@", None, [(48, (lit "Tp1"))])]) (fun r1 =>
   with_new (field_matcher_new (tO 80)) s (lit "003@.0 == '123456789X'") (fun m2 s =>
   with_new (field_matcher_new (tO 80)) s (lit "002@.0 == 'Tp1'") (fun m3 s =>
   let m4 := fm_and_assign m2 m3 in
   (is_true (fm_is_match (tO 80) false m4 r1)) && true)))) = true.
Proof. vm_compute. reflexivity. Qed.

(** /repo/src/matcher/record.rs:164-181 *)
Example record_doc_164 :
  (let s := fresh in
   with_some (record_new [(lit "003@", None, [(48, (lit "123456789X"))]); (lit "002@", None, [(48, (lit "Tp1"))])]) (fun r1 =>
   with_new (field_matcher_new (tO 80)) s (lit "003@.0 == '234567890X'") (fun m2 s =>
   with_new (field_matcher_new (tO 80)) s (lit "002@.0 == 'Tp1'") (fun m3 s =>
   (is_true (fm_is_match (tO 80) false (fm_or m2 m3) r1)) && true)))) = true.
Proof. vm_compute. reflexivity. Qed.

(** /repo/src/matcher/record.rs:193-208 *)
Example record_doc_193 :
  (let s := fresh in
   with_some (record_new [(lit "003@", None, [(48, (lit "123456789X"))]); (lit "002@", None, [(48, (lit "Tp1"))])]) (fun r1 =>
   with_new (field_matcher_new (tO 80)) s (lit "003@.0 == '234567891X'") (fun m2 s =>
   with_new (field_matcher_new (tO 80)) s (lit "002@.0 == 'Tp1'") (fun m3 s =>
   let m4 := fm_or_assign m2 m3 in
   (is_true (fm_is_match (tO 80) false m4 r1)) && true)))) = true.
Proof. vm_compute. reflexivity. Qed.

(** /repo/src/matcher/record.rs:222-239 *)
Example record_doc_222 :
  (let s := fresh in
   with_some (record_new [(lit "003@", None, [(48, (lit "123456789X"))]); (lit "002@", None, [(48, (lit "Tp1"))])]) (fun r1 =>
   with_new (field_matcher_new (tO 80)) s (lit "003@.0 == '123456789X'") (fun m2 s =>
   with_new (field_matcher_new (tO 80)) s (lit "002@.0 == 'Tp2'") (fun m3 s =>
   (is_true (fm_is_match (tO 80) false (fm_xor m2 m3) r1)) && true)))) = true.
Proof. vm_compute. reflexivity. Qed.

(** /repo/src/matcher/record.rs:251-266 *)
Example record_doc_251 :
  (let s := fresh in
   with_some (record_new [(lit "003@", None, [(48, (lit "123456789X"))]); (lit "002@", None, [(48, (lit "Tp1"))])]) (fun r1 =>
   with_new (field_matcher_new (tO 80)) s (lit "003@.0 == '123456789X'") (fun m2 s =>
   with_new (field_matcher_new (tO 80)) s (lit "002@.0 == 'Tp2'") (fun m3 s =>
   let m4 := fm_xor_assign m2 m3 in
   (is_true (fm_is_match (tO 80) false m4 r1)) && true)))) = true.
Proof. vm_compute. reflexivity. Qed.

(** /repo/src/matcher/record.rs:281-295 *)
Example record_doc_281 :
  (let s := fresh in
   with_some (record_new [(lit "003@", None, [(48, (lit "123456789X"))]); (lit "002@", None, [(48, (lit "Tp1"))])]) (fun r1 =>
   with_new (field_matcher_new (tO 80)) s (lit "002@.0 == 'Tp2'") (fun m2 s =>
   (is_true (fm_is_match (tO 80) false (fm_not m2) r1)) && true))) = true.
Proof. vm_compute. reflexivity. Qed.

(** /repo/src/matcher/record.rs:346-363 *)
Example record_test_record_matcher_serde :
  (let s := fresh in
   with_new (field_matcher_new (tO 80)) s (lit "012A.a? && (012A.b? || 012A.c?)") (fun m1 s =>
   bytes_eqb (fm_display m1) (lit "012A.a? && (012A.b? || 012A.c?)") &&
   with_new (field_matcher_new (tO 80)) s (lit "012A.a? && !(012A.b? || 012A.c?) ") (fun m2 s =>
   bytes_eqb (fm_display m2) (lit "012A.a? && !(012A.b? || 012A.c?)") && true))) = true.
Proof. vm_compute. reflexivity. Qed.

(** /repo/src/matcher/record.rs:366-374 *)
Example record_test_record_matcher_new :
  (let s := fresh in
   with_new (field_matcher_new (tO 80)) s (lit "003@.0?") (fun m1 s =>
   with_some (record_from_bytes ada) (fun r2 =>
   (is_true (fm_is_match (tO 80) false m1 r2)) && true))) = true.
Proof. vm_compute. reflexivity. Qed.

(** /repo/src/matcher/record.rs:383-393 *)
Example record_test_record_matcher_exists :
  (let s := fresh in
   with_some (record_from_bytes ada) (fun r1 =>
   with_new (field_matcher_new (tO 80)) s (lit "004B?") (fun m2 s =>
   (is_true (fm_is_match (tO 80) false m2 r1)) &&
   with_new (field_matcher_new (tO 80)) s (lit "028A.a?") (fun m3 s =>
   (is_true (fm_is_match (tO 80) false m3 r1)) && true)))) = true.
Proof. vm_compute. reflexivity. Qed.

(** /repo/src/matcher/record.rs:396-404 *)
Example record_test_record_matcher_cardinality :
  (let s := fresh in
   with_some (record_from_bytes ada) (fun r1 =>
   with_new (field_matcher_new (tO 80)) s (lit "#028[A@]{d =^ 'Ada' && a == 'Lovelace'} == 5") (fun m2 s =>
   (is_true (fm_is_match (tO 80) false m2 r1)) && true))) = true.
Proof. vm_compute. reflexivity. Qed.

(** /repo/src/matcher/record.rs:407-413 *)
Example record_test_record_matcher_in :
  (let s := fresh in
   with_some (record_from_bytes ada) (fun r1 =>
   with_new (field_matcher_new (tO 80)) s (lit "002@.0 in ['Tpz', 'Tp1']") (fun m2 s =>
   (is_true (fm_is_match (tO 80) false m2 r1)) && true))) = true.
Proof. vm_compute. reflexivity. Qed.

(** /repo/src/matcher/record.rs:416-423 *)
Example record_test_record_matcher_not_in :
  (let s := fresh in
   with_some (record_from_bytes ada) (fun r1 =>
   with_new (field_matcher_new (tO 80)) s (lit "002@.0 not in ['Tuz', 'Tu1']") (fun m2 s =>
   (is_true (fm_is_match (tO 80) false m2 r1)) && true))) = true.
Proof. vm_compute. reflexivity. Qed.

(** /repo/src/matcher/record.rs:426-440 *)
Example record_test_record_matcher_regex :
  (let s := fresh in
   with_some (record_from_bytes ada) (fun r1 =>
   with_new (field_matcher_new (tO 80)) s (lit "047A/03.[er] =~ '^DE-\\d+6'") (fun m2 s =>
   (is_true (fm_is_match (tO 80) false m2 r1)) &&
   with_some (record_from_bytes ada) (fun r3 =>
   with_new (field_matcher_new (tO 80)) s (lit "047A/03.[er] !~ '^EN-\\d+6'") (fun m4 s =>
   (is_true (fm_is_match (tO 80) false m4 r3)) && true))))) = true.
Proof. vm_compute. reflexivity. Qed.

(** /repo/src/matcher/record.rs:443-452 *)
Example record_test_record_matcher_regex_set :
  (let s := fresh in
   with_some (record_from_bytes ada) (fun r1 =>
   with_new (field_matcher_new (tO 80)) s (lit "047A/03.[er] =~ ['^DE-\\d+6', '^EN-.*']") (fun m2 s =>
   (is_true (fm_is_match (tO 80) false m2 r1)) && true))) = true.
Proof. vm_compute. reflexivity. Qed.

(** /repo/src/matcher/record.rs:455-461 *)
Example record_test_record_matcher_equal :
  (let s := fresh in
   with_some (record_from_bytes ada) (fun r1 =>
   with_new (field_matcher_new (tO 80)) s (lit "003@.0 == '119232022'") (fun m2 s =>
   (is_true (fm_is_match (tO 80) false m2 r1)) && true))) = true.
Proof. vm_compute. reflexivity. Qed.

(** /repo/src/matcher/record.rs:464-470 *)
Example record_test_record_matcher_not_equal :
  (let s := fresh in
   with_some (record_from_bytes ada) (fun r1 =>
   with_new (field_matcher_new (tO 80)) s (lit "002@.0 != 'Ts1'") (fun m2 s =>
   (is_true (fm_is_match (tO 80) false m2 r1)) && true))) = true.
Proof. vm_compute. reflexivity. Qed.

(** /repo/src/matcher/record.rs:473-480 *)
Example record_test_record_matcher_starts_with :
  (let s := fresh in
   with_some (record_from_bytes ada) (fun r1 =>
   with_new (field_matcher_new (tO 80)) s (lit "003U.a =^ 'http://d-nb.info/gnd/'") (fun m2 s =>
   (is_true (fm_is_match (tO 80) false m2 r1)) && true))) = true.
Proof. vm_compute. reflexivity. Qed.

(** /repo/src/matcher/record.rs:483-489 *)
Example record_test_record_matcher_starts_not_with :
  (let s := fresh in
   with_some (record_from_bytes ada) (fun r1 =>
   with_new (field_matcher_new (tO 80)) s (lit "002@.0 !^ 'Ts'") (fun m2 s =>
   (is_true (fm_is_match (tO 80) false m2 r1)) && true))) = true.
Proof. vm_compute. reflexivity. Qed.

(** /repo/src/matcher/record.rs:492-498 *)
Example record_test_record_matcher_ends_with :
  (let s := fresh in
   with_some (record_from_bytes ada) (fun r1 =>
   with_new (field_matcher_new (tO 80)) s (lit "042B.a =$ '-GB'") (fun m2 s =>
   (is_true (fm_is_match (tO 80) false m2 r1)) && true))) = true.
Proof. vm_compute. reflexivity. Qed.

(** /repo/src/matcher/record.rs:501-507 *)
Example record_test_record_matcher_ends_not_with :
  (let s := fresh in
   with_some (record_from_bytes ada) (fun r1 =>
   with_new (field_matcher_new (tO 80)) s (lit "002@.0 !$ '3'") (fun m2 s =>
   (is_true (fm_is_match (tO 80) false m2 r1)) && true))) = true.
Proof. vm_compute. reflexivity. Qed.

(** /repo/src/matcher/record.rs:510-517 *)
Example record_test_record_matcher_group :
  (let s := fresh in
   with_some (record_from_bytes ada) (fun r1 =>
   with_new (field_matcher_new (tO 80)) s (lit "(002@.0 == 'Tp1' && 004B.a == 'pik')") (fun m2 s =>
   (is_true (fm_is_match (tO 80) false m2 r1)) && true))) = true.
Proof. vm_compute. reflexivity. Qed.

(** /repo/src/matcher/record.rs:520-529 *)
Example record_test_record_matcher_not :
  (let s := fresh in
   with_some (record_from_bytes ada) (fun r1 =>
   with_new (field_matcher_new (tO 80)) s (lit "!(002@.0 == 'Ts1' || 002@.0 =^ 'Tu')") (fun m2 s =>
   (is_true (fm_is_match (tO 80) false m2 r1)) &&
   with_new (field_matcher_new (tO 80)) s (lit "!012A.0?") (fun m3 s =>
   (is_true (fm_is_match (tO 80) false m3 r1)) && true)))) = true.
Proof. vm_compute. reflexivity. Qed.

(** /repo/src/matcher/record.rs:532-539 *)
Example record_test_record_matcher_and :
  (let s := fresh in
   with_some (record_from_bytes ada) (fun r1 =>
   with_new (field_matcher_new (tO 80)) s (lit "002@.0 == 'Tp1' && 004B.a == 'pik'") (fun m2 s =>
   (is_true (fm_is_match (tO 80) false m2 r1)) && true))) = true.
Proof. vm_compute. reflexivity. Qed.

(** /repo/src/matcher/record.rs:542-549 *)
Example record_test_record_matcher_or :
  (let s := fresh in
   with_some (record_from_bytes ada) (fun r1 =>
   with_new (field_matcher_new (tO 80)) s (lit "002@.0 == 'Ts1' || 004B.a == 'pik'") (fun m2 s =>
   (is_true (fm_is_match (tO 80) false m2 r1)) && true))) = true.
Proof. vm_compute. reflexivity. Qed.

(** /repo/src/matcher/record.rs:552-564 *)
Example record_test_record_matcher_xor :
  (let s := fresh in
   with_some (record_from_bytes ada) (fun r1 =>
   with_new (field_matcher_new (tO 80)) s (lit "042A.a == '28p' ^ 042A.a == '9.5p'") (fun m2 s =>
   (negb (is_true (fm_is_match (tO 80) false m2 r1))) &&
   with_new (field_matcher_new (tO 80)) s (lit "042A.a == '28p' XOR 042A.a == '9.5p'") (fun m3 s =>
   (negb (is_true (fm_is_match (tO 80) false m3 r1))) && true)))) = true.
Proof. vm_compute. reflexivity. Qed.

(** a tag matcher of a single tag, a relation and an existence matcher of one code *)
Definition one_tag (t : string) : tag_matcher := TMTag (lit t).
Definition zero_is (v : string) : subfield_matcher :=
  SMSingleton (SRelation QAny (lit "0") OpEq (lit v) (lit "0 == '" ++ lit v ++ lit "'")).

(** /repo/src/matcher/field/parser.rs:389-415 *)
Example test_parse_exists_matcher :
  map (fun i => do m <- parse_all parse_f_exists i; Some (fs_display m, m)) [lit "003@?"; lit "041A/*?"]
  = [Some (lit "003@?", FExists (one_tag "003@") OMNone); Some (lit "041A/*?", FExists (one_tag "041A") OMAny)].
Proof. vm_compute. reflexivity. Qed.

(** /repo/src/matcher/field/parser.rs:418-471, 474-506 (without the cases of the
    feature "compat") *)
Example test_parse_subfields_and_singleton_matcher :
  map (fun i => fst (sparse_all (parse_f_singleton (tO 80)) fresh i))
    [lit "003@.0 == '0123456789X'"; lit "003@{0 == '0123456789X'}"; lit "041A/*?"]
  = [Some (Some (FSubfields QAny (one_tag "003@") OMNone (zero_is "0123456789X") (lit "003@.0 == '0123456789X'")));
     Some (Some (FSubfields QAny (one_tag "003@") OMNone (zero_is "0123456789X") (lit "003@{0 == '0123456789X'}")));
     Some (Some (FExists (one_tag "041A") OMAny))].
Proof. vm_compute. reflexivity. Qed.

(** /repo/src/matcher/field/parser.rs:509-531 *)
Example test_parse_cardinality_matcher :
  fst (sparse_all (parse_f_card (tO 80)) fresh (lit "#010@ > 5"))
  = Some (Some (FMCard (one_tag "010@") OMNone None OpGt 5 (lit "#010@ > 5"))).
Proof. vm_compute. reflexivity. Qed.

(** /repo/src/matcher/field/parser.rs:534-583 *)
Example test_parse_field_exists_matcher :
  parse_all f_exists (lit "003@.0?")
  = Some (FMSingleton (FSubfields QAny (one_tag "003@") OMNone (SMSingleton (SExists (lit "0") (lit "0?")))
      (lit "003@.0?"))).
Proof. vm_compute. reflexivity. Qed.

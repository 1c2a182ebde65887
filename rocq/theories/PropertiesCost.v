(** * Properties of the work and the nesting of parsed expressions

    [group_starts] (CostSpec.v) is the number of times the parser for
    parentheses is started while an expression is parsed. *)

From Coq Require Import String.
From Verif Require Import Bytes MatcherModel StateParser MatcherParserModel CostSpec CostProofs
  CostLowProofs CostHighProofs CostDepthProofs PropertiesGrammar.

(** C100: counting changes neither the result nor the levels of nesting. *)
Theorem C100_counting_harmless : forall O s t,
  fst (sparse_all (counted_matcher O) s t) = fst (field_matcher_new O s t)
  /\ lv_sub (snd (sparse_all (counted_matcher O) s t)) = lv_sub (snd (field_matcher_new O s t))
  /\ lv_field (snd (sparse_all (counted_matcher O) s t)) = lv_field (snd (field_matcher_new O s t)).
Proof. exact counting_harmless. Qed.
Print Assumptions C100_counting_harmless.

Example counting_harmless_case :
  group_starts plain_oracles (lit "(003@? && 012A?) || 013A?") = 32
  /\ exists m, fst (field_matcher_new plain_oracles fresh (lit "(003@? && 012A?) || 013A?")) = Some (Some m).
Proof. split; [vm_compute; reflexivity|]. eexists. vm_compute. reflexivity. Qed.

(** as stated it is false: with each pair of parentheses the number of starts
    grows by the factor eight, as far as the limit of nesting allows *)
Theorem C100_factor_eight_refuted : forall O n, (n < 256)%nat ->
  8 ^ N.of_nat n <= group_starts O (parens n (lit "003@?"))
  /\ exists m, fst (field_matcher_new O fresh (parens n (lit "003@?"))) = Some (Some m).
Proof. exact starts_low. Qed.
Print Assumptions C100_factor_eight_refuted.

(** an accepted expression of 25 bytes takes more than 10^9 starts, one of 515
    bytes more than 10^230, more than the 84th power of its length *)
Theorem C100_polynomial_refuted : forall O,
  (exists t m, size t = 25 /\ fst (field_matcher_new O fresh t) = Some (Some m) /\ 10 ^ 9 < group_starts O t)
  /\ exists t m, size t = 515 /\ fst (field_matcher_new O fresh t) = Some (Some m)
     /\ 10 ^ 230 < group_starts O t /\ size t ^ 84 < group_starts O t.
Proof. exact starts_examples. Qed.
Print Assumptions C100_polynomial_refuted.

(** what holds: the number of starts is bounded, the exponent of the bound is
    the number of opening parentheses *)
Theorem C100_starts_bounded_partial : forall O t,
  group_starts O t <= (10 * (size t + 3) ^ 4) ^ (opening t + 1).
Proof. exact starts_high. Qed.
Print Assumptions C100_starts_bounded_partial.

(** so without parentheses the work is polynomial *)
Theorem C100_without_parentheses_partial : forall O t, ~ In 40 t ->
  group_starts O t <= 10 * (size t + 3) ^ 4.
Proof. exact starts_plain. Qed.
Print Assumptions C100_without_parentheses_partial.

Example without_parentheses_case : ~ In 40 (lit "003@? && !012A?")
  /\ group_starts plain_oracles (lit "003@? && !012A?") = 9.
Proof. split; [cbn; intuition congruence|vm_compute; reflexivity]. Qed.

(** C101: as stated it is false: [n] negations are accepted for every [n], and
    the matcher is nested [n] deep *)
Theorem C101_nesting_refuted : forall O n, exists m,
  fst (field_matcher_new O fresh (repeat 33 n ++ lit "003@?")) = Some (Some m)
  /\ height m = N.of_nat n.
Proof. exact high_negated. Qed.
Print Assumptions C101_nesting_refuted.

(** what holds: the nesting is at most twice the length of the expression *)
Theorem C101_nesting_linear_partial : forall O s t m,
  fst (field_matcher_new O s t) = Some (Some m) -> height m <= 2 * size t.
Proof. exact height_size. Qed.
Print Assumptions C101_nesting_linear_partial.

Example nesting_case : exists m,
  fst (field_matcher_new plain_oracles fresh (lit "!(003@? && 012A?)")) = Some (Some m) /\ height m = 3.
Proof. eexists. split; vm_compute; reflexivity. Qed.

(** * Specification of comparisons without regard to case *)

From Coq Require Import String.
From Verif Require Import Bytes Utf8Model TagOccModel MatcherModel CliModel DiskModel MainModel.

(** Lower case can be taken of parts: around a text in UTF-8 the parts do not influence each other. *)
Definition lower_of_parts (O : oracles) : Prop := forall a b c, utf8_valid b = true ->
  o_lower O (a ++ b ++ c) = o_lower O a ++ o_lower O b ++ o_lower O c.

Definition all_texts (vs : list bytes) : Prop := Forall (fun v => utf8_valid v = true) vs.

(** The side to which a matcher may move if case is ignored: [true] if it still matches what it matched ("==", "=^",
    "=$", "=?", "in"), [false] if it still does not match what it did not match ("!=", "!^", "!$", "not in").  A
    cardinality of subfields may stand on both sides; regular expressions and "=*" on neither. *)
Inductive singleton_moves : bool -> singleton -> Prop :=
| sm_exists : forall up codes raw, singleton_moves up (SExists codes raw)
| sm_eq : forall q codes v raw, singleton_moves true (SRelation q codes OpEq v raw)
| sm_ne : forall q codes v raw, singleton_moves false (SRelation q codes OpNe v raw)
| sm_starts : forall q codes v raw, utf8_valid v = true -> singleton_moves true (SRelation q codes OpStartsWith v raw)
| sm_starts_not : forall q codes v raw, utf8_valid v = true -> singleton_moves false (SRelation q codes OpStartsNotWith v raw)
| sm_ends : forall q codes v raw, utf8_valid v = true -> singleton_moves true (SRelation q codes OpEndsWith v raw)
| sm_ends_not : forall q codes v raw, utf8_valid v = true -> singleton_moves false (SRelation q codes OpEndsNotWith v raw)
| sm_contains : forall q codes vs raw, all_texts vs -> singleton_moves true (SContains q codes vs raw)
| sm_in : forall q codes vs raw, singleton_moves true (SIn q codes vs false raw)
| sm_not_in : forall q codes vs raw, singleton_moves false (SIn q codes vs true raw)
| sm_card : forall up codes op n raw, is_usize_applicable op = true -> singleton_moves up (SCard codes op n raw).

(** "!" changes the side, "&&" and "||" keep it; [one] are the sides of the comparisons. *)
Inductive subfield_moves (one : bool -> singleton -> Prop) : bool -> subfield_matcher -> Prop :=
| sub_one : forall up s, one up s -> subfield_moves one up (SMSingleton s)
| sub_group : forall up m, subfield_moves one up m -> subfield_moves one up (SMGroup m)
| sub_not : forall up m, subfield_moves one (negb up) m -> subfield_moves one up (SMNot m)
| sub_and : forall up l r, subfield_moves one up l -> subfield_moves one up r -> subfield_moves one up (SMComposite l BAnd r)
| sub_or : forall up l r, subfield_moves one up l -> subfield_moves one up r -> subfield_moves one up (SMComposite l BOr r).

(** the side of a number of fields: "at least" keeps the side of the condition on the fields, "at most" changes it *)
Inductive field_moves (one : bool -> singleton -> Prop) : bool -> field_matcher -> Prop :=
| fi_exists : forall up t o, field_moves one up (FMSingleton (FExists t o))
| fi_subfields : forall up q t o m raw, subfield_moves one up m -> field_moves one up (FMSingleton (FSubfields q t o m raw))
| fi_card : forall up t o op n raw, is_usize_applicable op = true -> field_moves one up (FMCard t o None op n raw)
| fi_at_least : forall up t o m op n raw, op = OpGe \/ op = OpGt -> subfield_moves one up m -> field_moves one up (FMCard t o (Some m) op n raw)
| fi_at_most : forall up t o m op n raw, op = OpLe \/ op = OpLt -> subfield_moves one (negb up) m -> field_moves one up (FMCard t o (Some m) op n raw)
| fi_group : forall up m, field_moves one up m -> field_moves one up (FMGroup m)
| fi_not : forall up m, field_moves one (negb up) m -> field_moves one up (FMNot m)
| fi_and : forall up l r, field_moves one up l -> field_moves one up r -> field_moves one up (FMComposite l BAnd r)
| fi_or : forall up l r, field_moves one up l -> field_moves one up r -> field_moves one up (FMComposite l BOr r).

(** the answers before and after: on the side [true] the second is yes if the first is *)
Definition moved (up b b' : bool) : Prop := if up then b = true -> b' = true else b' = true -> b = true.

(** the options with --ignore-case *)
Definition ignoring (o : file_opts) : file_opts :=
  mkFileOpts (o_skip o) (o_limit o) true (o_threshold o) (o_allow o) (o_deny o) (o_column o) (o_source o) (o_where o) (o_and o) (o_or o) (o_not o).

(** ** Similarity *)

(** The second finds similar whatever the first finds similar, and is like the first in all else. *)
Definition no_stricter (O O' : oracles) : Prop :=
  o_lower O' = o_lower O /\ o_re_ok O' = o_re_ok O /\ o_reset_ok O' = o_reset_ok O /\ o_re O' = o_re O
  /\ forall ci a b, o_similar O ci a b = true -> o_similar O' ci a b = true.

(** the higher --strsim-threshold, the less is similar *)
Definition by_degree (e : env) : Prop := forall n n', n <= n' -> no_stricter (e_oracles e (e_hundredth e n')) (e_oracles e (e_hundredth e n)).

(** the sides of the comparisons if the threshold is lowered: only "=*" moves *)
Inductive similar_moves (O : oracles) (ci : bool) : bool -> singleton -> Prop :=
| si_similar : forall q codes v raw, similar_moves O ci true (SRelation q codes OpSimilar v raw)
| si_relation : forall up q codes op v raw, op <> OpSimilar -> is_str_applicable op = true -> similar_moves O ci up (SRelation q codes op v raw)
| si_exists : forall up codes raw, similar_moves O ci up (SExists codes raw)
| si_contains : forall up q codes vs raw, similar_moves O ci up (SContains q codes vs raw)
| si_regex : forall up q codes x invert raw, o_re_ok O ci x = true -> similar_moves O ci up (SRegex q codes x invert raw)
| si_regexes : forall up q codes xs invert raw, o_reset_ok O ci xs = true -> similar_moves O ci up (SRegexSet q codes xs invert raw)
| si_in : forall up q codes vs invert raw, similar_moves O ci up (SIn q codes vs invert raw)
| si_card : forall up codes op n raw, is_usize_applicable op = true -> similar_moves O ci up (SCard codes op n raw).

(** the options with another --strsim-threshold *)
Definition at_threshold (n : N) (o : file_opts) : file_opts :=
  mkFileOpts (o_skip o) (o_limit o) (o_ci o) n (o_allow o) (o_deny o) (o_column o) (o_source o) (o_where o) (o_and o) (o_or o) (o_not o).

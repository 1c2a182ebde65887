(** * The matchers of one kind: constructors of their own

    The structs ExistsMatcher, RelationMatcher, ... can be built directly from
    a text; each constructor runs the parser of its kind on the whole text.
    Simplified: the structs are modelled by the variants of [singleton] and
    [field_matcher] that wrap them; the error value is not modelled. *)

From Verif Require Import Bytes Winnow StateParser MatcherModel MatcherParserModel.

Section News.
  Variable O : oracles.

  (** ** /repo/src/matcher/subfield/mod.rs *)
  (** /repo/src/matcher/subfield/mod.rs:55-61 ExistsMatcher::new *)
  Definition exists_new : bytes -> option singleton := parse_all parse_exists.
  (** /repo/src/matcher/subfield/mod.rs:151-159 RelationMatcher::new *)
  Definition relation_new : bytes -> option singleton := parse_all parse_relation.
  (** /repo/src/matcher/subfield/mod.rs:417-425 ContainsMatcher::new *)
  Definition contains_new : bytes -> option singleton := parse_all parse_contains.
  (** /repo/src/matcher/subfield/mod.rs:528-534 RegexMatcher::new *)
  Definition regex_new : bytes -> option singleton := parse_all (parse_regex O).
  (** /repo/src/matcher/subfield/mod.rs:631-639 RegexSetMatcher::new *)
  Definition regex_set_new : bytes -> option singleton := parse_all (parse_regex_set O).
  (** /repo/src/matcher/subfield/mod.rs:738-742 InMatcher::new *)
  Definition in_new : bytes -> option singleton := parse_all parse_in.
  (** /repo/src/matcher/subfield/mod.rs:840-848 CardinalityMatcher::new *)
  Definition card_new : bytes -> option singleton := parse_all parse_card.
  (** /repo/src/matcher/subfield/mod.rs:953-961 SingletonMatcher::new *)
  Definition singleton_new : bytes -> option singleton := parse_all (parse_singleton O).

  (** ** /repo/src/matcher/field/mod.rs *)
  (** /repo/src/matcher/field/mod.rs:49-55 ExistsMatcher::new *)
  Definition f_exists_new : bytes -> option field_singleton := parse_all parse_f_exists.
  (** /repo/src/matcher/field/mod.rs:133-141 SubfieldsMatcher::new, with
      /repo/src/matcher/field/parser.rs:111-121 parse_subfields_matcher *)
  Definition f_subfields_new : levels -> bytes -> option (option field_singleton) * levels :=
    sparse_all (salt (slift (parse_f_dot O)) (parse_f_bracket O)).
  (** /repo/src/matcher/field/mod.rs:225-233 SingletonMatcher::new *)
  Definition f_singleton_new : levels -> bytes -> option (option field_singleton) * levels :=
    sparse_all (parse_f_singleton O).
  (** /repo/src/matcher/field/mod.rs:318-326 CardinalityMatcher::new *)
  Definition f_card_new : levels -> bytes -> option (option field_matcher) * levels :=
    sparse_all (parse_f_card O).
End News.

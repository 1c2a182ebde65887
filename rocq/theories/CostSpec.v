(** * Counting how often the parser for parentheses is started

    The parser of MatcherParserModel, with a counter.  The counter is kept in
    [lv_fmt], the nesting level of format strings, which the parsers of
    matchers neither read nor write; C100_counting_harmless states that the
    result and the two other levels are those of the parser itself. *)

From Verif Require Import Bytes Winnow MatcherModel StateParser MatcherParserModel.

(** [p], counting its starts *)
Definition counted {A} (p : sparser A) : sparser A := fun s i =>
  p (mkLevels (lv_sub s) (lv_field s) (lv_fmt s + 1)) i.

(** [field_gn], counting the starts of /repo/src/matcher/field/parser.rs:257-273
    parse_field_group_matcher *)
Fixpoint counted_gn (O : oracles) (n : nat) : sparser field_matcher * sparser field_matcher :=
  match n with
  | 0%nat => (sfuel, sfuel)
  | S n' => let '(g, t) := counted_gn O n' in (counted (f_group_body O g t), f_not_body O g t)
  end.

(** [parse_field_matcher] (/repo/src/matcher/field/parser.rs:365-380) with
    these parsers *)
Definition counted_matcher (O : oracles) : sparser field_matcher := fun s i =>
  let '(g, t) := counted_gn O (S (length i)) in
  match sws (salt (f_composite O g t)
               (salt g (salt t (salt (f_singleton O) (parse_f_card O))))) s i with
  | (POk m r, s') => (POk m r, field_reset s')
  | x => x
  end.

(** how often the parser for parentheses is started for [t] *)
Definition group_starts (O : oracles) (t : bytes) : N :=
  lv_fmt (snd (sparse_all (counted_matcher O) fresh t)).

(** the number of opening parentheses of a text *)
Definition opening (t : bytes) : N := N.of_nat (length (filter (N.eqb 40) t)).

(** the length of a text *)
Definition size (t : bytes) : N := N.of_nat (length t).

(** [t] in [n] pairs of parentheses *)
Definition parens (n : nat) (t : bytes) : bytes := repeat 40 n ++ t ++ repeat 41 n.

(** how deep the nodes of a matcher are nested; printing, evaluating and
    dropping a matcher call themselves for each of them *)
Fixpoint height (m : field_matcher) : N :=
  match m with
  | FMSingleton _ | FMCard _ _ _ _ _ _ => 0
  | FMGroup m' | FMNot m' => height m' + 1
  | FMComposite l _ r => N.max (height l) (height r) + 1
  end.

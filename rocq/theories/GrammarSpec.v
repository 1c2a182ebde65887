(** * Specification of the language of matcher expressions

    Every text of the language is paired with its meaning, a predicate on the
    list of subfields (of one field) or on the list of fields (of one record).
    Nothing here refers to the parsers or to the matcher structures they build;
    shared are the names of the relational operators and of the quantifiers,
    the external functions, and the logical vocabulary of [MatcherSpec.v]. *)

From Coq Require Import String.
From Verif Require Import Bytes RecordModel RecordSpec TagOccSpec StrSpec Utf8Spec
  MatcherModel MatcherSpec.

Definition blanks (w : bytes) : Prop := Forall blank w.

(** A meaning: does case matter, and which list is looked at *)
Definition meaning (B : Type) : Type := bool -> list B -> Prop.

(** ** Subfield codes: one code, a bracket list with ranges, or "*" *)
Definition alnums : bytes := digits ++ lowers ++ uppers.

Inductive codes_text : bytes -> (byte -> Prop) -> Prop :=
| codes_one : forall c, In c alnums -> codes_text [c] (fun x => x = c)
| codes_list : forall t C, items_text alnums t C -> codes_text (lit "[" ++ t ++ lit "]") C
| codes_all : codes_text (lit "*") (fun x => In x alnums).

(** ** Quantifier in front of a matcher; no quantifier means ANY.  The first
    argument tells whether at least one blank must follow the quantifier. *)
Inductive quant_text (sep : bool) : bytes -> quantifier -> Prop :=
| quant_none : quant_text sep [] QAny
| quant_all : forall w, blanks w -> (sep = true -> w <> []) -> quant_text sep (lit "ALL" ++ w) QAll
| quant_any : forall w, blanks w -> (sep = true -> w <> []) -> quant_text sep (lit "ANY" ++ w) QAny.

(** ** Strings, lists of strings, numbers *)
Definition string_text (t v : bytes) : Prop :=
  exists q w, (q = 39 \/ q = 34) /\ t = q :: w ++ [q] /\ quoted q w v /\ is_utf8 v.

Inductive strings_text : bytes -> list bytes -> Prop :=
| strings_one : forall t v, string_text t v -> strings_text t [v]
| strings_more : forall t v w1 w2 ts vs,
    string_text t v -> blanks w1 -> blanks w2 -> strings_text ts vs ->
    strings_text (t ++ w1 ++ lit "," ++ w2 ++ ts) (v :: vs).

(** an optional comma after the last string *)
Inductive comma_text : bytes -> Prop :=
| comma_no : comma_text []
| comma_yes : forall w, blanks w -> comma_text (w ++ lit ",").

Inductive list_text : bytes -> list bytes -> Prop :=
| list_intro : forall w1 ts vs tc w2,
    blanks w1 -> strings_text ts vs -> comma_text tc -> blanks w2 ->
    list_text (lit "[" ++ w1 ++ ts ++ tc ++ w2 ++ lit "]") vs.

(** a decimal number below 2^64 *)
Definition number_text (t : bytes) (n : N) : Prop :=
  t <> [] /\ Forall (fun c => In c digits) t /\ n = number t /\ n < 18446744073709551616.

(** the operators on strings and on counts *)
Definition str_ops : list (bytes * rel_op) :=
  [(lit "==", OpEq); (lit "!=", OpNe); (lit "=^", OpStartsWith); (lit "!^", OpStartsNotWith);
   (lit "=$", OpEndsWith); (lit "!$", OpEndsNotWith); (lit "=*", OpSimilar)].
Definition num_ops : list (bytes * rel_op) :=
  [(lit "==", OpEq); (lit "!=", OpNe); (lit ">=", OpGe); (lit ">", OpGt);
   (lit "<=", OpLe); (lit "<", OpLt)].

(** one of the characters of a text of at least two characters *)
Definition has_chars (v : bytes) (char : bytes -> Prop) : Prop :=
  exists l, Forall is_scalar l /\ v = utf8_encode l /\ (2 <= length l)%nat
    /\ forall x, char x <-> exists c, In c l /\ x = utf8_encode_char c.

(** the strings listed after "=?" and "in" *)
Inductive needles_text : bytes -> (bytes -> Prop) -> Prop :=
| needles_one : forall t v, string_text t v -> needles_text t (fun x => x = v)
| needles_list : forall t vs, list_text t vs -> needles_text t (fun x => In x vs).
Inductive members_text : bytes -> (bytes -> Prop) -> Prop :=
| members_chars : forall t v char, string_text t v -> has_chars v char -> members_text t char
| members_list : forall t vs, list_text t vs -> members_text t (fun x => In x vs).

(** "in", "not in" *)
Inductive in_text : bytes -> bool -> Prop :=
| in_plain : in_text (lit "in") false
| in_not : forall w, blanks w -> in_text (lit "not" ++ w ++ lit "in") true.

Inductive re_op_text : bytes -> bool -> Prop :=
| re_plain : re_op_text (lit "=~") false
| re_not : re_op_text (lit "!~") true.

(** ** The expressions built over some kind of operands

    Precedence: "&&" binds stronger than "^", "^" stronger than "||". *)
Inductive kind :=
| KNeg    (* may be negated without parentheses *)
| KPlain  (* a simple condition that needs parentheses to be negated *)
| KLoose  (* may be negated, and be an operand, but not stand alone *)
| KGroup | KNot | KAnd
| KXorA   (* "^" chain, the first operand is not an "&&" chain *)
| KXorN   (* "^" chain, the first operand is an "&&" chain *)
| KOr.

Definition is_atom (k : kind) : bool :=
  match k with KNeg | KPlain | KLoose | KGroup | KNot => true | _ => false end.
Definition negatable (k : kind) : bool :=
  match k with KNeg | KLoose | KGroup | KNot => true | _ => false end.
Definition alone (k : kind) : bool :=
  match k with KLoose => false | _ => true end.
Definition is_and (k : kind) : bool := match k with KAnd => true | _ => false end.
Definition is_xor (k : kind) : bool := match k with KXorA | KXorN => true | _ => false end.
Definition is_or (k : kind) : bool := match k with KOr => true | _ => false end.

Inductive xor_token : bytes -> Prop :=
| xor_caret : xor_token (lit "^")
| xor_word : xor_token (lit "XOR").

Section Expressions.
  Context {B : Type}.
  (** the operands: kind, text, meaning and a measure of nesting *)
  Variable leaf : kind -> bytes -> meaning B -> N -> Prop.
  (** the measure of a group and of an operator *)
  Variable up : N -> N.
  Variable join : N -> N -> N.
  (** In the strict language no operand of "||" is a "^" chain that begins with
      an "&&" chain (the parsers reject these, see [C65_mixed_chain_refuted]). *)
  Variable strict : bool.

  Definition or_operand (k : kind) : bool :=
    match k with KXorN => negb strict | KOr => false | _ => true end.

  Inductive expr : kind -> bytes -> meaning B -> N -> Prop :=
  | expr_leaf : forall k t P n, is_atom k = true -> leaf k t P n -> expr k t P n
  | expr_group : forall k w1 e w2 P n,
      alone k = true -> expr k e P n -> blanks w1 -> blanks w2 ->
      expr KGroup (lit "(" ++ w1 ++ e ++ w2 ++ lit ")") P (up n)
  | expr_not : forall k w e P n,
      negatable k = true -> expr k e P n -> blanks w ->
      expr KNot (lit "!" ++ w ++ e) (fun ci l => ~ P ci l) n
  | expr_and : forall k1 k2 t1 w1 w2 t2 P1 P2 n1 n2,
      is_atom k1 || is_and k1 = true -> is_atom k2 = true ->
      expr k1 t1 P1 n1 -> expr k2 t2 P2 n2 -> blanks w1 -> blanks w2 ->
      expr KAnd (t1 ++ w1 ++ lit "&&" ++ w2 ++ t2) (fun ci l => P1 ci l /\ P2 ci l) (join n1 n2)
  | expr_xor : forall k1 k2 t1 w1 x w2 t2 P1 P2 n1 n2,
      is_atom k1 || is_and k1 || is_xor k1 = true -> is_atom k2 || is_and k2 = true ->
      expr k1 t1 P1 n1 -> expr k2 t2 P2 n2 -> blanks w1 -> blanks w2 -> xor_token x ->
      expr (match k1 with KAnd | KXorN => KXorN | _ => KXorA end)
        (t1 ++ w1 ++ x ++ w2 ++ t2)
        (fun ci l => (P1 ci l /\ ~ P2 ci l) \/ (~ P1 ci l /\ P2 ci l)) (join n1 n2)
  | expr_or : forall k1 k2 t1 w1 w2 t2 P1 P2 n1 n2,
      or_operand k1 || is_or k1 = true -> or_operand k2 = true ->
      expr k1 t1 P1 n1 -> expr k2 t2 P2 n2 -> blanks w1 -> blanks w2 ->
      expr KOr (t1 ++ w1 ++ lit "||" ++ w2 ++ t2) (fun ci l => P1 ci l \/ P2 ci l) (join n1 n2).
End Expressions.

(** the kinds of single conditions on subfields *)
Inductive sort := SoExists | SoRelation | SoContains | SoIn | SoRegex | SoRegexSet | SoCount.

Section Matchers.
  Variable O : oracles.

  (** the subfields of a list with one of the codes *)
  Definition coded (C : byte -> Prop) (sfs : list subfield) (s : subfield) : Prop :=
    In s sfs /\ C (sf_code s).

  (** ** Conditions on the subfields of a field *)
  Inductive exists_text : bytes -> meaning subfield -> Prop :=
  | exists_intro : forall t C, codes_text t C ->
      exists_text (t ++ lit "?") (fun _ sfs => exists s, coded C sfs s).

  Inductive sorted_text : sort -> bytes -> meaning subfield -> Prop :=
  | cond_relation : forall tq q tc C w1 top op w2 ts v,
      quant_text true tq q -> codes_text tc C -> blanks w1 -> In (top, op) str_ops ->
      blanks w2 -> string_text ts v ->
      sorted_text SoRelation (tq ++ tc ++ w1 ++ top ++ w2 ++ ts)
        (fun ci sfs => quantified q (fun s => rel_holds O ci op v (sf_value s)) (coded C sfs))
  | cond_contains : forall tq q tc C w1 w2 tn V,
      quant_text false tq q -> codes_text tc C -> blanks w1 -> blanks w2 -> needles_text tn V ->
      sorted_text SoContains (tq ++ tc ++ w1 ++ lit "=?" ++ w2 ++ tn)
        (fun ci sfs => quantified q (fun s =>
           exists v, V v /\ is_infix (fold_case O ci v) (fold_case O ci (sf_value s))) (coded C sfs))
  | cond_in : forall tq q tc C w1 top neg w2 tn V,
      quant_text false tq q -> codes_text tc C -> blanks w1 -> in_text top neg -> blanks w2 ->
      members_text tn V ->
      sorted_text SoIn (tq ++ tc ++ w1 ++ top ++ w2 ++ tn)
        (fun ci sfs => quantified q (fun s => negated_if neg
           (exists v, V v /\ fold_case O ci (sf_value s) = fold_case O ci v)) (coded C sfs))
  | cond_regex : forall tq q tc C w1 top neg w2 ts re,
      quant_text false tq q -> codes_text tc C -> blanks w1 -> re_op_text top neg -> blanks w2 ->
      string_text ts re -> o_re_ok O false re = true ->
      sorted_text SoRegex (tq ++ tc ++ w1 ++ top ++ w2 ++ ts)
        (fun ci sfs => quantified q (fun s => negated_if neg (o_re O ci re (sf_value s) = true))
           (coded C sfs))
  | cond_regex_set : forall tq q tc C w1 top neg w2 tl res,
      quant_text false tq q -> codes_text tc C -> blanks w1 -> re_op_text top neg -> blanks w2 ->
      list_text tl res -> Forall (fun re => o_re_ok O false re = true) res ->
      sorted_text SoRegexSet (tq ++ tc ++ w1 ++ top ++ w2 ++ tl)
        (fun ci sfs => quantified q (fun s => negated_if neg
           (exists re, In re res /\ o_re O ci re (sf_value s) = true)) (coded C sfs))
  | cond_card : forall w1 tc C w2 top op w3 tn n,
      blanks w1 -> codes_text tc C -> blanks w2 -> In (top, op) num_ops -> blanks w3 ->
      number_text tn n ->
      sorted_text SoCount (lit "#" ++ w1 ++ tc ++ w2 ++ top ++ w3 ++ tn)
        (fun _ sfs => exists k, counts (fun s => C (sf_code s)) sfs k /\ count_holds op k n).
  Definition condition_text (t : bytes) (P : meaning subfield) : Prop :=
    exists k, sorted_text k t P.

  (** A single condition as a text of its own: blanks may stand in front,
      except for "codes?", and after some kinds of conditions. *)
  Inductive blanks_after : sort -> bytes -> bytes -> Prop :=
  | after_none : forall k t, blanks_after k t []
  | after_some : forall k t w, In k [SoRelation; SoContains; SoRegexSet] -> blanks w -> blanks_after k t w
  | after_list : forall t w, blanks w -> blanks_after SoIn (t ++ lit "]") w.

  Inductive single_text : sort -> bytes -> meaning subfield -> Prop :=
  | single_exists : forall t P, exists_text t P -> single_text SoExists t P
  | single_cond : forall k w1 t w2 P, sorted_text k t P -> blanks w1 -> blanks_after k t w2 ->
      single_text k (w1 ++ t ++ w2) P.

  Inductive sub_leaf : kind -> bytes -> meaning subfield -> N -> Prop :=
  | sub_leaf_exists : forall t P, exists_text t P -> sub_leaf KNeg t P 0
  | sub_leaf_cond : forall t P, condition_text t P -> sub_leaf KPlain t P 0.

  (** Subfield matchers.  The measure grows eightfold with every level of
      parentheses: the parser tries an operand up to eight times and counts
      the parentheses of all attempts. *)
  Definition sub_text (strict : bool) : kind -> bytes -> meaning subfield -> N -> Prop :=
    expr sub_leaf (fun n => 1 + 8 * n) N.add strict.

  (** ** Conditions on the fields of a record *)
  Definition tagged (T : bytes -> Prop) (S : option bytes -> Prop) (f : field) : Prop :=
    T (f_tag f) /\ S (f_occ f).

  (** a subfield matcher between braces; in the strict language its measure
      is bounded *)
  Inductive braced_text (strict : bool) : bytes -> meaning subfield -> Prop :=
  | braced_intro : forall k w1 e w2 P n,
      alone k = true -> sub_text strict k e P n -> (strict = true -> n < 32) ->
      blanks w1 -> blanks w2 ->
      braced_text strict (lit "{" ++ w1 ++ e ++ w2 ++ lit "}") P.

  (** quantifier directly followed by the tag *)
  Inductive tight_quant : bytes -> quantifier -> Prop :=
  | tight_none : tight_quant [] QAny
  | tight_all : tight_quant (lit "ALL") QAll
  | tight_any : tight_quant (lit "ANY") QAny.

  Inductive field_leaf (strict : bool) : kind -> bytes -> meaning field -> N -> Prop :=
  | field_exists : forall tt T to S w,
      tag_matcher_text tt T -> occ_matcher_text to S -> blanks w ->
      field_leaf strict KNeg (tt ++ to ++ w ++ lit "?")
        (fun _ fs => exists f, In f fs /\ tagged T S f) 0
  | field_dot_exists : forall tq q tt T to S t P,
      quant_text false tq q -> tag_matcher_text tt T -> occ_matcher_text to S -> exists_text t P ->
      field_leaf strict KPlain (tq ++ tt ++ to ++ lit "." ++ t)
        (fun ci fs => quantified q (fun f => P ci (f_subfields f))
           (fun f => In f fs /\ tagged T S f)) 0
  | field_dot : forall tq q tt T to S w t P,
      quant_text false tq q -> tag_matcher_text tt T -> occ_matcher_text to S -> blanks w ->
      condition_text t P ->
      field_leaf strict KPlain (tq ++ tt ++ to ++ lit "." ++ w ++ t)
        (fun ci fs => quantified q (fun f => P ci (f_subfields f))
           (fun f => In f fs /\ tagged T S f)) 0
  | field_loose : forall tq q tt T to S w1 w2 t P,
      tight_quant tq q -> tag_matcher_text tt T -> occ_matcher_text to S -> blanks w1 -> blanks w2 ->
      exists_text t P ->
      field_leaf strict KLoose (tq ++ tt ++ to ++ w1 ++ lit "." ++ w2 ++ t)
        (fun ci fs => quantified q (fun f => P ci (f_subfields f))
           (fun f => In f fs /\ tagged T S f)) 0
  | field_braced : forall tq q tt T to S w t P,
      quant_text false tq q -> tag_matcher_text tt T -> occ_matcher_text to S -> blanks w ->
      braced_text strict t P ->
      field_leaf strict KNeg (tq ++ tt ++ to ++ w ++ t)
        (fun ci fs => quantified q (fun f => P ci (f_subfields f))
           (fun f => In f fs /\ tagged T S f)) 0
  | field_card : forall w1 tt T w2 to S w3 top op w4 tn n,
      blanks w1 -> tag_matcher_text tt T -> blanks w2 -> occ_matcher_text to S -> blanks w3 ->
      In (top, op) num_ops -> blanks w4 -> number_text tn n ->
      field_leaf strict KPlain (lit "#" ++ w1 ++ tt ++ w2 ++ to ++ w3 ++ top ++ w4 ++ tn)
        (fun _ fs => exists k, counts (tagged T S) fs k /\ count_holds op k n) 0
  | field_card_braced : forall w1 tt T w2 to S w3 t P w5 top op w4 tn n,
      blanks w1 -> tag_matcher_text tt T -> blanks w2 -> occ_matcher_text to S -> blanks w3 ->
      braced_text strict t P -> blanks w5 ->
      In (top, op) num_ops -> blanks w4 -> number_text tn n ->
      field_leaf strict KPlain (lit "#" ++ w1 ++ tt ++ w2 ++ to ++ w3 ++ t ++ w5 ++ top ++ w4 ++ tn)
        (fun ci fs => exists k,
           counts (fun f => tagged T S f /\ P ci (f_subfields f)) fs k /\ count_holds op k n) 0.

  (** Field and record matchers; the measure is the depth of parentheses. *)
  Definition field_expr (strict : bool) : kind -> bytes -> meaning field -> N -> Prop :=
    expr (field_leaf strict) N.succ N.max strict.

  (** A matcher expression with blanks around it *)
  Inductive record_matcher_text (strict : bool) : bytes -> meaning field -> N -> Prop :=
  | rmt_intro : forall k w1 e w2 P n,
      alone k = true -> field_expr strict k e P n -> blanks w1 -> blanks w2 ->
      record_matcher_text strict (w1 ++ e ++ w2) P n.
End Matchers.

(** ** Used in statements *)

(** parentheses around a text *)
Fixpoint parens (k : nat) (t : bytes) : bytes :=
  match k with 0%nat => t | S k' => lit "(" ++ parens k' t ++ lit ")" end.

(** the field is there, without occurrence *)
Definition has_tag (tag : string) (fs : list field) : Prop :=
  exists f, In f fs /\ f_tag f = lit tag /\ (f_occ f = None \/ f_occ f = Some (lit "00")).

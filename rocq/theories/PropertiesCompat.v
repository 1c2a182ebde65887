(** * Properties of the cargo feature "compat"

    [bare_dollar] (CompatSpec.v) tells whether a text has a dollar sign that is neither
    quoted nor part of an operator; [dollar_text] describes conditions that begin with
    a dollar sign.  Both are written without the parsers. *)

From Coq Require Import String.
From Verif Require Import Bytes RecordModel RecordSpec TagOccSpec MatcherModel MatcherSpec StateParser
  MatcherParserModel PathModel QueryModel GrammarSpec QueryGrammarSpec SingleProofs GrammarClaimProofs.
From Verif Require FmtModel.
From Verif Require Import CompatModel CompatSpec CompatDollarProofs CompatClaimProofs.

(** C107: on a text without a bare dollar sign the feature changes nothing: each of the
    five parsers yields the same result and leaves the same counters. *)
Theorem C107_feature_without_dollar : forall O s t, bare_dollar t = false ->
  c_subfield_matcher_new O s t = subfield_matcher_new O s t
  /\ c_field_matcher_new O s t = field_matcher_new O s t
  /\ c_path_new O s t = path_new O s t
  /\ c_format_new O s t = FmtModel.format_new O s t
  /\ c_query_new O s t = query_new O s t.
Proof. exact without_dollar. Qed.
Print Assumptions C107_feature_without_dollar.

(** every expression that is accepted without the feature is accepted with it, with
    the same result *)
Theorem C107_accepted_stay : forall O s t s',
  (forall m, subfield_matcher_new O s t = (Some (Some m), s') -> c_subfield_matcher_new O s t = (Some (Some m), s'))
  /\ (forall m, field_matcher_new O s t = (Some (Some m), s') -> c_field_matcher_new O s t = (Some (Some m), s'))
  /\ (forall p, path_new O s t = (Some (Some p), s') -> c_path_new O s t = (Some (Some p), s'))
  /\ (forall f, FmtModel.format_new O s t = (Some (Some f), s') -> c_format_new O s t = (Some (Some f), s'))
  /\ (forall q, query_new O s t = (Some (Some q), s') -> c_query_new O s t = (Some (Some q), s')).
Proof. exact accepted_stay. Qed.
Print Assumptions C107_accepted_stay.

(** without the feature no expression with a bare dollar sign is accepted *)
Theorem C107_default_no_dollar : forall O s t s', bare_dollar t = true ->
  (forall m, subfield_matcher_new O s t <> (Some (Some m), s'))
  /\ (forall m, field_matcher_new O s t <> (Some (Some m), s'))
  /\ (forall p, path_new O s t <> (Some (Some p), s'))
  /\ (forall f, FmtModel.format_new O s t <> (Some (Some f), s'))
  /\ (forall q, query_new O s t <> (Some (Some q), s')).
Proof. exact default_no_dollar. Qed.
Print Assumptions C107_default_no_dollar.

(** dollar signs in quotes and operators are not bare, the others are *)
Example C107_places :
  map (fun t => bare_dollar (lit t))
    ["012A.a =$ '$9'"; "012A{a !$ ""it's $"" && b <$> '\'$'}"; "003@$0"; "012A{ $a == '$' }"; "003@.0, 028A{ (d, $a) }"]%string
  = [false; false; true; true; true].
Proof. reflexivity. Qed.

(** C108: a dollar sign in place of the dot of a path: one or more codes, or a star,
    may follow; blanks may stand around the dollar sign.  The path yields the values
    of these codes in the fields with the tag and occurrence. *)
Theorem C108_dollar_path : forall O w1 tt T to S w2 w3 cs C w4 s,
  blanks w1 -> tag_matcher_text tt T -> occ_matcher_text to S -> blanks w2 -> blanks w3 ->
  plain_codes cs C -> blanks w4 ->
  exists p, c_path_new O s (w1 ++ tt ++ to ++ w2 ++ lit "$" ++ w3 ++ cs ++ w4) = (Some (Some p), s)
    /\ forall ci r, exists vs, record_path O ci p r = Some vs
         /\ forall vs', path_values_of (fun _ f => tagged T S f) [C] ci r vs' <-> vs' = vs.
Proof. exact dollar_path. Qed.
Print Assumptions C108_dollar_path.

(** a dollar sign in place of the dot of a matcher, directly behind tag and occurrence *)
Theorem C108_dollar_matcher : forall O tq q tt T to S k t P s,
  quant_text false tq q -> tag_matcher_text tt T -> occ_matcher_text to S -> single_text O k t P ->
  exists m s', c_field_matcher_new O s (tq ++ tt ++ to ++ lit "$" ++ t) = (Some (Some m), s')
    /\ forall ci,
         (forall re, o_re_ok O false re = true -> o_re_ok O ci re = true)
         /\ (forall res, Forall (fun re => o_re_ok O false re = true) res -> o_reset_ok O ci res = true) ->
       forall r, exists b, rm_is_match O ci m r = Some b
         /\ (b = true <-> quantified q (fun f => P ci (f_subfields f)) (fun f => In f r /\ tagged T S f)).
Proof. exact dollar_matcher. Qed.
Print Assumptions C108_dollar_matcher.

(** a dollar sign in front of the codes of a relation or of a search for substrings,
    as a subfield matcher and between braces *)
Theorem C108_dollar_condition : forall O t w P s, dollar_text O t P -> blanks w ->
  exists m s', c_subfield_matcher_new O s (t ++ w) = (Some (Some (SMSingleton m)), s')
    /\ forall ci,
         (forall re, o_re_ok O false re = true -> o_re_ok O ci re = true)
         /\ (forall res, Forall (fun re => o_re_ok O false re = true) res -> o_reset_ok O ci res = true) ->
       forall sfs, exists b, singleton_is_match O ci m sfs = Some b /\ (b = true <-> P ci sfs).
Proof. exact dollar_subfield. Qed.
Print Assumptions C108_dollar_condition.

Theorem C108_dollar_braces : forall O tq q tt T to S w0 t w2 P s,
  quant_text false tq q -> tag_matcher_text tt T -> occ_matcher_text to S -> blanks w0 ->
  dollar_text O t P -> blanks w2 -> lv_sub s = 0 ->
  exists m s', c_field_matcher_new O s (tq ++ tt ++ to ++ w0 ++ lit "{" ++ t ++ w2 ++ lit "}") = (Some (Some m), s')
    /\ forall ci,
         (forall re, o_re_ok O false re = true -> o_re_ok O ci re = true)
         /\ (forall res, Forall (fun re => o_re_ok O false re = true) res -> o_reset_ok O ci res = true) ->
       forall r, exists b, rm_is_match O ci m r = Some b
         /\ (b = true <-> quantified q (fun f => P ci (f_subfields f)) (fun f => In f r /\ tagged T S f)).
Proof. exact dollar_braced. Qed.
Print Assumptions C108_dollar_braces.

(** C108 as stated fails: in front of the codes of the other conditions a dollar sign is
    rejected, whatever regular expressions there are, though each condition is accepted
    without it. *)
Theorem C108_other_conditions_refuted : forall O, o_re_ok O false (lit "x") = true ->
  Forall (fun '(plain, dollar) =>
      (exists m, c_subfield_matcher_new O fresh (lit plain) = (Some (Some m), fresh))
      /\ fst (c_subfield_matcher_new O fresh (lit dollar)) = Some None)
    [("a in ['x', 'y']", "$a in ['x', 'y']"); ("a?", "$a?"); ("a =~ 'x'", "$a =~ 'x'");
     ("#a > 1", "#$a > 1"); ("!a?", "!$a?")]%string.
Proof. exact other_conditions. Qed.
Print Assumptions C108_other_conditions_refuted.

(** brackets are accepted behind a dot but not behind the dollar sign of a path, and
    more than one code without brackets behind the dollar sign of a path but not of a
    matcher *)
Theorem C108_brackets_refuted : forall O,
  (exists p, c_path_new O fresh (lit "012A.[ab]") = (Some (Some p), fresh))
  /\ fst (c_path_new O fresh (lit "012A$[ab]")) = Some None
  /\ (exists p, c_path_new O fresh (lit "012A$ab") = (Some (Some p), fresh))
  /\ fst (c_path_new O fresh (lit "012A.ab")) = Some None
  /\ fst (c_field_matcher_new O fresh (lit "012A$ab == 'x'")) = Some None
  /\ (exists m, c_field_matcher_new O fresh (lit "012A$[ab] == 'x'") = (Some (Some m), fresh)).
Proof. exact brackets. Qed.
Print Assumptions C108_brackets_refuted.

(** the hypotheses can be met *)
Example C108_texts : forall O,
  plain_codes (lit "ab") (fun c => In c (lit "ab"))
  /\ (exists T, tag_matcher_text (lit "012A") T)
  /\ (exists k P, single_text O k (lit "a == 'x'") P)
  /\ exists P, dollar_text O (lit "ALL $ab =? ['x', 'yz']") P.
Proof. exact dollar_examples. Qed.

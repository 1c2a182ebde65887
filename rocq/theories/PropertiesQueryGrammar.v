(** * Properties of the languages of paths, formats and queries

    [path_text], [format_text] and [query_text] (QueryGrammarSpec.v) are the
    languages with their meaning, independent of the parsers. *)

From Coq Require Import String.
From Verif Require Import Bytes RecordModel RecordSpec TagOccSpec StrSpec Utf8Spec MatcherModel StateParser
  MatcherParserModel MatcherSpec GrammarSpec PathModel FmtModel QueryModel QuerySpec QueryGrammarSpec
  QueryTextProofs QueryTextExamples PropertiesMatcher PropertiesQuery.

(** C71: every path of the strict language is accepted when the group counter
    of subfield matchers is at zero, leaves the state as it is, and selects
    exactly the values its text describes. *)
Theorem C71_path_texts : forall O t F Cs s, path_text O true t F Cs -> lv_sub s = 0 ->
  exists p, path_new O s t = (Some (Some p), s)
    /\ forall ci r, regexes_compile O ci ->
         exists vs, record_path O ci p r = Some vs /\ forall vs', path_values_of F Cs ci r vs' <-> vs' = vs.
Proof. exact path_complete. Qed.
Print Assumptions C71_path_texts.

(** whatever is accepted as a path is a text of the language and selects what
    it describes *)
Theorem C71_accepted_paths : forall O s t p s', path_new O s t = (Some (Some p), s') ->
  exists F Cs, path_text O false t F Cs
    /\ forall ci r, regexes_compile O ci ->
         exists vs, record_path O ci p r = Some vs /\ forall vs', path_values_of F Cs ci r vs' <-> vs' = vs.
Proof. exact path_sound. Qed.
Print Assumptions C71_accepted_paths.

Example C71_sample : forall O, exists F Cs,
  path_text O true (lit " 012A/*{ (a, [bc]) | d? } ") F Cs /\ length Cs = 2%nat
  /\ forall ci f, F ci f <-> f_tag f = lit "012A" /\ exists s, In s (f_subfields f) /\ sf_code s = 100.
Proof. exact path_text_sample. Qed.
Example C71_values : exists p,
  path_new sample_oracles fresh (lit " 012A/*{ (a, [bc]) | b? } ") = (Some (Some p), fresh)
  /\ record_path sample_oracles false p sample_fields = Some [lit "abc"; lit "abd"; lit "X"].
Proof. eexists. vm_compute. split; reflexivity. Qed.

(** C72: the same for formats, with parentheses nested less than 32 deep *)
Theorem C72_format_texts : forall O T k g t F R n s, format_text O T true k g t F R n ->
  lv_sub s = 0 -> lv_fmt s + n < 32 ->
  exists f, format_new O s t = (Some (Some f), s)
    /\ forall strip ci r, regexes_compile O ci ->
         exists outs, record_format O T strip ci f r = Some outs
           /\ forall outs', format_outputs F R strip ci r outs' <-> outs' = outs.
Proof. exact format_complete. Qed.
Print Assumptions C72_format_texts.

Theorem C72_accepted_formats : forall O T s t f s', format_new O s t = (Some (Some f), s') ->
  exists k g F R n, format_text O T false k g t F R n
    /\ forall strip ci r, regexes_compile O ci ->
         exists outs, record_format O T strip ci f r = Some outs
           /\ forall outs', format_outputs F R strip ci r outs' <-> outs' = outs.
Proof. exact format_sound. Qed.
Print Assumptions C72_accepted_formats.

Example C72_sample : forall O T, exists F R,
  format_text O T true FkBoth false (lit "012A{ (?u a..2 <$> b) <*> '; ' c }") F R 1
  /\ (forall ci f, F ci f <-> f_tag f = lit "012A" /\ (f_occ f = None \/ f_occ f = Some (lit "00")))
  /\ R false (mkField (lit "012A") None [mkSubfield 97 (lit "x"); mkSubfield 99 (lit "z")])
       (t_upper T (lit "x") ++ lit "; z").
Proof. exact format_text_sample. Qed.
Example C72_output : exists f,
  format_new sample_oracles fresh (lit "012A{ (?u a..2 <$> b) <*> '; ' c }") = (Some (Some f), fresh)
  /\ record_format sample_oracles sample_text false false f
       [mkField (lit "012A") None [mkSubfield 97 (lit "x"); mkSubfield 99 (lit "z")]] = Some [lit "X; z"].
Proof. eexists. vm_compute. split; reflexivity. Qed.

(** C73: the same for queries *)
Theorem C73_query_texts : forall O T t Ms n s, query_text O T true t Ms n -> lv_sub s = 0 -> lv_fmt s + n < 32 ->
  exists q, query_new O s t = (Some (Some q), s)
    /\ forall qo r, regexes_compile O (qo_case_ignore qo) ->
         exists rows, record_query O T qo q r = Some rows
           /\ forall rows', query_rows Ms qo r rows' <-> rows' = rows.
Proof. exact query_complete. Qed.
Print Assumptions C73_query_texts.

Theorem C73_accepted_queries : forall O T s t q s', query_new O s t = (Some (Some q), s') ->
  exists Ms n, query_text O T false t Ms n
    /\ forall qo r, regexes_compile O (qo_case_ignore qo) ->
         exists rows, record_query O T qo q r = Some rows
           /\ forall rows', query_rows Ms qo r rows' <-> rows' = rows.
Proof. exact query_sound. Qed.
Print Assumptions C73_accepted_queries.

(** a text of the strict language has one meaning *)
Theorem C73_unambiguous : forall O T t Ms n Ms' n' qo r, regexes_compile O (qo_case_ignore qo) ->
  query_text O T true t Ms n -> n < 32 -> query_text O T true t Ms' n' -> n' < 32 ->
  forall rows, query_rows Ms qo r rows <-> query_rows Ms' qo r rows.
Proof. exact query_unambiguous. Qed.
Print Assumptions C73_unambiguous.

Example C73_sample : forall O T, exists Ms,
  query_text O T true (lit "003@.0, 'x', 012A{ (?u a..2 <$> b) <*> '; ' c }") Ms 1
  /\ map fst Ms = [1%nat; 1%nat; 1%nat].
Proof. exact query_text_sample. Qed.
Example C73_rows : exists q,
  query_new sample_oracles fresh (lit "003@.0, 'x', 012A{ (?u a..2 <$> b) <*> '; ' c }") = (Some (Some q), fresh)
  /\ record_query sample_oracles sample_text (sample_options false false) q
       [mkField (lit "003@") None [mkSubfield 48 (lit "123")];
        mkField (lit "012A") None [mkSubfield 97 (lit "v"); mkSubfield 99 (lit "z")];
        mkField (lit "012A") None [mkSubfield 99 (lit "y")]]
     = Some [[lit "123"; lit "x"; lit "V; z"]; [lit "123"; lit "x"; lit "; y"]].
Proof. eexists. vm_compute. split; reflexivity. Qed.

(** Codes alone in braces are a path, never a format: all values, not only the
    first one *)
Theorem C73_braces_are_a_path : forall O T, exists q,
  query_new O fresh (lit "012A{a}") = (Some (Some q), fresh)
  /\ record_query O T (mkQueryOptions false (lit "|") false false) q
       [mkField (lit "012A") None [mkSubfield 97 (lit "x"); mkSubfield 97 (lit "y")]]
     = Some [[lit "x"]; [lit "y"]]
  /\ exists f, format_new O fresh (lit "012A{a}") = (Some (Some f), fresh)
     /\ record_format O T false false f
          [mkField (lit "012A") None [mkSubfield 97 (lit "x"); mkSubfield 97 (lit "y")]] = Some [lit "x"].
Proof. exact braces_path. Qed.
Print Assumptions C73_braces_are_a_path.

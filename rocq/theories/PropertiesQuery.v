(** * Properties of paths, formats and queries *)

From Coq Require Import String.
From Verif Require Import Bytes RecordModel TagOccModel StrParserModel Utf8Spec Utf8Model ByteRecordModel
  MatcherModel StateParser MatcherParserModel MatcherSpec PathModel FmtModel QueryModel QuerySpec
  QueryProofs QueryParserProofs QueryExtraProofs PropertiesMatcher.

(** sample text functions: ASCII letters, no trimming *)
Definition sample_text : text_fns :=
  mkTextFns (map (fun c => if is_upper c then c + 32 else c))
    (map (fun c => if is_lower c then c - 32 else c)) (fun b => b).
Definition sample_options (squash merge : bool) : query_options :=
  mkQueryOptions false (lit "|") squash merge.

Example regexes_sample : regexes_compile sample_oracles true /\ regexes_compile sample_oracles false.
Proof. repeat split. Qed.

(** C08, second half: reading a string record through a path never panics on
    the conversion to str, and yields what the byte record yields *)
Theorem C08_string_path : forall O ci p b r, opt_sm_wf O ci (p_sub p) -> sr_try_from b = Some r ->
  exists vs, string_record_path O ci p (br_record r) = Some vs
    /\ record_path O ci p (br_record b) = Some vs /\ Forall is_utf8 vs.
Proof. exact string_path_ok. Qed.
Print Assumptions C08_string_path.

Example C08_path_sample : exists p,
  path_new sample_oracles fresh (lit "012A/*{a, b | b?}") = (Some (Some p), fresh)
  /\ opt_sm_wf sample_oracles false (p_sub p)
  /\ sr_try_from (mkBR None sample_fields) = Some (mkBR None sample_fields)
  /\ string_record_path sample_oracles false p sample_fields = Some [lit "abc"; lit "abd"; lit "X"].
Proof. eexists. vm_compute. repeat split. Qed.

(** C24: [path_lists] (QuerySpec.v) has exactly one solution and it is the
    result; first is its head *)
Theorem C24_path_values : forall O ci s b p s', regexes_compile O ci ->
  path_new O s b = (Some (Some p), s') ->
  forall r, exists vs, record_path O ci p r = Some vs
    /\ record_first O ci p r = Some (hd_error vs)
    /\ forall ws, path_lists O ci p r ws <-> ws = vs.
Proof. exact path_exact. Qed.
Print Assumptions C24_path_values.

Theorem C24_identifier : forall O r,
  exists ids, identifiers r ids /\ record_ppn O r = Some (hd_error ids).
Proof. exact ppn_identifiers. Qed.
Print Assumptions C24_identifier.
Theorem C24_identifiers_unique : forall r a, identifiers r a -> forall b, identifiers r b -> a = b.
Proof. exact identifiers_fun. Qed.
Print Assumptions C24_identifiers_unique.

Example C24_sample : exists p,
  path_new sample_oracles fresh (lit "012A/*.[ab]") = (Some (Some p), fresh)
  /\ record_path sample_oracles false p sample_fields = Some [lit "abc"; lit "abd"; lit "X"; lit "abc"]
  /\ record_ppn sample_oracles sample_fields = Some (Some (lit "123")).
Proof. eexists. vm_compute. repeat split. Qed.

(** C25 *)
Theorem C25_total_rectangular : forall O T qo s b q s', regexes_compile O (qo_case_ignore qo) ->
  query_new O s b = (Some (Some q), s') ->
  forall r, exists rows, record_query O T qo q r = Some rows /\ rows <> []
    /\ Forall (fun row => length row = query_columns q) rows.
Proof. exact query_total. Qed.
Print Assumptions C25_total_rectangular.

(** for queries built in any other way, as long as they are well-formed *)
Theorem C25_wf_total : forall O T qo q r, query_wf O qo q ->
  exists ts, Forall2 (fun fr t => final_rows O T qo fr r t) (q_fragments q) ts
    /\ record_query O T qo q r = Some (lex_product ts)
    /\ lex_product ts <> []
    /\ Forall (fun row => length row = query_columns q) (lex_product ts).
Proof. exact record_query_product. Qed.
Print Assumptions C25_wf_total.

Example C25_sample : exists q,
  query_new sample_oracles fresh (lit "003@.0, 012A/*{(a, b)}, 'x', 099A.a") = (Some (Some q), fresh)
  /\ query_columns q = 5%nat
  /\ record_query sample_oracles sample_text (sample_options false false) q sample_fields
     = Some [[lit "123"; lit "abc"; lit "X"; lit "x"; []]; [lit "123"; lit "abd"; lit "X"; lit "x"; []];
             [lit "123"; lit "abc"; []; lit "x"; []]].
Proof. eexists. vm_compute. repeat split. Qed.

(** C26: the tables of the fragments are unique ([C26_rows_unique]) and given
    by [rows_of]; the result is their product in lexicographic order *)
Theorem C26_product : forall O T qo s b q s', regexes_compile O (qo_case_ignore qo) ->
  query_new O s b = (Some (Some q), s') ->
  forall r, exists ts, Forall2 (fun fr t => final_rows O T qo fr r t) (q_fragments q) ts
    /\ record_query O T qo q r = Some (lex_product ts).
Proof. exact query_product. Qed.
Print Assumptions C26_product.

Theorem C26_rows_unique : forall O T qo fr r a b,
  final_rows O T qo fr r a -> final_rows O T qo fr r b -> a = b.
Proof. exact final_rows_fun. Qed.
Print Assumptions C26_rows_unique.

Theorem C26_product_members : forall ts row,
  In row (lex_product ts) <-> exists xs, Forall2 (fun x t => In x t) xs ts /\ row = concat xs.
Proof. exact lex_product_In. Qed.
Print Assumptions C26_product_members.

Theorem C26_product_size : forall ts,
  length (lex_product ts) = fold_right (fun t n => (length t * n)%nat) 1%nat ts.
Proof. exact lex_product_length. Qed.
Print Assumptions C26_product_size.

(** C27: [final_rows] contains squash ([column_entries]) and merge ([merged]);
    a merged query has one row; joining loses nothing for a one-byte separator
    outside the values *)
Theorem C27_merged_one_row : forall O T qo s b q s', regexes_compile O (qo_case_ignore qo) ->
  qo_merge qo = true -> query_new O s b = (Some (Some q), s') ->
  forall r, exists row, record_query O T qo q r = Some [row].
Proof. exact query_merged_single. Qed.
Print Assumptions C27_merged_one_row.

Theorem C27_fragment_rows : forall O T qo fr r, qfragment_wf O qo fr ->
  exists rows, fragment_rows O T qo fr r = Some rows /\ final_rows O T qo fr r rows
    /\ rows <> [] /\ Forall (fun row => length row = columns fr) rows.
Proof. exact fragment_rows_final. Qed.
Print Assumptions C27_fragment_rows.

Theorem C27_join_lossless : forall c l t, joined [c] l t -> forall l', joined [c] l' t ->
  Forall (fun v => ~ In c v) l -> Forall (fun v => ~ In c v) l' -> l = l'.
Proof. exact joined_injective. Qed.
Print Assumptions C27_join_lossless.

Example C27_sample : exists q,
  query_new sample_oracles fresh (lit "012A/*{(a, b)}") = (Some (Some q), fresh)
  /\ record_query sample_oracles sample_text (sample_options true false) q sample_fields
     = Some [[lit "abc|abd"; lit "X"]; [lit "abc"; []]]
  /\ record_query sample_oracles sample_text (sample_options true true) q sample_fields
     = Some [[lit "abc|abd|abc"; lit "X|"]].
Proof. eexists. vm_compute. repeat split. Qed.

(** C28 *)
Theorem C28_format_outputs : forall O T strip ci s b fm s', regexes_compile O ci ->
  format_new O s b = (Some (Some fm), s') ->
  forall r, exists outs, record_format O T strip ci fm r = Some outs
    /\ forall ws, format_lists O ci T strip fm r ws <-> ws = outs.
Proof. exact format_exact. Qed.
Print Assumptions C28_format_outputs.

Theorem C28_fragment_text : forall T strip fr f, frag_wf fr ->
  exists v, fmt_frag T strip fr f = Some v /\ frag_text T strip f fr v.
Proof. exact fmt_frag_text. Qed.
Print Assumptions C28_fragment_text.

Theorem C28_text_unique : forall T strip fr f a b,
  frag_text T strip f fr a -> frag_text T strip f fr b -> a = b.
Proof. exact frag_text_fun. Qed.
Print Assumptions C28_text_unique.

Example C28_sample : exists fm,
  format_new sample_oracles fresh (lit "012A/*{(?u a..2'; ' <$> b) <*> ' (' c}") = (Some (Some fm), fresh)
  /\ record_format sample_oracles sample_text false false fm sample_fields
     = Some [lit "ABC; ABD; X"; lit "ABC; "].
Proof. eexists. vm_compute. repeat split. Qed.

(** C29 is refuted: the bound of a group is parsed and then ignored *)
Theorem C29_group_bound_refuted : forall O T, exists fm,
  fst (format_new O fresh (lit "012A{(a..)..1}")) = Some (Some fm)
  /\ record_format O T false false fm
       [mkField (lit "012A") None [mkSubfield 97 (lit "x"); mkSubfield 97 (lit "y")]]
     = Some [lit "xy"].
Proof. exact group_bound_refuted. Qed.
Print Assumptions C29_group_bound_refuted.

Theorem C29_group_bound_ignored : forall T strip body n n' m f,
  fmt_frag T strip (FGroup body n m) f = fmt_frag T strip (FGroup body n' m) f.
Proof. exact group_bound_ignored. Qed.
Print Assumptions C29_group_bound_ignored.

(** C30: parsing a format always ends, and the parsed format has no group
    directly in a group, so formatting ([C28_format_outputs]) never panics *)
Theorem C30_format_parsing : forall O s b,
  exists r, fst (format_new O s b) = Some r
    /\ (forall f, r = Some f -> frag_wf (fmt_fragments f)).
Proof. exact format_new_wf. Qed.
Print Assumptions C30_format_parsing.

Theorem C30_never_unreachable : forall O T strip s b fm s', format_new O s b = (Some (Some fm), s') ->
  forall f, exists x, fmt_field T strip fm f = Some x.
Proof. exact format_field_total. Qed.
Print Assumptions C30_never_unreachable.

Example C30_sample : exists fm,
  format_new sample_oracles fresh (lit "012A{((a <*> b) <$> (c))}") = (Some (Some fm), fresh)
  /\ fst (format_new sample_oracles fresh (lit "012A{((a))}")) = Some None.
Proof. eexists. vm_compute. repeat split. Qed.

(** C21 is refuted for formats too: after eight failed parses of "012A{(a" the
    valid "012A{(a)}" is rejected *)
Theorem C21_format_refuted : forall O,
  (exists m, fst (format_new O fresh (lit "012A{(a)}")) = Some (Some m))
  /\ exists history s,
       fold_left (fun s e => snd (format_new O s e)) history fresh = s
       /\ fst (format_new O s (lit "012A{(a)}")) = Some None.
Proof. exact history_format_refuted. Qed.
Print Assumptions C21_format_refuted.

(** C60: printing gives back the text *)
Theorem C60_path_display : forall O s b p s', path_new O s b = (Some (Some p), s') -> path_display p = b.
Proof. exact path_display_text. Qed.
Print Assumptions C60_path_display.
Theorem C60_query_display : forall O s b q s', query_new O s b = (Some (Some q), s') -> query_display q = b.
Proof. exact query_display_text. Qed.
Print Assumptions C60_query_display.
Theorem C60_format_display : forall O s b fm s', format_new O s b = (Some (Some fm), s') ->
  format_display fm = trim b.
Proof. exact format_display_text. Qed.
Print Assumptions C60_format_display.

Example C60_sample : exists p, path_new sample_oracles fresh (lit " 012A/*.a ") = (Some (Some p), fresh)
  /\ path_display p = lit " 012A/*.a ".
Proof. eexists. vm_compute. repeat split. Qed.

(** C61: string records and byte records answer queries alike *)
Theorem C61_string_query : forall O T qo lossy s b q s' br r,
  text_fns_utf8 T -> is_utf8 (qo_separator qo) -> (forall b, is_utf8 b -> lossy b = b) ->
  query_new O s b = (Some (Some q), s') -> sr_try_from br = Some r ->
  string_record_query O T qo lossy q (br_record r) = record_query O T qo q (br_record br).
Proof. exact string_query_exact. Qed.
Print Assumptions C61_string_query.
Theorem C61_string_format : forall O T lossy strip ci s b fm s' br r,
  text_fns_utf8 T -> (forall b, is_utf8 b -> lossy b = b) ->
  format_new O s b = (Some (Some fm), s') -> sr_try_from br = Some r ->
  string_record_format O T lossy strip ci fm (br_record r) = record_format O T strip ci fm (br_record br).
Proof. exact string_format_exact. Qed.
Print Assumptions C61_string_format.

Example C61_format_sample : exists fm,
  format_new sample_oracles fresh (lit "012A/*{a}") = (Some (Some fm), fresh)
  /\ sr_try_from (mkBR None sample_fields) = Some (mkBR None sample_fields)
  /\ exists v vs, string_record_format sample_oracles sample_text (fun b => b) false false fm sample_fields
     = Some (v :: vs).
Proof. eexists. split; [vm_compute; reflexivity|]. split; [vm_compute; reflexivity|]. eexists. eexists. vm_compute. reflexivity. Qed.

Example C61_sample : exists q,
  query_new sample_oracles fresh (lit "012A/*.a") = (Some (Some q), fresh)
  /\ text_fns_utf8 (mkTextFns (fun b => b) (fun b => b) (fun b => b))
  /\ string_record_query sample_oracles sample_text (sample_options false false) (fun b => b) q sample_fields
     = Some [[lit "abc"]; [lit "abd"]; [lit "abc"]].
Proof. eexists. split; [vm_compute; reflexivity|]. split; [intros b H; auto|vm_compute; reflexivity]. Qed.

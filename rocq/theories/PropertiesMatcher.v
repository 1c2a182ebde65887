(** * Properties of matchers, their parsers and the builder *)

From Coq Require Import String.
From Verif Require Import Bytes RecordModel TagOccModel StrParserModel Utf8Spec Utf8Model Utf8Proofs
  MatcherModel StateParser MatcherParserModel MatcherSpec MatcherProofs MatcherParserProofs
  StrSpec StrProofs BuilderModel BuilderSpec BuilderProofs MatcherExtraProofs.

(** sample external functions: ASCII lower-casing, no similarity, a "regex"
    matches the values it is a prefix of *)
Definition sample_oracles : oracles :=
  mkOracles (map (fun c => if is_upper c then c + 32 else c))
    (fun _ _ _ => false) (fun _ _ => true) (fun _ _ => true)
    (fun _ re v => starts_with v re).

Definition sample_fields : list field :=
  [ mkField (lit "003@") None [mkSubfield 48 (lit "123")];
    mkField (lit "012A") (Some (lit "01")) [mkSubfield 97 (lit "abc"); mkSubfield 97 (lit "abd");
                                           mkSubfield 98 (lit "X")];
    mkField (lit "012A") (Some (lit "02")) [mkSubfield 97 (lit "abc")] ].

(** C17: on every input on which the operands do not panic, with every option *)
Theorem C17_subfield_operators : forall O ci a b sfs x y,
  sm_is_match O ci a sfs = Some x -> sm_is_match O ci b sfs = Some y ->
  sm_is_match O ci (sm_and a b) sfs = Some (x && y)
  /\ sm_is_match O ci (sm_and_assign a b) sfs = Some (x && y)
  /\ sm_is_match O ci (sm_or a b) sfs = Some (x || y)
  /\ sm_is_match O ci (sm_or_assign a b) sfs = Some (x || y)
  /\ sm_is_match O ci (sm_xor a b) sfs = Some (xorb x y)
  /\ sm_is_match O ci (sm_xor_assign a b) sfs = Some (xorb x y)
  /\ sm_is_match O ci (sm_not a) sfs = Some (negb x).
Proof. exact sm_ops_eval. Qed.
Print Assumptions C17_subfield_operators.

Theorem C17_field_and_record_operators : forall O ci a b r x y,
  rm_is_match O ci a r = Some x -> rm_is_match O ci b r = Some y ->
  rm_is_match O ci (fm_and a b) r = Some (x && y)
  /\ rm_is_match O ci (fm_and_assign a b) r = Some (x && y)
  /\ rm_is_match O ci (fm_or a b) r = Some (x || y)
  /\ rm_is_match O ci (fm_or_assign a b) r = Some (x || y)
  /\ rm_is_match O ci (fm_xor a b) r = Some (xorb x y)
  /\ rm_is_match O ci (fm_xor_assign a b) r = Some (xorb x y)
  /\ rm_is_match O ci (fm_not a) r = Some (negb x).
Proof. exact fm_ops_eval. Qed.
Print Assumptions C17_field_and_record_operators.

Example C17_sample :
  exists a b, field_matcher_new sample_oracles fresh (lit "012A/*.a == 'abd'") = (Some (Some a), fresh)
  /\ field_matcher_new sample_oracles fresh (lit "#012A/* > 2") = (Some (Some b), fresh)
  /\ rm_is_match sample_oracles false a sample_fields = Some true
  /\ rm_is_match sample_oracles false b sample_fields = Some false.
Proof. do 2 eexists. vm_compute. repeat split. Qed.

(** C19: quantifiers.  [singleton_holds], [fm_holds] (MatcherSpec.v) read ANY
    as "some selected subfield/field" and ALL as "every selected one". *)
Theorem C19_subfield_meaning : forall O ci m sfs, sm_wf O ci m ->
  exists b, sm_is_match O ci m sfs = Some b /\ (b = true <-> sm_holds O ci m sfs).
Proof. exact sm_decides. Qed.
Print Assumptions C19_subfield_meaning.

Theorem C19_record_meaning : forall O ci m r, fm_wf O ci m ->
  exists b, rm_is_match O ci m r = Some b /\ (b = true <-> fm_holds O ci m r).
Proof. exact fm_decides. Qed.
Print Assumptions C19_record_meaning.

(** spelled out for a comparison under each quantifier *)
Theorem C19_all_any : forall O ci codes op v raw sfs, is_str_applicable op = true ->
  (exists b, singleton_is_match O ci (SRelation QAll codes op v raw) sfs = Some b
    /\ (b = true <-> forall s, In s sfs -> In (sf_code s) codes -> rel_holds O ci op v (sf_value s)))
  /\ (exists b, singleton_is_match O ci (SRelation QAny codes op v raw) sfs = Some b
    /\ (b = true <-> exists s, In s sfs /\ In (sf_code s) codes /\ rel_holds O ci op v (sf_value s))).
Proof. exact relation_all_any. Qed.
Print Assumptions C19_all_any.

Example C19_sample : exists m1 m2 m3,
  field_matcher_new sample_oracles fresh (lit "ALL 012A/*{ALL a == 'abc'}") = (Some (Some m1), fresh)
  /\ field_matcher_new sample_oracles fresh (lit "ANY 012A/*{ALL a == 'abc'}") = (Some (Some m2), fresh)
  /\ field_matcher_new sample_oracles fresh (lit "ALL 099A{a == 'abc'}") = (Some (Some m3), fresh)
  /\ fm_wf sample_oracles false m1
  /\ map (fun m => rm_is_match sample_oracles false m sample_fields) [m1; m2; m3]
     = [Some false; Some true; Some true].
Proof. do 3 eexists. vm_compute. repeat split. Qed.

(** C20 *)
Theorem C20_subfield_count : forall O ci codes op n raw sfs, is_usize_applicable op = true ->
  exists b, singleton_is_match O ci (SCard codes op n raw) sfs = Some b
    /\ (b = true <->
        exists k, counts (fun s => In (sf_code s) codes) sfs k /\ count_holds op k n).
Proof. exact subfield_cardinality. Qed.
Print Assumptions C20_subfield_count.

Theorem C20_field_count : forall O ci t o sm op n raw r,
  is_usize_applicable op = true -> opt_sm_wf O ci sm ->
  exists b, rm_is_match O ci (FMCard t o sm op n raw) r = Some b
    /\ (b = true <->
        exists k, counts (fun f => tag_occ t o f /\ condition_holds O ci sm f) r k
                  /\ count_holds op k n).
Proof. exact field_cardinality. Qed.
Print Assumptions C20_field_count.

(** the count is a function of the list *)
Theorem C20_count_unique : forall A (P : A -> Prop) l n, counts P l n -> forall k, counts P l k -> n = k.
Proof. exact counts_fun. Qed.
Print Assumptions C20_count_unique.

Example C20_sample : exists m1 m2 m3,
  field_matcher_new sample_oracles fresh (lit "#012A/*{a == 'abc'} == 2") = (Some (Some m1), fresh)
  /\ field_matcher_new sample_oracles fresh (lit "#012A/*{b?} > 1") = (Some (Some m2), fresh)
  /\ field_matcher_new sample_oracles fresh (lit "012A/*{#a >= 2}") = (Some (Some m3), fresh)
  /\ map (fun m => rm_is_match sample_oracles false m sample_fields) [m1; m2; m3]
     = [Some true; Some false; Some true].
Proof. do 3 eexists. vm_compute. repeat split. Qed.

(** C23: == against in with one value; without case folding, or when lower
    casing keeps the byte length of the texts involved (e.g. ASCII) *)
Theorem C23_eq_in : forall O ci q codes v raw raw' sfs,
  (ci = false \/
   (length (o_lower O v) = length v
    /\ forall s, In s sfs -> length (o_lower O (sf_value s)) = length (sf_value s))) ->
  singleton_is_match O ci (SRelation q codes OpEq v raw) sfs
  = singleton_is_match O ci (SIn q codes [v] false raw') sfs.
Proof. exact eq_in_same. Qed.
Print Assumptions C23_eq_in.

Theorem C23_ne_dual : forall O ci codes v raw raw' sfs,
  singleton_is_match O ci (SRelation QAll codes OpNe v raw) sfs
    = match singleton_is_match O ci (SRelation QAny codes OpEq v raw') sfs with
      | Some b => Some (negb b) | None => None end
  /\ singleton_is_match O ci (SRelation QAny codes OpNe v raw) sfs
    = match singleton_is_match O ci (SRelation QAll codes OpEq v raw') sfs with
      | Some b => Some (negb b) | None => None end.
Proof. exact eq_ne_dual. Qed.
Print Assumptions C23_ne_dual.

(** refuted with case folding in general: the Kelvin sign U+212A (3 bytes)
    lower-cases to "k" (1 byte); "in" matches, "==" compares lengths first *)
Theorem C23_eq_in_refuted : forall O,
  o_lower O [226; 132; 170] = lit "k" -> o_lower O (lit "k") = lit "k" ->
  exists m1 m2,
    fst (subfield_matcher_new O fresh (lit "a == 'k'")) = Some (Some m1)
    /\ fst (subfield_matcher_new O fresh (lit "a in ['k']")) = Some (Some m2)
    /\ sm_is_match O true m1 [mkSubfield 97 [226; 132; 170]] = Some false
    /\ sm_is_match O true m2 [mkSubfield 97 [226; 132; 170]] = Some true.
Proof. exact eq_in_refuted. Qed.
Print Assumptions C23_eq_in_refuted.

Example C23_sample :
  let sfs := [mkSubfield 97 (lit "ABC")] in
  (length (o_lower sample_oracles (lit "abc")) = length (lit "abc")
   /\ forall s, In s sfs -> length (o_lower sample_oracles (sf_value s)) = length (sf_value s))
  /\ singleton_is_match sample_oracles true (SRelation QAny [97] OpEq (lit "abc") []) sfs = Some true
  /\ singleton_is_match sample_oracles false (SRelation QAny [97] OpEq (lit "abc") []) sfs = Some false.
Proof.
  vm_compute. repeat split; auto. intros s [<-|[]]. reflexivity.
Qed.

(** C54 *)
Theorem C54_builder : forall O transform s e calls m s',
  builder_run O transform s e calls = (Some (Some m), s') ->
  exists m0 ms,
    reads_as O (transform e) m0
    /\ Forall2 (fun ke km => fst ke = fst km /\ reads_as O (transform (snd ke)) (snd km))
         (flat_map call_items calls) ms
    /\ forall ci r b0 bs,
         fm_is_match O ci m0 r = Some b0 ->
         Forall2 (fun km b => fm_is_match O ci (snd km) r = Some b) ms bs ->
         fm_is_match O ci m r = Some (fold_left combine_bool (combine (map fst ms) bs) b0).
Proof. exact builder_run_inv. Qed.
Print Assumptions C54_builder.

(** the command line options --where, --and, --or, --not *)
Theorem C54_filter_options : forall O transform pred wh ands ors nots s m s',
  filter_opts_matcher O transform pred wh ands ors nots s = (Some (Some (Some m)), s') ->
  exists e m0 ma mo mn,
    (pred = Some e \/ (pred = None /\ wh = Some e))
    /\ reads_as O (transform e) m0
    /\ Forall2 (fun e m => reads_as O (transform e) m) ands ma
    /\ Forall2 (fun e m => reads_as O (transform e) m) ors mo
    /\ Forall2 (fun e m => reads_as O (transform e) m) nots mn
    /\ forall ci r b0 ba bo bn,
         fm_is_match O ci m0 r = Some b0 ->
         Forall2 (fun x b => fm_is_match O ci x r = Some b) ma ba ->
         Forall2 (fun x b => fm_is_match O ci x r = Some b) mo bo ->
         Forall2 (fun x b => fm_is_match O ci x r = Some b) mn bn ->
         fm_is_match O ci m r
         = Some (((b0 && forallb (fun b => b) ba) || existsb (fun b => b) bo)
                 && negb (existsb (fun b => b) bn)).
Proof. exact filter_opts_inv. Qed.
Print Assumptions C54_filter_options.

Example C54_sample : exists m s,
  filter_opts_matcher sample_oracles (fun e => e) None (Some (lit "003@? || 004@?"))
    [lit "012A/01?"; lit "012A/02.a?"] [] [lit "012A/03?"; lit "003@.0 == '1' && 003@?"] fresh
    = (Some (Some (Some m)), s)
  /\ fm_is_match sample_oracles false m sample_fields = Some true.
Proof. do 2 eexists. vm_compute. split; reflexivity. Qed.

(** C55: exactly the quoted texts are read, with their content *)
Theorem C55_parse_string_iff : forall i t r,
  parse_string i = Some (t, r)
  <-> exists q w, (q = 39 \/ q = 34) /\ i = q :: w ++ q :: r /\ quoted q w t /\ utf8_valid t = true.
Proof. exact parse_string_iff. Qed.
Print Assumptions C55_parse_string_iff.

Theorem C55_every_text_quotable : forall q t r, (q = 39 \/ q = 34) -> is_utf8 t ->
  parse_string (quote q t ++ r) = Some (t, r).
Proof. exact every_text_quotable. Qed.
Print Assumptions C55_every_text_quotable.

Example C55_sample :
  quote 39 (lit "it's") = lit "'it\'s'"
  /\ parse_string (quote 39 (lit "it's") ++ lit " rest") = Some (lit "it's", lit " rest")
  /\ parse_string ([34] ++ lit "a\n\  b" ++ [34]) = Some ([97; 10; 98], []).
Proof. vm_compute. repeat split. Qed.

(** C59: parsing an expression always gives a result, and evaluating a parsed
    matcher never panics, provided its regular expressions compile with the
    case flag used *)
Theorem C59_parsing_total : forall O s b,
  (exists r, fst (field_matcher_new O s b) = Some r)
  /\ (exists r, fst (subfield_matcher_new O s b) = Some r).
Proof. exact matcher_parsing_total. Qed.
Print Assumptions C59_parsing_total.

Theorem C59_evaluation_total : forall O ci s b m s',
  (forall re, o_re_ok O false re = true -> o_re_ok O ci re = true) ->
  (forall res, Forall (fun re => o_re_ok O false re = true) res -> o_reset_ok O ci res = true) ->
  field_matcher_new O s b = (Some (Some m), s') ->
  forall r, exists v, rm_is_match O ci m r = Some v /\ (v = true <-> fm_holds O ci m r).
Proof. exact parsed_matcher_evaluates. Qed.
Print Assumptions C59_evaluation_total.

(** without these hypotheses the evaluation panics: a set of expressions that
    compile one by one may exceed the size limit of the set *)
Theorem C59_evaluation_refuted : exists O m s',
  (forall ci re, o_re_ok O ci re = true)
  /\ field_matcher_new O fresh (lit "012A.a =~ ['x']") = (Some (Some m), s')
  /\ rm_is_match O false m [mkField (lit "012A") None [mkSubfield 97 (lit "y")]] = None.
Proof. exact regex_set_panics. Qed.
Print Assumptions C59_evaluation_refuted.

Example C59_sample : exists m,
  field_matcher_new sample_oracles fresh (lit "012A/*{a =~ ['ab', 'x'] && (b? ^ #c == 0)}")
    = (Some (Some m), fresh)
  /\ rm_is_match sample_oracles true m sample_fields = Some true.
Proof. eexists. vm_compute. split; reflexivity. Qed.

(** C21 is refuted.  Failed parses leave the group counters raised: after 32
    failed parses of "(012A" the valid "(012A?)" is rejected, and after one
    failed parse of "(((a" so is "(a?)" as subfield matcher. *)
Theorem C21_field_refuted : forall O,
  (exists m, fst (field_matcher_new O fresh (lit "(012A?)")) = Some (Some m))
  /\ exists history s,
       fold_left (fun s e => snd (field_matcher_new O s e)) history fresh = s
       /\ fst (field_matcher_new O s (lit "(012A?)")) = Some None.
Proof. exact history_field_refuted. Qed.
Print Assumptions C21_field_refuted.

Theorem C21_subfield_refuted : forall O,
  (exists m, fst (subfield_matcher_new O fresh (lit "(a?)")) = Some (Some m))
  /\ exists history s,
       fold_left (fun s e => snd (subfield_matcher_new O s e)) history fresh = s
       /\ fst (subfield_matcher_new O s (lit "(a?)")) = Some None.
Proof. exact history_subfield_refuted. Qed.
Print Assumptions C21_subfield_refuted.

(** C22 is refuted for subfield matchers: the counter is never decremented, so
    it counts attempts, and three nested pairs of parentheses are too many. *)
Theorem C22_subfield_refuted : forall O,
  (exists m, fst (subfield_matcher_new O fresh (lit "((a?))")) = Some (Some m))
  /\ fst (subfield_matcher_new O fresh (lit "(((a?)))")) = Some None
  /\ fst (field_matcher_new O fresh (lit "012A{(((a?)))}")) = Some None.
Proof. exact nesting_subfield_refuted. Qed.
Print Assumptions C22_subfield_refuted.

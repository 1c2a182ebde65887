(** * The claims about the feature "compat" *)

From Coq Require Import String.
From Verif Require Import Bytes Winnow BaseProofs RecordModel RecordSpec TagOccSpec MatcherModel MatcherSpec StateParser
  MatcherParserModel PathModel QueryModel StrParserModel StrSpec Utf8Spec GrammarSpec QueryGrammarSpec.
From Verif Require FmtModel.
From Verif Require Import CompatModel CompatSpec CompatProofs CompatDollarProofs.
From Verif Require Import QueryTextExamples.

Lemma without_dollar : forall O s t, bare_dollar t = false ->
  c_subfield_matcher_new O s t = subfield_matcher_new O s t
  /\ c_field_matcher_new O s t = field_matcher_new O s t
  /\ c_path_new O s t = path_new O s t
  /\ c_format_new O s t = FmtModel.format_new O s t
  /\ c_query_new O s t = query_new O s t.
Proof.
  intros O s t H. repeat split; apply same_all; try exact H.
  - apply ssame_subfield_matcher.
  - apply ssame_field_matcher.
  - apply ssame_path.
  - apply ssame_format.
  - apply ssame_query.
Qed.

Lemma accepted_stay : forall O s t s',
  (forall m, subfield_matcher_new O s t = (Some (Some m), s') -> c_subfield_matcher_new O s t = (Some (Some m), s'))
  /\ (forall m, field_matcher_new O s t = (Some (Some m), s') -> c_field_matcher_new O s t = (Some (Some m), s'))
  /\ (forall p, path_new O s t = (Some (Some p), s') -> c_path_new O s t = (Some (Some p), s'))
  /\ (forall f, FmtModel.format_new O s t = (Some (Some f), s') -> c_format_new O s t = (Some (Some f), s'))
  /\ (forall q, query_new O s t = (Some (Some q), s') -> c_query_new O s t = (Some (Some q), s')).
Proof.
  intros O s t s'. repeat split; intros x H.
  - destruct (without_dollar O s t) as (E & _); [|rewrite E; exact H].
    exact (accepted_no_dollar _ _ (skeep_subfield_matcher O) _ _ _ _ H).
  - destruct (without_dollar O s t) as (_ & E & _); [|rewrite E; exact H].
    exact (accepted_no_dollar _ _ (skeep_field_matcher O) _ _ _ _ H).
  - destruct (without_dollar O s t) as (_ & _ & E & _); [|rewrite E; exact H].
    exact (accepted_no_dollar _ _ (skeep_path O) _ _ _ _ H).
  - destruct (without_dollar O s t) as (_ & _ & _ & E & _); [|rewrite E; exact H].
    exact (accepted_no_dollar _ _ (skeep_format O) _ _ _ _ H).
  - destruct (without_dollar O s t) as (_ & _ & _ & _ & E); [|rewrite E; exact H].
    exact (accepted_no_dollar _ _ (skeep_query O) _ _ _ _ H).
Qed.

Lemma default_no_dollar : forall O s t s', bare_dollar t = true ->
  (forall m, subfield_matcher_new O s t <> (Some (Some m), s'))
  /\ (forall m, field_matcher_new O s t <> (Some (Some m), s'))
  /\ (forall p, path_new O s t <> (Some (Some p), s'))
  /\ (forall f, FmtModel.format_new O s t <> (Some (Some f), s'))
  /\ (forall q, query_new O s t <> (Some (Some q), s')).
Proof.
  intros O s t s' B. repeat split; intros x H.
  - pose proof (accepted_no_dollar _ _ (skeep_subfield_matcher O) _ _ _ _ H). congruence.
  - pose proof (accepted_no_dollar _ _ (skeep_field_matcher O) _ _ _ _ H). congruence.
  - pose proof (accepted_no_dollar _ _ (skeep_path O) _ _ _ _ H). congruence.
  - pose proof (accepted_no_dollar _ _ (skeep_format O) _ _ _ _ H). congruence.
  - pose proof (accepted_no_dollar _ _ (skeep_query O) _ _ _ _ H). congruence.
Qed.

Lemma is_accepted : forall A (x : option (option A) * levels),
  match x with (Some (Some _), mkLevels 0 0 0) => true | _ => false end = true -> exists m, x = (Some (Some m), fresh).
Proof.
  intros A [[[m|]|] [[|a] [|b] [|c]]] H; try discriminate. exists m. reflexivity.
Qed.

Lemma other_conditions : forall O, o_re_ok O false (lit "x") = true ->
  Forall (fun '(plain, dollar) =>
      (exists m, c_subfield_matcher_new O fresh (lit plain) = (Some (Some m), fresh))
      /\ fst (c_subfield_matcher_new O fresh (lit dollar)) = Some None)
    [("a in ['x', 'y']", "$a in ['x', 'y']"); ("a?", "$a?"); ("a =~ 'x'", "$a =~ 'x'");
     ("#a > 1", "#$a > 1"); ("!a?", "!$a?")]%string.
Proof.
  intros O H.
  assert (E : exists m, c_singleton O (lit "a =~ 'x'") = Some (m, [])).
  { eexists. unfold c_singleton, alt.
    assert (E1 : c_relation (lit "a =~ 'x'") = None) by (vm_compute; reflexivity).
    assert (E2 : c_contains (lit "a =~ 'x'") = None) by (vm_compute; reflexivity).
    assert (E3 : parse_in (lit "a =~ 'x'") = None) by (vm_compute; reflexivity).
    assert (E4 : parse_exists (lit "a =~ 'x'") = None) by (vm_compute; reflexivity).
    assert (E5 : parse_card (lit "a =~ 'x'") = None) by (vm_compute; reflexivity).
    assert (E6 : parse_regex_set O (lit "a =~ 'x'") = None) by (vm_compute; reflexivity).
    rewrite E1, E2, E3, E4, E5, E6. unfold parse_regex.
    assert (Q : opt (ws parse_quantifier) (lit "a =~ 'x'") = Some (None, lit "a =~ 'x'")) by (vm_compute; reflexivity).
    assert (C : ws parse_codes (lit "a =~ 'x'") = Some (lit "a", lit "=~ 'x'")) by (vm_compute; reflexivity).
    assert (P : parse_re_op (lit "=~ 'x'") = Some (false, lit "'x'")) by (vm_compute; reflexivity).
    assert (S : parse_string (lit "'x'") = Some (lit "x", [])) by (vm_compute; reflexivity).
    rewrite Q, C, P. unfold parse_regex_string, pverify. rewrite S, H. reflexivity. }
  constructor; [|constructor; [|constructor; [|constructor; [|constructor; [|constructor]]]]];
    (split; [|vm_compute; reflexivity]).
  - apply is_accepted; vm_compute; reflexivity.
  - apply is_accepted; vm_compute; reflexivity.
  - destruct E as [m E]. exists (SMSingleton m). unfold c_subfield_matcher_new, sparse_all.
    rewrite (sub_whole O fresh _ m []); [reflexivity| |reflexivity|left; reflexivity|exact E].
    cbn. repeat split; first [discriminate|idtac]. intros B. cbv in B. intuition discriminate.
  - apply is_accepted; vm_compute; reflexivity.
  - apply is_accepted; vm_compute; reflexivity.
Qed.

Lemma brackets : forall O,
  (exists p, c_path_new O fresh (lit "012A.[ab]") = (Some (Some p), fresh))
  /\ fst (c_path_new O fresh (lit "012A$[ab]")) = Some None
  /\ (exists p, c_path_new O fresh (lit "012A$ab") = (Some (Some p), fresh))
  /\ fst (c_path_new O fresh (lit "012A.ab")) = Some None
  /\ fst (c_field_matcher_new O fresh (lit "012A$ab == 'x'")) = Some None
  /\ (exists m, c_field_matcher_new O fresh (lit "012A$[ab] == 'x'") = (Some (Some m), fresh)).
Proof.
  intros O. repeat split; first [vm_compute; reflexivity|apply is_accepted; vm_compute; reflexivity].
Qed.

Lemma dollar_examples : forall O,
  plain_codes (lit "ab") (fun c => In c (lit "ab"))
  /\ (exists T, tag_matcher_text (lit "012A") T)
  /\ (exists k P, single_text O k (lit "a == 'x'") P)
  /\ exists P, dollar_text O (lit "ALL $ab =? ['x', 'yz']") P.
Proof.
  intros O. split; [|split; [|split]].
  - apply plain_list; [discriminate|]. repeat constructor; cbn; tauto.
  - eexists. exact tag_sample.
  - exists SoRelation. eexists. change (lit "a == 'x'") with (([] : bytes) ++ (([] : bytes) ++ lit "a" ++ lit " " ++ lit "==" ++ lit " " ++ lit "'x'") ++ []).
    apply single_cond; [|constructor|constructor].
    eapply (cond_relation O []); [constructor|apply codes_one; member|blank_run|unfold str_ops; cbn; left; reflexivity|blank_run|].
    apply (string_read (lit "'x'") (lit "x")). vm_compute. reflexivity.
  - eexists. change (lit "ALL $ab =? ['x', 'yz']") with
      (lit "ALL " ++ lit "$" ++ [] ++ lit "ab" ++ lit " " ++ lit "=?" ++ lit " " ++ lit "['x', 'yz']").
    eapply dollar_contains.
    + apply (quant_all false (lit " ")); [blank_run|discriminate].
    + constructor.
    + apply plain_list; [discriminate|]. repeat constructor; cbn; tauto.
    + blank_run.
    + blank_run.
    + apply (needles_list _ [lit "x"; lit "yz"]).
      change (lit "['x', 'yz']") with (lit "[" ++ [] ++ lit "'x', 'yz'" ++ [] ++ [] ++ lit "]").
      constructor; [constructor| |constructor|constructor].
      change (lit "'x', 'yz'") with (lit "'x'" ++ [] ++ lit "," ++ lit " " ++ lit "'yz'").
      apply strings_more; [apply string_read; vm_compute; reflexivity|constructor|blank_run|].
      apply strings_one. apply string_read. vm_compute. reflexivity.
Qed.

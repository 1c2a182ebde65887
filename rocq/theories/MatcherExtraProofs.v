(** * Consequences and counterexamples for matchers *)

From Coq Require Import String.
From Verif Require Import Bytes Winnow RecordModel TagOccModel StrParserModel Utf8Spec Utf8Model Utf8Proofs
  MatcherModel StateParser MatcherParserModel MatcherSpec MatcherProofs MatcherParserProofs
  StrSpec StrProofs.

Lemma relation_all_any : forall O ci codes op v raw sfs, is_str_applicable op = true ->
  (exists b, singleton_is_match O ci (SRelation QAll codes op v raw) sfs = Some b
    /\ (b = true <-> forall s, In s sfs -> In (sf_code s) codes -> rel_holds O ci op v (sf_value s)))
  /\ (exists b, singleton_is_match O ci (SRelation QAny codes op v raw) sfs = Some b
    /\ (b = true <-> exists s, In s sfs /\ In (sf_code s) codes /\ rel_holds O ci op v (sf_value s))).
Proof.
  intros O ci codes op v raw sfs H. split.
  - destruct (singleton_decides O ci (SRelation QAll codes op v raw) sfs H) as (b & Hb & Hiff).
    exists b. split; [exact Hb|]. rewrite Hiff. cbn. unfold selected.
    split; intros G s; [intros H1 H2|intros [H1 H2]]; auto.
  - destruct (singleton_decides O ci (SRelation QAny codes op v raw) sfs H) as (b & Hb & Hiff).
    exists b. split; [exact Hb|]. rewrite Hiff. cbn. unfold selected.
    split; intros (s & G); exists s; tauto.
Qed.

Lemma subfield_cardinality : forall O ci codes op n raw sfs, is_usize_applicable op = true ->
  exists b, singleton_is_match O ci (SCard codes op n raw) sfs = Some b
    /\ (b = true <->
        exists k, counts (fun s => In (sf_code s) codes) sfs k /\ count_holds op k n).
Proof. intros O ci codes op n raw sfs H. apply (singleton_decides O ci (SCard codes op n raw) sfs H). Qed.

Lemma field_cardinality : forall O ci t o sm op n raw r,
  is_usize_applicable op = true -> opt_sm_wf O ci sm ->
  exists b, rm_is_match O ci (FMCard t o sm op n raw) r = Some b
    /\ (b = true <->
        exists k, counts (fun f => tag_occ t o f /\ condition_holds O ci sm f) r k
                  /\ count_holds op k n).
Proof.
  intros O ci t o sm op n raw r H1 H2.
  apply (fm_decides O ci (FMCard t o sm op n raw) r). split; assumption.
Qed.

Lemma eq_in_refuted : forall O,
  o_lower O [226; 132; 170] = lit "k" -> o_lower O (lit "k") = lit "k" ->
  exists m1 m2,
    fst (subfield_matcher_new O fresh (lit "a == 'k'")) = Some (Some m1)
    /\ fst (subfield_matcher_new O fresh (lit "a in ['k']")) = Some (Some m2)
    /\ sm_is_match O true m1 [mkSubfield 97 [226; 132; 170]] = Some false
    /\ sm_is_match O true m2 [mkSubfield 97 [226; 132; 170]] = Some true.
Proof.
  intros O H1 H2. do 2 eexists. split; [vm_compute; reflexivity|]. split; [vm_compute; reflexivity|].
  split; [vm_compute; reflexivity|].
  change (lit "k") with [107] in *. cbn. unfold in_check. cbn. rewrite H1, H2. reflexivity.
Qed.

Lemma every_text_quotable : forall q t r, (q = 39 \/ q = 34) -> is_utf8 t ->
  parse_string (quote q t ++ r) = Some (t, r).
Proof. intros q t r Hq U. apply parse_string_quote; [exact Hq|]. apply utf8_valid_iff. exact U. Qed.

Lemma matcher_parsing_total : forall O s b,
  (exists r, fst (field_matcher_new O s b) = Some r)
  /\ (exists r, fst (subfield_matcher_new O s b) = Some r).
Proof.
  intros O s b. split.
  - destruct (field_matcher_new_total O s b) as (r & H & _). exists r. exact H.
  - destruct (subfield_matcher_new_total O s b) as (r & H & _). exists r. exact H.
Qed.

Lemma sm_checked_wf : forall O ci m,
  (forall re, o_re_ok O false re = true -> o_re_ok O ci re = true) ->
  (forall res, Forall (fun re => o_re_ok O false re = true) res -> o_reset_ok O ci res = true) ->
  sm_checked O m -> sm_wf O ci m.
Proof.
  intros O ci m H1 H2. induction m as [s|m IH|m IH|l IHl op r IHr]; cbn; intros H; auto.
  - destruct s; cbn in *; auto.
  - tauto.
Qed.

Lemma fm_checked_wf : forall O ci m,
  (forall re, o_re_ok O false re = true -> o_re_ok O ci re = true) ->
  (forall res, Forall (fun re => o_re_ok O false re = true) res -> o_reset_ok O ci res = true) ->
  fm_checked O m -> fm_wf O ci m.
Proof.
  intros O ci m H1 H2. induction m as [s|t o sm op v raw|m IH|m IH|l IHl op r IHr]; cbn; intros H; auto.
  - destruct s; cbn in *; [exact I|]. apply sm_checked_wf; assumption.
  - destruct H as [H3 H4]. split; [exact H3|]. destruct sm; cbn in *; [|exact I].
    apply sm_checked_wf; assumption.
  - tauto.
Qed.

Lemma field_matcher_new_checked : forall O s b m s',
  field_matcher_new O s b = (Some (Some m), s') -> fm_checked O m.
Proof.
  intros O s b m s' H. destruct (field_matcher_new_total O s b) as (r & H1 & H2).
  rewrite H in H1. cbn in H1. injection H1 as <-. apply H2. reflexivity.
Qed.

Lemma parsed_matcher_evaluates : forall O ci s b m s',
  (forall re, o_re_ok O false re = true -> o_re_ok O ci re = true) ->
  (forall res, Forall (fun re => o_re_ok O false re = true) res -> o_reset_ok O ci res = true) ->
  field_matcher_new O s b = (Some (Some m), s') ->
  forall r, exists v, rm_is_match O ci m r = Some v /\ (v = true <-> fm_holds O ci m r).
Proof.
  intros O ci s b m s' H1 H2 H r. apply fm_decides. apply fm_checked_wf; auto.
  eapply field_matcher_new_checked. exact H.
Qed.

Lemma regex_set_panics : exists O m s',
  (forall ci re, o_re_ok O ci re = true)
  /\ field_matcher_new O fresh (lit "012A.a =~ ['x']") = (Some (Some m), s')
  /\ rm_is_match O false m [mkField (lit "012A") None [mkSubfield 97 (lit "y")]] = None.
Proof.
  exists (mkOracles (fun b => b) (fun _ _ _ => false) (fun _ _ => true) (fun _ _ => false)
            (fun _ _ _ => false)).
  do 2 eexists. split; [reflexivity|]. vm_compute. split; reflexivity.
Qed.

Lemma history_field_refuted : forall O,
  (exists m, fst (field_matcher_new O fresh (lit "(012A?)")) = Some (Some m))
  /\ exists history s,
       fold_left (fun s e => snd (field_matcher_new O s e)) history fresh = s
       /\ fst (field_matcher_new O s (lit "(012A?)")) = Some None.
Proof.
  intros O. split; [eexists; vm_compute; reflexivity|].
  exists (repeat (lit "(012A") 32). eexists. split; [vm_compute; reflexivity|].
  vm_compute. reflexivity.
Qed.

Lemma history_subfield_refuted : forall O,
  (exists m, fst (subfield_matcher_new O fresh (lit "(a?)")) = Some (Some m))
  /\ exists history s,
       fold_left (fun s e => snd (subfield_matcher_new O s e)) history fresh = s
       /\ fst (subfield_matcher_new O s (lit "(a?)")) = Some None.
Proof.
  intros O. split; [eexists; vm_compute; reflexivity|].
  exists [lit "(((a"]. eexists. split; [vm_compute; reflexivity|].
  vm_compute. reflexivity.
Qed.

Lemma nesting_subfield_refuted : forall O,
  (exists m, fst (subfield_matcher_new O fresh (lit "((a?))")) = Some (Some m))
  /\ fst (subfield_matcher_new O fresh (lit "(((a?)))")) = Some None
  /\ fst (field_matcher_new O fresh (lit "012A{(((a?)))}")) = Some None.
Proof.
  intros O. split; [eexists; vm_compute; reflexivity|]. split; vm_compute; reflexivity.
Qed.

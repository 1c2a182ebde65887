(** * The path, format and query parsers: totality and well-formed results *)

From Coq Require Import String.
From Verif Require Import Bytes Winnow RecordModel TagOccModel StrParserModel MatcherModel
  StateParser MatcherParserModel MatcherSpec BaseProofs TagOccProofs StateParserProofs
  MatcherParserProofs MatcherExtraProofs Utf8Spec Utf8Model Utf8Proofs PathModel FmtModel QueryModel QuerySpec QueryProofs.

Section Parsers.
  Variable O : oracles.

  Definition path_checked (p : path) : Prop := opt_sm_checked O (p_sub p) /\ p_codes p <> [].
  Definition is_group (fr : fragments) : Prop := match fr with FGroup _ _ _ => True | _ => False end.
  Definition format_checked (f : format) : Prop :=
    opt_sm_checked O (fmt_sub f) /\ frag_wf (fmt_fragments f).
  Definition qfragment_checked (fr : qfragment) : Prop :=
    match fr with
    | QLiteral _ => True
    | QPath p => path_checked p
    | QFormat f => format_checked f
    end.
  Definition query_checked (q : query) : Prop :=
    q_fragments q <> [] /\ Forall qfragment_checked (q_fragments q).

  Lemma path_simple_checked : pok path_checked parse_path_simple.
  Proof.
    unfold parse_path_simple. intros i p r H. dosome H. destruct p0 as [[t o] c].
    injection H as <- <-. split; [split; [exact I|discriminate]|].
    assert (G : pok any (ws (fun i =>
      do (t, r1) <- parse_tag_matcher i;
      do (o, r2) <- parse_occ_matcher r1;
      do (c, r3) <- preceded (ch 46) parse_codes r2;
      Some ((t, o, c), r3)))).
    { apply pok_ws. eapply pok_bind; [apply pok_tag_matcher|]. intros t' _.
      eapply pok_bind; [apply pok_occ_matcher|]. intros o' _.
      eapply pok_bind; [apply pok_preceded; [apply pok_ch|apply pok_codes]|]. intros c' _.
      apply pok_ret. exact I. }
    apply (G _ _ _ E).
  Qed.

  Lemma path_codes_ok : pok (fun l => l <> []) parse_path_codes.
  Proof.
    assert (G : pok (fun l : list bytes => l <> []) (separated1 parse_codes (ws (ch 44)))).
    { eapply pok_weaken; [apply pok_separated1; [apply pok_codes|apply pok_ws, pok_ch]|].
      intros l [_ H]. exact H. }
    unfold parse_path_codes. apply pok_alt; [exact G|].
    apply pok_delimited; [apply pok_ws, pok_ch|exact G|apply pok_ws, pok_ch].
  Qed.

  Lemma condition_ok : forall n, sok n (opt_sm_checked O) (parse_condition O).
  Proof.
    intros n. unfold parse_condition. eapply sok_weaken.
    - apply sok_opt. apply sok_preceded; [apply sok_lift, pok_ws, pok_ch|apply parse_subfield_matcher_ok].
    - intros [m|] H; exact H.
  Qed.

  Lemma path_curly_ok : forall n, sok n path_checked (parse_path_curly O).
  Proof.
    intros n. unfold parse_path_curly.
    eapply sok_taken with (P := fun x => opt_sm_checked O (snd x) /\ snd (fst x) <> []).
    - apply sok_ws. eapply sok_bind; [apply sok_lift, pok_tag_matcher|]. intros t _.
      eapply sok_bind; [apply sok_lift, pok_occ_matcher|]. intros o _.
      apply sok_delim; [apply sok_lift, pok_ws, pok_ch| |apply sok_lift, pok_ws, pok_ch].
      eapply sok_bind; [apply sok_lift, path_codes_ok|]. intros c Hc.
      apply sok_map. eapply sok_weaken; [apply condition_ok|]. cbn. auto.
    - intros [[[t o] c] m] w [H1 H2]. split; assumption.
  Qed.

  Lemma parse_path_ok : forall n, sok n path_checked (parse_path O).
  Proof.
    intros n. apply sok_alt; [apply sok_lift, path_simple_checked|apply path_curly_ok].
  Qed.

  Lemma pok_modifier : pok any parse_modifier.
  Proof.
    unfold parse_modifier. eapply pok_any. apply pok_opt with (P := any).
    apply pok_preceded; [apply pok_ch|].
    apply pok_map. eapply pok_weaken with (P := Forall any); [|intros; exact I].
    apply pok_repeat1. repeat apply pok_alt; apply pok_ch.
  Qed.
  Lemma pok_bound : forall d, pok any (parse_bound d).
  Proof.
    intros d. unfold parse_bound. repeat apply pok_alt.
    - apply pok_preceded; [apply pok_tok|apply pok_usize].
    - apply pok_value; [exact I|apply pok_tok].
    - apply pok_ret. exact I.
  Qed.

  Definition frag_ok (fr : fragments) : Prop := frag_wf fr /\ ~ is_group fr.

  Lemma value_ok : pok frag_ok parse_value.
  Proof.
    unfold parse_value. eapply pok_bind; [apply pok_ws, pok_modifier|]. intros m _.
    eapply pok_bind; [eapply pok_any, pok_opt, pok_ws, pok_string|]. intros pre _.
    eapply pok_bind; [apply pok_codes|]. intros c _.
    eapply pok_bind; [apply pok_bound|]. intros e _.
    eapply pok_bind; [eapply pok_any, pok_opt, pok_ws, pok_string|]. intros suf _.
    apply pok_ret. split; [exact I|intros []].
  Qed.

  Lemma frag_list_wf : forall l, Forall frag_wf l -> frag_wf (FCons l) /\ frag_wf (FAndThen l).
  Proof. intros l H. cbn. rewrite frag_wf_list. auto. Qed.

  Lemma sok_weaken_len : forall A n m (P : A -> Prop) p, sok n P p -> (m <= n)%nat -> sok m P p.
  Proof. intros A n m P p H Hm s i Hi. apply H. lia. Qed.

  Section Knot.
    Variable n : nat.
    Variable g : sparser fragments.
    Hypothesis Hg : sok n frag_wf g.

    Lemma value_wf : sok n frag_wf (slift parse_value).
    Proof. apply sok_lift. eapply pok_weaken; [apply value_ok|]. intros a [H _]. exact H. Qed.

    Lemma and_then_ok : sok n frag_ok (fmt_and_then g).
    Proof.
      unfold fmt_and_then. apply sok_map. eapply sok_weaken.
      - apply sok_separated2; [apply sok_alt; [exact Hg|apply value_wf]|apply pok_ws, pok_tok].
      - intros l [Hl _]. split; [apply frag_list_wf; exact Hl|intros []].
    Qed.
    Lemma list_cons_ok : sok n frag_ok (fmt_list_cons g).
    Proof.
      unfold fmt_list_cons. apply sok_map. eapply sok_weaken.
      - apply sok_separated2 with (P := frag_wf); [|apply pok_ws, pok_tok].
        apply sok_alt; [|apply sok_alt; [exact Hg|apply value_wf]].
        eapply sok_weaken; [apply and_then_ok|]. intros a [H _]. exact H.
      - intros l [Hl _]. split; [apply frag_list_wf; exact Hl|intros []].
    Qed.
    Lemma fmt_list_ok : sok n frag_ok (fmt_list g).
    Proof. apply sok_alt; [apply list_cons_ok|apply and_then_ok]. Qed.

    Lemma fmt_inc_ok : sok n any fmt_inc.
    Proof.
      intros s i _. unfold fmt_inc. destruct (32 <=? lv_fmt s + 1); [exact I|].
      split; [exact I|apply suffix_refl].
    Qed.
    Lemma fmt_close_ok : sok n any fmt_close.
    Proof.
      intros s i _. unfold fmt_close. destruct (ws (ch 41) i) as [[a r]|] eqn:E; [|exact I].
      split; [exact I|]. eapply pok_ws; [apply pok_ch|exact E].
    Qed.

    Lemma group_ok : sok (S n) frag_wf (fmt_group_body g).
    Proof.
      unfold fmt_group_body.
      apply sok_bind_strict; [apply pok_ws, pok_ch|apply strict_ws, strict_ch|]. intros _.
      eapply sok_bind; [apply fmt_inc_ok|]. intros _ _.
      eapply sok_bind; [apply sok_lift, pok_modifier|]. intros m _.
      eapply sok_bind with (P := frag_ok).
      - apply sok_alt; apply sok_ws; [apply fmt_list_ok|apply sok_lift, value_ok].
      - intros f [H1 H2]. eapply sok_bind; [apply fmt_close_ok|]. intros _ _. apply sok_map.
        eapply sok_weaken; [apply sok_lift, pok_bound|]. intros e _. cbn.
        split; [|exact H1]. destruct f; [apply H2|..]; exact I.
    Qed.
  End Knot.

  Lemma fmt_group_ok : forall n, sok n frag_wf (fmt_group n).
  Proof. induction n as [|n IH]; [apply sok_fuel0|]. cbn [fmt_group]. apply group_ok. exact IH. Qed.

  Lemma parse_fragments_ok : forall n, sok n frag_wf parse_fragments.
  Proof.
    intros n s i _. unfold parse_fragments.
    assert (H : sok (S (length i)) frag_wf (fmt_fragments_body (fmt_group (S (length i))))).
    { unfold fmt_fragments_body. repeat apply sok_alt; apply sok_ws.
      - eapply sok_weaken; [apply fmt_list_ok, fmt_group_ok|]. intros a [H _]. exact H.
      - apply fmt_group_ok.
      - apply value_wf. }
    apply H. lia.
  Qed.

  Lemma parse_format_ok : forall n, sok n format_checked (parse_format O).
  Proof.
    intros n. unfold parse_format.
    eapply sok_taken with (P := fun x => opt_sm_checked O (snd x) /\ frag_wf (snd (fst x))).
    - eapply sok_bind; [apply sok_lift, pok_tag_matcher|]. intros t _.
      eapply sok_bind; [apply sok_lift, pok_occ_matcher|]. intros o _.
      apply sok_delim; [apply sok_lift, pok_ws, pok_ch| |apply sok_lift, pok_ws, pok_ch].
      eapply sok_bind; [apply parse_fragments_ok|]. intros f Hf.
      apply sok_map. eapply sok_weaken; [apply condition_ok|]. cbn. auto.
    - intros [[[t o] f] m] w [H1 H2]. split; assumption.
  Qed.

  Lemma parse_qfragment_ok : forall n, sok n qfragment_checked (parse_qfragment O).
  Proof.
    intros n. unfold parse_qfragment. repeat apply sok_alt.
    - apply sok_map. apply parse_path_ok.
    - apply sok_lift, pok_map. eapply pok_weaken; [apply pok_string|]. intros; exact I.
    - apply sok_map. apply parse_format_ok.
  Qed.

  Lemma parse_query_ok : forall n, sok n query_checked (parse_query O).
  Proof.
    intros n. unfold parse_query. eapply sok_taken.
    - apply sok_separated1; [apply parse_qfragment_ok|apply pok_ws, pok_ch].
    - intros l w [H1 H2]. split; assumption.
  Qed.

  Lemma path_new_total : forall s b,
    exists r, fst (path_new O s b) = Some r /\ (forall p, r = Some p -> path_checked p).
  Proof. intros s b. apply sparse_all_ok. apply parse_path_ok. Qed.
  Lemma format_new_total : forall s b,
    exists r, fst (format_new O s b) = Some r /\ (forall f, r = Some f -> format_checked f).
  Proof. intros s b. apply sparse_all_ok. apply parse_format_ok. Qed.
  Lemma query_new_total : forall s b,
    exists r, fst (query_new O s b) = Some r /\ (forall q, r = Some q -> query_checked q).
  Proof. intros s b. apply sparse_all_ok. apply parse_query_ok. Qed.

  (** texts in parsed formats and queries are UTF-8 *)
  Section Texts.
    Variable n : nat.
    Variable g : sparser fragments.
    Hypothesis Hg : sok n frag_utf8 g.
    Lemma pok_string_utf8 : pok is_utf8 parse_string.
    Proof.
      unfold parse_string. eapply pok_verify; [apply pok_alt; apply pok_quoted_string|].
      intros a _ H. apply utf8_valid_iff. exact H.
    Qed.
    Lemma value_utf8 : pok frag_utf8 parse_value.
    Proof.
      unfold parse_value. eapply pok_bind; [apply pok_ws, pok_modifier|]. intros m _.
      eapply pok_bind; [apply pok_opt, pok_ws, pok_string_utf8|]. intros pre Hpre.
      eapply pok_bind; [apply pok_codes|]. intros c _.
      eapply pok_bind; [apply pok_bound|]. intros e _.
      eapply pok_bind; [apply pok_opt, pok_ws, pok_string_utf8|]. intros suf Hsuf.
      apply pok_ret. split; [destruct pre|destruct suf]; try assumption; apply is_utf8_nil.
    Qed.
    Lemma frag_list_utf8 : forall l, Forall frag_utf8 l -> frag_utf8 (FCons l) /\ frag_utf8 (FAndThen l).
    Proof.
      intros l H. cbn. induction H as [|x l H1 H2 [IH1 IH2]]; [split; exact I|].
      split; (split; [exact H1|]); assumption.
    Qed.
    Lemma and_then_utf8 : sok n frag_utf8 (fmt_and_then g).
    Proof.
      unfold fmt_and_then. apply sok_map. eapply sok_weaken.
      - apply sok_separated2; [apply sok_alt; [exact Hg|apply sok_lift, value_utf8]|apply pok_ws, pok_tok].
      - intros l [Hl _]. apply frag_list_utf8. exact Hl.
    Qed.
    Lemma list_cons_utf8 : sok n frag_utf8 (fmt_list_cons g).
    Proof.
      unfold fmt_list_cons. apply sok_map. eapply sok_weaken.
      - apply sok_separated2 with (P := frag_utf8); [|apply pok_ws, pok_tok].
        apply sok_alt; [apply and_then_utf8|apply sok_alt; [exact Hg|apply sok_lift, value_utf8]].
      - intros l [Hl _]. apply frag_list_utf8. exact Hl.
    Qed.
    Lemma fmt_list_utf8 : sok n frag_utf8 (fmt_list g).
    Proof. apply sok_alt; [apply list_cons_utf8|apply and_then_utf8]. Qed.
    Lemma group_utf8 : sok (S n) frag_utf8 (fmt_group_body g).
    Proof.
      unfold fmt_group_body.
      apply sok_bind_strict; [apply pok_ws, pok_ch|apply strict_ws, strict_ch|]. intros _.
      eapply sok_bind; [apply fmt_inc_ok|]. intros _ _.
      eapply sok_bind; [apply sok_lift, pok_modifier|]. intros m _.
      eapply sok_bind with (P := frag_utf8).
      - apply sok_alt; apply sok_ws; [apply fmt_list_utf8|apply sok_lift, value_utf8].
      - intros f Hf. eapply sok_bind; [apply fmt_close_ok|]. intros _ _. apply sok_map.
        eapply sok_weaken; [apply sok_lift, pok_bound|]. intros e _. exact Hf.
    Qed.
  End Texts.
  Lemma fmt_group_utf8 : forall n, sok n frag_utf8 (fmt_group n).
  Proof. induction n as [|n IH]; [apply sok_fuel0|]. cbn [fmt_group]. apply group_utf8. exact IH. Qed.
  Lemma parse_fragments_utf8 : forall n, sok n frag_utf8 parse_fragments.
  Proof.
    intros n s i _. unfold parse_fragments.
    assert (H : sok (S (length i)) frag_utf8 (fmt_fragments_body (fmt_group (S (length i))))).
    { unfold fmt_fragments_body. repeat apply sok_alt; apply sok_ws.
      - apply fmt_list_utf8, fmt_group_utf8.
      - apply fmt_group_utf8.
      - apply sok_lift, value_utf8. }
    apply H. lia.
  Qed.
  Lemma parse_format_utf8 : forall n, sok n (fun f => frag_utf8 (fmt_fragments f)) (parse_format O).
  Proof.
    intros n. unfold parse_format. eapply sok_taken with (P := fun x => frag_utf8 (snd (fst x))).
    - eapply sok_bind; [apply sok_lift, pok_tag_matcher|]. intros t _.
      eapply sok_bind; [apply sok_lift, pok_occ_matcher|]. intros o _.
      apply sok_delim; [apply sok_lift, pok_ws, pok_ch| |apply sok_lift, pok_ws, pok_ch].
      eapply sok_bind; [apply parse_fragments_utf8|]. intros f Hf.
      apply sok_map. eapply sok_weaken; [apply condition_ok|]. cbn. auto.
    - intros [[[t o] f] m] w H. exact H.
  Qed.
  Lemma parse_query_utf8 : forall n, sok n (fun q => Forall qfragment_utf8 (q_fragments q)) (parse_query O).
  Proof.
    intros n. unfold parse_query. eapply sok_taken with (P := Forall qfragment_utf8).
    - eapply sok_weaken; [apply sok_separated1 with (P := qfragment_utf8); [|apply pok_ws, pok_ch]|intros l [H _]; exact H].
      unfold parse_qfragment. repeat apply sok_alt.
      + apply sok_map. eapply sok_weaken; [apply parse_path_ok|]. intros; exact I.
      + apply sok_lift, pok_map, pok_string_utf8.
      + apply sok_map. apply parse_format_utf8.
    - intros l w H. exact H.
  Qed.
  Lemma query_new_utf8 : forall s b q s', query_new O s b = (Some (Some q), s') ->
    Forall qfragment_utf8 (q_fragments q).
  Proof.
    intros s b q s' E. destruct (sparse_all_ok _ _ _ s b (parse_query_utf8 (S (length b)))) as (r & H1 & H2).
    unfold query_new in E. rewrite E in H1. injection H1 as <-. apply H2. reflexivity.
  Qed.

  Lemma format_new_utf8 : forall s b fm s', format_new O s b = (Some (Some fm), s') ->
    frag_utf8 (fmt_fragments fm).
  Proof.
    intros s b fm s' E. destruct (sparse_all_ok _ _ _ s b (parse_format_utf8 (S (length b)))) as (r & H1 & H2).
    unfold format_new in E. rewrite E in H1. injection H1 as <-. apply H2. reflexivity.
  Qed.

  (** ** Printing *)
  Lemma taken_all : forall i, taken i [] = i.
  Proof. intros i. unfold taken. cbn. rewrite Nat.sub_0_r. apply firstn_all. Qed.

  Lemma sparse_all_raw : forall A (p : sparser A) (raw : A -> bytes) s b a s',
    (forall s i a r s', p s i = (POk a r, s') -> raw a = taken i r) ->
    sparse_all p s b = (Some (Some a), s') -> raw a = b.
  Proof.
    intros A p raw s b a s' H E. unfold sparse_all in E. destruct (p s b) as [[x r| |] s1] eqn:F; try discriminate.
    destruct r; [|discriminate]. injection E as <- _. rewrite (H _ _ _ _ _ F). apply taken_all.
  Qed.

  Lemma path_display_text : forall s b p s', path_new O s b = (Some (Some p), s') -> path_display p = b.
  Proof.
    intros s b p s'. apply sparse_all_raw. clear. intros s i a r s' H. unfold parse_path, salt, slift in H.
    destruct (parse_path_simple i) as [[x y]|] eqn:E.
    - injection H as -> -> _. unfold parse_path_simple in E. dosome E. destruct p as [[t o] c].
      injection E as <- <-. reflexivity.
    - unfold parse_path_curly, staken in H. destruct (sws _ s i) as [[[[[t o] c] m] r0| |] s0]; try discriminate.
      injection H as <- <- _. reflexivity.
  Qed.

  Lemma query_display_text : forall s b q s', query_new O s b = (Some (Some q), s') -> query_display q = b.
  Proof.
    intros s b q s'. apply sparse_all_raw. clear. intros s i a r s' H. unfold parse_query, staken in H.
    destruct (sseparated1 _ _ s i) as [[l r0| |] s0]; try discriminate. injection H as <- <- _. reflexivity.
  Qed.

  (** ** Parsed objects are well formed *)
  Section Wf.
    Variable ci : bool.
    Hypothesis Hre : forall re, o_re_ok O false re = true -> o_re_ok O ci re = true.
    Hypothesis Hset : forall res, Forall (fun re => o_re_ok O false re = true) res -> o_reset_ok O ci res = true.

    Lemma opt_sm_checked_wf : forall m, opt_sm_checked O m -> opt_sm_wf O ci m.
    Proof. intros [m|] H; [|exact I]. apply sm_checked_wf; assumption. Qed.
    Lemma path_checked_wf : forall p, path_checked p -> path_wf O ci p.
    Proof. intros p [H1 H2]. split; [apply opt_sm_checked_wf; exact H1|exact H2]. Qed.
    Lemma format_checked_wf : forall f, format_checked f -> format_wf O ci f.
    Proof. intros f [H1 H2]. split; [apply opt_sm_checked_wf; exact H1|exact H2]. Qed.
  End Wf.
  Lemma query_checked_wf : forall qo q,
    (forall re, o_re_ok O false re = true -> o_re_ok O (qo_case_ignore qo) re = true) ->
    (forall res, Forall (fun re => o_re_ok O false re = true) res -> o_reset_ok O (qo_case_ignore qo) res = true) ->
    query_checked q -> query_wf O qo q.
  Proof.
    intros qo q H1 H2 [H3 H4]. split; [exact H3|]. eapply Forall_impl; [|exact H4].
    intros [p|b|f] H; cbn in *; [apply path_checked_wf|exact I|apply format_checked_wf]; assumption.
  Qed.

  Lemma new_checked : forall A (new : levels -> bytes -> option (option A) * levels) (P : A -> Prop) s b a s',
    (exists r, fst (new s b) = Some r /\ (forall x, r = Some x -> P x)) ->
    new s b = (Some (Some a), s') -> P a.
  Proof. intros A new P s b a s' (r & H1 & H2) E. rewrite E in H1. cbn in H1. injection H1 as <-. auto. Qed.
End Parsers.

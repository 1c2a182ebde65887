(** * The matcher parsers: totality and well-formed results *)

From Coq Require Import String.
From Verif Require Import Bytes Winnow RecordModel TagOccModel StrParserModel MatcherModel
  StateParser MatcherParserModel MatcherSpec BaseProofs TagOccProofs StateParserProofs.

Definition any {A} : A -> Prop := fun _ => True.

Lemma pok_any : forall A (P : A -> Prop) p, pok P p -> pok any p.
Proof. intros. eapply pok_weaken; [eassumption|]. intros; exact I. Qed.

Lemma pok_subfield_code : pok any parse_subfield_code.
Proof. eapply pok_any. apply pok_one_of. Qed.
Lemma pok_dash_pair : forall A (p : parser A), pok any p -> pok any (dash_pair p).
Proof.
  intros A p H. unfold dash_pair. eapply pok_bind; [exact H|]. intros a _.
  eapply pok_bind; [apply pok_ch|]. intros _ _. eapply pok_bind; [exact H|]. intros b _.
  apply pok_ret. exact I.
Qed.
Lemma pok_codes : pok any parse_codes.
Proof.
  unfold parse_codes. apply pok_alt; [|apply pok_alt].
  - unfold parse_code_list. apply pok_delimited; [apply pok_ch| |apply pok_ch].
    apply pok_map. eapply pok_weaken; [apply pok_repeat1 with (P := any)|intros; exact I].
    apply pok_alt.
    + unfold parse_code_range. apply pok_map. eapply pok_verify; [|intros; exact I].
      apply pok_dash_pair, pok_subfield_code.
    + apply pok_map, pok_subfield_code.
  - apply pok_map, pok_subfield_code.
  - apply pok_value; [exact I|apply pok_ch].
Qed.
Lemma pok_multispace1 : pok any multispace1.
Proof. apply pok_take_while1. Qed.
Lemma pok_quantifier : pok any parse_quantifier.
Proof. apply pok_alt; (apply pok_value; [exact I|apply pok_tok]). Qed.
Lemma pok_rel_op : pok any parse_rel_op.
Proof. unfold parse_rel_op. repeat apply pok_alt; (apply pok_value; [exact I|apply pok_tok]). Qed.
Lemma pok_escaped_char : forall q, pok any (parse_escaped_char q).
Proof.
  intros q. unfold parse_escaped_char. apply pok_preceded; [apply pok_ch|].
  repeat apply pok_alt; (apply pok_value; [exact I|apply pok_ch]).
Qed.
Lemma pok_quoted_string : forall q, pok any (parse_quoted_string q).
Proof.
  intros q. unfold parse_quoted_string. apply pok_delimited; [apply pok_ch| |apply pok_ch].
  apply pok_map. eapply pok_weaken; [apply pok_repeat0 with (P := any)|intros; exact I].
  unfold parse_quoted_fragment. apply pok_alt; [|apply pok_alt].
  - apply pok_take_while1.
  - apply pok_map, pok_escaped_char.
  - apply pok_value; [exact I|]. apply pok_preceded; [apply pok_ch|apply pok_multispace1].
Qed.
Lemma pok_string : pok any parse_string.
Proof.
  unfold parse_string. eapply pok_verify; [|intros; exact I].
  apply pok_alt; apply pok_quoted_string.
Qed.
Lemma pok_usize : pok any parse_usize.
Proof.
  unfold parse_usize. eapply pok_bind; [apply pok_take_while1|]. intros d _ i n r H. cbn zeta in H.
  destruct (_ <? _) in H; [|discriminate]. injection H as <- <-. split; [exact I|apply suffix_refl].
Qed.
Lemma pok_list_of : forall (P : bytes -> Prop) p, pok P p ->
  pok (fun l => Forall P l /\ l <> []) (parse_list_of p).
Proof.
  intros P p H. unfold parse_list_of.
  apply pok_delimited; [apply pok_ws, pok_ch| |apply pok_ws, pok_ch].
  apply pok_terminated.
  - apply pok_separated1; [exact H|apply pok_ws, pok_ch].
  - eapply pok_any. eapply pok_opt. apply pok_ws, pok_ch.
Qed.
Lemma pok_tag_matcher : pok any parse_tag_matcher.
Proof.
  intros i m r H. split; [exact I|]. apply parse_tag_matcher_inv in H.
  destruct H as [H _]. eexists. exact H.
Qed.
Lemma pok_parse_occurrence : pok any parse_occurrence.
Proof.
  intros i o r H. split; [exact I|]. unfold parse_occurrence, take_while_m_n in H.
  destruct (span_max 3 is_digit i) as [a r'] eqn:E. apply span_max_inv in E as [-> _].
  destruct (Nat.leb 2 (length a)); [|discriminate]. injection H as <- <-. exists a. reflexivity.
Qed.
Lemma pok_occ_matcher : pok any parse_occ_matcher.
Proof.
  unfold parse_occ_matcher. apply pok_alt; [|apply pok_ret; exact I].
  apply pok_preceded; [apply pok_ch|]. repeat apply pok_alt.
  - unfold parse_om_range. apply pok_map. eapply pok_verify; [|intros; exact I].
    apply pok_dash_pair, pok_parse_occurrence.
  - unfold parse_om_exact. apply pok_map. eapply pok_verify; [|intros; exact I].
    apply pok_parse_occurrence.
  - apply pok_value; [exact I|apply pok_tok].
  - apply pok_value; [exact I|apply pok_tok].
Qed.

(** what the parsers guarantee of a matcher: applicable operators, and every
    regular expression compiles (case-sensitively) *)
Section Checked.
  Variable O : oracles.

  Definition singleton_checked (m : singleton) : Prop :=
    match m with
    | SRelation _ _ op _ _ => is_str_applicable op = true
    | SCard _ op _ _ => is_usize_applicable op = true
    | SRegex _ _ re _ _ => o_re_ok O false re = true
    | SRegexSet _ _ res _ _ => Forall (fun re => o_re_ok O false re = true) res
    | _ => True
    end.
  Fixpoint sm_checked (m : subfield_matcher) : Prop :=
    match m with
    | SMSingleton s => singleton_checked s
    | SMGroup m' | SMNot m' => sm_checked m'
    | SMComposite l _ r => sm_checked l /\ sm_checked r
    end.
  Definition fs_checked (m : field_singleton) : Prop :=
    match m with FExists _ _ => True | FSubfields _ _ _ sm _ => sm_checked sm end.
  Definition opt_sm_checked (sm : option subfield_matcher) : Prop :=
    match sm with Some m => sm_checked m | None => True end.
  Fixpoint fm_checked (m : field_matcher) : Prop :=
    match m with
    | FMSingleton s => fs_checked s
    | FMCard _ _ sm op _ _ => is_usize_applicable op = true /\ opt_sm_checked sm
    | FMGroup m' | FMNot m' => fm_checked m'
    | FMComposite l _ r => fm_checked l /\ fm_checked r
    end.

  Ltac step p := eapply pok_bind; [exact p|]; cbn beta; intros ? ?.

  Lemma exists_checked : pok singleton_checked parse_exists.
  Proof.
    unfold parse_exists.
    apply (pok_taken _ _ any singleton_checked (terminated parse_codes (ch 63)) (fun c w => SExists c w)).
    - apply pok_terminated; [apply pok_codes|apply pok_ch].
    - intros; exact I.
  Qed.
  Lemma opt_quant_pok : pok any (opt (ws parse_quantifier)).
  Proof. eapply pok_any, pok_opt, pok_ws, pok_quantifier. Qed.
  Lemma taken_ret : forall B (Q : B -> Prop) (f : bytes -> B) (i : bytes),
    (forall w, Q (f w)) -> pok Q (fun r => Some (f (taken i r), r)).
  Proof. intros B Q f i H i' a r E. injection E as <- <-. split; [auto|apply suffix_refl]. Qed.

  Lemma relation_checked : pok singleton_checked parse_relation.
  Proof.
    intros i. revert i. intros i m r H. unfold parse_relation in H. revert H. revert m r.
    enough (G : forall j, pok singleton_checked (fun i =>
      do (q, r1) <- opt (ws (terminated parse_quantifier multispace1)) i;
      do (codes, r2) <- ws parse_codes r1;
      do (op, r3) <- pverify is_str_applicable (ws parse_rel_op) r2;
      do (v, r4) <- ws parse_string r3;
      Some (SRelation (quant_default q) codes op v (trim (taken j r4)), r4))).
    { intros m r H. exact (G i i m r H). }
    intros j.
    eapply pok_bind; [eapply pok_any, pok_opt, pok_ws, pok_terminated; [apply pok_quantifier|apply pok_multispace1]|].
    intros q _. eapply pok_bind; [apply pok_ws, pok_codes|]. intros codes _.
    eapply pok_bind with (P := fun op => is_str_applicable op = true).
    { eapply pok_verify; [apply pok_ws, pok_rel_op|]. auto. }
    intros op Hop. eapply pok_bind; [apply pok_ws, pok_string|]. intros v _.
    intros i' a r' E. injection E as <- <-. split; [exact Hop|apply suffix_refl].
  Qed.
  Lemma contains_checked : pok singleton_checked parse_contains.
  Proof.
    intros i m r H. unfold parse_contains in H.
    enough (G : forall j, pok singleton_checked (fun i =>
      do (q, r1) <- opt (ws parse_quantifier) i;
      do (codes, r2) <- ws parse_codes r1;
      do (_, r3) <- ws (tok (lit "=?")) r2;
      do (vs, r4) <- alt (parse_list_of parse_string) (pmap (fun v => [v]) (ws parse_string)) r3;
      Some (SContains (quant_default q) codes vs (taken j r4), r4))) by exact (G i i m r H).
    intros j. eapply pok_bind; [apply opt_quant_pok|]. intros q _.
    eapply pok_bind; [apply pok_ws, pok_codes|]. intros codes _.
    eapply pok_bind; [apply pok_ws, pok_tok|]. intros _ _.
    eapply pok_bind with (P := any).
    { apply pok_alt; [eapply pok_any, pok_list_of, pok_string|].
      apply pok_map, pok_ws, pok_string. }
    intros vs _. apply (taken_ret _ _ (fun w => SContains (quant_default q) codes vs w)).
    intros; exact I.
  Qed.
  Lemma in_checked : pok singleton_checked parse_in.
  Proof.
    intros i m r H. unfold parse_in in H.
    enough (G : forall j, pok singleton_checked (fun i =>
      do (q, r1) <- opt (ws parse_quantifier) i;
      do (codes, r2) <- ws parse_codes r1;
      do (neg, r3) <- opt (ws (tok (lit "not"))) r2;
      do (_, r4) <- ws (tok (lit "in")) r3;
      do (vs, r5) <-
        alt (parse_list_of parse_string)
            (pverify_map (fun s => let cs := utf8_chars s in
               if Nat.ltb 1 (length cs) then Some cs else None) parse_string) r4;
      Some (SIn (quant_default q) codes vs (match neg with Some _ => true | None => false end)
              (taken j r5), r5))) by exact (G i i m r H).
    intros j. eapply pok_bind; [apply opt_quant_pok|]. intros q _.
    eapply pok_bind; [apply pok_ws, pok_codes|]. intros codes _.
    eapply pok_bind; [eapply pok_any, pok_opt, pok_ws, pok_tok|]. intros neg _.
    eapply pok_bind; [apply pok_ws, pok_tok|]. intros _ _.
    eapply pok_bind with (P := any).
    { apply pok_alt; [eapply pok_any, pok_list_of, pok_string|].
      intros i' a r' E. unfold pverify_map in E. dosome E. cbn zeta in E.
      destruct (Nat.ltb 1 _) in E; [|discriminate]. injection E as <- <-.
      split; [exact I|]. eapply pok_string. exact E0. }
    intros vs _. apply (taken_ret _ _ (fun w => SIn (quant_default q) codes vs _ w)).
    intros; exact I.
  Qed.
  Lemma card_checked : pok singleton_checked parse_card.
  Proof.
    intros i m r H. unfold parse_card in H.
    enough (G : forall j, pok singleton_checked (fun i =>
      do (_, r1) <- ws (ch 35) i;
      do (codes, r2) <- ws parse_codes r1;
      do (op, r3) <- pverify is_usize_applicable (ws parse_rel_op) r2;
      do (v, r4) <- parse_usize r3;
      Some (SCard codes op v (taken j r4), r4))) by exact (G i i m r H).
    intros j. eapply pok_bind; [apply pok_ws, pok_ch|]. intros _ _.
    eapply pok_bind; [apply pok_ws, pok_codes|]. intros codes _.
    eapply pok_bind with (P := fun op => is_usize_applicable op = true).
    { eapply pok_verify; [apply pok_ws, pok_rel_op|]. auto. }
    intros op Hop. eapply pok_bind; [apply pok_usize|]. intros v _.
    apply (taken_ret _ _ (fun w => SCard codes op v w)). intros w. exact Hop.
  Qed.
  Lemma pok_re_op : pok any parse_re_op.
  Proof. apply pok_ws. apply pok_alt; (apply pok_value; [exact I|apply pok_tok]). Qed.
  Lemma pok_regex_string : pok (fun re => o_re_ok O false re = true) (parse_regex_string O).
  Proof. unfold parse_regex_string. eapply pok_verify; [apply pok_string|]. auto. Qed.
  Lemma regex_checked : pok singleton_checked (parse_regex O).
  Proof.
    intros i m r H. unfold parse_regex in H.
    enough (G : forall j, pok singleton_checked (fun i =>
      do (q, r1) <- opt (ws parse_quantifier) i;
      do (codes, r2) <- ws parse_codes r1;
      do (invert, r3) <- parse_re_op r2;
      do (re, r4) <- parse_regex_string O r3;
      Some (SRegex (quant_default q) codes re invert (taken j r4), r4))) by exact (G i i m r H).
    intros j. eapply pok_bind; [apply opt_quant_pok|]. intros q _.
    eapply pok_bind; [apply pok_ws, pok_codes|]. intros codes _.
    eapply pok_bind; [apply pok_re_op|]. intros inv _.
    eapply pok_bind; [apply pok_regex_string|]. intros re Hre.
    apply (taken_ret _ _ (fun w => SRegex (quant_default q) codes re inv w)). intros w. exact Hre.
  Qed.
  Lemma regex_set_checked : pok singleton_checked (parse_regex_set O).
  Proof.
    intros i m r H. unfold parse_regex_set in H.
    enough (G : forall j, pok singleton_checked (fun i =>
      do (q, r1) <- opt (ws parse_quantifier) i;
      do (codes, r2) <- ws parse_codes r1;
      do (invert, r3) <- parse_re_op r2;
      do (res, r4) <- parse_list_of (parse_regex_string O) r3;
      Some (SRegexSet (quant_default q) codes res invert (taken j r4), r4))) by exact (G i i m r H).
    intros j. eapply pok_bind; [apply opt_quant_pok|]. intros q _.
    eapply pok_bind; [apply pok_ws, pok_codes|]. intros codes _.
    eapply pok_bind; [apply pok_re_op|]. intros inv _.
    eapply pok_bind; [apply pok_list_of, pok_regex_string|]. intros res [Hres _].
    apply (taken_ret _ _ (fun w => SRegexSet (quant_default q) codes res inv w)). intros w. exact Hres.
  Qed.
  Lemma singleton_parsed_checked : pok singleton_checked (parse_singleton O).
  Proof.
    unfold parse_singleton. repeat apply pok_alt.
    - apply relation_checked.
    - apply contains_checked.
    - apply in_checked.
    - apply exists_checked.
    - apply card_checked.
    - apply regex_set_checked.
    - apply regex_checked.
  Qed.

  Lemma sm_ops_checked : forall a b, sm_checked a -> sm_checked b ->
    sm_checked (sm_and a b) /\ sm_checked (sm_or a b) /\ sm_checked (sm_xor a b) /\ sm_checked (sm_not a).
  Proof.
    intros a b Ha Hb. repeat split; cbn; auto.
    all: try (destruct a as [|?|?|? [] ?]; cbn in *; tauto).
    all: try (destruct b as [|?|?|? [] ?]; cbn in *; tauto).
    destruct a as [s|?|?|? [] ?]; [destruct s| | | | |]; cbn in *; tauto.
  Qed.
  Lemma fm_ops_checked : forall a b, fm_checked a -> fm_checked b ->
    fm_checked (fm_and a b) /\ fm_checked (fm_or a b) /\ fm_checked (fm_xor a b) /\ fm_checked (fm_not a).
  Proof.
    intros a b Ha Hb. repeat split; cbn; auto.
    all: try (destruct a as [|?|?|?|? [] ?]; cbn in *; tauto).
    all: try (destruct b as [|?|?|?|? [] ?]; cbn in *; tauto).
    destruct a as [[t o|q t o [[]| | |] raw]|?|?|?|? [] ?]; cbn in *; tauto.
  Qed.

  Lemma sok_fold_ops : forall A n (P : A -> Prop) (op : A -> A -> A) atom tokp,
    (forall a b, P a -> P b -> P (op a b)) ->
    sok n P atom -> sok n any tokp -> sok n P (smap (fold_ops op) (s_operands atom tokp)).
  Proof.
    intros A n P op atom tokp Hop Ha Ht. apply sok_map. unfold s_operands.
    eapply sok_bind; [exact Ha|]. intros h Hh. apply sok_map.
    eapply sok_weaken; [apply sok_repeat1, sok_preceded; [exact Ht|exact Ha]|].
    intros l Hl. unfold fold_ops. cbn [fst snd]. clear - Hop Hl Hh. revert h Hh.
    induction Hl as [|x l Hx Hl IH]; intros h Hh; cbn [fold_left]; auto.
  Qed.

  Lemma sub_inc_ok : forall n, sok n any sub_inc.
  Proof.
    intros n s i _. unfold sub_inc. destruct (256 <=? lv_sub s + 1); [exact I|].
    split; [exact I|apply suffix_refl].
  Qed.
  Lemma field_inc_ok : forall n, sok n any field_inc.
  Proof.
    intros n s i _. unfold field_inc. destruct (256 <=? lv_field s + 1); [exact I|].
    split; [exact I|apply suffix_refl].
  Qed.

  Lemma sub_singleton_ok : forall n, sok n sm_checked (sub_singleton O).
  Proof. intros n. apply sok_lift. apply pok_map. apply singleton_parsed_checked. Qed.

  Section Knot.
    Variable n : nat.
    Variable g t : sparser subfield_matcher.
    Hypothesis Hg : sok n sm_checked g.
    Hypothesis Ht : sok n sm_checked t.

    Lemma sub_and_ok : sok n sm_checked (sub_and O g t).
    Proof.
      apply sok_fold_ops; [intros a b Ha Hb; apply (sm_ops_checked a b); assumption| |].
      - apply sok_ws. repeat apply sok_alt; auto using sub_singleton_ok.
      - apply sok_lift, pok_tok.
    Qed.
    Lemma sub_xor_ok : sok n sm_checked (sub_xor O g t).
    Proof.
      apply sok_fold_ops; [intros a b Ha Hb; apply (sm_ops_checked a b); assumption| |].
      - apply sok_ws. repeat apply sok_alt; auto using sub_singleton_ok, sub_and_ok.
      - apply sok_lift, pok_alt; apply pok_tok.
    Qed.
    Lemma sub_or_ok : sok n sm_checked (sub_or O g t).
    Proof.
      apply sok_fold_ops; [intros a b Ha Hb; apply (sm_ops_checked a b); assumption| |].
      - apply sok_ws. repeat apply sok_alt; auto using sub_singleton_ok, sub_and_ok, sub_xor_ok.
      - apply sok_lift, pok_tok.
    Qed.
    Lemma sub_composite_ok : sok n sm_checked (sub_composite O g t).
    Proof. repeat apply sok_alt; auto using sub_or_ok, sub_xor_ok, sub_and_ok. Qed.
    Lemma sub_group_ok : sok (S n) sm_checked (sub_group_body O g t).
    Proof.
      apply sok_map. unfold sdelim. intros s i Hi.
      match goal with |- context [sbind ?p ?k s i] =>
        replace (sbind p k s i) with
          (sbind (slift (ws (ch 40))) (fun _ => sbind sub_inc k) s i)
      end.
      - revert s i Hi. apply sok_bind_strict; [apply pok_ws, pok_ch|apply strict_ws, strict_ch|].
        intros _. eapply sok_bind; [apply sub_inc_ok|]. intros _ _.
        eapply sok_bind with (P := sm_checked).
        + repeat apply sok_alt; auto using sub_composite_ok, sub_or_ok, sub_xor_ok, sub_and_ok, sub_singleton_ok.
        + intros b Hb. eapply sok_bind; [apply sok_lift, pok_ws, pok_ch|]. intros _ _.
          apply sok_ret. exact Hb.
      - unfold sbind, slift. destruct (ws (ch 40) i) as [[a r]|]; reflexivity.
    Qed.
    Lemma sub_not_ok : sok (S n) sm_checked (sub_not_body g t).
    Proof.
      apply sok_map. unfold spreceded.
      apply sok_bind_strict; [apply pok_ws, pok_ch|apply strict_ws, strict_ch|]. intros _.
      repeat apply sok_alt; auto. apply sok_lift. apply pok_map. apply exists_checked.
    Qed.
  End Knot.

  Lemma sub_gn_ok : forall n,
    sok n sm_checked (fst (sub_gn O n)) /\ sok n sm_checked (snd (sub_gn O n)).
  Proof.
    induction n as [|n IH]; [split; apply sok_fuel0|].
    cbn [sub_gn]. destruct (sub_gn O n) as [g t]. cbn [fst snd] in *.
    destruct IH as [Hg Ht]. split; [apply sub_group_ok|apply sub_not_ok]; assumption.
  Qed.

  Lemma parse_subfield_matcher_ok : forall n, sok n sm_checked (parse_subfield_matcher O).
  Proof.
    intros n s i _. unfold parse_subfield_matcher.
    destruct (sub_gn O (S (length i))) as [g t] eqn:E.
    pose proof (sub_gn_ok (S (length i))) as H. rewrite E in H. cbn [fst snd] in H.
    destruct H as [Hg Ht].
    assert (H : sok (S (length i)) sm_checked
                  (salt (sub_composite O g t) (salt (sub_singleton O) (salt g t)))).
    { repeat apply sok_alt; auto using sub_composite_ok, sub_or_ok, sub_xor_ok, sub_and_ok, sub_singleton_ok. }
    specialize (H s i ltac:(lia)).
    destruct (salt _ _ s i) as [[m r| |] s']; exact H.
  Qed.

  Lemma subfield_matcher_new_total : forall s b,
    exists r, fst (subfield_matcher_new O s b) = Some r /\ (forall m, r = Some m -> sm_checked m).
  Proof. intros s b. apply sparse_all_ok. apply parse_subfield_matcher_ok. Qed.

  Lemma f_exists_checked : pok fs_checked parse_f_exists.
  Proof.
    unfold parse_f_exists. apply pok_terminated; [|apply pok_ch]. apply pok_ws.
    eapply pok_bind; [apply pok_tag_matcher|]. intros t _.
    eapply pok_bind; [apply pok_occ_matcher|]. intros o _. apply pok_ret. exact I.
  Qed.
  Lemma f_dot_checked : pok fs_checked (parse_f_dot O).
  Proof.
    intros i m r H. unfold parse_f_dot in H.
    enough (G : forall j, pok fs_checked (fun i =>
      do (q, r1) <- opt (ws parse_quantifier) i;
      do (t, r2) <- parse_tag_matcher r1;
      do (o, r3) <- parse_occ_matcher r2;
      do (_, r4) <- ch 46 r3;
      do (m, r5) <- parse_singleton O r4;
      Some (FSubfields (quant_default q) t o (SMSingleton m) (trim_end (taken j r5)), r5)))
      by exact (G i i m r H).
    intros j. eapply pok_bind; [apply opt_quant_pok|]. intros q _.
    eapply pok_bind; [apply pok_tag_matcher|]. intros t _.
    eapply pok_bind; [apply pok_occ_matcher|]. intros o _.
    eapply pok_bind; [apply pok_ch|]. intros _ _.
    eapply pok_bind; [apply singleton_parsed_checked|]. intros s Hs.
    apply (taken_ret _ _ (fun w => FSubfields (quant_default q) t o (SMSingleton s) (trim_end w))).
    intros w. exact Hs.
  Qed.
  Lemma braced_ok : forall n, sok n sm_checked (s_braced O).
  Proof.
    intros n. apply sok_delim; [apply sok_lift, pok_ws, pok_ch|apply parse_subfield_matcher_ok|
      apply sok_lift, pok_ws, pok_ch].
  Qed.
  Lemma f_bracket_ok : forall n, sok n fs_checked (parse_f_bracket O).
  Proof.
    intros n. unfold parse_f_bracket.
    eapply sok_taken with (P := fun x => sm_checked (snd x)).
    - eapply sok_bind; [apply sok_lift, opt_quant_pok|]. intros q _.
      eapply sok_bind; [apply sok_lift, pok_tag_matcher|]. intros t _.
      eapply sok_bind; [apply sok_lift, pok_occ_matcher|]. intros o _.
      apply sok_map. apply braced_ok.
    - intros [[[q t] o] m] w H. exact H.
  Qed.
  Lemma f_singleton_ok : forall n, sok n fm_checked (f_singleton O).
  Proof.
    intros n. unfold f_singleton. apply sok_map. unfold parse_f_singleton. repeat apply sok_alt.
    - apply sok_lift. apply f_exists_checked.
    - apply sok_lift. apply f_dot_checked.
    - apply f_bracket_ok.
  Qed.
  Lemma f_card_ok : forall n, sok n fm_checked (parse_f_card O).
  Proof.
    intros n. unfold parse_f_card.
    eapply sok_taken with (P := fun x => is_usize_applicable (snd (fst x)) = true
                                         /\ opt_sm_checked (snd (fst (fst x)))).
    - apply sok_preceded; [apply sok_lift, pok_ws, pok_ch|].
      eapply sok_bind; [apply sok_lift, pok_ws, pok_tag_matcher|]. intros t _.
      eapply sok_bind; [apply sok_lift, pok_ws, pok_occ_matcher|]. intros o _.
      eapply sok_bind; [apply sok_opt, braced_ok|]. intros m Hm.
      eapply sok_bind with (P := fun op => is_usize_applicable op = true).
      { apply sok_lift. eapply pok_verify; [apply pok_ws, pok_rel_op|]. auto. }
      intros op Hop. apply sok_map.
      eapply sok_weaken; [apply sok_lift, pok_usize|]. intros v _. cbn. split; [exact Hop|].
      destruct m; exact Hm.
    - intros [[[[t o] m] op] v] w [H1 H2]. cbn in *. auto.
  Qed.
  Lemma f_exists_ok : pok fm_checked f_exists.
  Proof.
    unfold f_exists. apply pok_alt; [apply pok_map; apply f_exists_checked|].
    intros i m r H.
    enough (G : forall j, pok fm_checked (fun i =>
           do (q, r1) <- opt parse_quantifier i;
           do (t, r2) <- parse_tag_matcher r1;
           do (o, r3) <- parse_occ_matcher r2;
           do (_, r4) <- ws (ch 46) r3;
           do (m, r5) <- parse_exists r4;
           Some (FMSingleton (FSubfields (quant_default q) t o (SMSingleton m) (taken j r5)), r5)))
      by exact (G i i m r H).
    intros j. eapply pok_bind; [eapply pok_any, pok_opt, pok_quantifier|]. intros q _.
    eapply pok_bind; [apply pok_tag_matcher|]. intros t _.
    eapply pok_bind; [apply pok_occ_matcher|]. intros o _.
    eapply pok_bind; [apply pok_ws, pok_ch|]. intros _ _.
    eapply pok_bind; [apply exists_checked|]. intros s Hs.
    apply (taken_ret _ _ (fun w => FMSingleton (FSubfields (quant_default q) t o (SMSingleton s) w))).
    intros w. exact Hs.
  Qed.

  Section FKnot.
    Variable n : nat.
    Variable g t : sparser field_matcher.
    Hypothesis Hg : sok n fm_checked g.
    Hypothesis Ht : sok n fm_checked t.

    Lemma f_atoms_ok : sok n fm_checked (f_atoms O g t).
    Proof.
      unfold f_atoms. repeat apply sok_alt; auto using f_card_ok, f_singleton_ok.
      apply sok_lift. apply f_exists_ok.
    Qed.
    Lemma f_and_ok : sok n fm_checked (f_and O g t).
    Proof.
      apply sok_fold_ops; [intros a b Ha Hb; apply (fm_ops_checked a b); assumption| |].
      - apply sok_ws. apply f_atoms_ok.
      - apply sok_lift, pok_ws, pok_tok.
    Qed.
    Lemma f_xor_ok : sok n fm_checked (f_xor O g t).
    Proof.
      apply sok_fold_ops; [intros a b Ha Hb; apply (fm_ops_checked a b); assumption| |].
      - apply sok_ws. apply sok_alt; [apply f_and_ok|apply f_atoms_ok].
      - apply sok_lift, pok_alt; apply pok_tok.
    Qed.
    Lemma f_or_ok : sok n fm_checked (f_or O g t).
    Proof.
      apply sok_fold_ops; [intros a b Ha Hb; apply (fm_ops_checked a b); assumption| |].
      - apply sok_ws. apply sok_alt; [apply f_and_ok|apply sok_alt; [apply f_xor_ok|apply f_atoms_ok]].
      - apply sok_lift, pok_ws, pok_tok.
    Qed.
    Lemma f_composite_ok : sok n fm_checked (f_composite O g t).
    Proof. repeat apply sok_alt; auto using f_or_ok, f_xor_ok, f_and_ok. Qed.
    Lemma f_close_ok : sok n any f_close.
    Proof.
      intros s i Hi. unfold f_close. destruct (ws (ch 41) i) as [[a r]|] eqn:E; [|exact I].
      split; [exact I|]. eapply (pok_ws _ any); [apply pok_ch|exact E].
    Qed.
    Lemma f_group_ok : sok (S n) fm_checked (f_group_body O g t).
    Proof.
      apply sok_map. unfold sdelim. intros s i Hi.
      match goal with |- context [sbind ?p ?k s i] =>
        replace (sbind p k s i) with
          (sbind (slift (ws (ch 40))) (fun _ => sbind field_inc k) s i)
      end.
      - revert s i Hi. apply sok_bind_strict; [apply pok_ws, pok_ch|apply strict_ws, strict_ch|].
        intros _. eapply sok_bind; [apply field_inc_ok|]. intros _ _.
        eapply sok_bind with (P := fm_checked).
        + repeat apply sok_alt; auto using f_composite_ok, f_or_ok, f_xor_ok, f_and_ok, f_singleton_ok, f_card_ok.
        + intros b Hb. eapply sok_bind; [apply f_close_ok|]. intros _ _.
          apply sok_ret. exact Hb.
      - unfold sbind, slift. destruct (ws (ch 40) i) as [[a r]|]; reflexivity.
    Qed.
    Lemma f_not_ok : sok (S n) fm_checked (f_not_body O g t).
    Proof.
      apply sok_map. unfold spreceded.
      apply sok_bind_strict; [apply pok_ws, pok_ch|apply strict_ws, strict_ch|]. intros _.
      repeat apply sok_alt; auto.
      - apply sok_map. apply f_bracket_ok.
      - apply sok_lift. apply f_exists_ok.
    Qed.
  End FKnot.

  Lemma field_gn_ok : forall n,
    sok n fm_checked (fst (field_gn O n)) /\ sok n fm_checked (snd (field_gn O n)).
  Proof.
    induction n as [|n IH]; [split; apply sok_fuel0|].
    cbn [field_gn]. destruct (field_gn O n) as [g t]. cbn [fst snd] in *.
    destruct IH as [Hg Ht]. split; [apply f_group_ok|apply f_not_ok]; assumption.
  Qed.

  Lemma parse_field_matcher_ok : forall n, sok n fm_checked (parse_field_matcher O).
  Proof.
    intros n s i _. unfold parse_field_matcher.
    destruct (field_gn O (S (length i))) as [g t] eqn:E.
    pose proof (field_gn_ok (S (length i))) as H. rewrite E in H. cbn [fst snd] in H.
    destruct H as [Hg Ht].
    assert (H : sok (S (length i)) fm_checked
      (sws (salt (f_composite O g t) (salt g (salt t (salt (f_singleton O) (parse_f_card O))))))).
    { apply sok_ws. repeat apply sok_alt; auto using f_composite_ok, f_or_ok, f_xor_ok, f_and_ok, f_singleton_ok, f_card_ok. }
    specialize (H s i ltac:(lia)).
    destruct (sws _ s i) as [[m r| |] s']; exact H.
  Qed.

  Lemma field_matcher_new_total : forall s b,
    exists r, fst (field_matcher_new O s b) = Some r /\ (forall m, r = Some m -> fm_checked m).
  Proof. intros s b. apply sparse_all_ok. apply parse_field_matcher_ok. Qed.
End Checked.

(** * Grammar: the singleton parser of subfield matchers *)

From Coq Require Import String.
From Verif Require Import Bytes Winnow RecordModel RecordSpec BaseProofs Utf8Model Utf8Spec Utf8Proofs
  TagOccModel TagOccSpec TagOccProofs StrParserModel StrSpec StrProofs MatcherModel StateParser
  MatcherParserModel MatcherSpec GrammarSpec GrammarExprProofs GrammarLeafProofs GrammarSingletonProofs.

(** rewriting with an empty prefix in the equation *)
Ltac rew0 H := let X := fresh in pose proof H as X; cbn [app] in X; rewrite X; clear X.

(** ** the parsers after quantifier and codes *)
Lemma relation_eq : forall i, parse_relation i =
  match head true i with
  | None => None
  | Some ((q, codes), r2) =>
      do (op, r3) <- pverify is_str_applicable (ws parse_rel_op) r2;
      do (v, r4) <- ws parse_string r3;
      Some (SRelation (quant_default q) codes op v (trim (taken i r4)), r4)
  end.
Proof.
  intros i. unfold parse_relation, head. destruct (opt _ i) as [[q r1]|]; [|reflexivity].
  destruct (ws parse_codes r1) as [[l r2]|]; reflexivity.
Qed.

Lemma contains_eq : forall i, parse_contains i =
  match head false i with
  | None => None
  | Some ((q, codes), r2) =>
      do (_, r3) <- ws (tok (lit "=?")) r2;
      do (vs, r4) <- alt (parse_list_of parse_string) (pmap (fun v => [v]) (ws parse_string)) r3;
      Some (SContains (quant_default q) codes vs (taken i r4), r4)
  end.
Proof.
  intros i. unfold parse_contains, head. destruct (opt _ i) as [[q r1]|]; [|reflexivity].
  destruct (ws parse_codes r1) as [[l r2]|]; reflexivity.
Qed.

Lemma in_eq : forall i, parse_in i =
  match head false i with
  | None => None
  | Some ((q, codes), r2) =>
      do (neg, r3) <- opt (ws (tok (lit "not"))) r2;
      do (_, r4) <- ws (tok (lit "in")) r3;
      do (vs, r5) <-
        alt (parse_list_of parse_string)
            (pverify_map (fun s => let cs := utf8_chars s in
               if Nat.ltb 1 (length cs) then Some cs else None) parse_string) r4;
      Some (SIn (quant_default q) codes vs (match neg with Some _ => true | None => false end)
              (taken i r5), r5)
  end.
Proof.
  intros i. unfold parse_in, head. destruct (opt (ws parse_quantifier) i) as [[q r1]|]; [|reflexivity].
  destruct (ws parse_codes r1) as [[l r2]|]; reflexivity.
Qed.

Section Singleton.
  Variable O : oracles.

  Lemma regex_eq : forall i, parse_regex O i =
    match head false i with
    | None => None
    | Some ((q, codes), r2) =>
        do (invert, r3) <- parse_re_op r2;
        do (re, r4) <- parse_regex_string O r3;
        Some (SRegex (quant_default q) codes re invert (taken i r4), r4)
    end.
  Proof.
    intros i. unfold parse_regex, head. destruct (opt _ i) as [[q r1]|]; [|reflexivity].
    destruct (ws parse_codes r1) as [[l r2]|]; reflexivity.
  Qed.

  Lemma regex_set_eq : forall i, parse_regex_set O i =
    match head false i with
    | None => None
    | Some ((q, codes), r2) =>
        do (invert, r3) <- parse_re_op r2;
        do (res, r4) <- parse_list_of (parse_regex_string O) r3;
        Some (SRegexSet (quant_default q) codes res invert (taken i r4), r4)
    end.
  Proof.
    intros i. unfold parse_regex_set, head. destruct (opt _ i) as [[q r1]|]; [|reflexivity].
    destruct (ws parse_codes r1) as [[l r2]|]; reflexivity.
  Qed.

  (** ** tokens *)
  Lemma ws_tok_none : forall x r, starts_with (skip_ws r) x = false -> ws (tok x) r = None.
  Proof. intros x r H. unfold ws. rewrite tok_starts by exact H. reflexivity. Qed.

  Lemma ws_tok_ok : forall x w r, blanks w -> x <> [] -> nonblank x ->
    ws (tok x) (w ++ x ++ r) = Some (tt, skip_ws r).
  Proof.
    intros x w r W N1 N2. unfold ws.
    rewrite skip_ws_blanks_nonblank; [|exact W|apply nonblank_app; assumption].
    rewrite tok_ok. reflexivity.
  Qed.

  Lemma ws_tok_inv : forall x i u r, ws (tok x) i = Some (u, r) ->
    exists w1 w2, blanks w1 /\ blanks w2 /\ i = w1 ++ x ++ w2 ++ r /\ nonblank r.
  Proof.
    intros x i u r H. unfold ws in H. destruct (skip_ws_split i) as (w1 & W1 & E1).
    destruct (tok x (skip_ws i)) as [[y r1]|] eqn:E; [|discriminate]. injection H as <- <-.
    apply tok_inv in E. destruct (skip_ws_split r1) as (w2 & W2 & E2).
    exists w1, w2. split; [exact W1|]. split; [exact W2|]. rewrite <- E2, <- E.
    split; [exact E1|apply nonblank_skip].
  Qed.

  Lemma ws_string_inv : forall i v r, ws parse_string i = Some (v, r) ->
    exists w1 t w2, blanks w1 /\ blanks w2 /\ i = w1 ++ t ++ w2 ++ r /\ string_text t v /\ nonblank r.
  Proof.
    intros i v r H. unfold ws in H. destruct (skip_ws_split i) as (w1 & W1 & E1).
    destruct (parse_string (skip_ws i)) as [[y r1]|] eqn:E; [|discriminate]. injection H as <- <-.
    apply string_iff in E as (t & E & Ht). destruct (skip_ws_split r1) as (w2 & W2 & E2).
    exists w1, t, w2. split; [exact W1|]. split; [exact W2|]. rewrite <- E2, <- E.
    split; [exact E1|]. split; [exact Ht|apply nonblank_skip].
  Qed.

  Lemma ws_string_ok : forall w t v r, blanks w -> string_text t v ->
    ws parse_string (w ++ t ++ r) = Some (v, skip_ws r).
  Proof.
    intros w t v r W Ht. unfold ws. destruct (string_nonblank t v Ht) as [N1 N2].
    rewrite skip_ws_blanks_nonblank; [|exact W|apply nonblank_app; assumption].
    rewrite (proj2 (string_iff (t ++ r) v r)) by (exists t; auto). reflexivity.
  Qed.

  Lemma strings_iff : forall i v r,
    parse_string i = Some (v, r) <-> exists t, i = t ++ r /\ string_text t v /\ True.
  Proof.
    intros i v r. rewrite string_iff. split; intros (t & H); exists t; tauto.
  Qed.

  Lemma regex_string_iff : forall i v r,
    parse_regex_string O i = Some (v, r)
    <-> exists t, i = t ++ r /\ string_text t v /\ o_re_ok O false v = true.
  Proof.
    intros i v r. unfold parse_regex_string, pverify. split.
    - intros H. destruct (parse_string i) as [[v' r']|] eqn:E; [|discriminate].
      destruct (o_re_ok O false v') eqn:F; [|discriminate]. injection H as -> ->.
      apply string_iff in E as (t & -> & Ht). exists t. auto.
    - intros (t & -> & Ht & F). rewrite (proj2 (string_iff (t ++ r) v r)) by (exists t; auto).
      rewrite F. reflexivity.
  Qed.

  Lemma list_no_string : forall p w t v r, blanks w -> string_text t v -> parse_list_of p (w ++ t ++ r) = None.
  Proof.
    intros p w t v r W Ht. unfold parse_list_of, delimited.
    destruct (string_nonblank t v Ht) as [N1 N2]. rewrite ws_ch_none; [reflexivity|].
    rewrite skip_ws_blanks_nonblank; [|exact W|apply nonblank_app; assumption].
    apply string_start in Ht as (q & t' & -> & Hq). intros r' E. injection E as -> _.
    destruct Hq; discriminate.
  Qed.

  (** ** which parsers fail *)
  Definition no_rel (o : bytes) : Prop := parse_rel_op o = None.
  Definition no_contains (o : bytes) : Prop := starts_with o (lit "=?") = false.
  Definition no_in (o : bytes) : Prop :=
    starts_with o (lit "not") = false /\ starts_with o (lit "in") = false.
  Definition no_exists (w o : bytes) : Prop := w <> [] \/ forall o', o <> 63 :: o'.

  Section Heads.
    Variables (tq : bytes) (q : quantifier) (tc : bytes) (C : byte -> Prop) (w o : bytes).
    Hypothesis Hc : codes_text tc C.
    Hypothesis W : blanks w.
    Hypothesis Ho : op_start o.
    Let i := tq ++ tc ++ w ++ o.

    Lemma relation_none : quant_text false tq q -> no_rel o -> parse_relation i = None.
    Proof.
      intros Hq Hr. rewrite relation_eq. pose proof (op_start_nonblank o Ho) as No.
      assert (E : pverify is_str_applicable (ws parse_rel_op) o = None).
      { unfold pverify, ws. rewrite skip_ws_nonblank by exact No. rewrite Hr. reflexivity. }
      destruct (head_sep_stop tq q tc C w o Hq Hc W Ho) as [(q' & l & F)|[(l & r & F)|(l & r & F)]];
        unfold i; rewrite F; [rewrite E; reflexivity|reflexivity|reflexivity].
    Qed.

    Lemma contains_none : quant_text false tq q -> no_contains o -> parse_contains i = None.
    Proof.
      intros Hq Hr. rewrite contains_eq. pose proof (op_start_nonblank o Ho) as No.
      destruct (head_ok false tq q tc C w o Hq Hc W Ho) as (q' & l & F & _).
      unfold i. rewrite F. rewrite ws_tok_none; [reflexivity|].
      rewrite skip_ws_nonblank by exact No. exact Hr.
    Qed.

    Lemma in_none : quant_text false tq q -> no_in o -> parse_in i = None.
    Proof.
      intros Hq [H1 H2]. rewrite in_eq. pose proof (op_start_nonblank o Ho) as No.
      destruct (head_ok false tq q tc C w o Hq Hc W Ho) as (q' & l & F & _).
      unfold i. rewrite F. unfold opt. rewrite ws_tok_none.
      2:{ rewrite skip_ws_nonblank by exact No. exact H1. }
      rewrite ws_tok_none; [reflexivity|]. rewrite skip_ws_nonblank by exact No. exact H2.
    Qed.

    Lemma exists_none : quant_text false tq q -> no_exists w o -> parse_exists i = None.
    Proof.
      intros Hq Hr. unfold parse_exists, terminated, i.
      assert (E : forall r, (exists c r', r = c :: r' /\ c <> 63) -> ch 63 r = None).
      { intros r (c & r' & -> & N). apply ch_fail. congruence. }
      destruct Hq as [|w' W' _|w' W' _].
      - cbn [app]. destruct (codes_ok tc C (w ++ o) Hc) as (l & -> & _). rewrite E; [reflexivity|].
        destruct Ho as (c & o' & -> & _). destruct Hr as [Hr|Hr].
        + destruct w as [|d w']; [contradiction|]. exists d, (w' ++ c :: o'). split; [reflexivity|].
          intros ->. inversion W as [|x y HB _]; subst. revert HB. notblank.
        + destruct w as [|d w'].
          * exists c, o'. split; [reflexivity|]. intros ->. apply (Hr o'). reflexivity.
          * exists d, (w' ++ c :: o'). split; [reflexivity|].
            intros ->. inversion W as [|x y HB _]; subst. revert HB. notblank.
      - reflexivity.
      - reflexivity.
    Qed.
  End Heads.

  Lemma head_nonblank : forall sep tq q tc C r, quant_text sep tq q -> codes_text tc C ->
    nonblank (tq ++ tc ++ r) /\ (exists c r', tq ++ tc ++ r = c :: r' /\ c <> 35 /\ c <> 33 /\ c <> 40).
  Proof.
    intros sep tq q tc C r Hq Hc. destruct Hq as [|w W _|w W _].
    - cbn [app]. destruct (codes_nonblank tc C Hc) as [N1 N2].
      split; [apply nonblank_app; assumption|].
      destruct (codes_start tc C Hc) as (c & t' & -> & _ & Hs). exists c, (t' ++ r). split; [reflexivity|].
      destruct Hs as [Hs|[->| ->]]; [|split; [discriminate|split; discriminate]..].
      apply alnums_iff in Hs. split; [|split]; intros ->; discriminate.
    - split; [apply nonblank_cons; notblank|]. exists 65. eexists. split; [reflexivity|].
      split; [discriminate|split; discriminate].
    - split; [apply nonblank_cons; notblank|]. exists 65. eexists. split; [reflexivity|].
      split; [discriminate|split; discriminate].
  Qed.

  Lemma card_none : forall sep tq q tc C r, quant_text sep tq q -> codes_text tc C ->
    parse_card (tq ++ tc ++ r) = None.
  Proof.
    intros sep tq q tc C r Hq Hc. destruct (head_nonblank sep tq q tc C r Hq Hc) as [N1 (c & r' & E & N2 & _)].
    unfold parse_card. rewrite ws_ch_none; [reflexivity|]. rewrite skip_ws_nonblank by exact N1.
    intros r2 E2. rewrite E in E2. injection E2 as -> _. contradiction.
  Qed.

  (** ** the meaning *)
  Definition sing_means (m : singleton) (P : meaning subfield) : Prop :=
    forall ci sfs, singleton_holds O ci m sfs <-> P ci sfs.

  Lemma quantified_eq : forall A q (P P' S S' : A -> Prop),
    (forall x, S x <-> S' x) -> (forall x, P x <-> P' x) -> (quantified q P S <-> quantified q P' S').
  Proof.
    intros A [|] P P' S S' HS HP; cbn.
    - split; intros H x Hx; apply HP, H, HS, Hx.
    - split; intros (x & H1 & H2); exists x; (split; [apply HS; exact H1|apply HP; exact H2]).
  Qed.

  Lemma coded_iff : forall l C sfs s, same_set l C -> (selected l sfs s <-> coded C sfs s).
  Proof.
    intros l C sfs s H. unfold selected, coded. rewrite (H (sf_code s)). reflexivity.
  Qed.

  Lemma counts_eq : forall A (P P' : A -> Prop) l n, (forall x, P x <-> P' x) ->
    counts P l n -> counts P' l n.
  Proof.
    intros A P P' l n H. induction 1 as [|x l n Hx H0 IH|x l n Hx H0 IH].
    - constructor.
    - apply counts_yes; [apply H; exact Hx|exact IH].
    - apply counts_no; [intros F; apply Hx, H, F|exact IH].
  Qed.

  Lemma negated_eq : forall b (P P' : Prop), (P <-> P') -> (negated_if b P <-> negated_if b P').
  Proof. intros [] P P' H; cbn; tauto. Qed.

  (** ** completeness *)
  Definition is_exists (m : singleton) : bool := match m with SExists _ _ => true | _ => false end.

  Definition sort_of (m : singleton) : sort :=
    match m with
    | SExists _ _ => SoExists | SRelation _ _ _ _ _ => SoRelation | SContains _ _ _ _ => SoContains
    | SIn _ _ _ _ _ => SoIn | SRegex _ _ _ _ _ => SoRegex | SRegexSet _ _ _ _ _ => SoRegexSet
    | SCard _ _ _ _ => SoCount
    end.
  Lemma sort_exists : forall m, sort_of m = SoExists <-> is_exists m = true.
  Proof. intros []; cbn; split; congruence. Qed.

  (** read as a condition of the kind, with or without the blanks after it *)
  Definition accepts_as (e : bool) (k : sort) (i : bytes) (P : meaning subfield) (r : bytes) : Prop :=
    exists m, parse_singleton O i = Some (m, if e then skip_ws r else r) /\ sort_of m = k /\ sing_means m P.

  Definition accepts (b : bool) (i : bytes) (P : meaning subfield) (r : bytes) : Prop :=
    exists m r', parse_singleton O i = Some (m, r') /\ is_exists m = b /\ sing_means m P
      /\ skip_ws r' = skip_ws r.

  Lemma as_accepts : forall e k i P r, accepts_as e k i P r ->
    accepts (match k with SoExists => true | _ => false end) i P r.
  Proof.
    intros e k i P r (m & E & <- & Hm). exists m, (if e then skip_ws r else r). split; [exact E|].
    split; [destruct m; reflexivity|]. split; [exact Hm|]. destruct e; [apply skip_ws_idem|reflexivity].
  Qed.

  Lemma exists_meaning : forall l C raw, same_set l C ->
    sing_means (SExists l raw) (fun _ sfs => exists s, coded C sfs s).
  Proof.
    intros l C raw H ci sfs. cbn. split; intros (s & Hs); exists s; apply (coded_iff l C); assumption.
  Qed.

  Lemma exists_ok : forall t P r, exists_text t P ->
    exists m, parse_exists (t ++ r) = Some (m, r) /\ sing_means m P /\ (exists l raw, m = SExists l raw).
  Proof.
    intros t P r [tc C Hc]. unfold parse_exists, terminated. rewrite <- app_assoc.
    destruct (codes_ok tc C (lit "?" ++ r) Hc) as (l & -> & Hl).
    change (lit "?" ++ r) with (63 :: r). rewrite ch_ok.
    exists (SExists l (taken (tc ++ 63 :: r) r)). split; [reflexivity|].
    split; [apply exists_meaning; exact Hl|]. eauto.
  Qed.

  Lemma exists_accepts : forall t P r, exists_text t P -> accepts true (t ++ r) P r.
  Proof.
    intros t P r H. destruct (exists_ok t P r H) as (m & E & Hm & Hx). destruct H as [tc C Hc].
    assert (Ho : op_start (lit "?" ++ r)) by (exists 63, r; split; [reflexivity|cbn; tauto]).
    exists m, r. split; [|split; [destruct Hx as (l & raw & ->); reflexivity|split; [exact Hm|reflexivity]]].
    unfold parse_singleton, alt.
    rewrite <- app_assoc in *. cbn [app] in *.
    pose proof (relation_none [] QAny tc C [] (lit "?" ++ r) Hc (Forall_nil _) Ho (quant_none _) eq_refl) as R1.
    pose proof (contains_none [] QAny tc C [] (lit "?" ++ r) Hc (Forall_nil _) Ho (quant_none _) eq_refl) as R2.
    pose proof (in_none [] QAny tc C [] (lit "?" ++ r) Hc (Forall_nil _) Ho (quant_none _)
                  (conj eq_refl eq_refl)) as R3.
    cbn [app] in R1, R2, R3. rewrite R1, R2, R3, E. reflexivity.
  Qed.

  Lemma op_start_str : forall top op r, In (top, op) str_ops -> op_start (top ++ r).
  Proof.
    intros top op r H. unfold str_ops in H. cbn [In] in H.
    repeat (destruct H as [H|H]; [injection H as <- <-; eexists _, _; split; [reflexivity|cbn; tauto]|]).
    contradiction.
  Qed.

  Lemma relation_accepts : forall tq q tc C w1 top op w2 ts v r,
    quant_text true tq q -> codes_text tc C -> blanks w1 -> In (top, op) str_ops ->
    blanks w2 -> string_text ts v ->
    accepts_as true SoRelation ((tq ++ tc ++ w1 ++ top ++ w2 ++ ts) ++ r)
      (fun ci sfs => quantified q (fun s => rel_holds O ci op v (sf_value s)) (coded C sfs)) r.
  Proof.
    intros tq q tc C w1 top op w2 ts v r Hq Hc W1 Hop W2 Hs. rewrite <- !app_assoc.
    pose proof (op_start_str top op (w2 ++ ts ++ r) Hop) as Ho.
    destruct (head_ok true tq q tc C w1 _ Hq Hc W1 Ho) as (q' & l & Eh & <- & Hl).
    destruct (str_op_ok top op (w2 ++ ts ++ r) Hop) as [Eo Ha].
    exists (SRelation (quant_default q') l op v
              (trim (taken (tq ++ tc ++ w1 ++ top ++ w2 ++ ts ++ r) (skip_ws r)))).
    split; [|split; [reflexivity|]].
    - unfold parse_singleton, alt. rewrite relation_eq, Eh. unfold pverify, ws at 1.
      rewrite skip_ws_nonblank by (apply op_start_nonblank; exact Ho). rewrite Eo, Ha.
      unfold ws. rewrite skip_ws_idem.
      destruct (string_nonblank ts v Hs) as [N1 N2].
      rewrite skip_ws_blanks_nonblank; [|exact W2|apply nonblank_app; assumption].
      rewrite (proj2 (string_iff (ts ++ r) v r)) by (exists ts; auto). reflexivity.
    - intros ci sfs. cbn [singleton_holds]. apply quantified_eq; [|reflexivity].
      intros s. apply coded_iff. exact Hl.
  Qed.

  Lemma contains_accepts : forall tq q tc C w1 w2 tn V r,
    quant_text false tq q -> codes_text tc C -> blanks w1 -> blanks w2 -> needles_text tn V ->
    accepts_as true SoContains ((tq ++ tc ++ w1 ++ lit "=?" ++ w2 ++ tn) ++ r)
      (fun ci sfs => quantified q (fun s =>
           exists v, V v /\ is_infix (fold_case O ci v) (fold_case O ci (sf_value s))) (coded C sfs)) r.
  Proof.
    intros tq q tc C w1 w2 tn V r Hq Hc W1 W2 Hn. rewrite <- !app_assoc.
    assert (Ho : op_start (lit "=?" ++ w2 ++ tn ++ r)) by (eexists _, _; split; [reflexivity|cbn; tauto]).
    destruct (head_ok false tq q tc C w1 _ Hq Hc W1 Ho) as (q' & l & Eh & <- & Hl).
    assert (Ev : exists vs, alt (parse_list_of parse_string) (pmap (fun v => [v]) (ws parse_string))
                   (skip_ws (w2 ++ tn ++ r)) = Some (vs, skip_ws r) /\ forall v, In v vs <-> V v).
    { rewrite skip_ws_blanks by exact W2. unfold alt, pmap. destruct Hn as [t v Ht|t vs Ht].
      - destruct (string_nonblank t v Ht) as [N1 N2].
        rewrite skip_ws_nonblank by (apply nonblank_app; assumption).
        rew0 (list_no_string parse_string [] t v r (Forall_nil _) Ht).
        rew0 (ws_string_ok [] t v r (Forall_nil _) Ht). exists [v]. split; [reflexivity|].
        intros x. cbn. intuition congruence.
      - destruct Ht as [w3 ts vs tc' w4 W3 Hts Htc W4].
        set (t := lit "[" ++ w3 ++ ts ++ tc' ++ w4 ++ lit "]").
        assert (Ht : list_text t vs) by (constructor; assumption).
        rewrite skip_ws_nonblank by (apply nonblank_cons; notblank).
        rew0 (list_of_ok parse_string (fun _ => True) strings_iff t vs [] r Ht);
          [|apply Forall_forall; auto|constructor].
        exists vs. split; [reflexivity|]. intros v. reflexivity. }
    destruct Ev as (vs & Ev & HV).
    exists (SContains (quant_default q') l vs (taken (tq ++ tc ++ w1 ++ lit "=?" ++ w2 ++ tn ++ r) (skip_ws r))).
    split; [|split; [reflexivity|]].
    - unfold parse_singleton, alt. rewrite (relation_none tq (quant_default q') tc C w1 _ Hc W1 Ho Hq eq_refl).
      rewrite contains_eq, Eh. rew0 (ws_tok_ok (lit "=?") [] (w2 ++ tn ++ r) (Forall_nil _)).
      + rewrite Ev. reflexivity.
      + discriminate.
      + apply nonblank_cons. notblank.
    - intros ci sfs. cbn [singleton_holds]. apply quantified_eq; [intros s; apply coded_iff; exact Hl|].
      intros s. split; intros (v & H1 & H2); exists v; rewrite HV in *; auto.
  Qed.

  Lemma op_start_in : forall top neg r, in_text top neg -> op_start (top ++ r).
  Proof.
    intros top neg r [|w W]; eexists _, _; (split; [reflexivity|cbn; tauto]).
  Qed.

  Lemma in_accepts : forall tq q tc C w1 top neg w2 tn V r,
    quant_text false tq q -> codes_text tc C -> blanks w1 -> in_text top neg -> blanks w2 ->
    members_text tn V ->
    exists e, (e = false -> exists v, string_text tn v)
    /\ accepts_as e SoIn ((tq ++ tc ++ w1 ++ top ++ w2 ++ tn) ++ r)
      (fun ci sfs => quantified q (fun s => negated_if neg
           (exists v, V v /\ fold_case O ci (sf_value s) = fold_case O ci v)) (coded C sfs)) r.
  Proof.
    intros tq q tc C w1 top neg w2 tn V r Hq Hc W1 Hi W2 Hn. rewrite <- !app_assoc.
    pose proof (op_start_in top neg (w2 ++ tn ++ r) Hi) as Ho.
    destruct (head_ok false tq q tc C w1 _ Hq Hc W1 Ho) as (q' & l & Eh & <- & Hl).
    assert (Ev : exists vs (e : bool), (e = false -> exists v, string_text tn v) /\ alt (parse_list_of parse_string)
            (pverify_map (fun s => let cs := utf8_chars s in
               if Nat.ltb 1 (length cs) then Some cs else None) parse_string)
                   (skip_ws (w2 ++ tn ++ r)) = Some (vs, if e then skip_ws r else r)
                   /\ forall v, In v vs <-> V v).
    { rewrite skip_ws_blanks by exact W2. unfold alt. destruct Hn as [t v char Ht Hch|t vs Ht].
      - destruct (string_nonblank t v Ht) as [N1 N2].
        rewrite skip_ws_nonblank by (apply nonblank_app; assumption).
        rew0 (list_no_string parse_string [] t v r (Forall_nil _) Ht).
        unfold pverify_map. cbn [app]. rewrite (proj2 (string_iff (t ++ r) v r)) by (exists t; auto).
        destruct (has_chars_ok v char Hch) as [Hn Hin]. cbv zeta. rewrite Hn.
        exists (utf8_chars v), false. eauto.
      - destruct Ht as [w3 ts vs tc' w4 W3 Hts Htc W4].
        set (t := lit "[" ++ w3 ++ ts ++ tc' ++ w4 ++ lit "]").
        assert (Ht : list_text t vs) by (constructor; assumption).
        rewrite skip_ws_nonblank by (apply nonblank_cons; notblank).
        rew0 (list_of_ok parse_string (fun _ => True) strings_iff t vs [] r Ht);
          [|apply Forall_forall; auto|constructor].
        exists vs, true. split; [discriminate|]. split; [reflexivity|]. intros v. reflexivity. }
    destruct Ev as (vs & e & He & Ev & HV). cbv zeta in Ev. exists e. split; [exact He|].
    exists (SIn (quant_default q') l vs neg (taken (tq ++ tc ++ w1 ++ top ++ w2 ++ tn ++ r) (if e then skip_ws r else r))).
    split; [|split; [reflexivity|]].
    - assert (R1 : no_rel (top ++ w2 ++ tn ++ r)) by (destruct Hi; reflexivity).
      assert (R2 : no_contains (top ++ w2 ++ tn ++ r)) by (destruct Hi; reflexivity).
      unfold parse_singleton, alt. rewrite (relation_none tq (quant_default q') tc C w1 _ Hc W1 Ho Hq R1).
      rewrite (contains_none tq (quant_default q') tc C w1 _ Hc W1 Ho Hq R2).
      rewrite in_eq, Eh.
      assert (Ei : ws (tok (lit "in")) (skip_ws (lit "in" ++ w2 ++ tn ++ r))
                   = Some (tt, skip_ws (w2 ++ tn ++ r))).
      { rewrite skip_ws_nonblank by (apply nonblank_cons; notblank).
        apply (ws_tok_ok (lit "in") [] (w2 ++ tn ++ r) (Forall_nil _)); [discriminate|].
        apply nonblank_cons. notblank. }
      destruct Hi as [|w W]; unfold opt.
      + rewrite (ws_tok_none (lit "not")) by reflexivity.
        rewrite skip_ws_nonblank in Ei by (apply nonblank_cons; notblank).
        rewrite Ei, Ev. reflexivity.
      + rewrite <- !app_assoc in *.
        rew0 (ws_tok_ok (lit "not") [] (w ++ lit "in" ++ w2 ++ tn ++ r) (Forall_nil _)).
        * rewrite skip_ws_blanks by exact W. rewrite Ei, Ev. reflexivity.
        * discriminate.
        * apply nonblank_cons. notblank.
    - intros ci sfs. cbn [singleton_holds]. apply quantified_eq; [intros s; apply coded_iff; exact Hl|].
      intros s. apply negated_eq. split; intros (v & H1 & H2); exists v; rewrite HV in *; auto.
  Qed.

  Lemma re_op_ok : forall top neg r, re_op_text top neg ->
    op_start (top ++ r) /\ parse_re_op (top ++ r) = Some (neg, skip_ws r)
    /\ no_rel (top ++ r) /\ no_contains (top ++ r) /\ no_in (top ++ r)
    /\ forall o', top ++ r <> 63 :: o'.
  Proof.
    intros top neg r H. destruct H.
    - split; [eexists _, _; split; [reflexivity|cbn; tauto]|]. split.
      + unfold parse_re_op, ws. rewrite skip_ws_nonblank by (apply nonblank_cons; notblank). reflexivity.
      + split; [reflexivity|]. split; [reflexivity|]. split; [split; reflexivity|]. discriminate.
    - split; [eexists _, _; split; [reflexivity|cbn; tauto]|]. split.
      + unfold parse_re_op, ws. rewrite skip_ws_nonblank by (apply nonblank_cons; notblank). reflexivity.
      + split; [reflexivity|]. split; [reflexivity|]. split; [split; reflexivity|]. discriminate.
  Qed.

  Lemma regex_accepts : forall tq q tc C w1 top neg w2 ts re r,
    quant_text false tq q -> codes_text tc C -> blanks w1 -> re_op_text top neg -> blanks w2 ->
    string_text ts re -> o_re_ok O false re = true ->
    accepts_as false SoRegex ((tq ++ tc ++ w1 ++ top ++ w2 ++ ts) ++ r)
      (fun ci sfs => quantified q (fun s => negated_if neg (o_re O ci re (sf_value s) = true))
           (coded C sfs)) r.
  Proof.
    intros tq q tc C w1 top neg w2 ts re r Hq Hc W1 Hop W2 Hs Hre. rewrite <- !app_assoc.
    destruct (re_op_ok top neg (w2 ++ ts ++ r) Hop) as (Ho & Eo & R1 & R2 & R3 & R4).
    destruct (head_ok false tq q tc C w1 _ Hq Hc W1 Ho) as (q' & l & Eh & <- & Hl).
    exists (SRegex (quant_default q') l re neg
              (taken (tq ++ tc ++ w1 ++ top ++ w2 ++ ts ++ r) r)).
    split; [|split; [reflexivity|]].
    - unfold parse_singleton, alt. rewrite (relation_none tq (quant_default q') tc C w1 _ Hc W1 Ho Hq R1).
      rewrite (contains_none tq (quant_default q') tc C w1 _ Hc W1 Ho Hq R2).
      rewrite (in_none tq (quant_default q') tc C w1 _ Hc W1 Ho Hq R3).
      rewrite (exists_none tq (quant_default q') tc C w1 _ Hc W1 Ho Hq (or_intror R4)).
      rewrite (card_none false tq (quant_default q') tc C _ Hq Hc).
      rewrite regex_set_eq, regex_eq, Eh, Eo.
      destruct (string_nonblank ts re Hs) as [N1 N2].
      rewrite skip_ws_blanks_nonblank; [|exact W2|apply nonblank_app; assumption].
      rew0 (list_no_string (parse_regex_string O) [] ts re r (Forall_nil _) Hs).
      rewrite (proj2 (regex_string_iff (ts ++ r) re r)) by (exists ts; auto). reflexivity.
    - intros ci sfs. cbn [singleton_holds]. apply quantified_eq; [intros s; apply coded_iff; exact Hl|].
      intros s. reflexivity.
  Qed.

  Lemma regex_set_accepts : forall tq q tc C w1 top neg w2 tl res r,
    quant_text false tq q -> codes_text tc C -> blanks w1 -> re_op_text top neg -> blanks w2 ->
    list_text tl res -> Forall (fun re => o_re_ok O false re = true) res ->
    accepts_as true SoRegexSet ((tq ++ tc ++ w1 ++ top ++ w2 ++ tl) ++ r)
      (fun ci sfs => quantified q (fun s => negated_if neg
           (exists re, In re res /\ o_re O ci re (sf_value s) = true)) (coded C sfs)) r.
  Proof.
    intros tq q tc C w1 top neg w2 tl res r Hq Hc W1 Hop W2 Hs Hre. rewrite <- !app_assoc.
    destruct (re_op_ok top neg (w2 ++ tl ++ r) Hop) as (Ho & Eo & R1 & R2 & R3 & R4).
    destruct (head_ok false tq q tc C w1 _ Hq Hc W1 Ho) as (q' & l & Eh & <- & Hl).
    exists (SRegexSet (quant_default q') l res neg
              (taken (tq ++ tc ++ w1 ++ top ++ w2 ++ tl ++ r) (skip_ws r))).
    split; [|split; [reflexivity|]].
    - unfold parse_singleton, alt. rewrite (relation_none tq (quant_default q') tc C w1 _ Hc W1 Ho Hq R1).
      rewrite (contains_none tq (quant_default q') tc C w1 _ Hc W1 Ho Hq R2).
      rewrite (in_none tq (quant_default q') tc C w1 _ Hc W1 Ho Hq R3).
      rewrite (exists_none tq (quant_default q') tc C w1 _ Hc W1 Ho Hq (or_intror R4)).
      rewrite (card_none false tq (quant_default q') tc C _ Hq Hc).
      rewrite regex_set_eq, Eh, Eo. rewrite skip_ws_blanks by exact W2.
      assert (E : skip_ws (tl ++ r) = [] ++ tl ++ r).
      { destruct Hs. apply skip_ws_nonblank. apply nonblank_cons. notblank. }
      rewrite E. cbn [app]. rew0 (list_of_ok (parse_regex_string O) (fun v => o_re_ok O false v = true)
                            regex_string_iff tl res [] r Hs Hre (Forall_nil _)).
      reflexivity.
    - intros ci sfs. cbn [singleton_holds]. apply quantified_eq; [intros s; apply coded_iff; exact Hl|].
      intros s. reflexivity.
  Qed.

  Lemma number_start : forall t n, number_text t n -> exists c t', t = c :: t' /\ In c digits.
  Proof.
    intros t n (Hne & Hd & _). destruct t as [|c t]; [contradiction|]. inversion Hd. eauto.
  Qed.

  Lemma digit_nonblank : forall c, In c digits -> ~ blank c.
  Proof. intros c H. apply alnum_nonblank. unfold alnums. apply in_or_app. left. exact H. Qed.

  Lemma number_nonblank : forall t n, number_text t n -> t <> [] /\ nonblank t.
  Proof.
    intros t n H. apply number_start in H as (c & t' & -> & Hc). split; [discriminate|].
    apply nonblank_cons, digit_nonblank. exact Hc.
  Qed.

  Lemma num_op_start : forall top op, In (top, op) num_ops -> top <> [] /\ nonblank top.
  Proof.
    intros top op H. unfold num_ops in H. cbn [In] in H.
    repeat (destruct H as [H|H]; [injection H as <- <-; split; [discriminate|apply nonblank_cons; notblank]|]).
    contradiction.
  Qed.

  (** the operator and the number of a count *)
  Lemma op_number_ok : forall w0 top op w tn n r, blanks w0 -> In (top, op) num_ops -> blanks w ->
    number_text tn n -> follow r ->
    exists r3, pverify is_usize_applicable (ws parse_rel_op) (w0 ++ top ++ w ++ tn ++ r) = Some (op, r3)
      /\ parse_usize r3 = Some (n, r).
  Proof.
    intros w0 top op w tn n r W0 Hop W Hn Fr.
    destruct (num_op_start top op Hop) as [N1 N2]. destruct (number_nonblank tn n Hn) as [N3 N4].
    unfold pverify, ws. rewrite skip_ws_blanks_nonblank; [|exact W0|apply nonblank_app; assumption].
    destruct (num_op_ok top op (w ++ tn ++ r) Hop) as [E Ea].
    { intros r' E. destruct w as [|c w].
      - apply number_start in Hn as (c & t' & -> & Hc). injection E as -> _.
        unfold digits in Hc. apply in_digits_iff in Hc. discriminate.
      - injection E as -> _. inversion W as [|x y HB _]; subst. revert HB. notblank. }
    rewrite E, Ea. exists (skip_ws (w ++ tn ++ r)). split; [reflexivity|].
    rewrite skip_ws_blanks_nonblank; [|exact W|apply nonblank_app; assumption].
    apply usize_ok; [exact Hn|]. apply follow_digit. exact Fr.
  Qed.

  Lemma hash_none : forall r, parse_relation (35 :: r) = None /\ parse_contains (35 :: r) = None
    /\ parse_in (35 :: r) = None /\ parse_exists (35 :: r) = None.
  Proof.
    intros r. assert (E : skip_ws (35 :: r) = 35 :: r) by (apply skip_ws_nonblank, nonblank_cons; notblank).
    assert (H : forall sep, head sep (35 :: r) = None).
    { intros sep. unfold head. rewrite quant_none_eq by (rewrite E; reflexivity).
      unfold ws. rewrite E. reflexivity. }
    rewrite relation_eq, contains_eq, in_eq, !H. auto.
  Qed.

  Lemma card_ok : forall w1 tc C w2 top op w3 tn n r,
    blanks w1 -> codes_text tc C -> blanks w2 -> In (top, op) num_ops -> blanks w3 ->
    number_text tn n -> follow r ->
    accepts_as false SoCount ((lit "#" ++ w1 ++ tc ++ w2 ++ top ++ w3 ++ tn) ++ r)
      (fun _ sfs => exists k, counts (fun s => C (sf_code s)) sfs k /\ count_holds op k n) r.
  Proof.
    intros w1 tc C w2 top op w3 tn n r W1 Hc W2 Hop W3 Hn Fr. rewrite <- !app_assoc.
    change (lit "#" ++ w1 ++ tc ++ w2 ++ top ++ w3 ++ tn ++ r)
      with (35 :: w1 ++ tc ++ w2 ++ top ++ w3 ++ tn ++ r).
    destruct (op_number_ok [] top op w3 tn n r (Forall_nil _) Hop W3 Hn Fr) as (r3 & E3 & E4).
    destruct (num_op_start top op Hop) as [N1 N2].
    destruct (ws_codes_ok tc C w2 (top ++ w3 ++ tn ++ r) Hc W2) as (l & El & Hl);
      [apply nonblank_app; assumption|].
    destruct (hash_none (w1 ++ tc ++ w2 ++ top ++ w3 ++ tn ++ r)) as (H1 & H2 & H3 & H4).
    eexists (SCard l op n _). split; [|split; [reflexivity|]].
    - unfold parse_singleton, alt. rewrite H1, H2, H3, H4. unfold parse_card.
      rew0 (ws_ch_ok 35 [] (w1 ++ tc ++ w2 ++ top ++ w3 ++ tn ++ r) (Forall_nil _)); [|notblank].
      destruct (codes_nonblank tc C Hc) as [N3 N4].
      rewrite skip_ws_blanks_nonblank; [|exact W1|apply nonblank_app; assumption].
      rewrite El. cbn [app] in E3. rewrite E3, E4. reflexivity.
    - intros ci sfs. cbn [singleton_holds]. split; intros (k & Hk & Hh); exists k; (split; [|exact Hh]).
      + revert Hk. apply counts_eq. intros s. apply Hl.
      + revert Hk. apply counts_eq. intros s. symmetry. apply Hl.
  Qed.

  Lemma sorted_accepts : forall k t P r, sorted_text O k t P -> follow r ->
    exists e, accepts_as e k (t ++ r) P r /\ (blanks_after k t r -> e = true \/ r = []).
  Proof.
    intros k t P r H Fr. destruct H.
    - exists true. split; [apply relation_accepts; assumption|auto].
    - exists true. split; [apply contains_accepts; assumption|auto].
    - match goal with Hq : quant_text _ _ _, Hc : codes_text _ _, W1 : blanks w1, Hi : in_text _ _,
                      W2 : blanks w2, Hm : members_text _ _ |- _ =>
        destruct (in_accepts tq q tc C w1 top neg w2 tn V r Hq Hc W1 Hi W2 Hm) as (e & He & Ha) end.
      exists e. split; [exact Ha|]. intros B. destruct e; [auto|]. right. destruct (He eq_refl) as (v & Hv).
      destruct Hv as (c & x & Hc & -> & _). remember SoIn as k eqn:Ek.
      remember (tq ++ tc ++ w1 ++ top ++ w2 ++ c :: x ++ [c]) as u eqn:Eu.
      destruct B as [k u|k u w Hk _|u w _]; [reflexivity| |].
      + subst k. cbn in Hk. destruct Hk as [E|[E|[E|[]]]]; discriminate.
      + exfalso. change (c :: x ++ [c]) with ((c :: x) ++ [c]) in Eu. rewrite !app_assoc in Eu.
        apply app_inj_tail in Eu as [_ E]. destruct Hc; subst c; discriminate.
    - exists false. split; [apply regex_accepts; assumption|]. intros B. right.
      inversion B as [|? ? ? Hk _|]; subst; [reflexivity|].
      cbn in Hk. destruct Hk as [E|[E|[E|[]]]]; discriminate.
    - exists true. split; [apply regex_set_accepts; assumption|auto].
    - exists false. split; [apply card_ok; assumption|]. intros B. right.
      inversion B as [|? ? ? Hk _|]; subst; [reflexivity|].
      cbn in Hk. destruct Hk as [E|[E|[E|[]]]]; discriminate.
  Qed.

  Lemma condition_accepts : forall t P r, condition_text O t P -> follow r -> accepts false (t ++ r) P r.
  Proof.
    intros t P r [k H] Fr. destruct (sorted_accepts k t P r H Fr) as (e & Ha & _).
    apply as_accepts in Ha. destruct H; exact Ha.
  Qed.

  (** blanks in front *)
  Definition same_meaning (m m' : singleton) : Prop :=
    sort_of m' = sort_of m /\ forall ci sfs, singleton_holds O ci m' sfs <-> singleton_holds O ci m sfs.
  Definition lifts (p : parser singleton) : Prop := forall w i, blanks w ->
    match p i with
    | None => p (w ++ i) = None
    | Some (m, r) => exists m', p (w ++ i) = Some (m', r) /\ same_meaning m m'
    end.

  Lemma same_same : forall m m', sort_of m' = sort_of m ->
    (forall ci sfs, singleton_holds O ci m' sfs = singleton_holds O ci m sfs) -> same_meaning m m'.
  Proof. intros m m' E H. split; [exact E|]. intros ci sfs. rewrite H. reflexivity. Qed.

  Lemma head_skip : forall sep w i, blanks w -> head sep (w ++ i) = head sep i.
  Proof.
    intros sep w i W. unfold head, opt, ws. rewrite (skip_ws_blanks w i W).
    destruct ((if sep then terminated parse_quantifier multispace1 else parse_quantifier) (skip_ws i))
      as [[q r]|]; [reflexivity|].
    rewrite (skip_ws_blanks w i W). reflexivity.
  Qed.

  Lemma relation_lifts : lifts parse_relation.
  Proof.
    intros w i W. rewrite !relation_eq, head_skip by exact W.
    destruct (head true i) as [[[q l] r2]|]; [|reflexivity].
    destruct (pverify _ _ r2) as [[op r3]|]; [|reflexivity].
    destruct (ws parse_string r3) as [[v r4]|]; [|reflexivity].
    eexists. split; [reflexivity|]. apply same_same; reflexivity.
  Qed.

  Lemma contains_lifts : lifts parse_contains.
  Proof.
    intros w i W. rewrite !contains_eq, head_skip by exact W.
    destruct (head false i) as [[[q l] r2]|]; [|reflexivity].
    destruct (ws _ r2) as [[op r3]|]; [|reflexivity].
    destruct (alt _ _ r3) as [[v r4]|]; [|reflexivity].
    eexists. split; [reflexivity|]. apply same_same; reflexivity.
  Qed.

  Lemma in_lifts : lifts parse_in.
  Proof.
    intros w i W. rewrite !in_eq, head_skip by exact W.
    destruct (head false i) as [[[q l] r2]|]; [|reflexivity].
    destruct (opt _ r2) as [[op r3]|]; [|reflexivity].
    destruct (ws _ r3) as [[u r4]|]; [|reflexivity].
    destruct (alt _ _ r4) as [[v r5]|]; [|reflexivity].
    eexists. split; [reflexivity|]. apply same_same; reflexivity.
  Qed.

  Lemma regex_lifts : lifts (parse_regex O).
  Proof.
    intros w i W. rewrite !regex_eq, head_skip by exact W.
    destruct (head false i) as [[[q l] r2]|]; [|reflexivity].
    destruct (parse_re_op r2) as [[op r3]|]; [|reflexivity].
    destruct (parse_regex_string O r3) as [[v r4]|]; [|reflexivity].
    eexists. split; [reflexivity|]. apply same_same; reflexivity.
  Qed.

  Lemma regex_set_lifts : lifts (parse_regex_set O).
  Proof.
    intros w i W. rewrite !regex_set_eq, head_skip by exact W.
    destruct (head false i) as [[[q l] r2]|]; [|reflexivity].
    destruct (parse_re_op r2) as [[op r3]|]; [|reflexivity].
    destruct (parse_list_of _ r3) as [[v r4]|]; [|reflexivity].
    eexists. split; [reflexivity|]. apply same_same; reflexivity.
  Qed.

  Lemma card_lifts : lifts parse_card.
  Proof.
    intros w i W. unfold parse_card.
    assert (E : ws (ch 35) (w ++ i) = ws (ch 35) i) by (unfold ws; rewrite (skip_ws_blanks w i W); reflexivity).
    rewrite E. destruct (ws (ch 35) i) as [[x r1]|]; [|reflexivity].
    destruct (ws parse_codes r1) as [[l r2]|]; [|reflexivity].
    destruct (pverify _ _ r2) as [[op r3]|]; [|reflexivity].
    destruct (parse_usize r3) as [[v r4]|]; [|reflexivity].
    eexists. split; [reflexivity|]. apply same_same; reflexivity.
  Qed.

  Lemma blank_codes : forall w i, blanks w -> w <> [] -> parse_codes (w ++ i) = None.
  Proof.
    intros w i W Hne. destruct (parse_codes (w ++ i)) as [[l r]|] eqn:E; [|reflexivity].
    apply codes_inv in E as (t & C & E & Ht & _). destruct (codes_nonblank t C Ht) as [N1 N2].
    destruct w as [|c w]; [contradiction|]. destruct t as [|d t]; [contradiction|].
    injection E as -> _. inversion W as [|x y HB _]; subst. destruct (N2 d t eq_refl). exact HB.
  Qed.

  Lemma exists_blank : forall w i, blanks w -> w <> [] -> parse_exists (w ++ i) = None.
  Proof.
    intros w i W Hne. unfold parse_exists, terminated. rewrite blank_codes by assumption. reflexivity.
  Qed.

  Lemma alt_lifts : forall p q, lifts p -> lifts q -> lifts (alt p q).
  Proof.
    intros p q Hp Hq w i W. specialize (Hp w i W). specialize (Hq w i W). unfold alt.
    destruct (p i) as [[m r]|].
    - destruct Hp as (m' & -> & Hm). exists m'. auto.
    - rewrite Hp. exact Hq.
  Qed.

  Lemma exists_is : forall i m r, parse_exists i = Some (m, r) -> is_exists m = true.
  Proof.
    intros i m r H. unfold parse_exists in H. destruct (terminated _ _ i) as [[l r']|]; [|discriminate].
    injection H as <- _. reflexivity.
  Qed.

  Lemma singleton_blanks : forall w i m r', blanks w -> parse_singleton O i = Some (m, r') ->
    is_exists m = false -> exists m', parse_singleton O (w ++ i) = Some (m', r') /\ same_meaning m m'.
  Proof.
    intros w i m r' W E Hx.
    destruct w as [|c w]; [exists m; split; [exact E|split; reflexivity]|].
    { unfold parse_singleton, alt in *.
      pose proof (relation_lifts (c :: w) i W) as L1. pose proof (contains_lifts (c :: w) i W) as L2.
      pose proof (in_lifts (c :: w) i W) as L3. pose proof (card_lifts (c :: w) i W) as L4.
      pose proof (regex_set_lifts (c :: w) i W) as L5. pose proof (regex_lifts (c :: w) i W) as L6.
      destruct (parse_relation i) as [[m1 r1]|].
      { injection E as -> ->. destruct L1 as (m' & -> & HM). exists m'. auto. }
      rewrite L1. destruct (parse_contains i) as [[m1 r1]|].
      { injection E as -> ->. destruct L2 as (m' & -> & HM). exists m'. auto. }
      rewrite L2. destruct (parse_in i) as [[m1 r1]|].
      { injection E as -> ->. destruct L3 as (m' & -> & HM). exists m'. auto. }
      rewrite L3. rewrite exists_blank by (assumption || discriminate).
      destruct (parse_exists i) as [[m1 r1]|] eqn:E4.
      { injection E as -> ->. apply exists_is in E4. congruence. }
      destruct (parse_card i) as [[m1 r1]|].
      { injection E as -> ->. destruct L4 as (m' & -> & HM). exists m'. auto. }
      rewrite L4. destruct (parse_regex_set O i) as [[m1 r1]|].
      { injection E as -> ->. destruct L5 as (m' & -> & HM). exists m'. auto. }
      rewrite L5. rewrite E in L6. destruct L6 as (m' & -> & HM). exists m'. auto. }
  Qed.

  Lemma condition_blanks : forall w i P r, blanks w -> accepts false i P r -> accepts false (w ++ i) P r.
  Proof.
    intros w i P r W (m & r' & E & Hx & Hm & Hr).
    destruct (singleton_blanks w i m r' W E Hx) as (m' & E' & HX & HM). exists m', r'. split; [exact E'|].
    split; [destruct m, m'; (reflexivity || discriminate)|].
    split; [|exact Hr]. intros ci sfs. rewrite HM. apply Hm.
  Qed.

  Lemma sorted_blanks : forall w e k i P r, blanks w -> k <> SoExists -> accepts_as e k i P r ->
    accepts_as e k (w ++ i) P r.
  Proof.
    intros w e k i P r W Hk (m & E & Hs & Hm).
    destruct (singleton_blanks w i m _ W E) as (m' & E' & HX & HM).
    { destruct m; try reflexivity. subst k. contradiction. }
    exists m'. split; [exact E'|]. split; [congruence|]. intros ci sfs. rewrite HM. apply Hm.
  Qed.

  Lemma exists_text_blanks : forall w t P r, blanks w -> w <> [] -> exists_text t P ->
    parse_singleton O (w ++ t ++ r) = None.
  Proof.
    intros w t P r W Hne [tc C Hc]. rewrite <- app_assoc.
    assert (Ho : op_start (lit "?" ++ r)) by (exists 63, r; split; [reflexivity|cbn; tauto]).
    pose proof (relation_none [] QAny tc C [] (lit "?" ++ r) Hc (Forall_nil _) Ho (quant_none _) eq_refl) as R1.
    pose proof (contains_none [] QAny tc C [] (lit "?" ++ r) Hc (Forall_nil _) Ho (quant_none _) eq_refl) as R2.
    pose proof (in_none [] QAny tc C [] (lit "?" ++ r) Hc (Forall_nil _) Ho (quant_none _)
                  (conj eq_refl eq_refl)) as R3.
    pose proof (card_none true [] QAny tc C (lit "?" ++ r) (quant_none _) Hc) as R4.
    destruct (head_ok false [] QAny tc C [] (lit "?" ++ r) (quant_none _) Hc (Forall_nil _) Ho)
      as (q' & l & Eh & _ & _).
    cbn [app] in *.
    unfold parse_singleton, alt.
    generalize (relation_lifts w (tc ++ lit "?" ++ r) W). rewrite R1. intros ->.
    generalize (contains_lifts w (tc ++ lit "?" ++ r) W). rewrite R2. intros ->.
    generalize (in_lifts w (tc ++ lit "?" ++ r) W). rewrite R3. intros ->.
    rewrite exists_blank by assumption.
    generalize (card_lifts w (tc ++ lit "?" ++ r) W). rewrite R4. intros ->.
    rewrite regex_set_eq, regex_eq, head_skip by exact W. rewrite Eh. reflexivity.
  Qed.

  (** ** soundness *)
  (** [m] was read from [i], leaving [r]: blanks, the text, blanks *)
  Definition read_as (i : bytes) (m : singleton) (r : bytes) : Prop :=
    exists w1 t w2 P v1 v2, blanks w1 /\ blanks w2 /\ i = w1 ++ t ++ w2 ++ r
      /\ sorted_text O (sort_of m) t P /\ blanks_after (sort_of m) t w2 /\ is_exists m = false
      /\ sing_means m P /\ blanks v1 /\ blanks v2 /\ (v2 = w2 \/ v2 = []) /\ singleton_display m = v1 ++ t ++ v2.

  Lemma exists_inv : forall i m r, parse_exists i = Some (m, r) ->
    exists t P, i = t ++ r /\ exists_text t P /\ is_exists m = true /\ sing_means m P
      /\ singleton_display m = t.
  Proof.
    intros i m r H. unfold parse_exists, terminated in H.
    destruct (parse_codes i) as [[l r1]|] eqn:E; [|discriminate].
    destruct (ch 63 r1) as [[x r2]|] eqn:E2; [|discriminate]. injection H as <- <-.
    apply ch_inv in E2 as [-> _]. apply codes_inv in E as (t & C & -> & Ht & HC).
    exists (t ++ lit "?"), (fun _ sfs => exists s, coded C sfs s).
    split; [rewrite <- app_assoc; reflexivity|]. split; [constructor; exact Ht|].
    split; [reflexivity|]. split; [apply exists_meaning; exact HC|]. cbn [singleton_display].
    change (t ++ 63 :: r2) with (t ++ lit "?" ++ r2). rewrite app_assoc. apply taken_app.
  Qed.

  Lemma taken3 : forall w1 t w2 r, taken (w1 ++ t ++ w2 ++ r) r = w1 ++ t ++ w2.
  Proof.
    intros w1 t w2 r. rewrite !app_assoc. rewrite taken_app. rewrite <- app_assoc. reflexivity.
  Qed.

  Lemma trim_start_padded : forall w t, blanks w -> (exists c t', t = c :: t' /\ is_space c = false) ->
    trim_start (w ++ t) = t.
  Proof.
    intros w t W (c & t' & -> & Hc). unfold trim_start. rewrite span_ok; [reflexivity| |exact Hc].
    apply Forall_forall. intros x Hx. unfold blanks in W. rewrite Forall_forall in W. specialize (W x Hx).
    unfold blank in W. cbn in W. repeat (destruct W as [<-|W]; [reflexivity|]). contradiction.
  Qed.

  Lemma blanks_rev : forall w, blanks w -> blanks (rev w).
  Proof.
    intros w H. unfold blanks in *. rewrite Forall_forall in *. intros x Hx. apply H. apply in_rev. exact Hx.
  Qed.

  Lemma trim_end_padded : forall t w, blanks w -> (exists c t', t = t' ++ [c] /\ is_space c = false) ->
    trim_end (t ++ w) = t.
  Proof.
    intros t w W (c & t' & -> & Hc). unfold trim_end. rewrite rev_app_distr.
    rewrite trim_start_padded; [apply rev_involutive|apply blanks_rev; exact W|].
    exists c, (rev t'). split; [apply rev_app_distr|exact Hc].
  Qed.

  Lemma head_space : forall sep tq q tc C r, quant_text sep tq q -> codes_text tc C ->
    exists c r', tq ++ tc ++ r = c :: r' /\ is_space c = false.
  Proof.
    intros sep tq q tc C r Hq Hc. destruct Hq as [|w W _|w W _].
    - destruct (codes_start tc C Hc) as (c & t' & -> & _ & Hs). exists c, (t' ++ r). split; [reflexivity|].
      destruct Hs as [Hs|[->| ->]]; [|reflexivity|reflexivity].
      apply alnums_iff in Hs. destruct (is_space c) eqn:E; [|reflexivity]. exfalso.
      unfold is_space in E. unfold is_alnum, is_digit, is_lower, is_upper in Hs.
      rewrite ?orb_true_iff, ?andb_true_iff, ?N.eqb_eq, ?N.leb_le in *. lia.
    - exists 65. eexists. split; reflexivity.
    - exists 65. eexists. split; reflexivity.
  Qed.

  Lemma string_end : forall t v, string_text t v -> exists c t', t = t' ++ [c] /\ is_space c = false.
  Proof.
    intros t v (q & w & Hq & -> & _). exists q, (q :: w). split; [reflexivity|].
    destruct Hq as [-> | ->]; reflexivity.
  Qed.

  Lemma end_app : forall x t, (exists c t', t = t' ++ [c] /\ is_space c = false) ->
    exists c t', x ++ t = t' ++ [c] /\ is_space c = false.
  Proof. intros x t (c & t' & -> & H). exists c, (x ++ t'). rewrite app_assoc. auto. Qed.

  Lemma start_app : forall t x, (exists c t', t = c :: t' /\ is_space c = false) ->
    exists c t', t ++ x = c :: t' /\ is_space c = false.
  Proof. intros t x (c & t' & -> & H). exists c, (t' ++ x). auto. Qed.

  Lemma ws_rel_inv : forall f i op r, pverify f (ws parse_rel_op) i = Some (op, r) ->
    exists w1 w2 top, blanks w1 /\ blanks w2 /\ i = w1 ++ top ++ w2 ++ r /\ f op = true
      /\ (is_str_applicable op = true -> In (top, op) str_ops)
      /\ (is_usize_applicable op = true -> In (top, op) num_ops) /\ nonblank r.
  Proof.
    intros f i op r H. unfold pverify, ws in H. destruct (skip_ws_split i) as (w1 & W1 & E1).
    destruct (parse_rel_op (skip_ws i)) as [[y r1]|] eqn:E; [|discriminate].
    destruct (f y) eqn:F; [|discriminate]. injection H as -> <-.
    apply rel_op_inv in E as (top & E & S1 & S2). destruct (skip_ws_split r1) as (w2 & W2 & E2).
    exists w1, w2, top. split; [exact W1|]. split; [exact W2|]. rewrite <- E2, <- E.
    split; [exact E1|]. split; [exact F|]. split; [exact S1|]. split; [exact S2|]. apply nonblank_skip.
  Qed.

  Lemma relation_inv : forall i m r, parse_relation i = Some (m, r) -> read_as i m r.
  Proof.
    intros i m r H. rewrite relation_eq in H.
    destruct (head true i) as [[[q l] r2]|] eqn:E1; [|discriminate].
    destruct (pverify _ _ r2) as [[op r3]|] eqn:E2; [|discriminate].
    destruct (ws parse_string r3) as [[v r4]|] eqn:E3; [|discriminate]. injection H as <- <-.
    apply head_inv in E1 as (w0 & tq & tc & w1 & C & W0 & W1 & Hq & Hc & HC & -> & _).
    apply ws_rel_inv in E2 as (w2 & w3 & top & W2 & W3 & -> & Ha & S1 & _ & _).
    apply ws_string_inv in E3 as (w4 & ts & w5 & W4 & W5 & -> & Hs & _).
    set (t := tq ++ tc ++ (w1 ++ w2) ++ top ++ (w3 ++ w4) ++ ts).
    assert (Ei : w0 ++ tq ++ tc ++ w1 ++ w2 ++ top ++ w3 ++ w4 ++ ts ++ w5 ++ r4 = w0 ++ t ++ w5 ++ r4).
    { unfold t. rewrite <- !app_assoc. reflexivity. }
    rewrite Ei.
    exists w0, t, w5, (fun ci sfs => quantified (quant_default q)
                          (fun s => rel_holds O ci op v (sf_value s)) (coded C sfs)), [], [].
    split; [exact W0|]. split; [exact W5|]. split; [reflexivity|].
    split; [unfold t; constructor; try assumption; [apply blanks_app; assumption|apply S1; exact Ha|
            apply blanks_app; assumption]|].
    split; [apply after_some; [cbn; tauto|exact W5]|].
    split; [reflexivity|]. split.
    - intros ci sfs. cbn [singleton_holds]. apply quantified_eq; [|reflexivity].
      intros s. apply coded_iff. exact HC.
    - split; [constructor|]. split; [constructor|]. split; [auto|]. cbn [singleton_display app]. rewrite app_nil_r.
      rewrite taken3. unfold trim. rewrite trim_start_padded; [|exact W0|].
      + apply trim_end_padded; [exact W5|]. unfold t. rewrite !app_assoc. apply end_app.
        apply (string_end _ _ Hs).
      + apply start_app. unfold t. apply (head_space true _ (quant_default q) _ C); assumption.
  Qed.

  Lemma contains_inv : forall i m r, parse_contains i = Some (m, r) -> read_as i m r.
  Proof.
    intros i m r H. rewrite contains_eq in H.
    destruct (head false i) as [[[q l] r2]|] eqn:E1; [|discriminate].
    destruct (ws (tok (lit "=?")) r2) as [[u r3]|] eqn:E2; [|discriminate].
    destruct (alt _ _ r3) as [[vs r4]|] eqn:E3; [|discriminate]. injection H as <- <-.
    apply head_inv in E1 as (w0 & tq & tc & w1 & C & W0 & W1 & Hq & Hc & HC & -> & _).
    apply ws_tok_inv in E2 as (w2 & w3 & W2 & W3 & -> & _).
    assert (E4 : exists w4 tn w5 V, blanks w4 /\ blanks w5 /\ r3 = w4 ++ tn ++ w5 ++ r4
                   /\ needles_text tn V /\ forall v, In v vs <-> V v).
    { unfold alt, pmap in E3. destruct (parse_list_of parse_string r3) as [[vs' r']|] eqn:E4.
      - injection E3 as -> ->.
        apply (list_of_inv parse_string (fun _ => True) strings_iff) in E4
          as (w4 & tn & w5 & W4 & W5 & -> & Ht & _).
        exists w4, tn, w5, (fun x => In x vs). split; [exact W4|]. split; [exact W5|].
        split; [reflexivity|]. split; [constructor; exact Ht|]. reflexivity.
      - destruct (ws parse_string r3) as [[v r']|] eqn:E5; [|discriminate]. injection E3 as <- ->.
        apply ws_string_inv in E5 as (w4 & ts & w5 & W4 & W5 & -> & Hs & _).
        exists w4, ts, w5, (fun x => x = v). split; [exact W4|]. split; [exact W5|].
        split; [reflexivity|]. split; [constructor; exact Hs|]. intros x. cbn. intuition congruence. }
    destruct E4 as (w4 & tn & w5 & V & W4 & W5 & -> & Hn & HV).
    set (t := tq ++ tc ++ (w1 ++ w2) ++ lit "=?" ++ (w3 ++ w4) ++ tn).
    assert (Ei : w0 ++ tq ++ tc ++ w1 ++ w2 ++ lit "=?" ++ w3 ++ w4 ++ tn ++ w5 ++ r4 = w0 ++ t ++ w5 ++ r4).
    { unfold t. rewrite <- !app_assoc. reflexivity. }
    rewrite Ei.
    exists w0, t, w5, (fun ci sfs => quantified (quant_default q) (fun s =>
           exists v, V v /\ is_infix (fold_case O ci v) (fold_case O ci (sf_value s))) (coded C sfs)), w0, w5.
    split; [exact W0|]. split; [exact W5|]. split; [reflexivity|].
    split; [unfold t; constructor; try assumption; apply blanks_app; assumption|].
    split; [apply after_some; [cbn; tauto|exact W5]|].
    split; [reflexivity|]. split.
    - intros ci sfs. cbn [singleton_holds]. apply quantified_eq; [intros s; apply coded_iff; exact HC|].
      intros s. split; intros (v & H1 & H2); exists v; rewrite HV in *; auto.
    - split; [exact W0|]. split; [exact W5|]. split; [auto|]. cbn [singleton_display]. apply taken3.
  Qed.

  Lemma in_inv : forall i m r, parse_in i = Some (m, r) -> read_as i m r.
  Proof.
    intros i m r H. rewrite in_eq in H.
    destruct (head false i) as [[[q l] r2]|] eqn:E1; [|discriminate].
    destruct (opt (ws (tok (lit "not"))) r2) as [[neg r3]|] eqn:E2; [|discriminate].
    destruct (ws (tok (lit "in")) r3) as [[u r4]|] eqn:E3; [|discriminate].
    destruct (alt _ _ r4) as [[vs r5]|] eqn:E4; [|discriminate]. injection H as <- <-.
    apply head_inv in E1 as (w0 & tq & tc & w1 & C & W0 & W1 & Hq & Hc & HC & -> & _).
    apply ws_tok_inv in E3 as (w2 & w3 & W2 & W3 & -> & _).
    assert (E5 : exists w6 top, blanks w6 /\ in_text top (match neg with Some _ => true | None => false end)
                 /\ r2 = w6 ++ top ++ w3 ++ r4).
    { unfold opt in E2. destruct (ws (tok (lit "not")) r2) as [[u' r']|] eqn:E6.
      - injection E2 as <- ->. apply ws_tok_inv in E6 as (w6 & w7 & W6 & W7 & -> & _).
        exists w6, (lit "not" ++ (w7 ++ w2) ++ lit "in"). split; [exact W6|].
        split; [constructor; apply blanks_app; assumption|]. rewrite <- !app_assoc. reflexivity.
      - injection E2 as <- ->. exists w2, (lit "in"). split; [exact W2|]. split; [constructor|]. reflexivity. }
    destruct E5 as (w6 & top & W6 & Hi & ->).
    assert (E5 : exists w4 tn w5 V, blanks w4 /\ blanks w5 /\ r4 = w4 ++ tn ++ w5 ++ r5
                   /\ members_text tn V /\ (forall v, In v vs <-> V v)
                   /\ ((exists t', tn = t' ++ lit "]") \/ w5 = [])).
    { unfold alt in E4. destruct (parse_list_of parse_string r4) as [[vs' r']|] eqn:E6.
      - injection E4 as -> ->.
        apply (list_of_inv parse_string (fun _ => True) strings_iff) in E6
          as (w4 & tn & w5 & W4 & W5 & -> & Ht & _).
        exists w4, tn, w5, (fun x => In x vs). split; [exact W4|]. split; [exact W5|].
        split; [reflexivity|]. split; [constructor; exact Ht|]. split; [reflexivity|]. left.
        destruct Ht as [u1 us uv uc u2]. exists (lit "[" ++ u1 ++ us ++ uc ++ u2).
        rewrite <- !app_assoc. reflexivity.
      - unfold pverify_map in E4. destruct (parse_string r4) as [[v r']|] eqn:E7; [|discriminate].
        cbv zeta in E4. destruct (Nat.ltb 1 (length (utf8_chars v))) eqn:E8; [|discriminate].
        injection E4 as <- ->. apply string_iff in E7 as (ts & -> & Hs).
        exists [], ts, [], (fun x => In x (utf8_chars v)). split; [constructor|]. split; [constructor|].
        split; [reflexivity|]. split; [|split; [reflexivity|auto]]. apply (members_chars ts v); [exact Hs|].
        apply has_chars_inv; [|exact E8]. destruct Hs as (q' & w' & _ & _ & _ & Hu). exact Hu. }
    destruct E5 as (w4 & tn & w5 & V & W4 & W5 & -> & Hn & HV & Hend).
    set (t := tq ++ tc ++ (w1 ++ w6) ++ top ++ (w3 ++ w4) ++ tn).
    assert (Ei : w0 ++ tq ++ tc ++ w1 ++ w6 ++ top ++ w3 ++ w4 ++ tn ++ w5 ++ r5 = w0 ++ t ++ w5 ++ r5).
    { unfold t. rewrite <- !app_assoc. reflexivity. }
    rewrite Ei.
    exists w0, t, w5, (fun ci sfs => quantified (quant_default q) (fun s => negated_if
         (match neg with Some _ => true | None => false end)
           (exists v, V v /\ fold_case O ci (sf_value s) = fold_case O ci v)) (coded C sfs)), w0, w5.
    split; [exact W0|]. split; [exact W5|]. split; [reflexivity|].
    split; [unfold t; constructor; try assumption; apply blanks_app; assumption|].
    split; [destruct Hend as [(t' & ->)| ->]; [|apply after_none]; unfold t; rewrite !app_assoc;
           apply after_list; exact W5|].
    split; [reflexivity|]. split.
    - intros ci sfs. cbn [singleton_holds]. apply quantified_eq; [intros s; apply coded_iff; exact HC|].
      intros s. apply negated_eq. split; intros (v & H1 & H2); exists v; rewrite HV in *; auto.
    - split; [exact W0|]. split; [exact W5|]. split; [auto|]. cbn [singleton_display]. apply taken3.
  Qed.

  Lemma re_op_inv : forall i neg r, parse_re_op i = Some (neg, r) ->
    exists w1 top w2, blanks w1 /\ blanks w2 /\ re_op_text top neg /\ i = w1 ++ top ++ w2 ++ r.
  Proof.
    intros i neg r H. unfold parse_re_op, ws, alt, pvalue, pmap in H.
    destruct (skip_ws_split i) as (w1 & W1 & E1).
    destruct (tok (lit "=~") (skip_ws i)) as [[u r1]|] eqn:E2.
    - injection H as <- <-. apply tok_inv in E2. destruct (skip_ws_split r1) as (w2 & W2 & E3).
      exists w1, (lit "=~"), w2. split; [exact W1|]. split; [exact W2|]. split; [constructor|].
      rewrite <- E3, <- E2. exact E1.
    - destruct (tok (lit "!~") (skip_ws i)) as [[u r1]|] eqn:E4; [|discriminate].
      injection H as <- <-. apply tok_inv in E4. destruct (skip_ws_split r1) as (w2 & W2 & E3).
      exists w1, (lit "!~"), w2. split; [exact W1|]. split; [exact W2|]. split; [constructor|].
      rewrite <- E3, <- E4. exact E1.
  Qed.

  Lemma regex_inv : forall i m r, parse_regex O i = Some (m, r) -> read_as i m r.
  Proof.
    intros i m r H. rewrite regex_eq in H.
    destruct (head false i) as [[[q l] r2]|] eqn:E1; [|discriminate].
    destruct (parse_re_op r2) as [[neg r3]|] eqn:E2; [|discriminate].
    destruct (parse_regex_string O r3) as [[re r4]|] eqn:E3; [|discriminate]. injection H as <- <-.
    apply head_inv in E1 as (w0 & tq & tc & w1 & C & W0 & W1 & Hq & Hc & HC & -> & _).
    apply re_op_inv in E2 as (w2 & top & w3 & W2 & W3 & Hop & ->).
    apply regex_string_iff in E3 as (ts & -> & Hs & Hre).
    set (t := tq ++ tc ++ (w1 ++ w2) ++ top ++ w3 ++ ts).
    assert (Ei : w0 ++ tq ++ tc ++ w1 ++ w2 ++ top ++ w3 ++ ts ++ r4 = w0 ++ t ++ [] ++ r4).
    { unfold t. rewrite <- !app_assoc. reflexivity. }
    rewrite Ei.
    exists w0, t, [], (fun ci sfs => quantified (quant_default q)
                          (fun s => negated_if neg (o_re O ci re (sf_value s) = true)) (coded C sfs)), w0, [].
    split; [exact W0|]. split; [constructor|]. split; [reflexivity|].
    split; [unfold t; constructor; try assumption; apply blanks_app; assumption|].
    split; [apply after_none|].
    split; [reflexivity|]. split.
    - intros ci sfs. cbn [singleton_holds]. apply quantified_eq; [intros s; apply coded_iff; exact HC|].
      intros s. reflexivity.
    - split; [exact W0|]. split; [constructor|]. split; [auto|]. cbn [singleton_display]. apply taken3.
  Qed.

  Lemma regex_set_inv : forall i m r, parse_regex_set O i = Some (m, r) -> read_as i m r.
  Proof.
    intros i m r H. rewrite regex_set_eq in H.
    destruct (head false i) as [[[q l] r2]|] eqn:E1; [|discriminate].
    destruct (parse_re_op r2) as [[neg r3]|] eqn:E2; [|discriminate].
    destruct (parse_list_of (parse_regex_string O) r3) as [[res r4]|] eqn:E3; [|discriminate].
    injection H as <- <-.
    apply head_inv in E1 as (w0 & tq & tc & w1 & C & W0 & W1 & Hq & Hc & HC & -> & _).
    apply re_op_inv in E2 as (w2 & top & w3 & W2 & W3 & Hop & ->).
    apply (list_of_inv _ (fun v => o_re_ok O false v = true) regex_string_iff) in E3
      as (w4 & tl & w5 & W4 & W5 & -> & Ht & Hre).
    set (t := tq ++ tc ++ (w1 ++ w2) ++ top ++ (w3 ++ w4) ++ tl).
    assert (Ei : w0 ++ tq ++ tc ++ w1 ++ w2 ++ top ++ w3 ++ w4 ++ tl ++ w5 ++ r4 = w0 ++ t ++ w5 ++ r4).
    { unfold t. rewrite <- !app_assoc. reflexivity. }
    rewrite Ei.
    exists w0, t, w5, (fun ci sfs => quantified (quant_default q) (fun s => negated_if neg
                (exists re, In re res /\ o_re O ci re (sf_value s) = true)) (coded C sfs)), w0, w5.
    split; [exact W0|]. split; [exact W5|]. split; [reflexivity|].
    split; [unfold t; constructor; try assumption; apply blanks_app; assumption|].
    split; [apply after_some; [cbn; tauto|exact W5]|].
    split; [reflexivity|]. split.
    - intros ci sfs. cbn [singleton_holds]. apply quantified_eq; [intros s; apply coded_iff; exact HC|].
      intros s. reflexivity.
    - split; [exact W0|]. split; [exact W5|]. split; [auto|]. cbn [singleton_display]. apply taken3.
  Qed.

  Lemma card_inv : forall i m r, parse_card i = Some (m, r) -> read_as i m r.
  Proof.
    intros i m r H. unfold parse_card in H.
    destruct (ws (ch 35) i) as [[x r1]|] eqn:E0; [|discriminate].
    destruct (ws parse_codes r1) as [[l r2]|] eqn:E1; [|discriminate].
    destruct (pverify _ _ r2) as [[op r3]|] eqn:E2; [|discriminate].
    destruct (parse_usize r3) as [[n r4]|] eqn:E3; [|discriminate]. injection H as <- <-.
    apply ws_ch_inv in E0 as (w0 & w6 & W0 & W6 & -> & _).
    apply ws_codes_inv in E1 as (w7 & tc & w1 & C & W7 & W1 & -> & Hc & HC & _).
    apply ws_rel_inv in E2 as (w2 & w3 & top & W2 & W3 & -> & Ha & _ & S2 & _).
    apply usize_inv in E3 as (tn & -> & Hn & _).
    set (t := lit "#" ++ (w6 ++ w7) ++ tc ++ (w1 ++ w2) ++ top ++ w3 ++ tn).
    assert (Ei : w0 ++ 35 :: w6 ++ w7 ++ tc ++ w1 ++ w2 ++ top ++ w3 ++ tn ++ r4 = w0 ++ t ++ [] ++ r4).
    { unfold t. rewrite <- !app_assoc. reflexivity. }
    rewrite Ei.
    exists w0, t, [], (fun _ sfs => exists k, counts (fun s => C (sf_code s)) sfs k /\ count_holds op k n), w0, [].
    split; [exact W0|]. split; [constructor|]. split; [reflexivity|].
    split; [unfold t; constructor; try assumption; [apply blanks_app; assumption|apply blanks_app; assumption|
            apply S2; exact Ha]|].
    split; [apply after_none|].
    split; [reflexivity|]. split.
    - intros ci sfs. cbn [singleton_holds]. split; intros (k & Hk & Hh); exists k; (split; [|exact Hh]).
      + revert Hk. apply counts_eq. intros s. apply HC.
      + revert Hk. apply counts_eq. intros s. symmetry. apply HC.
    - split; [exact W0|]. split; [constructor|]. split; [auto|]. cbn [singleton_display]. apply taken3.
  Qed.

  Lemma singleton_inv : forall i m r, parse_singleton O i = Some (m, r) ->
    read_as i m r
    \/ exists t P, i = t ++ r /\ exists_text t P /\ is_exists m = true /\ sing_means m P
      /\ singleton_display m = t.
  Proof.
    intros i m r H. unfold parse_singleton, alt in H.
    destruct (parse_relation i) as [[m1 r1]|] eqn:E1.
    { injection H as -> ->. left. apply relation_inv. exact E1. }
    destruct (parse_contains i) as [[m1 r1]|] eqn:E2.
    { injection H as -> ->. left. apply contains_inv. exact E2. }
    destruct (parse_in i) as [[m1 r1]|] eqn:E3.
    { injection H as -> ->. left. apply in_inv. exact E3. }
    destruct (parse_exists i) as [[m1 r1]|] eqn:E4.
    { injection H as -> ->. right. apply exists_inv. exact E4. }
    destruct (parse_card i) as [[m1 r1]|] eqn:E5.
    { injection H as -> ->. left. apply card_inv. exact E5. }
    destruct (parse_regex_set O i) as [[m1 r1]|] eqn:E6.
    { injection H as -> ->. left. apply regex_set_inv. exact E6. }
    left. apply regex_inv. exact H.
  Qed.
End Singleton.

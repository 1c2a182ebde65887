(** * Proofs about the record loop and the commands writing records *)

From Coq Require Import String.
From Verif Require Import Bytes Winnow RecordModel RecordSpec BaseProofs RecordProofs TagOccModel
  ByteRecordModel ByteRecordSpec ByteRecordProofs ReaderModel ReaderProofs MatcherModel MatcherSpec
  MatcherProofs PathModel QuerySpec QueryProofs CliModel CliSpec.

(** ** The loop *)

Fixpoint fold_steps {S A} (f : S -> A -> step S) (s : S) (l : list A) : step S :=
  match l with
  | [] => Next s
  | x :: l' => match f s x with Next s' => fold_steps f s' l' | other => other end
  end.

Definition result_of (x : bytes * N * bytes) : byte_record + read_error :=
  line_result (Some (fst (fst x))) (snd (fst x)) (snd x).

Lemma reader_loop_drain : forall S (f : S -> byte_record + read_error -> step S) fuel s rd l rd',
  drain_fuel next_byte_record fuel rd = Some (l, rd') ->
  reader_loop fuel f s rd = Some (fold_steps f s l).
Proof.
  intros S f. induction fuel as [|n IH]; cbn [drain_fuel reader_loop]; intros s rd l rd' H; [discriminate|].
  destruct (next_byte_record rd) as [[x|] rd1].
  - destruct (drain_fuel next_byte_record n rd1) as [[l1 rd2]|] eqn:E; [|discriminate].
    injection H as <- <-. cbn [fold_steps]. destruct (f s x); try reflexivity.
    eapply IH. exact E.
  - injection H as <- <-. reflexivity.
Qed.

Lemma numbered_results : forall s n ls nls, numbered s (n + 1) ls nls ->
  map result_of nls = line_results (Some s) n ls.
Proof.
  intros s n ls. revert n. induction ls as [|l ls IH]; intros n nls H; inversion H; subst; cbn; [reflexivity|].
  f_equal. apply IH. assumption.
Qed.

Lemma numbered_exists : forall s ls n, exists nls, numbered s n ls nls.
Proof.
  induction ls as [|l ls IH]; intros n.
  - exists []. constructor.
  - destruct (IH (n + 1)) as [nls H]. eexists. constructor. exact H.
Qed.

Lemma shown_source : forall name s content, shown_name name s ->
  rd_source (reader_new content (Some name)) = Some s.
Proof.
  intros name s content [[-> ->]|[Hn ->]].
  - reflexivity.
  - unfold reader_new. cbn [rd_source].
    destruct (bytes_eqb name (lit "-")) eqn:E; [apply bytes_eqb_eq in E; contradiction|reflexivity].
Qed.

Lemma shown_exists : forall name, exists s, shown_name name s.
Proof.
  intros name. destruct (bytes_eqb name (lit "-")) eqn:E.
  - apply bytes_eqb_eq in E. exists (lit "<stdin>"). left. auto.
  - exists name. right. split; [|reflexivity]. intros ->. rewrite bytes_eqb_refl in E. discriminate.
Qed.

Lemma input_lines_exists : forall files, exists ls, input_lines files ls.
Proof.
  induction files as [|[name content] files [ls IH]].
  - exists []. constructor.
  - destruct (shown_exists name) as [s Hs]. destruct (is_lines_exists content) as [l Hl].
    destruct (numbered_exists s l 1) as [nls Hn].
    exists (nls ++ ls). econstructor; eassumption.
Qed.

Lemma fold_steps_app : forall S A (f : S -> A -> step S) a b s,
  fold_steps f s (a ++ b) =
  match fold_steps f s a with Next s' => fold_steps f s' b | other => other end.
Proof.
  intros S A f. induction a as [|x a IH]; intros b s; cbn; [reflexivity|].
  destruct (f s x); try reflexivity. apply IH.
Qed.

Lemma files_loop_fold : forall S (f : S -> byte_record + read_error -> step S) files ls,
  input_lines files ls -> forall s, files_loop f s files = Some (fold_steps f s (map result_of ls)).
Proof.
  intros S f files ls H. induction H as [|name content rest s0 l nls more Hs Hl Hn _ IH]; intros s.
  - reflexivity.
  - cbn [files_loop].
    assert (D := drain_all content (Some name) l Hl). unfold drain in D.
    change (rd_inner (reader_new content (Some name))) with content in D.
    rewrite (reader_loop_drain _ _ _ _ _ _ _ D). rewrite (shown_source _ _ _ Hs).
    rewrite map_app, fold_steps_app.
    change 1 with (0 + 1) in Hn. rewrite (numbered_results _ _ _ _ Hn).
    destruct (fold_steps f s (line_results (Some s0) 0 l)); try reflexivity. apply IH.
Qed.

Definition with_error {S} (x : step S) (e : option read_error) : step S :=
  match x, e with
  | Next s, Some e => Fail s e
  | other, _ => other
  end.

Lemma record_text_from : forall r l, record_text r l -> record_from_bytes l = Some r.
Proof. intros r l H. apply record_accept_iff. exact H. Qed.

Lemma no_record_from : forall l, (forall r, ~ record_text r l) -> record_from_bytes l = None.
Proof.
  intros l H. destruct (record_from_bytes l) as [r|] eqn:E; [|reflexivity].
  exfalso. apply (H r). apply record_accept_iff. exact E.
Qed.

Lemma fold_seen : forall S skip (body : S -> byte_record -> step S) ls recs e,
  seen skip ls recs e -> forall s,
  fold_steps (on_result skip body) s (map result_of ls) = with_error (fold_steps body s recs) e.
Proof.
  intros S skip body ls recs e H.
  induction H as [|src n l r ls rs e Hr _ IH|src n l ls rs e Hk Hr _ IH|src n l ls Hk Hr]; intros s.
  - reflexivity.
  - cbn [map fold_steps]. unfold result_of at 1. cbn [fst snd]. unfold line_result.
    rewrite (record_text_from _ _ Hr). cbn [on_result].
    destruct (body s _); try reflexivity. apply IH.
  - cbn [map fold_steps]. unfold result_of at 1. cbn [fst snd]. unfold line_result.
    rewrite (no_record_from _ Hr). cbn [on_result skip_parse_err]. subst skip. apply IH.
  - cbn [map fold_steps]. unfold result_of at 1. cbn [fst snd]. unfold line_result.
    rewrite (no_record_from _ Hr). cbn [on_result skip_parse_err]. subst skip. reflexivity.
Qed.

Lemma run_loop_reads : forall S skip (body : S -> byte_record -> step S) files recs e s,
  reads skip files recs e ->
  run_loop (on_result skip body) s files = Some (to_ending (with_error (fold_steps body s recs) e)).
Proof.
  intros S skip body files recs e s (ls & Hl & Hs). unfold run_loop.
  rewrite (files_loop_fold _ _ _ _ Hl), (fold_seen _ _ _ _ _ _ Hs). reflexivity.
Qed.

Lemma record_text_dec : forall l, (exists r, record_text r l) \/ (forall r, ~ record_text r l).
Proof.
  intros l. destruct (record_from_bytes l) as [r|] eqn:E.
  - left. exists r. apply record_accept_iff. exact E.
  - right. intros r H. apply record_text_from in H. congruence.
Qed.

Lemma seen_exists : forall skip ls, exists recs e, seen skip ls recs e.
Proof.
  intros skip. induction ls as [|[[s n] l] ls (recs & e & IH)].
  - exists [], None. constructor.
  - destruct (record_text_dec l) as [[r Hr]|Hr].
    + eexists _, e. apply seen_record; eassumption.
    + destruct skip.
      * exists recs, e. apply seen_skip; auto.
      * eexists _, _. apply seen_fail; auto.
Qed.

Lemma reads_exists : forall skip files, exists recs e, reads skip files recs e.
Proof.
  intros skip files. destruct (input_lines_exists files) as [ls Hl].
  destruct (seen_exists skip ls) as (recs & e & Hs). exists recs, e, ls. auto.
Qed.

Lemma seen_reachable : forall skip ls recs e, seen skip ls recs e ->
  Forall (fun r => exists l, br_raw r = Some l /\ record_text (br_record r) l) recs.
Proof.
  induction 1; try constructor; auto. exists l. auto.
Qed.

(** ** Selection *)

Definition decided (sel : record -> option bool) (P : record -> Prop) : Prop :=
  forall r, decides (sel r) (P r).

Lemma decides_cases : forall o P, decides o P -> (o = Some true /\ P) \/ (o = Some false /\ ~ P).
Proof.
  intros o P (b & -> & Hb). destruct b; [left|right]; intuition congruence.
Qed.

Lemma mem_bytes_In : forall v l, mem_bytes v l = true <-> In v l.
Proof.
  intros v l. unfold mem_bytes. rewrite existsb_exists. split.
  - intros (x & Hx & E). apply bytes_eqb_eq in E. subst. exact Hx.
  - intros H. exists v. split; [exact H|apply bytes_eqb_refl].
Qed.

Lemma any_mem : forall vs l, existsb (fun v => mem_bytes v l) vs = true <-> exists v, In v vs /\ In v l.
Proof.
  intros vs l. rewrite existsb_exists. split; intros (v & Hv & H); exists v; split; auto; apply mem_bytes_In; exact H.
Qed.

Lemma filter_set_decides : forall Od fs, fset_wf Od fs -> decided (filter_set_check Od fs) (admitted Od fs).
Proof.
  intros Od fs W r. unfold filter_set_check.
  destruct (record_path_lists Od false (fset_path fs) r W) as (vs & -> & Hvs).
  destruct (match fset_deny fs with
            | Some deny => existsb (fun v => mem_bytes v deny) vs
            | None => false
            end) eqn:Ed.
  - apply decides_some. split; [discriminate|]. intros (ws & Hws & Hd & _).
    assert (ws = vs) by (eapply path_lists_fun; eassumption). subst ws.
    destruct (fset_deny fs) as [deny|]; [|discriminate]. apply any_mem in Ed as (v & H1 & H2).
    exfalso. exact (Hd deny eq_refl v H1 H2).
  - assert (Hd : forall deny, fset_deny fs = Some deny -> forall v, In v vs -> ~ In v deny).
    { intros deny E v H1 H2. rewrite E in Ed.
      assert (existsb (fun v => mem_bytes v deny) vs = true) by (apply any_mem; eauto). congruence. }
    destruct (fset_allow fs) as [allow|] eqn:Ea.
    + destruct (existsb (fun v => mem_bytes v allow) vs) eqn:Ex.
      * apply any_mem in Ex as (v & H1 & H2).
        destruct allow as [|a allow]; [contradiction|]. cbn [negb orb].
        apply decides_some. split; [|reflexivity]. intros _. exists vs. split; [exact Hvs|].
        split; [exact Hd|]. rewrite Ea. intros al E. injection E as <-. eauto.
      * cbn [negb orb]. apply decides_some. split; [discriminate|].
        intros (ws & Hws & _ & Hal). assert (ws = vs) by (eapply path_lists_fun; eassumption). subst ws.
        rewrite Ea in Hal. specialize (Hal allow eq_refl). apply any_mem in Hal. congruence.
    + apply decides_some. split; [|reflexivity]. intros _. exists vs. split; [exact Hvs|].
      split; [exact Hd|]. rewrite Ea. discriminate.
Qed.

Lemma opts_decided : forall O Od o, opts_wf O Od o -> decided (opts_select O Od o) (opts_hold O Od o).
Proof.
  intros O Od o [Wf Wm] r. unfold opts_select, opts_hold.
  destruct (decides_cases _ _ (filter_set_decides Od (fo_fset o) Wf r)) as [[-> Ha]|[-> Ha]].
  - destruct (fo_matcher o) as [m|] eqn:Em.
    + eapply decides_eq; [apply fm_decides; apply Wm; reflexivity|]. split.
      * intros H. split; [exact Ha|]. intros m' E. injection E as <-. exact H.
      * intros [_ H]. apply H. reflexivity.
    + apply decides_some. split; [|reflexivity]. intros _. split; [exact Ha|discriminate].
  - apply decides_some. split; [discriminate|]. intros [H _]. contradiction.
Qed.

Lemma opts_print_decided : forall O Od o, opts_wf O Od o ->
  decided (opts_select_print O Od o) (opts_hold O Od o).
Proof.
  intros O Od o [Wf Wm] r. unfold opts_select_print, opts_hold.
  destruct (fo_matcher o) as [m|] eqn:Em.
  - destruct (decides_cases _ _ (fm_decides O (fo_ci o) m r (Wm m eq_refl))) as [[E Ha]|[E Ha]];
      unfold rm_is_match; rewrite E.
    + eapply decides_eq; [apply filter_set_decides; exact Wf|]. split; [|intros [H _]; exact H].
      intros H. split; [exact H|]. intros m' Hm. injection Hm as <-. exact Ha.
    + apply decides_some. split; [discriminate|]. intros [_ H]. specialize (H m eq_refl). contradiction.
  - eapply decides_eq; [apply filter_set_decides; exact Wf|]. split; [|intros [H _]; exact H].
    intros H. split; [exact H|discriminate].
Qed.

Lemma filter_decided : forall O Od c, filter_wf O Od c -> decided (filter_select O Od c) (filter_holds O Od c).
Proof.
  intros O Od c [Wf Wm] r. unfold filter_select, filter_holds.
  destruct (decides_cases _ _ (filter_set_decides Od (fc_fset c) Wf r)) as [[-> Ha]|[-> Ha]].
  - destruct (decides_cases _ _ (fm_decides O (fc_ci c) (fc_matcher c) r Wm)) as [[E Hm]|[E Hm]];
      unfold rm_is_match; rewrite E; destruct (fc_invert c); apply decides_some; cbn; intuition congruence.
  - apply decides_some. split; [discriminate|]. intros [H _]. contradiction.
Qed.

Lemma chosen_exists : forall (sel : record -> option bool) P, decided sel P -> forall l,
  exists out, chosen P l out.
Proof.
  intros sel P D l. destruct (filter_p_picks _ (fun r => P (br_record r)) (fun r => sel (br_record r)) l)
    as (out & _ & H).
  - intros x _. apply D.
  - exists out. exact H.
Qed.

Lemma chosen_In : forall P l out, chosen P l out -> forall x, In x out -> In x l.
Proof. intros P l out H x Hx. apply (picks_id_In _ _ _ _ H x) in Hx. tauto. Qed.

Lemma limited_exists : forall A limit (l : list A) e, exists l' e', limited limit l e l' e'.
Proof.
  intros A limit l e. destruct (N.eq_dec limit 0) as [E|E].
  - exists l, e. left. auto.
  - destruct (N.lt_ge_cases (N.of_nat (length l)) limit) as [H|H].
    + exists l, e. left. auto.
    + exists (firstn (N.to_nat limit) l), None. right. split; [lia|]. split.
      * rewrite firstn_length. lia.
      * split; [|reflexivity]. exists (skipn (N.to_nat limit) l). symmetry. apply firstn_skipn.
Qed.

(** ** Folding a body that acts on the selected records, with a limit *)

Section Folding.
  Context {S A : Type}.
  Variable P Good : A -> Prop.
  Variable body : S -> A -> step S.
  Variable act : S -> A -> S.
  Variable cnt : S -> N.
  Variable limit : N.
  Hypothesis body_no : forall s r, ~ P r -> body s r = Next s.
  Hypothesis body_yes : forall s r, P r -> Good r ->
    body s r = if limit_reached limit (cnt s + 1) then Halt (act s r) else Next (act s r).
  Hypothesis cnt_act : forall s r, cnt (act s r) = cnt s + 1.

  Lemma fold_limited_aux : forall recs sel, picks P (fun r => r) recs sel -> Forall Good recs -> forall s,
    limit = 0 \/ cnt s < limit ->
    ((limit = 0 \/ cnt s + N.of_nat (length sel) < limit)
     /\ fold_steps body s recs = Next (fold_left act sel s))
    \/ (exists pre rest, sel = pre ++ rest /\ 0 < limit /\ cnt s + N.of_nat (length pre) = limit
         /\ fold_steps body s recs = Halt (fold_left act pre s)).
  Proof.
    induction 1 as [|r recs sel HP H IH|r recs sel HP H IH]; intros G s Hs.
    - left. cbn. split; [|reflexivity]. rewrite N.add_0_r. exact Hs.
    - inversion G as [|? ? Gr Grs]; subst. cbn [fold_steps]. rewrite body_yes by assumption.
      unfold limit_reached. destruct (N.ltb_spec 0 limit) as [Hl|Hl].
      + destruct (N.leb_spec limit (cnt s + 1)) as [Hc|Hc]; cbn [andb].
        * right. exists [r], sel. split; [reflexivity|]. split; [exact Hl|]. split; [cbn [length]; lia|reflexivity].
        * destruct (IH Grs (act s r)) as [[A1 B]|(pre & rest & -> & A1 & B & C)].
          { rewrite cnt_act. lia. }
          { left. split; [|exact B]. rewrite cnt_act in A1. cbn [length]. lia. }
          { right. exists (r :: pre), rest. split; [reflexivity|]. split; [exact A1|].
            rewrite cnt_act in B. split; [cbn [length]; lia|exact C]. }
      + cbn [andb]. destruct (IH Grs (act s r)) as [[A1 B]|(pre & rest & -> & A1 & B & C)].
        { lia. }
        { left. split; [lia|exact B]. }
        { exfalso. lia. }
    - inversion G as [|? ? Gr Grs]; subst. cbn [fold_steps]. rewrite body_no by exact HP. apply IH; assumption.
  Qed.

  Lemma fold_limited : forall recs sel e s, picks P (fun r => r) recs sel -> Forall Good recs -> cnt s = 0 ->
    exists sel' e', limited limit sel e sel' e'
      /\ to_ending (with_error (fold_steps body s recs) e) = ended (fold_left act sel' s) e'.
  Proof.
    intros recs sel e s H G Hs.
    destruct (fold_limited_aux recs sel H G s) as [[A1 B]|(pre & rest & -> & A1 & B & C)].
    - lia.
    - exists sel, e. split; [left; split; [lia|auto]|]. rewrite B. destruct e; reflexivity.
    - exists pre, None. split.
      + right. rewrite app_length. split; [lia|]. split; [lia|]. split; [eauto|reflexivity].
      + rewrite C. reflexivity.
  Qed.
End Folding.

(** the same without limit *)
Section FoldingAll.
  Context {S A : Type}.
  Variable P Good : A -> Prop.
  Variable body : S -> A -> step S.
  Variable act : S -> A -> S.
  Hypothesis body_no : forall s r, ~ P r -> body s r = Next s.
  Hypothesis body_yes : forall s r, P r -> Good r -> body s r = Next (act s r).

  Lemma fold_all : forall recs sel, picks P (fun r => r) recs sel -> Forall Good recs ->
    forall s, fold_steps body s recs = Next (fold_left act sel s).
  Proof.
    induction 1 as [|r recs sel HP H IH|r recs sel HP H IH]; intros G s; inversion G; subst; cbn [fold_steps].
    - reflexivity.
    - rewrite body_yes by assumption. apply IH. assumption.
    - rewrite body_no by assumption. apply IH. assumption.
  Qed.

  Lemma fold_all_ended : forall recs sel e s, picks P (fun r => r) recs sel -> Forall Good recs ->
    to_ending (with_error (fold_steps body s recs) e) = ended (fold_left act sel s) e.
  Proof. intros recs sel e s H G. rewrite (fold_all _ _ H G). destruct e; reflexivity. Qed.
End FoldingAll.

Lemma guarded_no : forall S sel P (body : S -> byte_record -> step S), decided sel P ->
  forall s r, ~ P (br_record r) -> guarded sel body s r = Next s.
Proof.
  intros S sel P body D s r H. unfold guarded.
  destruct (decides_cases _ _ (D (br_record r))) as [[-> HP]|[-> _]]; [contradiction|reflexivity].
Qed.
Lemma guarded_yes : forall S sel P (body : S -> byte_record -> step S), decided sel P ->
  forall s r, P (br_record r) -> guarded sel body s r = body s r.
Proof.
  intros S sel P body D s r H. unfold guarded.
  destruct (decides_cases _ _ (D (br_record r))) as [[-> _]|[-> HP]]; [reflexivity|contradiction].
Qed.

Lemma Forall_true : forall A (l : list A), Forall (fun _ => True) l.
Proof. induction l; constructor; auto. Qed.

(** a command guarded by the shared options, acting on the selected records *)
Lemma run_selects_gen : forall S O Od skip o sel (body : S -> byte_record -> step S) act cnt
    (Good : byte_record -> Prop) files s all e0,
  decided sel (opts_hold O Od o) ->
  (forall s r, opts_hold O Od o (br_record r) -> Good r ->
     body s r = if limit_reached (fo_limit o) (cnt s + 1) then Halt (act s r) else Next (act s r)) ->
  (forall s r, cnt (act s r) = cnt s + 1) -> cnt s = 0 ->
  reads skip files all e0 -> Forall Good all ->
  exists recs e, selects O Od skip o files recs e
    /\ run_loop (on_result skip (guarded sel body)) s files
       = Some (ended (fold_left act recs s) e).
Proof.
  intros S O Od skip o sel body act cnt Good files s all e0 D Hb Hc H0 Hr HG.
  destruct (chosen_exists _ _ D all) as [sl Hs].
  destruct (fold_limited (fun r => opts_hold O Od o (br_record r)) Good
              (guarded sel body) act cnt (fo_limit o)) with (recs := all) (sel := sl)
              (e := e0) (s := s) as (recs & e & Hl & He); auto.
  - intros s' r Hn. apply (guarded_no _ _ _ _ D). exact Hn.
  - intros s' r Hy Hg. rewrite (guarded_yes _ _ _ _ D) by exact Hy. apply Hb; assumption.
  - exists recs, e. split; [exists all, sl, e0; auto|].
    rewrite (run_loop_reads _ _ _ _ _ _ _ Hr), He. reflexivity.
Qed.

Lemma run_selects : forall S O Od skip o (body : S -> byte_record -> step S) act cnt files s,
  opts_wf O Od o ->
  (forall s r,
     body s r = if limit_reached (fo_limit o) (cnt s + 1) then Halt (act s r) else Next (act s r)) ->
  (forall s r, cnt (act s r) = cnt s + 1) -> cnt s = 0 ->
  exists recs e, selects O Od skip o files recs e
    /\ run_loop (on_result skip (guarded (opts_select O Od o) body)) s files
       = Some (ended (fold_left act recs s) e).
Proof.
  intros S O Od skip o body act cnt files s W Hb Hc H0.
  destruct (reads_exists skip files) as (all & e0 & Hr).
  eapply run_selects_gen with (Good := fun _ => True) (cnt := cnt); eauto using opts_decided, Forall_true.
Qed.

(** a body that ignores the other records *)
Lemma fold_chosen : forall S P (body : S -> byte_record -> step S) recs sel,
  (forall s r, ~ P (br_record r) -> body s r = Next s) ->
  chosen P recs sel -> forall s, fold_steps body s recs = fold_steps body s sel.
Proof.
  intros S P body recs sel Hno H. induction H as [|r recs sel HP H IH|r recs sel HP H IH]; intros s; cbn [fold_steps].
  - reflexivity.
  - destruct (body s r); auto.
  - rewrite Hno by exact HP. apply IH.
Qed.

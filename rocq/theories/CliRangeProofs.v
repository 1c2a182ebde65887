(** * Proofs about sample and slice *)

From Coq Require Import String Sorted.
From Verif Require Import Bytes Winnow RecordModel RecordSpec BaseProofs RecordProofs TagOccModel Utf8Model
  ByteRecordModel ByteRecordSpec ByteRecordProofs ReaderModel ReaderProofs MatcherModel MatcherSpec
  MatcherProofs PathModel QuerySpec QueryProofs QueryExtraProofs CliModel CliSpec CliProofs
  CliCommandProofs CliOutputProofs.

(** ** sample *)

Definition sample_act (draw : N -> N) (size : N) (s : sample_state) (r : byte_record) : sample_state :=
  let '(count, reservoir) := s in
  (count + 1,
   if count <? size then reservoir ++ [br_write r]
   else if draw count <? size then list_set reservoir (N.to_nat (draw count)) (br_write r)
   else reservoir).

Lemma list_set_length : forall A (l : list A) i x, length (list_set l i x) = length l.
Proof. induction l as [|y l IH]; intros [|i] x; cbn; auto. Qed.

Lemma list_set_map : forall A B (f : A -> B) (l : list A) i x,
  list_set (map f l) i (f x) = map f (list_set l i x).
Proof. induction l as [|y l IH]; intros [|i] x; cbn; f_equal; auto. Qed.

Lemma list_set_In : forall A (l : list A) i x y, In y (list_set l i x) -> y = x \/ In y l.
Proof.
  induction l as [|z l IH]; intros [|i] x y; cbn; intros H; auto.
  - destruct H; auto.
  - destruct H as [->|H]; auto. apply IH in H. tauto.
Qed.

Lemma list_set_NoDup : forall A (l : list A) i x, NoDup l -> ~ In x l -> NoDup (list_set l i x).
Proof.
  intros A l i x H. revert i. induction H as [|y l Hy H IH]; intros [|i] Hx; cbn; try constructor; auto.
  - intros Hin. apply Hx. right. exact Hin.
  - intros Hin. apply list_set_In in Hin as [->|Hin]; [|auto]. apply Hx. left. reflexivity.
  - apply IH. intros Hin. apply Hx. right. exact Hin.
Qed.

(** the positions in the reservoir *)
Definition reservoir_inv (size : N) (recs : list byte_record) (s : sample_state) : Prop :=
  fst s = N.of_nat (length recs)
  /\ exists idx, NoDup idx /\ Forall (fun i => (i < length recs)%nat) idx
     /\ N.of_nat (length idx) = N.min size (N.of_nat (length recs))
     /\ snd s = map (fun i => br_write (nth i recs (mkBR None []))) idx.

Lemma reservoir_step : forall draw size recs s r, reservoir_inv size recs s ->
  reservoir_inv size (recs ++ [r]) (sample_act draw size s r).
Proof.
  intros draw size recs [n l] r (E & idx & ND & LT & LEN & El). cbn [fst snd] in *. subst n l.
  unfold reservoir_inv. rewrite app_length. cbn [length].
  assert (M : forall idx, Forall (fun i => (i < length recs)%nat) idx ->
             map (fun i => br_write (nth i (recs ++ [r]) (mkBR None []))) idx
             = map (fun i => br_write (nth i recs (mkBR None []))) idx).
  { clear. intros idx F. apply map_ext_in. intros i Hi. rewrite Forall_forall in F.
    rewrite app_nth1 by auto. reflexivity. }
  assert (Last : br_write r = br_write (nth (length recs) (recs ++ [r]) (mkBR None []))).
  { rewrite app_nth2, Nat.sub_diag by lia. reflexivity. }
  assert (New : ~ In (length recs) idx).
  { intros H. rewrite Forall_forall in LT. apply LT in H. lia. }
  assert (LT' : Forall (fun i => (i < length recs + 1)%nat) idx).
  { eapply Forall_impl; [|exact LT]. cbn. lia. }
  cbn [sample_act fst snd]. split; [lia|].
  destruct (N.ltb_spec (N.of_nat (length recs)) size) as [H|H].
  - exists (idx ++ [length recs]). split.
    + pose proof (Add_app (length recs) idx []) as HA. rewrite app_nil_r in HA.
      apply (NoDup_Add HA). auto.
    + split; [apply Forall_app; split; [exact LT'|repeat constructor; lia]|]. split.
      * rewrite app_length. cbn [length]. lia.
      * rewrite map_app. cbn [map]. rewrite M by exact LT. rewrite <- Last. reflexivity.
  - destruct (N.ltb_spec (draw (N.of_nat (length recs))) size) as [H1|H1].
    + exists (list_set idx (N.to_nat (draw (N.of_nat (length recs)))) (length recs)). split.
      * apply list_set_NoDup; assumption.
      * split.
        { rewrite Forall_forall in *. intros i Hi. apply list_set_In in Hi as [->|Hi]; [lia|auto]. }
        split; [rewrite list_set_length; lia|].
        rewrite <- list_set_map, M by exact LT. rewrite <- Last. reflexivity.
    + exists idx. split; [exact ND|]. split; [exact LT'|]. split; [lia|]. rewrite M by exact LT. reflexivity.
Qed.

Lemma reservoir_fold : forall draw size recs, reservoir_inv size recs (fold_left (sample_act draw size) recs (0, [])).
Proof.
  intros draw size recs. induction recs as [|r recs IH] using rev_ind.
  - split; [reflexivity|]. exists []. repeat split; [constructor|constructor|cbn; lia].
  - rewrite fold_left_app. cbn [fold_left]. apply reservoir_step. exact IH.
Qed.

Lemma sample_write_lines : forall recs, Forall from_line recs ->
  sample_write (map br_write recs) = Some (flat_map br_write recs).
Proof.
  induction 1 as [|r recs (l & E & T) _ IH]; [reflexivity|].
  cbn [map sample_write flat_map]. rewrite (from_line_write _ _ E) in *.
  rewrite (from_line_bytes _ _ E T), IH. rewrite (from_line_write _ _ E). reflexivity.
Qed.

Lemma sample_run_fold : forall O Od draw size skip o files, opts_wf O Od o ->
  exists recs e, selects O Od skip o files recs e
    /\ sample_run O Od draw size skip o files
       = finish_with (fun s : sample_state => sample_write (snd s)) (fun _ => [])
           (Some (ended (fold_left (sample_act draw size) recs (0, [])) e)).
Proof.
  intros O Od draw size skip o files W.
  destruct (run_selects _ O Od skip o
              (fun s r => let '(count, reservoir) := s in
                let data := br_write r in
                let reservoir' :=
                  if count <? size then reservoir ++ [data]
                  else if draw count <? size then list_set reservoir (N.to_nat (draw count)) data
                  else reservoir in
                let s' := (count + 1, reservoir') in
                if limit_reached (fo_limit o) (count + 1) then Halt s' else Next s')
              (sample_act draw size) fst files (0, []) W) as (recs & e & Hs & He).
  - intros [n l] r. reflexivity.
  - intros [n l] r. reflexivity.
  - reflexivity.
  - exists recs, e. split; [exact Hs|].
    exact (f_equal (finish_with (fun s : sample_state => sample_write (snd s)) (fun _ => [])) He).
Qed.

Lemma sample_exact : forall O Od draw size skip o files, opts_wf O Od o ->
  exists recs e, selects O Od skip o files recs e
    /\ ((exists err, e = Some err /\ sample_run O Od draw size skip o files = Some (Failed [] err))
        \/ (e = None /\ exists sample out, drawn size recs sample /\ lines_of sample out
              /\ sample_run O Od draw size skip o files = Some (Done out))).
Proof.
  intros O Od draw size skip o files W.
  destruct (sample_run_fold O Od draw size skip o files W) as (recs & e & Hs & R).
  exists recs, e. split; [exact Hs|].
  rewrite R. destruct e as [err|]; cbn [ended finish_with]; [left; eauto|right]. split; [reflexivity|].
  destruct (reservoir_fold draw size recs) as (_ & idx & ND & LT & LEN & ->).
  assert (F := selects_from_line _ _ _ _ _ _ _ Hs).
  exists (map (fun i => nth i recs (mkBR None [])) idx),
    (flat_map br_write (map (fun i => nth i recs (mkBR None [])) idx)).
  assert (F' : Forall from_line (map (fun i => nth i recs (mkBR None [])) idx)).
  { rewrite Forall_forall in *. intros r Hr. apply in_map_iff in Hr as (i & <- & Hi).
    apply F, nth_In. auto. }
  split; [|split; [apply lines_of_flat; exact F'|]].
  - exists idx. split; [exact ND|]. split; [|rewrite map_length; exact LEN].
    clear -LT. induction LT; cbn; constructor; auto. apply nth_error_nth'. assumption.
  - rewrite <- (map_map (fun i => nth i recs (mkBR None [])) br_write), sample_write_lines by exact F'.
    reflexivity.
Qed.

(** ** slice *)

(** the body on selected records *)
Definition slice_core (start limit : N) (s : slice_state) (r : byte_record) : step slice_state :=
  if (start <=? sl_i s) && (sl_i s <? sl_end s) then
    let s' := mkSlice (sl_end s) (sl_i s) (sl_count s + 1) (sl_out s ++ br_write r) in
    if limit_reached limit (sl_count s + 1) then Halt s'
    else Next (mkSlice (sl_end s) (sl_i s + 1) (sl_count s + 1) (sl_out s ++ br_write r))
  else if sl_i s <? start then Next (mkSlice (sl_end s) (sl_i s + 1) (sl_count s) (sl_out s))
  else Halt s.

Lemma slice_core_eq : forall start limit end_ i count out r,
  slice_core start limit (mkSlice end_ i count out) r
  = if (start <=? i) && (i <? end_) then
      if limit_reached limit (count + 1) then Halt (mkSlice end_ i (count + 1) (out ++ br_write r))
      else Next (mkSlice end_ (i + 1) (count + 1) (out ++ br_write r))
    else if i <? start then Next (mkSlice end_ (i + 1) count out)
    else Halt (mkSlice end_ i count out).
Proof. reflexivity. Qed.

(** past the start *)
Lemma slice_inside : forall start limit l end_ i count out,
  start <= i -> limit = 0 \/ count < limit ->
  (exists pre rest, l = pre ++ rest /\ 0 < limit /\ count + N.of_nat (length pre) = limit
     /\ i + N.of_nat (length pre) <= end_
     /\ exists s, fold_steps (slice_core start limit) (mkSlice end_ i count out) l = Halt s
          /\ sl_out s = out ++ flat_map br_write pre)
  \/ (exists pre rest, l = pre ++ rest
     /\ (limit = 0 \/ count + N.of_nat (length pre) < limit)
     /\ N.of_nat (length pre) = N.min (end_ - i) (N.of_nat (length l))
     /\ exists s, sl_out s = out ++ flat_map br_write pre
          /\ ((rest = [] /\ fold_steps (slice_core start limit) (mkSlice end_ i count out) l = Next s)
              \/ (rest <> [] /\ fold_steps (slice_core start limit) (mkSlice end_ i count out) l = Halt s))).
Proof.
  intros start limit. induction l as [|r l IH]; intros end_ i count out Hi Hc.
  - right. exists [], []. cbn [length app fold_steps flat_map]. split; [reflexivity|].
    split; [destruct Hc; [left; assumption|right; lia]|]. split; [lia|].
    exists (mkSlice end_ i count out). rewrite app_nil_r. auto.
  - cbn [fold_steps]. rewrite slice_core_eq.
    destruct (N.leb_spec start i) as [_|Hs]; [|lia].
    destruct (N.ltb_spec i end_) as [He|He]; cbn [andb].
    + unfold limit_reached. destruct ((0 <? limit) && (limit <=? count + 1)) eqn:L.
      * apply andb_true_iff in L as [L1 L2]. apply N.ltb_lt in L1. apply N.leb_le in L2.
        left. exists [r], l. split; [reflexivity|]. split; [exact L1|]. cbn [length]. split; [lia|]. split; [lia|].
        eexists. split; [reflexivity|]. cbn [flat_map sl_out]. rewrite app_nil_r. reflexivity.
      * assert (L' : limit = 0 \/ count + 1 < limit).
        { apply andb_false_iff in L as [L|L]; [apply N.ltb_ge in L|apply N.leb_gt in L]; lia. }
        destruct (IH end_ (i + 1) (count + 1) (out ++ br_write r)) as
          [(pre & rest & -> & H1 & H2 & H3 & s & H4 & H5)|(pre & rest & E & H1 & H2 & s & H3 & H4)]; [lia|exact L'| |].
        { left. exists (r :: pre), rest. split; [reflexivity|]. split; [exact H1|]. cbn [length].
          split; [lia|]. split; [lia|]. exists s. split; [exact H4|]. rewrite H5, <- app_assoc. reflexivity. }
        { right. exists (r :: pre), rest. split; [rewrite E; reflexivity|]. cbn [length].
          split; [lia|]. split; [lia|]. exists s. split; [|exact H4]. rewrite H3, <- app_assoc. reflexivity. }
    + destruct (N.ltb_spec i start) as [Hs|_]; [lia|].
      right. exists [], (r :: l). split; [reflexivity|]. cbn [length flat_map].
      split; [lia|]. split; [lia|]. exists (mkSlice end_ i count out). rewrite app_nil_r. split; [reflexivity|].
      right. split; [discriminate|reflexivity].
Qed.

(** before the start *)
Lemma slice_before : forall start limit l end_ i count out, i <= start ->
  fold_steps (slice_core start limit) (mkSlice end_ i count out) l
  = if N.of_nat (length l) <=? start - i
    then Next (mkSlice end_ (i + N.of_nat (length l)) count out)
    else fold_steps (slice_core start limit) (mkSlice end_ start count out)
           (skipn (N.to_nat (start - i)) l).
Proof.
  intros start limit. induction l as [|r l IH]; intros end_ i count out Hi.
  - cbn. rewrite N.add_0_r. destruct (N.leb_spec 0 (start - i)); [reflexivity|lia].
  - destruct (N.eq_dec i start) as [->|Hne].
    + destruct (N.leb_spec (N.of_nat (length (r :: l))) (start - start)) as [H|H]; [cbn [length] in H; lia|].
      rewrite N.sub_diag. reflexivity.
    + cbn [fold_steps]. rewrite slice_core_eq.
      destruct (N.leb_spec start i) as [H|_]; [lia|]. cbn [andb].
      destruct (N.ltb_spec i start) as [_|H]; [|lia].
      rewrite IH by lia. cbn [length].
      destruct (N.leb_spec (N.of_nat (length l)) (start - (i + 1))) as [H|H];
        destruct (N.leb_spec (N.of_nat (S (length l))) (start - i)) as [H1|H1]; try lia.
      * f_equal. f_equal. lia.
      * replace (N.to_nat (start - i)) with (S (N.to_nat (start - (i + 1)))) by lia. reflexivity.
Qed.

Lemma slice_body_no : forall O Od start o, opts_wf O Od o ->
  forall s r, ~ opts_hold O Od o (br_record r) -> slice_body O Od start o s r = Next s.
Proof.
  intros O Od start o W s r H. unfold slice_body.
  destruct (decides_cases _ _ (opts_decided O Od o W (br_record r))) as [[-> HP]|[-> _]]; [contradiction|reflexivity].
Qed.

Lemma slice_body_yes : forall O Od start o, opts_wf O Od o ->
  forall s r, opts_hold O Od o (br_record r) -> slice_body O Od start o s r = slice_core start (fo_limit o) s r.
Proof.
  intros O Od start o W s r H. unfold slice_body.
  destruct (decides_cases _ _ (opts_decided O Od o W (br_record r))) as [[-> _]|[-> HP]]; [reflexivity|contradiction].
Qed.

Lemma fold_steps_ext : forall S A (f g : S -> A -> step S) l s,
  (forall s x, In x l -> f s x = g s x) -> fold_steps f s l = fold_steps g s l.
Proof.
  intros S A f g. induction l as [|x l IH]; intros s H; cbn [fold_steps]; [reflexivity|].
  rewrite (H s x) by (left; reflexivity). destruct (g s x); try reflexivity.
  apply IH. intros s' y Hy. apply H. right. exact Hy.
Qed.

Lemma run_loop_ext : forall S (f g : S -> byte_record + read_error -> step S) s files,
  (forall s x, f s x = g s x) -> run_loop f s files = run_loop g s files.
Proof.
  intros S f g s files H. unfold run_loop. destruct (input_lines_exists files) as [ls Hl].
  rewrite !(files_loop_fold _ _ _ _ Hl). erewrite fold_steps_ext; [reflexivity|]. intros; apply H.
Qed.

Lemma slice_stop_end : forall start end_ len stop, slice_stop start end_ len stop ->
  slice_end start end_ len = stop.
Proof.
  intros start end_ len stop H. unfold slice_end, usize_max.
  destruct (N.ltb_spec 0 end_); destruct (N.ltb_spec 0 len);
    destruct H as [[H ->]|[(H & H' & -> & Hs)|(H & H' & ->)]]; try lia; try reflexivity.
  apply N.mod_small. lia.
Qed.

Lemma slice_exact_to : forall O Od skip start end_ len stop o files, opts_wf O Od o ->
  slice_end start end_ len = stop -> len = 0 \/ skip = false ->
  exists all e0 sel range e1 recs e out,
    reads skip files all e0 /\ chosen (opts_hold O Od o) all sel
    /\ index_range start stop sel range
    /\ slice_error start stop sel e0 e1
    /\ limited (fo_limit o) range e1 recs e
    /\ lines_of recs out
    /\ slice_run O Od skip start end_ len o files = Some (ended out e).
Proof.
  intros O Od skip start end_ len b o files W Hb Hmode.
  destruct (reads_exists skip files) as (all & e0 & Hr).
  assert (D := opts_decided O Od o W).
  destruct (chosen_exists _ _ D all) as [sel Hs].
  assert (F := chosen_from_line _ _ _ Hs (reads_from_line _ _ _ _ Hr)).
  assert (R : slice_run O Od skip start end_ len o files
              = finish_with (fun s => Some (sl_out s)) sl_out
                  (Some (to_ending (with_error (fold_steps (slice_core start (fo_limit o))
                           (mkSlice b 0 0 []) sel) e0)))).
  { unfold slice_run. rewrite Hb. f_equal.
    rewrite (run_loop_ext _ _ (on_result skip (slice_body O Od start o))).
    - rewrite (run_loop_reads _ _ _ _ _ _ _ Hr). do 3 f_equal.
      rewrite (fold_chosen _ _ _ _ _ (slice_body_no O Od start o W) Hs).
      apply fold_steps_ext. intros s x Hx. apply slice_body_yes; [exact W|].
      apply (picks_id_In _ _ _ _ Hs x) in Hx. tauto.
    - intros s [r|err]; [reflexivity|]. cbn [slice_step on_result].
      destruct (skip_parse_err err skip) eqn:Ek; [|reflexivity].
      destruct Hmode as [->| ->]; [reflexivity|]. destruct err; discriminate. }
  rewrite R. clear R.
  rewrite slice_before by lia. rewrite N.sub_0_r.
  destruct (N.leb_spec (N.of_nat (length sel)) start) as [H|H].
  - exists all, e0, sel, [], e0, [], e0, []. split; [exact Hr|]. split; [exact Hs|]. split; [|split; [|split; [|split]]].
    + exists sel, []. rewrite app_nil_r. split; [reflexivity|]. split; [left; reflexivity|]. cbn [length]. lia.
    + left. split; [lia|reflexivity].
    + left. split; [|auto]. cbn [length]. destruct (N.eq_dec (fo_limit o) 0); [left|right]; lia.
    + apply lines_of_nil.
    + destruct e0; reflexivity.
  - set (tl := skipn (N.to_nat start) sel).
    assert (Ltl : N.of_nat (length tl) = N.of_nat (length sel) - start) by (subst tl; rewrite skipn_length; lia).
    assert (Esel : sel = firstn (N.to_nat start) sel ++ tl) by (symmetry; apply firstn_skipn).
    assert (Lfn : N.of_nat (length (firstn (N.to_nat start) sel)) = start) by (rewrite firstn_length; lia).
    assert (Sub : forall pre rest, tl = pre ++ rest -> Forall from_line pre).
    { intros pre rest E. rewrite Esel, E in F. apply Forall_app in F as [_ F]. apply Forall_app in F. tauto. }
    destruct (slice_inside start (fo_limit o) tl b start 0 []) as
      [(pre & rest & E & H1 & H2 & H3 & s & H4 & H5)|(pre & rest & E & H1 & H2 & s & H3 & H4)];
      [lia|lia| |].
    + (* the limit is reached *)
      assert (Lr : (N.to_nat (b - start) <= length tl \/ length tl <= N.to_nat (b - start))%nat) by lia.
      set (range := firstn (N.to_nat (b - start)) tl).
      assert (Hpre : exists more, range = pre ++ more).
      { exists (firstn (N.to_nat (b - start) - length pre) rest). subst range. rewrite E, firstn_app.
        rewrite firstn_all2 by lia. reflexivity. }
      destruct Hpre as [more Hpre].
      exists all, e0, sel, range,
        (if N.leb (N.of_nat (length sel)) (N.max start b) then e0 else None), pre, None, (flat_map br_write pre).
      split; [exact Hr|]. split; [exact Hs|]. split; [|split; [|split; [|split]]].
      * exists (firstn (N.to_nat start) sel), (skipn (N.to_nat (b - start)) tl). split.
        { rewrite Esel at 1. f_equal. symmetry. apply firstn_skipn. }
        split; [right; exact Lfn|]. subst range. rewrite firstn_length. lia.
      * destruct (N.leb_spec (N.of_nat (length sel)) (N.max start b)); [left|right]; auto.
      * right. rewrite Hpre, app_length. split; [lia|]. split; [lia|]. split; [eauto|reflexivity].
      * apply lines_of_flat. eapply Sub. exact E.
      * rewrite H4. destruct e0; cbn; rewrite H5; reflexivity.
    + exists all, e0, sel, pre, (match rest with [] => e0 | _ => None end), pre,
        (match rest with [] => e0 | _ => None end), (flat_map br_write pre).
      assert (Lp : N.of_nat (length tl) = N.of_nat (length pre) + N.of_nat (length rest)).
      { rewrite E, app_length. lia. }
      split; [exact Hr|]. split; [exact Hs|]. split; [|split; [|split; [|split]]].
      * exists (firstn (N.to_nat start) sel), rest. split; [rewrite Esel at 1; rewrite E; reflexivity|].
        split; [right; exact Lfn|]. lia.
      * destruct rest as [|x rest]; [left|right]; (split; [|reflexivity]); cbn [length] in Lp; lia.
      * left. split; [|auto]. lia.
      * apply lines_of_flat. eapply Sub. exact E.
      * destruct H4 as [[-> ->]|[Hne ->]].
        { destruct e0; cbn; rewrite H3; reflexivity. }
        { destruct rest as [|x rest]; [congruence|]. destruct e0; cbn; rewrite H3; reflexivity. }
Qed.

Lemma slice_exact : forall O Od skip start end_ len stop o files, opts_wf O Od o ->
  slice_stop start end_ len stop -> len = 0 \/ skip = false ->
  exists all e0 sel range e1 recs e out,
    reads skip files all e0 /\ chosen (opts_hold O Od o) all sel
    /\ index_range start stop sel range
    /\ slice_error start stop sel e0 e1
    /\ limited (fo_limit o) range e1 recs e
    /\ lines_of recs out
    /\ slice_run O Od skip start end_ len o files = Some (ended out e).
Proof.
  intros O Od skip start end_ len stop o files W H. apply slice_exact_to; [exact W|].
  apply slice_stop_end. exact H.
Qed.

(** the sum of start and length is too large: nothing is written *)
Lemma slice_overflow : forall O Od start len o files, opts_wf O Od o ->
  start <= 18446744073709551615 -> len <= 18446744073709551615 -> 18446744073709551615 < start + len ->
  exists e, slice_run O Od false start 0 len o files = Some (ended [] e).
Proof.
  intros O Od start len o files W Hs Hl Ho.
  assert (E : slice_end start 0 len = start + len - 18446744073709551616).
  { unfold slice_end, usize_max. cbn [N.ltb N.compare]. destruct (N.ltb_spec 0 len) as [_|H]; [|lia].
    replace (start + len) with (start + len - 18446744073709551616 + 1 * (18446744073709551615 + 1)) at 1 by lia.
    rewrite N.mod_add by lia. apply N.mod_small. lia. }
  destruct (slice_exact_to O Od false start 0 len _ o files W E (or_intror eq_refl))
    as (all & e0 & sel & range & e1 & recs & e & out & _ & _ & (pre & post & _ & _ & HL) & _ & HR & (ts & HF & ->) & H).
  assert (range = []) as -> by (destruct range; [reflexivity|cbn [length] in HL; lia]).
  assert (recs = []) as ->.
  { destruct HR as [(_ & -> & _)|(_ & _ & (rest & R) & _)]; [reflexivity|]. destruct recs; [reflexivity|discriminate]. }
  inversion HF; subst. exists e. exact H.
Qed.

(** ** slice with --length and skipped lines *)

Definition shifted (len c : N) (sel range : list (byte_record * N)) : Prop :=
  exists post, sel = range ++ post
    /\ (forall a x b, range = a ++ x :: b -> c + N.of_nat (length a) < len + snd x)
    /\ (forall x b, post = x :: b -> len + snd x <= c + N.of_nat (length range)).

Lemma shifted_nil : forall len c, shifted len c [] [].
Proof.
  intros len c. exists []. split; [reflexivity|]. split; [|discriminate]. intros a x b E. destruct a; discriminate.
Qed.
Lemma shifted_yes : forall len c x l range, c < len + snd x -> shifted len (c + 1) l range ->
  shifted len c (x :: l) (x :: range).
Proof.
  intros len c x l range H (post & -> & H1 & H2). exists post. split; [reflexivity|]. split.
  - intros [|y a] z b E; injection E as <- E; cbn [length]; [lia|]. specialize (H1 _ _ _ E). lia.
  - intros y b E. specialize (H2 _ _ E). cbn [length]. lia.
Qed.
Lemma shifted_no : forall len c x l, len + snd x <= c -> shifted len c (x :: l) [].
Proof.
  intros len c x l H. exists (x :: l). split; [reflexivity|]. split.
  - intros a y b E. destruct a; discriminate.
  - intros y b E. injection E as <- <-. cbn [length]. lia.
Qed.
Lemma shifted_exists : forall len l c, exists range, shifted len c l range.
Proof.
  intros len. induction l as [|x l IH]; intros c.
  - exists []. apply shifted_nil.
  - destruct (N.ltb_spec c (len + snd x)) as [H|H].
    + destruct (IH (c + 1)) as [range Hr]. exists (x :: range). apply shifted_yes; assumption.
    + exists []. apply shifted_no. exact H.
Qed.

Section Lengthened.
  Variables O Od : oracles.
  Variable o : filter_opts.
  Hypothesis W : opts_wf O Od o.
  Variables start len : N.
  Hypothesis Hlen : 0 < len.

  Lemma step_record : forall s src n l r, record_text r l ->
    slice_step O Od true start len o s (result_of (src, n, l)) = slice_body O Od start o s (mkBR (Some l) r).
  Proof.
    intros s src n l r H. unfold result_of, line_result. cbn [fst snd]. rewrite (record_text_from _ _ H). reflexivity.
  Qed.
  Lemma step_bad : forall end_ i count out src n l, (forall r, ~ record_text r l) -> end_ < usize_max ->
    slice_step O Od true start len o (mkSlice end_ i count out) (result_of (src, n, l))
    = Next (mkSlice (end_ + 1) i count out).
  Proof.
    intros end_ i count out src n l H He. unfold result_of, line_result. cbn [fst snd].
    rewrite (no_record_from _ H). cbn [slice_step skip_parse_err sl_end sl_i sl_count sl_out].
    destruct (N.ltb_spec 0 len) as [_|]; [|lia]. destruct (N.ltb_spec end_ usize_max) as [_|]; [reflexivity|lia].
  Qed.

  (** past the start *)
  Lemma lengthened_inside : forall k ls sel, marked (opts_hold O Od o) k ls sel ->
    start + len + k + N.of_nat (length ls) <= usize_max ->
    forall i count out, start <= i -> fo_limit o = 0 \/ count < fo_limit o ->
    exists range recs s, shifted len (i - start) sel range
      /\ (((fo_limit o = 0 \/ count + N.of_nat (length range) < fo_limit o) /\ recs = map fst range)
          \/ (0 < fo_limit o <= count + N.of_nat (length range) /\ count + N.of_nat (length recs) = fo_limit o
              /\ exists rest, map fst range = recs ++ rest))
      /\ to_ending (fold_steps (slice_step O Od true start len o) (mkSlice (start + len + k) i count out) (map result_of ls))
         = Done s
      /\ sl_out s = out ++ flat_map br_write recs.
  Proof.
    intros k ls sel M.
    induction M as [k|k src n l r ls sel Hr HP M IH|k src n l r ls sel Hr HP M IH|k src n l ls sel Hr M IH];
      intros HU i count out Hi Hc; cbn [length] in HU; cbn [map fold_steps].
    - exists [], [], (mkSlice (start + len + k) i count out). split; [apply shifted_nil|].
      split; [left; split; [cbn [length]; lia|reflexivity]|]. split; [reflexivity|]. cbn. rewrite app_nil_r. reflexivity.
    - rewrite (step_record _ _ _ _ _ Hr), slice_body_yes by assumption. rewrite slice_core_eq.
      destruct (N.leb_spec start i) as [_|]; [|lia]. cbn [andb].
      destruct (N.ltb_spec i (start + len + k)) as [He|He].
      + unfold limit_reached. destruct ((0 <? fo_limit o) && (fo_limit o <=? count + 1)) eqn:L.
        * apply andb_true_iff in L as [L1 L2]. apply N.ltb_lt in L1. apply N.leb_le in L2.
          destruct (shifted_exists len sel (i - start + 1)) as [range Hrange].
          exists ((mkBR (Some l) r, k) :: range), [mkBR (Some l) r], (mkSlice (start + len + k) i (count + 1) (out ++ br_write (mkBR (Some l) r))).
          split; [apply shifted_yes; [cbn [snd]; lia|exact Hrange]|].
          split; [right; cbn [length map fst]; split; [lia|]; split; [lia|]; eexists; reflexivity|].
          split; [reflexivity|]. cbn [sl_out flat_map]. rewrite app_nil_r. reflexivity.
        * assert (L' : fo_limit o = 0 \/ count + 1 < fo_limit o).
          { apply andb_false_iff in L as [L|L]; [apply N.ltb_ge in L|apply N.leb_gt in L]; lia. }
          destruct (IH ltac:(lia) (i + 1) (count + 1) (out ++ br_write (mkBR (Some l) r)) ltac:(lia) L')
            as (range & recs & s & H1 & H2 & H3 & H4).
          exists ((mkBR (Some l) r, k) :: range), (mkBR (Some l) r :: recs), s.
          split; [apply shifted_yes; [cbn [snd]; lia|]; replace (i - start + 1) with (i + 1 - start) by lia; exact H1|].
          split.
          { cbn [length map fst]. destruct H2 as [[H2 ->]|(H2 & H5 & rest & H6)].
            - left. split; [lia|reflexivity].
            - right. split; [lia|]. split; [lia|]. exists rest. rewrite H6. reflexivity. }
          split; [exact H3|]. rewrite H4, <- app_assoc. reflexivity.
      + destruct (N.ltb_spec i start) as [|_]; [lia|].
        exists [], [], (mkSlice (start + len + k) i count out). split; [apply shifted_no; cbn [snd]; lia|].
        split; [left; split; [cbn [length]; lia|reflexivity]|]. split; [reflexivity|]. cbn. rewrite app_nil_r. reflexivity.
    - rewrite (step_record _ _ _ _ _ Hr), slice_body_no by assumption. apply IH; [lia|assumption..].
    - rewrite step_bad by (try assumption; unfold usize_max in *; lia).
      replace (start + len + k + 1) with (start + len + (k + 1)) by lia. apply IH; [lia|assumption..].
  Qed.

  (** before the start *)
  Lemma lengthened_before : forall k ls sel, marked (opts_hold O Od o) k ls sel ->
    start + len + k + N.of_nat (length ls) <= usize_max ->
    forall i, i <= start ->
    exists pre rest range recs s, sel = pre ++ rest
      /\ N.of_nat (length pre) = N.min (start - i) (N.of_nat (length sel)) /\ shifted len 0 rest range
      /\ (((fo_limit o = 0 \/ N.of_nat (length range) < fo_limit o) /\ recs = map fst range)
          \/ (0 < fo_limit o <= N.of_nat (length range) /\ N.of_nat (length recs) = fo_limit o
              /\ exists rest, map fst range = recs ++ rest))
      /\ to_ending (fold_steps (slice_step O Od true start len o) (mkSlice (start + len + k) i 0 []) (map result_of ls))
         = Done s
      /\ sl_out s = flat_map br_write recs.
  Proof.
    intros k ls sel M.
    induction M as [k|k src n l r ls sel Hr HP M IH|k src n l r ls sel Hr HP M IH|k src n l ls sel Hr M IH];
      intros HU i Hi; cbn [length] in HU.
    - exists [], [], [], [], (mkSlice (start + len + k) i 0 []). split; [reflexivity|]. split; [cbn [length]; lia|].
      split; [apply shifted_nil|]. split; [left; split; [cbn [length]; lia|reflexivity]|]. split; reflexivity.
    - destruct (N.eq_dec i start) as [->|Hne].
      + destruct (lengthened_inside _ _ _ (marked_yes _ _ src n _ _ _ _ Hr HP M) ltac:(cbn [length]; lia) start 0 []
                    ltac:(lia) ltac:(lia)) as (range & recs & s & H1 & H2 & H3 & H4).
        rewrite N.sub_diag in H1.
        exists [], ((mkBR (Some l) r, k) :: sel), range, recs, s. split; [reflexivity|]. split; [cbn [length]; lia|].
        split; [exact H1|]. split; [exact H2|]. split; [exact H3|exact H4].
      + cbn [map fold_steps]. rewrite (step_record _ _ _ _ _ Hr), slice_body_yes by assumption. rewrite slice_core_eq.
        destruct (N.leb_spec start i) as [|_]; [lia|]. cbn [andb].
        destruct (N.ltb_spec i start) as [_|]; [|lia].
        destruct (IH ltac:(lia) (i + 1) ltac:(lia)) as (pre & rest & range & recs & s & -> & H1 & H2).
        exists ((mkBR (Some l) r, k) :: pre), rest, range, recs, s. split; [reflexivity|].
        split; [cbn [length app]; lia|exact H2].
    - cbn [map fold_steps]. rewrite (step_record _ _ _ _ _ Hr), slice_body_no by assumption. apply IH; [lia|assumption..].
    - cbn [map fold_steps]. rewrite step_bad by (try assumption; unfold usize_max in *; lia).
      replace (start + len + k + 1) with (start + len + (k + 1)) by lia. apply IH; [lia|assumption..].
  Qed.
End Lengthened.

Lemma marked_from_line : forall P k ls sel, marked P k ls sel -> Forall from_line (map fst sel).
Proof. intros P k ls sel M. induction M; cbn [map fst]; auto. constructor; [|assumption]. exists l. split; [reflexivity|assumption]. Qed.

Lemma slice_lengthened : forall O Od start len o files ls sel, opts_wf O Od o -> 0 < len ->
  input_lines files ls -> start + len + N.of_nat (length ls) <= 18446744073709551615 ->
  marked (opts_hold O Od o) 0 ls sel ->
  exists range recs out, lengthened start len sel range
    /\ limited (fo_limit o) (map fst range) None recs None /\ lines_of recs out
    /\ slice_run O Od true start 0 len o files = Some (Done out).
Proof.
  intros O Od start len o files ls sel W Hlen Hl HU M.
  destruct (lengthened_before O Od o W start len Hlen 0 ls sel M ltac:(unfold usize_max; lia) 0 ltac:(lia))
    as (pre & rest & range & recs & s & E & H1 & (post & H2 & H3 & H4) & H5 & H6 & H7).
  rewrite N.sub_0_r in H1. rewrite N.add_0_r in H6.
  exists range, recs, (flat_map br_write recs). split; [|split; [|split]].
  - exists pre, post. subst rest. split; [exact E|]. split; [exact H1|]. split.
    + intros a x b F. specialize (H3 _ _ _ F). lia.
    + intros x b F. specialize (H4 _ _ F). lia.
  - unfold limited. rewrite map_length. destruct H5 as [[H5 ->]|(H5 & H8 & H9)]; [left; auto|right; auto].
  - apply lines_of_flat. apply marked_from_line in M. rewrite E, H2, !map_app in M.
    apply Forall_app in M as [_ M]. apply Forall_app in M as [M _].
    destruct H5 as [[H5 ->]|(H5 & H8 & r' & H9)]; [exact M|]. rewrite H9 in M. apply Forall_app in M. tauto.
  - unfold slice_run, run_loop.
    assert (Ee : slice_end start 0 len = start + len).
    { apply slice_stop_end. right. left. repeat split; try assumption. lia. }
    rewrite Ee, (files_loop_fold _ _ _ _ Hl), H6. cbn [finish_with]. rewrite H7. reflexivity.
Qed.

Lemma marked_exists : forall O Od o, opts_wf O Od o -> forall ls k, exists sel, marked (opts_hold O Od o) k ls sel.
Proof.
  intros O Od o W. induction ls as [|[[src n] l] ls IH]; intros k; [exists []; constructor|].
  destruct (record_from_bytes l) as [r|] eqn:E.
  - apply record_accept_iff in E. destruct (IH k) as [sel H].
    destruct (decides_cases _ _ (opts_decided O Od o W r)) as [[_ HP]|[_ HP]].
    + exists ((mkBR (Some l) r, k) :: sel). constructor; assumption.
    + exists sel. eapply marked_no; eassumption.
  - destruct (IH (k + 1)) as [sel H]. exists sel. apply marked_bad; [|exact H].
    intros r Hr. apply record_accept_iff in Hr. congruence.
Qed.

Lemma shifted_fun : forall len l c a b, shifted len c l a -> shifted len c l b -> a = b.
Proof.
  intros len. induction l as [|x l IH]; intros c a b (p & Ea & H1 & H2) (q & Eb & G1 & G2).
  - destruct a; [|discriminate]. destruct b; [reflexivity|discriminate].
  - destruct a as [|y a], b as [|z b]; cbn [app length] in *; [reflexivity|..].
    + injection Eb as <- Eb. subst p. specialize (H2 _ _ eq_refl). specialize (G1 [] _ _ eq_refl). cbn [length] in *. lia.
    + injection Ea as <- Ea. subst q. specialize (G2 _ _ eq_refl). specialize (H1 [] _ _ eq_refl). cbn [length] in *. lia.
    + injection Ea as <- Ea. injection Eb as <- Eb. f_equal. apply (IH (c + 1)); [exists p|exists q].
      * split; [exact Ea|]. split.
        { intros u w v E. specialize (H1 (x :: u) w v). cbn [length app] in H1. rewrite E in H1. specialize (H1 eq_refl). lia. }
        { intros w v E. specialize (H2 w v E). lia. }
      * split; [exact Eb|]. split.
        { intros u w v E. specialize (G1 (x :: u) w v). cbn [length app] in G1. rewrite E in G1. specialize (G1 eq_refl). lia. }
        { intros w v E. specialize (G2 w v E). lia. }
Qed.
Lemma lengthened_fun : forall start len sel a b,
  lengthened start len sel a -> lengthened start len sel b -> a = b.
Proof.
  intros start len sel a b (p & p' & E & H1 & H2 & H3) (q & q' & F & G1 & G2 & G3).
  assert (L : length p = length q) by lia. rewrite E in F.
  assert (p = q /\ a ++ p' = b ++ q') as [<- F'].
  { clear -F L. revert q L F. induction p as [|x p IH]; intros [|y q] L F; try discriminate; [split; [reflexivity|exact F]|].
    injection L as L. injection F as <- F. destruct (IH q L F) as [-> F']. auto. }
  apply (shifted_fun len (a ++ p') 0); [exists p'|exists q'].
  - split; [reflexivity|]. split; [intros u w v X; specialize (H2 _ _ _ X)|intros w v X; specialize (H3 _ _ X)]; lia.
  - split; [exact F'|]. split; [intros u w v X; specialize (G2 _ _ _ X)|intros w v X; specialize (G3 _ _ X)]; lia.
Qed.

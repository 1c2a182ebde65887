(** * Proofs about the progress bar *)

From Coq Require Import String.
From Verif Require Import Bytes RecordModel RecordSpec TagOccModel ByteRecordModel ByteRecordSpec ReaderModel ReaderProofs
  MatcherModel Winnow CliModel CliSpec CliProofs CliChunkProofs CliCommandProofs ProgressModel ProgressSpec.

(** ** the progress changes nothing *)

Lemma fold_without : forall S A (f : S -> A -> step S) (g : S * progress -> A -> step (S * progress)),
  (forall s p x, without_progress (g (s, p) x) = f s x) ->
  forall l s p, without_progress (fold_steps g (s, p) l) = fold_steps f s l.
Proof.
  intros S A f g H. induction l as [|x l IH]; intros s p; cbn [fold_steps]; [reflexivity|].
  specialize (H s p x). destruct (g (s, p) x) as [[s1 p1]|[s1 p1]|[s1 p1] e|]; cbn [without_progress fst] in H; rewrite <- H;
    try reflexivity. apply IH.
Qed.

Lemma loop_without : forall S (f : S -> byte_record + read_error -> step S) g,
  (forall s p x, without_progress (g (s, p) x) = f s x) ->
  forall files s p, option_map without_progress (files_loop g (s, p) files) = files_loop f s files.
Proof.
  intros S f g H files s p. destruct (input_lines_exists files) as [ls Hl].
  rewrite !(files_loop_fold _ _ _ _ Hl). cbn [option_map]. f_equal. apply fold_without. exact H.
Qed.

Lemma without_step_with : forall S p (x : step S), without_progress (step_with p x) = x.
Proof. intros S p []; reflexivity. Qed.

Lemma shown_without : forall S skip (body : S -> byte_record -> step S) files s p,
  option_map without_progress (files_loop (shown_result skip (fun s => s) body) (s, p) files)
  = files_loop (on_result skip body) s files.
Proof.
  intros S skip body. apply loop_without. intros s p [r|e]; cbn.
  - apply without_step_with.
  - destruct (skip_parse_err e skip); reflexivity.
Qed.

Lemma slice_without : forall O O' skip start length o files s p,
  option_map without_progress (files_loop (shown_result skip (slice_skip length) (slice_body O O' start o)) (s, p) files)
  = files_loop (slice_step O O' skip start length o) s files.
Proof.
  intros O O' skip start length o. apply loop_without. intros s p [r|e]; unfold shown_result, slice_step; cbn [fst snd].
  - apply without_step_with.
  - destruct (skip_parse_err e skip); [|reflexivity]. unfold slice_skip. destruct (_ && _); reflexivity.
Qed.

Lemma concat_without : forall O sha lossy skip unique files s p,
  option_map without_progress (files_loop (concat_shown O sha lossy skip unique) (s, p) files)
  = files_loop (on_result skip (concat_body O sha lossy unique)) s files.
Proof.
  intros O sha lossy skip unique. apply loop_without. intros [[seen out] tee] p [r|e]; unfold concat_shown, on_result, concat_body; cbn [fst snd].
  - destruct unique as [st|]; [|reflexivity]. destruct (record_key O sha lossy st r); [|reflexivity].
    destruct (_ || _); reflexivity.
  - destruct (skip_parse_err e skip); reflexivity.
Qed.

(** ** the counters *)

Lemma inc_counts : forall n v, n = v mod 18446744073709551616 -> u64_inc n = (v + 1) mod 18446744073709551616.
Proof. intros n v ->. unfold u64_inc. apply N.add_mod_idemp_l. discriminate. Qed.

Lemma update_valid : forall p v i, counts p v i -> counts (progress_update false p) (v + 1) i.
Proof. intros p v i [H1 H2]. split; cbn; [apply inc_counts; exact H1|exact H2]. Qed.

Lemma update_invalid : forall p v i, counts p v i -> counts (progress_update true p) v (i + 1).
Proof. intros p v i [H1 H2]. split; cbn; [exact H1|apply inc_counts; exact H2]. Qed.

Lemma new_counts : counts progress_new 0 0.
Proof. split; reflexivity. Qed.

Lemma tally_exists : forall ls, exists v i, tally ls v i.
Proof.
  induction ls as [|[[s n] l] ls (v & i & IH)]; [exists 0, 0; constructor|].
  destruct (record_text_dec l) as [[r Hr]|Hn]; [exists (v + 1), i|exists v, (i + 1)]; econstructor; eassumption.
Qed.

Lemma tally_fun : forall ls v i v' i', tally ls v i -> tally ls v' i' -> v = v' /\ i = i'.
Proof.
  intros ls v i v' i' H. revert v' i'. induction H as [|s n l r ls v i Hr _ IH|s n l ls v i Hn _ IH]; intros v' i' H'.
  - inversion H'; auto.
  - inversion H' as [|s2 n2 l2 r2 ls2 v2 i2 Hr2 Ht2|s2 n2 l2 ls2 v2 i2 Hn2 Ht2]; subst.
    + destruct (IH _ _ Ht2) as [-> ->]. auto.
    + destruct (Hn2 _ Hr).
  - inversion H' as [|s2 n2 l2 r2 ls2 v2 i2 Hr2 Ht2|s2 n2 l2 ls2 v2 i2 Hn2 Ht2]; subst.
    + destruct (Hn _ Hr2).
    + destruct (IH _ _ Ht2) as [-> ->]. auto.
Qed.

Lemma tally_total : forall ls v i, tally ls v i -> v + i = N.of_nat (length ls).
Proof. induction 1; cbn [length]; lia. Qed.

Lemma result_record : forall s n l r, record_text r l -> result_of (s, n, l) = inl (mkBR (Some l) r).
Proof. intros s n l r H. unfold result_of, line_result. cbn [fst snd]. rewrite (record_text_from _ _ H). reflexivity. Qed.

Lemma result_none : forall s n l, (forall r, ~ record_text r l) -> result_of (s, n, l) = inr (EParse n (Some s)).
Proof. intros s n l H. unfold result_of, line_result. cbn [fst snd]. rewrite (no_record_from _ H). reflexivity. Qed.

Lemma shown_fold : forall S skip on_skip (body : S -> byte_record -> step S) ls s p v0 i0 x q,
  counts p v0 i0 ->
  fold_steps (shown_result skip on_skip body) (s, p) (map result_of ls) = x -> last_progress x = Some q ->
  exists done rest v i, ls = done ++ rest /\ tally done v i /\ counts q (v0 + v) (i0 + i) /\ ends_at skip x done rest.
Proof.
  intros S skip on_skip body. induction ls as [|[[src n] l] ls IH]; intros s p v0 i0 x q Hc Hx Hq.
  - cbn in Hx. subst x. injection Hq as <-. exists [], [], 0, 0. rewrite !N.add_0_r.
    split; [reflexivity|]. split; [constructor|]. split; [exact Hc|constructor].
  - cbn [map fold_steps] in Hx. destruct (record_text_dec l) as [[r Hr]|Hn].
    + rewrite (result_record _ _ _ _ Hr) in Hx. cbn [shown_result fst snd] in Hx.
      assert (Hu := update_valid _ _ _ Hc).
      assert (Hone : forall rest, (forall t, x <> Next t) -> ends_at skip x [(src, n, l)] rest).
      { intros rest Hne. change [(src, n, l)] with ([] ++ [(src, n, l)]). eapply ea_record; eassumption. }
      destruct (body s (mkBR (Some l) r)) as [s1|s1|s1 e|]; cbn [step_with] in Hx.
      * destruct (IH _ _ _ _ _ _ Hu Hx Hq) as (done & rest & v & i & -> & Ht & Hc' & He).
        exists ((src, n, l) :: done), rest, (v + 1), i. split; [reflexivity|]. split; [econstructor; eassumption|].
        split; [replace (v0 + (v + 1)) with (v0 + 1 + v) by lia; exact Hc'|].
        destruct He as [t done|x done src' n' l' r' rest Hr' Hne|t done src' n' l' rest Hk Hn'].
        -- constructor.
        -- change ((src, n, l) :: done ++ [(src', n', l')]) with (((src, n, l) :: done) ++ [(src', n', l')]).
           eapply ea_record; eassumption.
        -- apply ea_invalid; assumption.
      * subst x. injection Hq as <-. exists [(src, n, l)], ls, (0 + 1), 0. split; [reflexivity|].
        split; [econstructor; [eassumption|constructor]|]. rewrite N.add_0_r, N.add_0_l. split; [exact Hu|apply Hone; discriminate].
      * subst x. injection Hq as <-. exists [(src, n, l)], ls, (0 + 1), 0. split; [reflexivity|].
        split; [econstructor; [eassumption|constructor]|]. rewrite N.add_0_r, N.add_0_l. split; [exact Hu|apply Hone; discriminate].
      * subst x. discriminate Hq.
    + rewrite (result_none _ _ _ Hn) in Hx. cbn [shown_result fst snd skip_parse_err] in Hx. destruct skip.
      * assert (Hu := update_invalid _ _ _ Hc).
        destruct (IH _ _ _ _ _ _ Hu Hx Hq) as (done & rest & v & i & -> & Ht & Hc' & He).
        exists ((src, n, l) :: done), rest, v, (i + 1). split; [reflexivity|]. split; [constructor; assumption|].
        split; [replace (i0 + (i + 1)) with (i0 + 1 + i) by lia; exact Hc'|].
        destruct He as [t done|x done src' n' l' r' rest Hr' Hne|t done src' n' l' rest Hk Hn'].
        -- constructor.
        -- change ((src, n, l) :: done ++ [(src', n', l')]) with (((src, n, l) :: done) ++ [(src', n', l')]).
           eapply ea_record; eassumption.
        -- discriminate Hk.
      * subst x. injection Hq as <-. exists [], ((src, n, l) :: ls), 0, 0. rewrite !N.add_0_r.
        split; [reflexivity|]. split; [constructor|]. split; [exact Hc|]. apply ea_invalid; auto.
Qed.

Lemma shown_counts : forall S skip on_skip (body : S -> byte_record -> step S) files ls s x q,
  input_lines files ls -> files_loop (shown_result skip on_skip body) (s, progress_new) files = Some x ->
  last_progress x = Some q ->
  exists done rest v i, ls = done ++ rest /\ tally done v i /\ counts q v i /\ ends_at skip x done rest.
Proof.
  intros S skip on_skip body files ls s x q Hl Hx Hq. rewrite (files_loop_fold _ _ _ _ Hl) in Hx.
  injection Hx as Hx. exact (shown_fold _ _ _ _ _ _ _ _ _ _ _ new_counts Hx Hq).
Qed.

(** ** concat *)

Lemma concat_fold : forall O sha lossy skip unique ls seen out tee p v0 i0 x q,
  counts p v0 i0 ->
  fold_steps (concat_shown O sha lossy skip unique) (seen, out, tee, p) (map result_of ls) = x -> last_progress x = Some q ->
  exists done rest v i kept, ls = done ++ rest /\ tally done v i
    /\ counts q (v0 + N.of_nat (length kept)) (i0 + i) /\ N.of_nat (length kept) <= v
    /\ (unique = None -> N.of_nat (length kept) = v)
    /\ (exists sn' t', without_progress x = Next (sn', out ++ concat kept, t')
        \/ exists e, without_progress x = Fail (sn', out ++ concat kept, t') e) /\ ends_at skip x done rest
    /\ exists dropped, Split (map snd done) kept dropped.
Proof.
  intros O sha lossy skip unique. induction ls as [|[[src n] l] ls IH]; intros seen out tee p v0 i0 x q Hc Hx Hq.
  - cbn in Hx. subst x. injection Hq as <-. exists [], [], 0, 0, []. cbn [length concat]. rewrite !N.add_0_r.
    split; [reflexivity|]. split; [constructor|]. split; [exact Hc|]. split; [lia|]. split; [reflexivity|].
    split; [exists seen, tee; left; rewrite app_nil_r; reflexivity|]. split; [constructor|]. exists []. constructor.
  - assert (Hcons : forall x done rest, ends_at skip x done rest ->
       ends_at skip (S := concat_state * progress) x ((src, n, l) :: done) rest).
    { intros y done rest He. destruct He as [t done|y done src' n' l' r' rest Hr' Hne|t done src' n' l' rest Hk Hn'].
      - constructor.
      - change ((src, n, l) :: done ++ [(src', n', l')]) with (((src, n, l) :: done) ++ [(src', n', l')]).
        eapply ea_record; eassumption.
      - apply ea_invalid; assumption. }
    cbn [map fold_steps] in Hx. destruct (record_text_dec l) as [[r Hr]|Hn].
    + rewrite (result_record _ _ _ _ Hr) in Hx. cbn [concat_shown] in Hx.
      assert (Hw : forall seen', fold_steps (concat_shown O sha lossy skip unique)
          (seen', out ++ br_write (mkBR (Some l) r), tee ++ br_write (mkBR (Some l) r), progress_update false p) (map result_of ls) = x ->
        exists done rest v i kept, (src, n, l) :: ls = done ++ rest /\ tally done v i
    /\ counts q (v0 + N.of_nat (length kept)) (i0 + i) /\ N.of_nat (length kept) <= v
    /\ (unique = None -> N.of_nat (length kept) = v)
    /\ (exists sn' t', without_progress x = Next (sn', out ++ concat kept, t')
        \/ exists e, without_progress x = Fail (sn', out ++ concat kept, t') e) /\ ends_at skip x done rest
    /\ exists dropped, Split (map snd done) kept dropped).
      { intros seen' Hx'. destruct (IH _ _ _ _ _ _ _ _ (update_valid _ _ _ Hc) Hx' Hq)
          as (done & rest & v & i & kept & -> & Ht & Hc' & Hle & Hu & Ho & He & dropped & Hs).
        exists ((src, n, l) :: done), rest, (v + 1), i, (l :: kept). split; [reflexivity|]. split; [econstructor; eassumption|].
        split; [cbn [length]; replace (v0 + N.of_nat (Datatypes.S (length kept))) with (v0 + 1 + N.of_nat (length kept)) by lia; exact Hc'|].
        split; [cbn [length]; lia|]. split; [intros E; specialize (Hu E); cbn [length]; lia|].
        split; [|split; [apply Hcons; exact He|exists dropped; cbn [map snd]; constructor; exact Hs]].
        destruct Ho as (sn' & t' & Ho). exists sn', t'. cbn [concat]. change (br_write (mkBR (Some l) r)) with l in Ho.
        rewrite <- app_assoc in Ho. exact Ho. }
      destruct unique as [st|]; [|apply (Hw seen); exact Hx].
      destruct (record_key O sha lossy st (mkBR (Some l) r)) as [key|]; [|subst x; discriminate Hq].
      destruct (mem_bytes key seen || bytes_eqb key []); [|apply (Hw (key :: seen)); exact Hx].
      destruct (IH _ _ _ _ _ _ _ _ Hc Hx Hq)
          as (done & rest & v & i & kept & -> & Ht & Hc' & Hle & Hu & Ho & He & dropped & Hs).
      exists ((src, n, l) :: done), rest, (v + 1), i, kept. split; [reflexivity|]. split; [econstructor; eassumption|].
      split; [exact Hc'|]. split; [lia|]. split; [discriminate|]. split; [exact Ho|]. split; [apply Hcons; exact He|].
      exists (l :: dropped). cbn [map snd]. constructor. exact Hs.
    + rewrite (result_none _ _ _ Hn) in Hx. cbn [concat_shown fst snd skip_parse_err] in Hx. destruct skip.
      * destruct (IH _ _ _ _ _ _ _ _ (update_invalid _ _ _ Hc) Hx Hq)
          as (done & rest & v & i & kept & -> & Ht & Hc' & Hle & Hu & Ho & He & dropped & Hs).
        exists ((src, n, l) :: done), rest, v, (i + 1), kept. split; [reflexivity|]. split; [constructor; assumption|].
        split; [replace (i0 + (i + 1)) with (i0 + 1 + i) by lia; exact Hc'|]. split; [exact Hle|]. split; [exact Hu|].
        split; [exact Ho|]. split; [apply Hcons; exact He|]. exists (l :: dropped). cbn [map snd]. constructor. exact Hs.
      * subst x. injection Hq as <-. exists [], ((src, n, l) :: ls), 0, 0, []. cbn [length concat]. rewrite !N.add_0_r.
        split; [reflexivity|]. split; [constructor|]. split; [exact Hc|]. split; [lia|]. split; [reflexivity|].
        split; [exists seen, tee; right; eexists; rewrite app_nil_r; reflexivity|]. split; [apply ea_invalid; auto|]. exists []. constructor.
Qed.

(** ** invalid *)

Lemma invalid_file_tally : forall s ls n nls, numbered s n ls nls -> forall b, is_lines b ls -> forall fuel p v0 i0,
  (length b < fuel)%nat -> counts p v0 i0 ->
  exists out q v i, invalid_file_shown fuel b p = Some (out, q) /\ invalid_file fuel b = Some out
    /\ tally nls v i /\ counts q (v0 + v) (i0 + i).
Proof.
  intros s ls n nls Hnum. induction Hnum as [n|n l ls nls Hnum IH]; intros b Hb fuel p v0 i0 Hf Hc.
  - inversion Hb; subst. destruct fuel; [lia|]. exists [], p, 0, 0. rewrite !N.add_0_r. repeat split; try constructor; apply Hc.
  - destruct fuel as [|fuel]; [lia|].
    assert (Hread : exists rest, read_until_lf b = (l, rest) /\ is_lines rest ls /\ l <> [] /\ (length rest < length b)%nat).
    { inversion Hb as [|b' Hne Hnolf|a b' ls' Ha Hl']; subst.
      - exists []. split; [apply read_until_last; assumption|]. split; [constructor|]. split; [assumption|].
        destruct l; [congruence|cbn; lia].
      - exists b'. split; [apply read_until_line; assumption|]. split; [assumption|].
        split; [destruct a; discriminate|]. rewrite !app_length. cbn. lia. }
    destruct Hread as (rest & Hr & Hls & Hne & Hlen). cbn [invalid_file_shown invalid_file]. rewrite Hr.
    destruct l as [|c l]; [congruence|].
    destruct (record_text_dec (c :: l)) as [[r Hrt]|Hno].
    + unfold br_from_bytes. rewrite (record_text_from _ _ Hrt).
      destruct (IH rest Hls fuel _ _ _ ltac:(lia) (update_valid _ _ _ Hc)) as (out & q & v & i & -> & -> & Ht & Hc').
      exists out, q, (v + 1), i. split; [reflexivity|]. split; [reflexivity|]. split; [econstructor; eassumption|].
      replace (v0 + (v + 1)) with (v0 + 1 + v) by lia. exact Hc'.
    + unfold br_from_bytes. rewrite (no_record_from _ Hno).
      destruct (IH rest Hls fuel _ _ _ ltac:(lia) (update_invalid _ _ _ Hc)) as (out & q & v & i & -> & -> & Ht & Hc').
      exists ((c :: l) ++ out), q, v, (i + 1). split; [reflexivity|]. split; [reflexivity|]. split; [constructor; assumption|].
      replace (i0 + (i + 1)) with (i0 + 1 + i) by lia. exact Hc'.
Qed.

Lemma tally_app : forall a v i, tally a v i -> forall b v' i', tally b v' i' -> tally (a ++ b) (v + v') (i + i').
Proof.
  induction 1 as [|s n l r ls v i Hr _ IH|s n l ls v i Hn _ IH]; intros b v' i' Hb; cbn [app].
  - exact Hb.
  - replace (v + 1 + v') with (v + v' + 1) by lia. econstructor; [eassumption|]. apply IH. exact Hb.
  - replace (i + 1 + i') with (i + i' + 1) by lia. constructor; [assumption|]. apply IH. exact Hb.
Qed.

Lemma invalid_run_tally : forall files ls, input_lines files ls -> forall p v0 i0, counts p v0 i0 ->
  exists out q v i, invalid_run_shown files p = Some (out, q) /\ invalid_run files = Some out
    /\ tally ls v i /\ counts q (v0 + v) (i0 + i).
Proof.
  induction 1 as [|name content rest s ls nls more Hs Hl Hn _ IH]; intros p v0 i0 Hc.
  - exists [], p, 0, 0. rewrite !N.add_0_r. repeat split; try constructor; apply Hc.
  - destruct (invalid_file_tally _ _ _ _ Hn content Hl (Datatypes.S (length content)) p v0 i0 ltac:(lia) Hc)
      as (o1 & q1 & v1 & i1 & E1 & E2 & Ht1 & Hc1).
    destruct (IH q1 _ _ Hc1) as (o2 & q2 & v2 & i2 & E3 & E4 & Ht2 & Hc2).
    exists (o1 ++ o2), q2, (v1 + v2), (i1 + i2). cbn [invalid_run_shown invalid_run]. rewrite E1, E2. cbn [fst snd].
    rewrite E3, E4. split; [reflexivity|]. split; [reflexivity|]. split; [apply tally_app; assumption|].
    rewrite !N.add_assoc. exact Hc2.
Qed.

Lemma invalid_counts : forall files ls, input_lines files ls ->
  exists out q v i, invalid_run_shown files progress_new = Some (out, q) /\ invalid_run files = Some out
    /\ tally ls v i /\ counts q v i.
Proof. intros files ls H. exact (invalid_run_tally _ _ H _ _ _ new_counts). Qed.

(** ** the message *)

Lemma comma_group : forall ds, ds <> [] -> exists first groups, ds = first ++ concat groups
  /\ (1 <= length first <= 3)%nat /\ Forall (fun g => length g = 3%nat) groups
  /\ comma_digits ds = first ++ flat_map (fun g => 44 :: g) groups.
Proof.
  induction ds as [|c ds IH]; intros Hne; [congruence|]. destruct ds as [|d ds].
  - exists [c], []. cbn. repeat split; try lia; constructor.
  - destruct (IH ltac:(discriminate)) as (first & groups & E & Hl & Hg & Hc).
    set (t := d :: ds) in *. change (comma_digits (c :: t)) with
      (c :: (if (0 <? N.of_nat (length t)) && (N.of_nat (length t) mod 3 =? 0) then [44] else []) ++ comma_digits t).
    assert (Hlen : exists k, N.of_nat (length t) = N.of_nat (length first) + k * 3).
    { exists (N.of_nat (length groups)). rewrite E, app_length. clear - Hg.
      assert (length (concat groups) = (length groups * 3)%nat); [|lia].
      induction Hg as [|g groups Hg _ IH]; [reflexivity|]. cbn [concat length]. rewrite app_length, Hg, IH. lia. }
    destruct Hlen as [k Hk].
    assert (Hm : N.of_nat (length t) mod 3 = N.of_nat (length first) mod 3) by (rewrite Hk; apply N.mod_add; discriminate).
    rewrite Hm, Hc. replace (0 <? N.of_nat (length t)) with true by (symmetry; apply N.ltb_lt; cbn; lia). cbn [andb].
    destruct (Nat.eq_dec (length first) 3) as [E3|E3].
    + exists [c], (first :: groups). rewrite E3. cbn [N.of_nat]. cbn.
      rewrite <- E. repeat split; try lia; auto.
    + exists (c :: first), groups. rewrite N.mod_small by lia.
      replace (N.of_nat (length first) =? 0) with false by (symmetry; apply N.eqb_neq; lia).
      cbn [app length]. rewrite <- E. repeat split; try lia; auto.
Qed.

Lemma human_groups : forall n, in_groups n (human_count n).
Proof.
  intros n. assert (Hd := dec_spec n). assert (Hne : dec n <> []) by apply Hd.
  destruct (comma_group (dec n) Hne) as (first & groups & E & Hl & Hg & Hc).
  exists first, groups. rewrite <- E. auto.
Qed.

Lemma concat_counts : forall O sha lossy skip unique files ls x q,
  input_lines files ls -> files_loop (concat_shown O sha lossy skip unique) ([], [], [], progress_new) files = Some x ->
  last_progress x = Some q ->
  exists done rest v i kept, ls = done ++ rest /\ tally done v i
    /\ counts q (N.of_nat (length kept)) i /\ N.of_nat (length kept) <= v
    /\ (unique = None -> N.of_nat (length kept) = v)
    /\ (exists sn' t', without_progress x = Next (sn', concat kept, t')
        \/ exists e, without_progress x = Fail (sn', concat kept, t') e) /\ ends_at skip x done rest
    /\ exists dropped, Split (map snd done) kept dropped.
Proof.
  intros O sha lossy skip unique files ls x q Hl Hx Hq. rewrite (files_loop_fold _ _ _ _ Hl) in Hx.
  injection Hx as Hx. exact (concat_fold _ _ _ _ _ _ _ _ _ _ _ _ _ _ new_counts Hx Hq).
Qed.

Lemma message_parts : forall p k, exists a b c, in_groups (pg_records p) a /\ in_groups (pg_invalid p) b /\ in_groups k c
  /\ progress_message p k = a ++ lit " records, " ++ b ++ lit " invalid | " ++ c ++ lit " records/s".
Proof.
  intros p k. exists (human_count (pg_records p)), (human_count (pg_invalid p)), (human_count k).
  repeat split; apply human_groups.
Qed.

Definition no_comma (c : byte) : bool := negb (c =? 44).

Lemma digits_no_comma : forall t, Forall (fun c => In c digits) t -> filter no_comma t = t.
Proof.
  induction 1 as [|c t Hc _ IH]; [reflexivity|]. cbn [filter].
  assert (E : no_comma c = true) by (cbn in Hc; unfold no_comma; destruct Hc as [<-|[<-|[<-|[<-|[<-|[<-|[<-|[<-|[<-|[<-|[]]]]]]]]]]]; reflexivity).
  rewrite E, IH. reflexivity.
Qed.

Lemma groups_value : forall n m t, in_groups n t -> in_groups m t -> n = m.
Proof.
  assert (H : forall n t, in_groups n t -> decimal n (filter no_comma t)).
  { intros n t (first & groups & Hd & _ & _ & ->).
    assert (E : filter no_comma (first ++ flat_map (fun g => 44 :: g) groups) = first ++ concat groups); [|rewrite E; exact Hd].
    destruct Hd as [Hd _]. apply Forall_app in Hd. destruct Hd as [Hf Hg]. rewrite filter_app, (digits_no_comma _ Hf). f_equal.
    induction groups as [|g groups IH]; [reflexivity|]. cbn [concat flat_map] in *. apply Forall_app in Hg. destruct Hg as [Hg1 Hg2].
    cbn [app filter]. replace (no_comma 44) with false by reflexivity. rewrite filter_app, (digits_no_comma _ Hg1), (IH Hg2). reflexivity. }
  intros n m t Hn Hm. exact (decimal_value _ _ _ (H _ _ Hn) (H _ _ Hm)).
Qed.

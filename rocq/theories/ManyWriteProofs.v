(** * Proofs about many outputs that can fail *)

From Coq Require Import String Permutation.
From Verif Require Import Bytes Winnow RecordModel BaseProofs ByteRecordModel ReaderModel MatcherModel MatcherSpec PathModel QuerySpec
  CliModel CliSpec CliProofs CliCommandProofs CliOutputProofs CliChunkProofs OptionsModel IoModel IoSpec IoProofs
  WriteModel WriteSpec WriteProofs WriteCommandProofs DiskModel DirModel ManyWriteModel ManyWriteSpec.

(** ** Two runs of the loops *)

Section Sim.
  Context {A B : Type}.
  Variables (body : A -> byte_record -> io_ending A) (body' : B -> byte_record -> io_ending B) (skip : bool).
  (** in step; something has failed *)
  Variables (R : A -> B -> Prop) (T : A -> B -> cli_error -> Prop).
  Hypothesis Hbody : forall a b r, R a b ->
    match body' b r with
    | IDone b' => exists a', body a r = IDone a' /\ R a' b'
    | IStopped b' => exists a', body a r = IStopped a' /\ R a' b'
    | IFailed b' e =>
        (exists a', body a r = IFailed a' e /\ R a' b')
        \/ exists a', (body a r = IDone a' \/ body a r = IStopped a') /\ T a' b' e
    | IPanicked => body a r = IPanicked
    end.
  Hypothesis Hgrow : forall a b e r, T a b e ->
    match body a r with
    | IDone a' | IStopped a' | IFailed a' _ => T a' b e
    | IPanicked => True
    end.

  Definition torn_at (b : B) (e : cli_error) (x : option (io_ending A)) : Prop :=
    match x with
    | Some (IDone a) | Some (IStopped a) | Some (IFailed a _) => T a b e
    | _ => True
    end.

  Definition in_step (x : option (io_ending A)) (y : option (io_ending B)) : Prop :=
    match y with
    | None => x = None
    | Some (IDone b) => exists a, x = Some (IDone a) /\ R a b
    | Some (IStopped b) => exists a, x = Some (IStopped a) /\ R a b
    | Some (IFailed b e) => (exists a, x = Some (IFailed a e) /\ R a b) \/ torn_at b e x
    | Some IPanicked => x = Some IPanicked
    end.

  Lemma reader_torn : forall fuel a b e rd, T a b e -> torn_at b e (io_reader_loop (fun s => s) body skip fuel a rd).
  Proof.
    induction fuel as [|fuel IH]; intros a b e rd H; cbn [io_reader_loop]; [exact I|].
    destruct (io_next_byte_record rd) as [[[r|e']|] rd'].
    - specialize (Hgrow a b e r H). destruct (body a r); try exact Hgrow. apply IH. exact Hgrow.
    - destruct (pica_skip e' skip); [apply IH; exact H|exact H].
    - exact H.
  Qed.

  Lemma files_torn : forall files a b e, T a b e -> torn_at b e (io_files_loop (fun s => s) body skip a files).
  Proof.
    induction files as [|[name [rs|k]] files IH]; intros a b e H; cbn [io_files_loop]; try exact H.
    pose proof (reader_torn (S (source_size (io_inner (io_reader_new rs (Some name))))) a b e
      (io_reader_new rs (Some name)) H) as Hr.
    destruct (io_reader_loop _ _ _ _ _ _) as [[a'|a'|a' e'|]|]; try exact Hr. apply IH. exact Hr.
  Qed.

  Lemma reader_step : forall fuel a b rd, R a b ->
    in_step (io_reader_loop (fun s => s) body skip fuel a rd) (io_reader_loop (fun s => s) body' skip fuel b rd).
  Proof.
    induction fuel as [|fuel IH]; intros a b rd H; cbn [io_reader_loop]; [reflexivity|].
    destruct (io_next_byte_record rd) as [[[r|e]|] rd'].
    - pose proof (Hbody a b r H) as Hb. destruct (body' b r) as [b'|b'|b' e|]; cbn [in_step].
      + destruct Hb as (a' & -> & Hr). apply IH. exact Hr.
      + destruct Hb as (a' & -> & Hr). eauto.
      + destruct Hb as [(a' & -> & Hr)|(a' & Ha & Ht)]; [left; eauto|right].
        destruct Ha as [-> | ->]; [apply reader_torn; exact Ht|exact Ht].
      + rewrite Hb. reflexivity.
    - destruct (pica_skip e skip); [apply IH; exact H|]. cbn. left. eauto.
    - cbn. eauto.
  Qed.

  Lemma files_step : forall files a b, R a b ->
    in_step (io_files_loop (fun s => s) body skip a files) (io_files_loop (fun s => s) body' skip b files).
  Proof.
    induction files as [|[name [rs|k]] files IH]; intros a b H; cbn [io_files_loop].
    - cbn. eauto.
    - set (rd := io_reader_new rs (Some name)).
      pose proof (reader_step (S (source_size (io_inner rd))) a b rd H) as Hr.
      destruct (io_reader_loop (fun s => s) body' skip _ b rd) as [[b'|b'|b' e|]|]; cbn [in_step] in *.
      + destruct Hr as (a' & -> & Hr). apply IH. exact Hr.
      + destruct Hr as (a' & -> & Hr). eauto.
      + destruct Hr as [(a' & -> & Hr)|Ht]; [left; eauto|right].
        destruct (io_reader_loop (fun s => s) body skip _ a rd) as [[a'|a'|a' e'|]|]; try exact Ht.
        apply files_torn. exact Ht.
      + rewrite Hr. reflexivity.
      + rewrite Hr. reflexivity.
    - cbn. left. eauto.
  Qed.
End Sim.

Lemma io_guarded_as : forall S sel (body : S -> byte_record -> step S) s r,
  as_io (guarded sel body s r) = io_guarded sel (fun s r => as_io (body s r)) s r.
Proof. intros S sel body s r. unfold guarded, io_guarded. destruct (sel (br_record r)) as [[]|]; reflexivity. Qed.

Lemma many_exit_io : forall C k (c : C), many_exit (CIo k) c = MExited (match k with BrokenPipe => 0 | _ => 2 end) c.
Proof. intros C [] c; reflexivity. Qed.

Lemma drop_faultless : forall w, (forall k, ~ can_fail (bw_sink w) k) -> bw_drop w = bw_all w.
Proof.
  intros w H. unfold bw_drop. destruct (bw_flush w) as [e w'] eqn:E.
  destruct (bw_flush_spec (fun _ => False) w e w' H E) as (H1 & _ & H2). cbn [snd].
  destruct e; [destruct H2|]. rewrite <- H1. unfold bw_all. rewrite H2, app_nil_r. reflexivity.
Qed.

Section Many.
  Variable cap : nat.
  Variable cut : bytes -> list bytes.
  Variable opening : nat -> bytes -> sink + io_kind.
  Variables O Od : oracles.
  Hypothesis Hcut : divides cut.
  Hypothesis Hnew : new_files opening.

  (** an open output: everything was accepted, and it fails only as its opening says *)
  Definition holds (i : nat) (x : output_at) (p t : bytes) : Prop :=
    fst x = p /\ only (failing (opening i p)) (bw_sink (snd x)) /\ bw_all (snd x) = t.

  Lemma holds_new : forall i p sk, opening i p = inl sk -> holds i (p, mkBuf [] sk) p [].
  Proof.
    intros i p sk H. split; [reflexivity|]. cbn. rewrite H. split; [intros k Hk; exact Hk|].
    unfold bw_all. cbn. rewrite (Hnew _ _ _ H). reflexivity.
  Qed.

  (** ** split without failures *)

  Record gsplit := mkG { g_num : N; g_count : N; g_done : list (bytes * bytes); g_open : bytes * bytes }.
  Definition g_files (g : gsplit) : list (bytes * bytes) := g_done g ++ [g_open g].

  Section Split.
  Variables (outdir template : bytes) (size : N) (o : filter_opts).

  Definition g_core (g : gsplit) (r : byte_record) : gsplit :=
    if (0 <? g_count g) && (u32 (g_count g) mod size =? 0) then
      mkG (u32 (g_num g + 1)) (g_count g + 1) (g_files g) (chunk_path outdir template (u32 (g_num g + 1)), br_write r)
    else mkG (g_num g) (g_count g + 1) (g_done g) (fst (g_open g), snd (g_open g) ++ br_write r).

  Definition g_step (g : gsplit) (r : byte_record) : step gsplit :=
    if limit_reached (fo_limit o) (g_count g + 1) then Halt (g_core g r) else Next (g_core g r).

  Definition g_start : gsplit := mkG 0 0 [] (chunk_path outdir template 0, []).

  Lemma g_core_count : forall g r, g_count (g_core g r) = g_count g + 1.
  Proof. intros g r. unfold g_core. destruct (_ && _); reflexivity. Qed.

  (** the files grow *)
  Lemma g_core_files : forall g r,
    g_files (g_core g r) = g_files g ++ [g_open (g_core g r)]
    \/ (g_files (g_core g r) = g_done g ++ [g_open (g_core g r)] /\ fst (g_open (g_core g r)) = fst (g_open g)
        /\ is_prefix (snd (g_open g)) (snd (g_open (g_core g r)))).
  Proof.
    intros g r. unfold g_core. destruct (_ && _); [left; reflexivity|right]. cbn. repeat split. apply prefix_app.
  Qed.

  Definition R (g : gsplit) (s : wsplit) : Prop :=
    wp_chunks s = g_num g /\ wp_count s = g_count g /\ wp_done s = g_done g
    /\ holds (length (g_done g)) (wp_open s) (fst (g_open g)) (snd (g_open g)).

  Definition T (g : gsplit) (s : wsplit) (e : cli_error) : Prop :=
    (exists t rest, g_files g = wp_done s ++ (fst (wp_open s), t) :: rest /\ is_prefix (bw_all (snd (wp_open s))) t)
    /\ exists k, e = CIo k /\ one_fails opening (g_files g) k.

  Lemma grow_file : forall g r i p t, nth_error (g_files g) i = Some (p, t) ->
    exists t', nth_error (g_files (g_core g r)) i = Some (p, t').
  Proof.
    intros g r i p t H. destruct (g_core_files g r) as [->|(-> & E & _)].
    - exists t. rewrite nth_error_app1; [exact H|]. apply nth_error_Some. congruence.
    - unfold g_files in H. destruct (Nat.lt_ge_cases i (length (g_done g))) as [L|L].
      + rewrite nth_error_app1 in H by exact L. exists t. rewrite nth_error_app1 by exact L. exact H.
      + rewrite nth_error_app2 in H by exact L. rewrite nth_error_app2 by exact L.
        destruct (i - length (g_done g))%nat as [|n].
        * cbn in H |- *. injection H as H. destruct (g_open (g_core g r)) as [p' t']. rewrite H in E. cbn in E. subst p'. eauto.
        * destruct n; discriminate.
  Qed.

  Lemma T_core : forall g s e r, T g s e -> T (g_core g r) s e.
  Proof.
    intros g s e r ((t & rest & Hf & Hp) & k & -> & i & p & t' & Hi & Hk). split.
    - destruct (g_core_files g r) as [->|(-> & E & Hpre)].
      + exists t, (rest ++ [g_open (g_core g r)]). split; [|exact Hp]. rewrite Hf, <- app_assoc. reflexivity.
      + unfold g_files in Hf. destruct rest as [|x rest _] using rev_ind.
        * apply app_inj_tail in Hf as [Hd Ho]. rewrite Hd, Ho in *. cbn [fst snd] in *.
          exists (snd (g_open (g_core g r))), []. split; [|eapply prefix_trans; eassumption].
          rewrite <- E. destruct (g_open (g_core g r)); reflexivity.
        * change ((fst (wp_open s), t) :: rest ++ [x]) with (((fst (wp_open s), t) :: rest) ++ [x]) in Hf.
          rewrite app_assoc in Hf. apply app_inj_tail in Hf as [Hd _]. rewrite Hd.
          exists t, (rest ++ [g_open (g_core g r)]). split; [|exact Hp]. rewrite <- app_assoc. reflexivity.
    - exists k. split; [reflexivity|]. destruct (grow_file g r i p t' Hi) as [t'' Hi']. exists i, p, t''. auto.
  Qed.

  Lemma T_grow : forall g s e r, T g s e ->
    match io_guarded (opts_select O Od o) (fun g r => as_io (g_step g r)) g r with
    | IDone g' | IStopped g' | IFailed g' _ => T g' s e
    | IPanicked => True
    end.
  Proof.
    intros g s e r H. unfold io_guarded. destruct (opts_select O Od o (br_record r)) as [[]|]; auto.
    unfold g_step. destruct (limit_reached _ _); apply T_core; exact H.
  Qed.

  Lemma last_file : forall g, nth_error (g_files g) (length (g_done g)) = Some (g_open g).
  Proof. intros g. unfold g_files. rewrite nth_error_app2, Nat.sub_diag by lia. reflexivity. Qed.

  (** a write to the open output *)
  Lemma wsplit_write_step : forall g s r g', R g s ->
    g' = mkG (g_num g) (g_count g + 1) (g_done g) (fst (g_open g), snd (g_open g) ++ br_write r) ->
    match wsplit_write cap cut o s r with
    | IDone s' => limit_reached (fo_limit o) (g_count g + 1) = false /\ R g' s'
    | IStopped s' => limit_reached (fo_limit o) (g_count g + 1) = true /\ R g' s'
    | IFailed s' e => T g' s' e
    | IPanicked => False
    end.
  Proof.
    intros g s r g' (H1 & H2 & H3 & Hp & HK & Ht) ->. unfold wsplit_write.
    destruct (bw_write_list cap (snd (wp_open s)) (cut (br_write r))) as [e w] eqn:E.
    destruct (bw_write_list_spec _ _ _ _ _ _ HK E) as (HK' & Hw). rewrite Hcut, Ht in Hw.
    destruct e as [k|].
    - destruct Hw as [Hk Hw]. split.
      + exists (snd (g_open g) ++ br_write r), []. cbn [wp_done wp_open fst snd]. rewrite H3, Hp. split; [reflexivity|exact Hw].
      + exists k. split; [reflexivity|].
        exists (length (g_done g)), (fst (g_open g)), (snd (g_open g) ++ br_write r). split; [|exact Hk].
        exact (last_file (mkG (g_num g) (g_count g + 1) (g_done g) (fst (g_open g), snd (g_open g) ++ br_write r))).
    - cbv zeta. cbn [wp_count]. rewrite H2.
      assert (HR : R (mkG (g_num g) (g_count g + 1) (g_done g) (fst (g_open g), snd (g_open g) ++ br_write r))
                     (mkWSplit (wp_chunks s) (g_count g + 1) (wp_done s) (fst (wp_open s), w))).
      { split; [exact H1|]. split; [reflexivity|]. split; [exact H3|]. split; [exact Hp|]. split; [exact HK'|exact Hw]. }
      destruct (limit_reached (fo_limit o) (g_count g + 1)); split; auto.
  Qed.

  Lemma split_sim : forall g s r, R g s ->
    match wsplit_body cap cut opening O Od outdir template size o s r with
    | IDone s' => exists g', io_guarded (opts_select O Od o) (fun g r => as_io (g_step g r)) g r = IDone g' /\ R g' s'
    | IStopped s' => exists g', io_guarded (opts_select O Od o) (fun g r => as_io (g_step g r)) g r = IStopped g' /\ R g' s'
    | IFailed s' e =>
        (exists g', io_guarded (opts_select O Od o) (fun g r => as_io (g_step g r)) g r = IFailed g' e /\ R g' s')
        \/ exists g', (io_guarded (opts_select O Od o) (fun g r => as_io (g_step g r)) g r = IDone g'
                       \/ io_guarded (opts_select O Od o) (fun g r => as_io (g_step g r)) g r = IStopped g') /\ T g' s' e
    | IPanicked => io_guarded (opts_select O Od o) (fun g r => as_io (g_step g r)) g r = IPanicked
    end.
  Proof.
    intros g s r HR. unfold wsplit_body, io_guarded.
    destruct (opts_select O Od o (br_record r)) as [[]|]; [|eauto|reflexivity].
    assert (Hpure : forall s' e, T (g_core g r) s' e ->
       exists g', (as_io (g_step g r) = IDone g' \/ as_io (g_step g r) = IStopped g') /\ T g' s' e).
    { intros s' e H. exists (g_core g r). split; [|exact H]. unfold g_step.
      destruct (limit_reached _ _); cbn; auto. }
    destruct HR as (H1 & H2 & H3 & Hp & HK & Ht). rewrite H2.
    destruct ((0 <? g_count g) && (u32 (g_count g) mod size =? 0)) eqn:Eb.
    - assert (Ec : g_core g r = mkG (u32 (g_num g + 1)) (g_count g + 1) (g_files g)
                 (chunk_path outdir template (u32 (g_num g + 1)), br_write r)).
      { unfold g_core. rewrite Eb. reflexivity. }
      destruct (bw_flush (snd (wp_open s))) as [e w] eqn:Ef.
      destruct (bw_flush_spec _ _ _ _ HK Ef) as (Hw & HK' & He). rewrite Ht in Hw.
      assert (Hpre : exists t rest, g_files (g_core g r) = wp_done s ++ (fst (wp_open s), t) :: rest /\ is_prefix (bw_all w) t).
      { exists (snd (g_open g)), [g_open (g_core g r)]. rewrite Ec, H3, Hp, Hw. split; [|apply prefix_refl].
        unfold g_files. cbn [g_done g_open]. unfold g_files. rewrite <- app_assoc. destruct (g_open g); reflexivity. }
      destruct e as [k|].
      + right. apply Hpure. split; [exact Hpre|]. exists k. split; [reflexivity|].
        destruct (g_open g) as [p t] eqn:Eo. cbn [fst snd] in *.
        destruct (grow_file g r (length (g_done g)) p t) as [t' Hi]; [rewrite last_file, Eo; reflexivity|].
        eexists _, _, _. split; [exact Hi|exact He].
      + cbv zeta. rewrite H1, H3.
        assert (Hnth : nth_error (g_files (g_core g r)) (S (length (g_done g)))
                       = Some (chunk_path outdir template (u32 (g_num g + 1)), br_write r)).
        { rewrite Ec. unfold g_files at 1. cbn [g_done g_open]. unfold g_files.
          rewrite nth_error_app2; rewrite app_length; cbn [length]; [|lia].
          replace (S (length (g_done g)) - (length (g_done g) + 1))%nat with 0%nat by lia. reflexivity. }
        destruct (opening (S (length (g_done g))) (chunk_path outdir template (u32 (g_num g + 1)))) as [sk|k] eqn:Eop.
        * assert (Hx : at_last (fst (wp_open s), w) = g_open g).
          { unfold at_last. cbn [fst snd]. rewrite (bw_drop_empty _ He), Hp, Hw. destruct (g_open g); reflexivity. }
          assert (Hlen : length (g_files g) = S (length (g_done g))).
          { unfold g_files. rewrite app_length. cbn [length]. lia. }
          assert (HR2 : R (mkG (u32 (g_num g + 1)) (g_count g) (g_files g) (chunk_path outdir template (u32 (g_num g + 1)), []))
            (mkWSplit (u32 (g_num g + 1)) (g_count g) (g_done g ++ [at_last (fst (wp_open s), w)])
               (chunk_path outdir template (u32 (g_num g + 1)), mkBuf [] sk))).
          { rewrite Hx. split; [reflexivity|]. split; [reflexivity|]. split; [reflexivity|].
            cbn [g_done g_open fst snd wp_open]. rewrite Hlen. apply holds_new. exact Eop. }
          pose proof (wsplit_write_step _ _ r (g_core g r) HR2 Ec) as Hs.
          destruct (wsplit_write _ _ _ _ _) as [s'|s'|s' e'|]; cbn [g_count] in Hs.
          -- destruct Hs as [Hl Hs]. exists (g_core g r). split; [|exact Hs]. unfold g_step. rewrite Hl. reflexivity.
          -- destruct Hs as [Hl Hs]. exists (g_core g r). split; [|exact Hs]. unfold g_step. rewrite Hl. reflexivity.
          -- right. apply Hpure. exact Hs.
          -- destruct Hs.
        * right. apply Hpure. split.
          -- cbn [wp_done wp_open fst snd]. rewrite <- H3. exact Hpre.
          -- exists k. split; [reflexivity|]. eexists _, _, _. split; [exact Hnth|]. rewrite Eop. reflexivity.
    - assert (Ec : g_core g r = mkG (g_num g) (g_count g + 1) (g_done g) (fst (g_open g), snd (g_open g) ++ br_write r)).
      { unfold g_core. rewrite Eb. reflexivity. }
      assert (HR : R g s) by (repeat split; assumption).
      pose proof (wsplit_write_step _ _ r (g_core g r) HR Ec) as Hs.
      destruct (wsplit_write _ _ _ _ _) as [s'|s'|s' e'|].
      + destruct Hs as [Hl Hs]. exists (g_core g r). split; [|exact Hs]. unfold g_step. rewrite Hl. reflexivity.
      + destruct Hs as [Hl Hs]. exists (g_core g r). split; [|exact Hs]. unfold g_step. rewrite Hl. reflexivity.
      + right. apply Hpure. exact Hs.
      + destruct Hs.
  Qed.

  (** ** The chunks *)

  Definition numbered (full : list (list byte_record)) (fs : list (bytes * bytes)) : Prop :=
    length fs = length full
    /\ forall k c, nth_error full k = Some c ->
         nth_error fs k = Some (chunk_path outdir template (N.of_nat k), flat_map br_write c).

  Definition g_inv (recs : list byte_record) (g : gsplit) : Prop :=
    exists full last,
      concat full ++ last = recs
      /\ Forall (fun c => N.of_nat (length c) = size) full
      /\ N.of_nat (length last) <= size
      /\ (recs = [] \/ 1 <= N.of_nat (length last))
      /\ g_count g = N.of_nat (length recs)
      /\ g_num g = N.of_nat (length full)
      /\ numbered full (g_done g)
      /\ g_open g = (chunk_path outdir template (N.of_nat (length full)), flat_map br_write last).

  Lemma numbered_snoc : forall full fs c x, numbered full fs ->
    x = (chunk_path outdir template (N.of_nat (length full)), flat_map br_write c) ->
    numbered (full ++ [c]) (fs ++ [x]).
  Proof.
    intros full fs c x [HL H] ->. split; [rewrite !app_length; cbn; lia|].
    intros k d Hk. destruct (Nat.lt_ge_cases k (length full)) as [L|L].
    - rewrite nth_error_app1 in Hk by exact L. rewrite nth_error_app1 by lia. auto.
    - rewrite nth_error_app2 in Hk by exact L. rewrite nth_error_app2 by lia. rewrite HL.
      destruct (k - length full)%nat as [|n] eqn:En; [|destruct n; discriminate].
      cbn in Hk |- *. injection Hk as <-. replace k with (length full) by lia. reflexivity.
  Qed.

  Lemma g_inv_step : forall recs g r, 1 <= size -> g_inv recs g ->
    N.of_nat (length recs) < 4294967296 -> g_inv (recs ++ [r]) (g_core g r).
  Proof.
    intros recs g r Hsz (full & last & E & HF & HL & HN & Hcnt & Hch & Hd & Ho) HM.
    assert (Len : N.of_nat (length recs) = size * N.of_nat (length full) + N.of_nat (length last)).
    { rewrite <- E, app_length, Nat2N.inj_add, (concat_length_const _ _ _ HF). reflexivity. }
    assert (U : u32 (g_count g) = N.of_nat (length recs)).
    { unfold u32. rewrite Hcnt. apply N.mod_small. exact HM. }
    unfold g_core. rewrite U, Hcnt, Len.
    replace ((size * N.of_nat (length full) + N.of_nat (length last)) mod size)
      with (N.of_nat (length last) mod size)
      by (rewrite (N.mul_comm size), (N.add_comm (_ * size)), N.mod_add by lia; reflexivity).
    destruct (N.eq_dec (N.of_nat (length last)) size) as [Hfull|Hpart].
    - rewrite Hfull, N.mod_same by lia. rewrite N.eqb_refl, andb_true_r.
      destruct (N.ltb_spec 0 (size * N.of_nat (length full) + size)) as [_|H]; [|lia].
      assert (Hu : u32 (g_num g + 1) = N.of_nat (S (length full))).
      { unfold u32. rewrite Hch. rewrite N.mod_small; [lia|]. nia. }
      exists (full ++ [last]), [r]. cbn [g_num g_count g_done g_open].
      split; [rewrite concat_app, <- E; cbn [concat]; rewrite app_nil_r; reflexivity|].
      split; [apply Forall_app; auto|]. split; [cbn [length]; lia|]. split; [right; cbn [length]; lia|].
      split; [rewrite !app_length; cbn [length]; lia|].
      split; [rewrite Hu, app_length; cbn [length]; lia|].
      split; [apply numbered_snoc; assumption|].
      rewrite Hu, app_length, Nat.add_1_r. cbn [flat_map]. rewrite app_nil_r. reflexivity.
    - assert (Hno : (0 <? size * N.of_nat (length full) + N.of_nat (length last))
                    && (N.of_nat (length last) mod size =? 0) = false).
      { rewrite N.mod_small by lia. destruct HN as [->|HN].
        - cbn [length] in Len. destruct (N.ltb_spec 0 (size * N.of_nat (length full) + N.of_nat (length last))); [lia|reflexivity].
        - destruct (N.eqb_spec (N.of_nat (length last)) 0); [lia|]. apply andb_false_r. }
      rewrite Hno. exists full, (last ++ [r]). cbn [g_num g_count g_done g_open].
      rewrite app_assoc, E, !app_length. cbn [length].
      split; [reflexivity|]. split; [exact HF|]. split; [lia|]. split; [right; lia|]. split; [lia|].
      split; [exact Hch|]. split; [exact Hd|]. rewrite Ho. cbn [fst snd]. rewrite flat_map_app. cbn [flat_map].
      rewrite app_nil_r. reflexivity.
  Qed.

  Lemma g_fold : forall recs, 1 <= size -> N.of_nat (length recs) <= 4294967296 ->
    g_inv recs (fold_left g_core recs g_start).
  Proof.
    intros recs Hsz. induction recs as [|r recs IH] using rev_ind; intros HM.
    - exists [], []. unfold numbered. cbn. repeat split; auto; try lia. intros k c Hk. destruct k; discriminate.
    - rewrite app_length in HM. cbn [length] in HM. rewrite fold_left_app. cbn [fold_left].
      apply g_inv_step; auto; [apply IH|]; lia.
  Qed.

  Lemma g_inv_files : forall recs g, 1 <= size -> Forall from_line recs -> g_inv recs g ->
    exists chunks, chunked size recs chunks /\ chunk_texts outdir template chunks (g_files g).
  Proof.
    intros recs g Hsz F (full & last & E & HF & HL & HN & Hcnt & Hch & Hd & Ho).
    exists (full ++ [last]). split; [split|].
    - rewrite concat_app. cbn [concat]. rewrite app_nil_r. exact E.
    - destruct recs as [|r0 recs].
      + left. split; [reflexivity|]. apply app_eq_nil in E as [E1 ->].
        destruct full as [|c full]; [reflexivity|].
        exfalso. inversion HF as [|? ? Hc _]; subst. cbn in E1. apply app_eq_nil in E1 as [-> _].
        cbn in Hsz. lia.
      + right. exists full, last. split; [reflexivity|]. split; [exact HF|].
        destruct HN as [HN|HN]; [discriminate|]. auto.
    - pose proof (numbered_snoc full (g_done g) last (g_open g) Hd Ho) as [HLn Hn]. split; [exact HLn|].
      intros k c Hk. exists (dec (N.of_nat k)), (replace_braces (dec (N.of_nat k)) template), (flat_map br_write c).
      split; [apply dec_spec|]. split; [apply replace_filled|]. split; [|exact (Hn k c Hk)].
      apply lines_of_flat. rewrite Forall_forall in *. intros r Hr. apply F. rewrite <- E.
      apply nth_error_In in Hk. apply in_app_iff in Hk as [Hk|[<-|[]]]; apply in_app_iff; [left|auto].
      apply in_concat. eauto.
  Qed.

  (** the run without failures *)
  Lemma g_run : forall skip files contents recs e, opts_wf O Od o -> Forall2 intact files contents ->
    selects O Od skip o contents recs e ->
    exists x, io_files_loop (fun s => s) (io_guarded (opts_select O Od o) (fun g r => as_io (g_step g r))) skip g_start files = Some x
      /\ match e with
         | None => x = IDone (fold_left g_core recs g_start) \/ x = IStopped (fold_left g_core recs g_start)
         | Some err => x = IFailed (fold_left g_core recs g_start) (CReadPica (PE err))
         end.
  Proof.
    intros skip files contents recs e W Hf Hs.
    destruct (run_selects _ O Od skip o g_step g_core g_count contents g_start W) as (recs' & e' & Hs' & He).
    - reflexivity.
    - apply g_core_count.
    - reflexivity.
    - destruct (selects_fun _ _ _ _ _ _ _ Hs _ _ Hs') as [<- <-].
      destruct (io_of_run _ _ _ _ _ _ _ _ Hf He) as (x & Hx & Hm). exists x. split; [|exact Hm].
      rewrite <- Hx. clear. generalize g_start.
      assert (Hr : forall fuel g rd,
        io_reader_loop (fun s => s) (io_guarded (opts_select O Od o) (fun g r => as_io (g_step g r))) skip fuel g rd
        = io_reader_loop (fun s => s) (fun s r => as_io (guarded (opts_select O Od o) g_step s r)) skip fuel g rd).
      { induction fuel as [|fuel IH]; intros g rd; cbn [io_reader_loop]; [reflexivity|].
        destruct (io_next_byte_record rd) as [[[r|e']|] rd']; [|destruct (pica_skip e' skip); auto|reflexivity].
        rewrite io_guarded_as. destruct (io_guarded _ _ g r); auto. }
      induction files as [|[name [rs|k]] files IH]; intros g; cbn [io_files_loop]; try reflexivity.
      rewrite Hr. destruct (io_reader_loop _ _ _ _ _ _) as [[]|]; auto.
  Qed.

  (** ** split *)

  Lemma open_begun : forall g s, R g s -> begun (wsplit_contents s) (g_files g).
  Proof.
    intros g s (_ & _ & H3 & Hp & _ & Ht). right. unfold wsplit_contents, at_last, g_files. rewrite H3.
    exists (g_done g), (fst (wp_open s)), (bw_drop (snd (wp_open s))), (snd (g_open g)), [].
    split; [reflexivity|]. split; [rewrite Hp; destruct (g_open g); reflexivity|]. rewrite <- Ht. apply bw_drop_prefix.
  Qed.

  (** how a run ends, compared with the one without failures *)
  Definition split_good (fs : list (bytes * bytes)) (e : option read_error) (st : N) (cs : list (bytes * bytes)) : Prop :=
    begun cs fs
    /\ ((st = status_of e /\ (cs = fs \/ (st = 2 /\ exists k, one_fails opening fs k)))
        \/ exists k, st = match k with BrokenPipe => 0 | _ => 2 end /\ one_fails opening fs k).

  Lemma R_fails : forall g s k, R g s -> can_fail (bw_sink (snd (wp_open s))) k -> one_fails opening (g_files g) k.
  Proof.
    intros g s k (_ & _ & _ & _ & HK & _) H. exists (length (g_done g)), (fst (g_open g)), (snd (g_open g)).
    split; [rewrite last_file; destruct (g_open g); reflexivity|]. apply HK. exact H.
  Qed.

  Lemma split_end_good : forall g s e x y, R g s ->
    match e with
    | None => x = IDone g \/ x = IStopped g
    | Some err => x = IFailed g (CReadPica (PE err))
    end ->
    y = match x with IDone _ => IDone s | IStopped _ => IStopped s | IFailed _ e => IFailed s e | IPanicked => IPanicked end ->
    exists st cs, wsplit_end y = MExited st cs /\ split_good (g_files g) e st cs.
  Proof.
    intros g s e x y HR He ->. destruct e as [err|].
    - subst x. cbn. exists 2, (wsplit_contents s). split; [reflexivity|]. split; [apply open_begun; exact HR|].
      left. split; [reflexivity|].
      destruct (bw_flush (snd (wp_open s))) as [e w] eqn:Ef.
      destruct (bw_flush_spec (can_fail (bw_sink (snd (wp_open s)))) _ _ _ (fun k Hk => Hk) Ef) as (H1 & _ & H2).
      destruct e as [k|]; [right; split; [reflexivity|]; exists k; exact (R_fails g s k HR H2)|left].
      destruct HR as (_ & _ & H3 & Hp & _ & Ht). unfold wsplit_contents, at_last, g_files. rewrite H3, Hp.
      unfold bw_drop. rewrite Ef. cbn [snd]. unfold bw_all in H1 at 1. rewrite H2, app_nil_r in H1.
      rewrite H1, Ht. destruct (g_open g); reflexivity.
    - assert (G : exists st cs, wsplit_end (IDone s) = MExited st cs /\ split_good (g_files g) None st cs).
      { cbn [wsplit_end]. pose proof (R_fails g s) as Hk. destruct HR as (H1 & H2 & H3 & Hp & HK & Ht).
        destruct (bw_flush (snd (wp_open s))) as [e w] eqn:Ef.
        destruct (bw_flush_spec (can_fail (bw_sink (snd (wp_open s)))) _ _ _ (fun k Hk => Hk) Ef) as (A & _ & C).
        rewrite Ht in A. destruct e as [k|].
        - rewrite many_exit_io. eexists _, _. split; [reflexivity|]. split.
          + right. exists (g_done g), (fst (wp_open s)), (bw_drop w), (snd (g_open g)), [].
            split; [rewrite H3; reflexivity|]. split; [unfold g_files; rewrite Hp; destruct (g_open g); reflexivity|].
            rewrite <- A. apply bw_drop_prefix.
          + right. exists k. split; [reflexivity|]. apply Hk; [repeat split; assumption|exact C].
        - assert (E : wp_done s ++ [at_last (fst (wp_open s), w)] = g_files g).
          { unfold at_last, g_files. cbn [fst snd]. rewrite (bw_drop_empty _ C), A, H3, Hp. destruct (g_open g); reflexivity. }
          rewrite E. exists 0, (g_files g). split; [reflexivity|]. split; [|left; auto].
          right. exists (g_done g), (fst (g_open g)), (snd (g_open g)), (snd (g_open g)), [].
          unfold g_files. destruct (g_open g). repeat split. apply prefix_refl. }
      destruct He as [-> | ->]; exact G.
  Qed.

  Lemma split_torn : forall g s e, T g s e ->
    exists st cs, wsplit_end (IFailed s e) = MExited st cs /\ begun cs (g_files g)
      /\ exists k, st = match k with BrokenPipe => 0 | _ => 2 end /\ one_fails opening (g_files g) k.
  Proof.
    intros g s e ((t & rest & Hf & Hp) & k & -> & Hk). cbn [wsplit_end]. rewrite many_exit_io.
    eexists _, _. split; [reflexivity|]. split; [|exists k; auto].
    right. exists (wp_done s), (fst (wp_open s)), (bw_drop (snd (wp_open s))), t, rest.
    split; [reflexivity|]. split; [exact Hf|]. eapply prefix_trans; [apply bw_drop_prefix|exact Hp].
  Qed.

  Theorem split_write_good : forall skip files contents recs e, opts_wf O Od o -> 1 <= size ->
    Forall2 intact files contents -> selects O Od skip o contents recs e -> N.of_nat (length recs) <= 4294967296 ->
    exists chunks fs st cs, chunked size recs chunks /\ chunk_texts outdir template chunks fs
      /\ split_write cap cut opening O Od outdir template size skip o files = Some (MExited st cs)
      /\ split_good fs e st cs.
  Proof.
    intros skip files contents recs e W Hsz Hf Hs HM.
    destruct (g_inv_files recs _ Hsz (selects_from_line _ _ _ _ _ _ _ Hs) (g_fold recs Hsz HM)) as (chunks & H1 & H2).
    set (g := fold_left g_core recs g_start) in *.
    exists chunks, (g_files g).
    destruct (g_run skip files contents recs e W Hf Hs) as (x & Hx & He). fold g in He.
    unfold split_write. cbv zeta.
    assert (H0 : exists t, nth_error (g_files g) 0 = Some (chunk_path outdir template 0, t)).
    { subst g. clear. assert (H : exists t, nth_error (g_files g_start) 0 = Some (chunk_path outdir template 0, t)) by (exists []; reflexivity).
      revert H. generalize g_start. induction recs as [|r recs IH]; intros g H; [exact H|]. cbn [fold_left]. apply IH.
      destruct H as [t H]. exact (grow_file g r 0 _ t H). }
    destruct (opening 0 (chunk_path outdir template 0)) as [sk|k] eqn:Eo.
    - assert (HR : R g_start (mkWSplit 0 0 [] (chunk_path outdir template 0, mkBuf [] sk))).
      { split; [reflexivity|]. split; [reflexivity|]. split; [reflexivity|]. apply holds_new. exact Eo. }
      pose proof (files_step _ _ skip R T split_sim T_grow files _ _ HR) as HS. rewrite Hx in HS.
      destruct (io_files_loop (fun s => s) (wsplit_body cap cut opening O Od outdir template size o) skip _ files) as [[s'|s'|s' e'|]|]; cbn [in_step] in HS.
      + destruct HS as (a & Ha & HRa). injection Ha as ->.
        assert (Eg : a = g /\ e = None) by (destruct e; [discriminate|]; destruct He as [He|He]; [injection He as ->; auto|discriminate]).
        destruct Eg as [-> ->].
        destruct (split_end_good g s' None (IDone g) (IDone s') HRa He eq_refl) as (st & cs & E & G).
        exists st, cs. cbn [option_map]. rewrite E. auto.
      + destruct HS as (a & Ha & HRa). injection Ha as ->.
        assert (Eg : a = g /\ e = None) by (destruct e; [discriminate|]; destruct He as [He|He]; [discriminate|injection He as ->; auto]).
        destruct Eg as [-> ->].
        destruct (split_end_good g s' None (IStopped g) (IStopped s') HRa He eq_refl) as (st & cs & E & G).
        exists st, cs. cbn [option_map]. rewrite E. auto.
      + destruct HS as [(a & Ha & HRa)|HT].
        * injection Ha as ->. destruct e as [err|]; [|destruct He; discriminate].
          injection He as -> ->.
          destruct (split_end_good g s' (Some err) (IFailed g (CReadPica (PE err))) (IFailed s' (CReadPica (PE err))) HRa eq_refl eq_refl) as (st & cs & E & G).
          exists st, cs. cbn [option_map]. rewrite E. auto.
        * assert (HT' : T g s' e') by (destruct e as [err|]; [subst x; exact HT|destruct He as [-> | ->]; exact HT]).
          destruct (split_torn g s' e' HT') as (st & cs & E & B & K).
          exists st, cs. cbn [option_map]. rewrite E. split; [exact H1|]. split; [exact H2|]. split; [reflexivity|].
          split; [exact B|]. right. exact K.
      + injection HS as ->. destruct e; [discriminate|destruct He; discriminate].
      + discriminate.
    - rewrite many_exit_io. eexists _, _. split; [exact H1|]. split; [exact H2|]. split; [reflexivity|].
      split; [left; reflexivity|]. right. exists k. split; [reflexivity|]. destruct H0 as [t H0].
      exists 0%nat, (chunk_path outdir template 0), t. split; [exact H0|]. rewrite Eo. reflexivity.
  Qed.
  End Split.

  (** ** partition *)

  Section Partition.
  Variable lossy : bytes -> bytes.
  Variables (outdir template : bytes).
  Notation vpath := (value_path lossy outdir template).

  Fixpoint matched (i : nat) (ws : outputs) (fs : list (bytes * bytes)) : Prop :=
    match ws, fs with
    | [], [] => True
    | (v, x) :: ws', (u, t) :: fs' => v = u /\ holds i x (vpath v) t /\ matched (S i) ws' fs'
    | _, _ => False
    end.
  Fixpoint torn (ws : outputs) (fs : list (bytes * bytes)) : Prop :=
    match ws, fs with
    | [], _ => True
    | (v, x) :: ws', (u, t) :: fs' => v = u /\ fst x = vpath v /\ is_prefix (bw_all (snd x)) t /\ torn ws' fs'
    | _, _ => False
    end.
  (** the same values, perhaps with more text, and perhaps more of them *)
  Fixpoint grown (fs fs' : list (bytes * bytes)) : Prop :=
    match fs, fs' with
    | [], _ => True
    | (u, t) :: l, (u', t') :: l' => u = u' /\ is_prefix t t' /\ grown l l'
    | _, _ => False
    end.
  Definition value_fails (fs : list (bytes * bytes)) (k : io_kind) : Prop :=
    exists i v t, nth_error fs i = Some (v, t) /\ failing (opening i (vpath v)) k.

  Lemma matched_torn : forall ws fs i, matched i ws fs -> torn ws fs.
  Proof.
    induction ws as [|[v x] ws IH]; intros [|[u t] fs] i H; cbn in *; auto.
    destruct H as (-> & (Hp & _ & <-) & H). split; [reflexivity|]. split; [exact Hp|]. split; [apply prefix_refl|eauto].
  Qed.
  Lemma torn_grown : forall ws fs fs', torn ws fs -> grown fs fs' -> torn ws fs'.
  Proof.
    induction ws as [|[v x] ws IH]; intros [|[u t] fs] [|[u' t'] fs'] H G; cbn in *; auto; try contradiction.
    destruct H as (-> & Hp & Ht & H). destruct G as (-> & Gt & G).
    split; [reflexivity|]. split; [exact Hp|]. split; [eapply prefix_trans; eassumption|eauto].
  Qed.
  Lemma grown_refl : forall fs, grown fs fs.
  Proof. induction fs as [|[u t] fs IH]; cbn; auto. split; [reflexivity|]. split; [apply prefix_refl|exact IH]. Qed.
  Lemma grown_app : forall fs l, grown fs (fs ++ l).
  Proof. induction fs as [|[u t] fs IH]; intros l; cbn; auto. split; [reflexivity|]. split; [apply prefix_refl|apply IH]. Qed.
  Lemma grown_trans : forall a b c, grown a b -> grown b c -> grown a c.
  Proof.
    induction a as [|[u t] a IH]; intros [|[u' t'] b] [|[u2 t2] c] H G; cbn in *; auto; try contradiction.
    destruct H as (-> & Ht & H). destruct G as (-> & Gt & G). split; [reflexivity|].
    split; [eapply prefix_trans; eassumption|eauto].
  Qed.
  Lemma grown_nth : forall a b i v t, grown a b -> nth_error a i = Some (v, t) -> exists t', nth_error b i = Some (v, t').
  Proof.
    induction a as [|[u s] a IH]; intros [|[u' s'] b] [|i] v t H Hi; cbn in *; try discriminate; try contradiction.
    - injection Hi as -> ->. destruct H as (-> & _ & _). eauto.
    - destruct H as (_ & _ & H). eauto.
  Qed.
  Lemma fails_grown : forall a b k, grown a b -> value_fails a k -> value_fails b k.
  Proof.
    intros a b k G (i & v & t & Hi & Hk). destruct (grown_nth _ _ _ _ _ G Hi) as [t' Hi']. exists i, v, t'. auto.
  Qed.

  Lemma grown_map : forall (f : bytes * bytes -> bytes * bytes) fs,
    (forall x, fst (f x) = fst x /\ is_prefix (snd x) (snd (f x))) -> grown fs (map f fs).
  Proof.
    intros f fs H. induction fs as [|[u t] fs IH]; cbn; auto. destruct (H (u, t)) as [H1 H2].
    destruct (f (u, t)) as [u' t']. cbn in *. auto.
  Qed.
  Lemma grown_write : forall v data fs, grown fs (writer_write v data fs).
  Proof.
    intros v data fs. unfold writer_write. destruct (existsb _ fs); [|apply grown_app].
    apply grown_map. intros [u t]. cbn. destruct (bytes_eqb u v); cbn; split; try reflexivity; [apply prefix_app|apply prefix_refl].
  Qed.

  (** adding to the text of one value *)
  Fixpoint add_text (v data : bytes) (fs : list (bytes * bytes)) : list (bytes * bytes) :=
    match fs with
    | [] => []
    | (u, t) :: fs' => if bytes_eqb u v then (u, t ++ data) :: fs' else (u, t) :: add_text v data fs'
    end.

  Lemma add_text_map : forall v data fs, NoDup (map fst fs) ->
    map (fun w : bytes * bytes => if bytes_eqb (fst w) v then (fst w, snd w ++ data) else w) fs = add_text v data fs.
  Proof.
    intros v data. induction fs as [|[u t] fs IH]; intros ND; cbn [map add_text fst snd]; [reflexivity|].
    cbn in ND. inversion ND as [|? ? Hn ND']; subst. destruct (bytes_eqb u v) eqn:E.
    - apply bytes_eqb_eq in E. subst u. f_equal. clear -Hn. induction fs as [|[u t'] fs IH]; [reflexivity|].
      cbn [map fst]. destruct (bytes_eqb u v) eqn:E.
      + apply bytes_eqb_eq in E. subst u. destruct Hn. left. reflexivity.
      + f_equal. apply IH. intros H. apply Hn. right. exact H.
    - f_equal. apply IH. exact ND'.
  Qed.
  Lemma add_text_new : forall v data fs, existsb (fun w => bytes_eqb (fst w) v) fs = false ->
    add_text v data (fs ++ [(v, [])]) = fs ++ [(v, data)].
  Proof.
    intros v data. induction fs as [|[u t] fs IH]; cbn [existsb fst app add_text]; intros H.
    - rewrite bytes_eqb_refl. reflexivity.
    - apply orb_false_iff in H as [-> H]. rewrite IH by exact H. reflexivity.
  Qed.

  Lemma wpart_write_spec : forall ws fs i v data e ws', matched i ws fs ->
    In v (map fst fs) -> wpart_write cap v (cut data) ws = (e, ws') ->
    match e with
    | None => matched i ws' (add_text v data fs)
    | Some k => torn ws' (add_text v data fs)
        /\ exists j t, nth_error (add_text v data fs) j = Some (v, t) /\ failing (opening (i + j) (vpath v)) k
    end.
  Proof.
    induction ws as [|[u [p w]] ws IH]; intros [|[u' t] fs] i v data e ws' H Hin E; try (cbn in H; contradiction); try (destruct Hin; fail).
    cbn [matched] in H. destruct H as (<- & (Hp & HK & Ht) & H). cbn [fst snd] in *. subst p. cbn [wpart_write add_text] in *.
    destruct (bytes_eqb u v) eqn:Ev.
    - apply bytes_eqb_eq in Ev. subst u.
      destruct (bw_write_list cap w (cut data)) as [e' w'] eqn:Ew. injection E as <- <-.
      destruct (bw_write_list_spec _ _ _ _ _ _ HK Ew) as (HK' & Hw). rewrite Hcut, Ht in Hw.
      destruct e' as [k|].
      + destruct Hw as [Hk Hw]. split.
        * cbn. split; [reflexivity|]. split; [reflexivity|]. split; [exact Hw|]. eapply matched_torn. exact H.
        * exists 0%nat, (t ++ data). split; [reflexivity|]. rewrite Nat.add_0_r. exact Hk.
      + cbn. split; [reflexivity|]. split; [|exact H]. split; [reflexivity|]. split; [exact HK'|exact Hw].
    - destruct (wpart_write cap v (cut data) ws) as [e' ws''] eqn:Ew. injection E as <- <-.
      destruct Hin as [Hin|Hin]; [cbn in Hin; subst u; rewrite bytes_eqb_refl in Ev; discriminate|].
      pose proof (IH _ _ _ _ _ _ H Hin Ew) as G. destruct e' as [k|].
      + destruct G as (G1 & j & t' & G2 & G3). split.
        * cbn. split; [reflexivity|]. split; [reflexivity|]. split; [rewrite Ht; apply prefix_refl|exact G1].
        * exists (S j), t'. split; [exact G2|]. rewrite Nat.add_succ_r. exact G3.
      + cbn. split; [reflexivity|]. split; [|exact G]. split; [reflexivity|]. split; [exact HK|exact Ht].
  Qed.

  Lemma matched_length : forall ws fs i, matched i ws fs -> length ws = length fs.
  Proof.
    induction ws as [|[v x] ws IH]; intros [|[u t] fs] i H; cbn in *; try contradiction; auto.
    destruct H as (_ & _ & H). f_equal. eauto.
  Qed.
  Lemma matched_exists : forall ws fs i v, matched i ws fs ->
    existsb (fun w => bytes_eqb (fst w) v) ws = existsb (fun w => bytes_eqb (fst w) v) fs.
  Proof.
    induction ws as [|[u x] ws IH]; intros [|[u' t] fs] i v H; cbn in *; try contradiction; auto.
    destruct H as (-> & _ & H). f_equal. eauto.
  Qed.
  Lemma matched_snoc : forall ws fs i v x, matched i ws fs -> holds (i + length ws) x (vpath v) [] ->
    matched i (ws ++ [(v, x)]) (fs ++ [(v, [])]).
  Proof.
    induction ws as [|[u y] ws IH]; intros [|[u' t] fs] i v x H Hx; cbn [matched app length] in *; try contradiction.
    - rewrite Nat.add_0_r in Hx. auto.
    - destruct H as (-> & Hy & H). split; [reflexivity|]. split; [exact Hy|]. apply IH; [exact H|].
      rewrite Nat.add_succ_r in Hx. exact Hx.
  Qed.

  (** one value *)
  Lemma wpart_value : forall v data ws fs, matched 0 ws fs -> NoDup (map fst fs) ->
    match wpart_entry opening lossy outdir template v ws with
    | inr k => torn ws (writer_write v data fs) /\ value_fails (writer_write v data fs) k
    | inl ws1 =>
        match wpart_write cap v (cut data) ws1 with
        | (None, ws2) => matched 0 ws2 (writer_write v data fs)
        | (Some k, ws2) => torn ws2 (writer_write v data fs) /\ value_fails (writer_write v data fs) k
        end
    end.
  Proof.
    intros v data ws fs H ND. unfold wpart_entry. cbv zeta. rewrite (matched_exists _ _ _ v H).
    assert (G : forall ws1 fs1, matched 0 ws1 fs1 -> In v (map fst fs1) -> add_text v data fs1 = writer_write v data fs ->
       match wpart_write cap v (cut data) ws1 with
        | (None, ws2) => matched 0 ws2 (writer_write v data fs)
        | (Some k, ws2) => torn ws2 (writer_write v data fs) /\ value_fails (writer_write v data fs) k
        end).
    { intros ws1 fs1 H1 Hin E. destruct (wpart_write cap v (cut data) ws1) as [e ws2] eqn:Ew.
      pose proof (wpart_write_spec _ _ _ _ _ _ _ H1 Hin Ew) as Hs. rewrite E in Hs. destruct e as [k|]; [|exact Hs].
      destruct Hs as (Ht & j & t & Hj & Hk). split; [exact Ht|]. exists j, v, t. auto. }
    unfold writer_write in *. destruct (existsb (fun w => bytes_eqb (fst w) v) fs) eqn:E.
    - apply (G ws fs H); [|symmetry; apply add_text_map; exact ND].
      apply existsb_exists in E as (x & Hx & Ex). apply bytes_eqb_eq in Ex. subst v. apply in_map. exact Hx.
    - destruct (opening (length ws) (vpath v)) as [sk|k] eqn:Eo.
      + apply (G _ (fs ++ [(v, [])])).
        * apply matched_snoc; [exact H|]. apply holds_new. exact Eo.
        * rewrite map_app, in_app_iff. right. left. reflexivity.
        * apply add_text_new. exact E.
      + split; [eapply torn_grown; [eapply matched_torn; exact H|apply grown_app]|].
        exists (length ws), v, data. rewrite (matched_length _ _ _ H) at 1. rewrite nth_error_app2, Nat.sub_diag by lia.
        split; [reflexivity|]. rewrite Eo. reflexivity.
  Qed.

  Lemma values_grown : forall limit data vs s, grown (snd s) (snd (fst (partition_values limit data vs s))).
  Proof.
    intros limit data. induction vs as [|v vs IH]; intros s; cbn [partition_values]; [apply grown_refl|].
    cbv zeta. cbn [fst]. destruct (limit_reached limit (fst s + 1)); cbn [fst snd].
    - apply grown_write.
    - eapply grown_trans; [apply grown_write|]. apply (IH (fst s + 1, writer_write v data (snd s))).
  Qed.

  Definition RP (a : partition_state) (b : wpart) : Prop :=
    fst b = fst a /\ NoDup (map fst (snd a)) /\ matched 0 (snd b) (snd a).
  Definition TP (a : partition_state) (b : wpart) (e : cli_error) : Prop :=
    torn (snd b) (snd a) /\ exists k, e = CIo k /\ value_fails (snd a) k.

  Lemma TP_grown : forall a a' b e, TP a b e -> grown (snd a) (snd a') -> TP a' b e.
  Proof.
    intros a a' b e (H & k & -> & Hk) G. split; [eapply torn_grown; eassumption|].
    exists k. split; [reflexivity|]. eapply fails_grown; eassumption.
  Qed.

  Lemma wpart_values_spec : forall limit data vs a b, RP a b ->
    match wpart_values cap cut opening lossy outdir template limit data vs b with
    | (b', inl stop) => snd (partition_values limit data vs a) = stop /\ RP (fst (partition_values limit data vs a)) b'
    | (b', inr k) => TP (fst (partition_values limit data vs a)) b' (CIo k)
    end.
  Proof.
    intros limit data. induction vs as [|v vs IH]; intros a b HR; cbn [wpart_values partition_values]; [auto|].
    destruct HR as (Hn & ND & HM). pose proof (wpart_value v data (snd b) (snd a) HM ND) as Hv.
    set (a1 := (fst a + 1, writer_write v data (snd a)) : partition_state).
    assert (Hg : grown (snd a1) (snd (fst (partition_values limit data (v :: vs) a)))).
    { cbn [partition_values]. cbv zeta. fold a1. destruct (limit_reached limit (fst a1)); [apply grown_refl|apply values_grown]. }
    assert (HT : forall b' k, torn (snd b') (snd a1) -> value_fails (snd a1) k ->
       TP (fst (partition_values limit data (v :: vs) a)) b' (CIo k)).
    { intros b' k H1 H2. apply (TP_grown a1); [|exact Hg]. split; [exact H1|]. exists k. auto. }
    destruct (wpart_entry _ _ _ _ v (snd b)) as [ws1|k].
    - destruct (wpart_write cap v (cut data) ws1) as [[k|] ws2].
      + destruct Hv as [H1 H2]. apply (HT (fst b, ws2) k); assumption.
      + cbv zeta. fold a1. cbn [fst]. rewrite Hn. change (fst a + 1) with (fst a1).
        assert (HR1 : RP a1 (fst a1, ws2)).
        { split; [reflexivity|]. split; [apply writer_write_NoDup; exact ND|exact Hv]. }
        destruct (limit_reached limit (fst a1)); [auto|]. apply IH. exact HR1.
    - destruct Hv as [H1 H2]. apply (HT b k); assumption.
  Qed.

  Variables (p : path) (o : filter_opts).
  Notation pure := (fun s r => as_io (partition_body O Od p o s r)).

  Lemma part_sim : forall a b r, RP a b ->
    match wpart_body cap cut opening O Od lossy outdir template p o b r with
    | IDone b' => exists a', pure a r = IDone a' /\ RP a' b'
    | IStopped b' => exists a', pure a r = IStopped a' /\ RP a' b'
    | IFailed b' e =>
        (exists a', pure a r = IFailed a' e /\ RP a' b')
        \/ exists a', (pure a r = IDone a' \/ pure a r = IStopped a') /\ TP a' b' e
    | IPanicked => pure a r = IPanicked
    end.
  Proof.
    intros a b r HR. cbv beta. unfold partition_body. rewrite io_guarded_as. unfold wpart_body, io_guarded.
    destruct (opts_select O Od o (br_record r)) as [[]|]; [|eauto|reflexivity].
    destruct (record_path O (fo_ci o) p (br_record r)) as [values|]; [|reflexivity].
    pose proof (wpart_values_spec (fo_limit o) (br_write r) (dedup (sort_values values)) a b HR) as Hv.
    destruct (partition_values (fo_limit o) (br_write r) (dedup (sort_values values)) a) as [a' stop'] eqn:Ep.
    cbn [fst snd] in Hv.
    destruct (wpart_values _ _ _ _ _ _ _ _ _ b) as [b' [stop|k]].
    - destruct Hv as [-> Hv]. destruct stop; cbn; eauto.
    - right. exists a'. split; [destruct stop'; auto|exact Hv].
  Qed.

  Lemma TP_grow : forall a b e r, TP a b e ->
    match pure a r with
    | IDone a' | IStopped a' | IFailed a' _ => TP a' b e
    | IPanicked => True
    end.
  Proof.
    intros a b e r H. cbv beta. unfold partition_body. rewrite io_guarded_as. unfold io_guarded.
    destruct (opts_select O Od o (br_record r)) as [[]|]; auto.
    destruct (record_path O (fo_ci o) p (br_record r)) as [values|]; [|exact I].
    pose proof (values_grown (fo_limit o) (br_write r) (dedup (sort_values values)) a) as G.
    destruct (partition_values (fo_limit o) (br_write r) (dedup (sort_values values)) a) as [a' stop].
    cbn [fst] in G. assert (H' : TP a' b e) by (eapply TP_grown; eassumption). destruct stop; exact H'.
  Qed.

  (** *** the end *)

  Definition value_files_at (fs : list (bytes * bytes)) : list (bytes * bytes) := map (fun f => (vpath (fst f), snd f)) fs.

  Lemma value_files_texts : forall fs, value_texts outdir template lossy fs (value_files_at fs).
  Proof.
    induction fs as [|[v t] fs IH]; cbn; constructor; [|exact IH].
    exists (replace_braces (lossy v) template). split; [apply replace_filled|reflexivity].
  Qed.

  Lemma value_fails_at : forall fs k, value_fails fs k -> one_fails opening (value_files_at fs) k.
  Proof.
    intros fs k (i & v & t & Hi & Hk). exists i, (vpath v), t. split; [|exact Hk].
    unfold value_files_at. rewrite nth_error_map, Hi. reflexivity.
  Qed.

  Lemma torn_contents : forall ws fs, torn ws fs -> all_begun (wpart_contents ws) (value_files_at fs).
  Proof.
    intros ws fs H. exists (wpart_contents ws).
    assert (G : exists some rest, value_files_at fs = some ++ rest
       /\ Forall2 (fun c f : bytes * bytes => fst c = fst f /\ is_prefix (snd c) (snd f)) (wpart_contents ws) some).
    { revert fs H. induction ws as [|[v x] ws IH]; intros [|[u t] fs] H; cbn in *; try contradiction.
      - exists [], []. split; [reflexivity|constructor].
      - exists [], (value_files_at ((u, t) :: fs)). split; [reflexivity|constructor].
      - destruct H as (-> & Hp & Ht & H). destruct (IH fs H) as (some & rest & E & F).
        exists ((vpath u, t) :: some), rest. split; [cbn [app]; rewrite <- E; reflexivity|]. constructor; [|exact F].
        cbn. split; [exact Hp|]. eapply prefix_trans; [apply bw_drop_prefix|exact Ht]. }
    destruct G as (some & rest & E & F). exists some, rest. split; [apply Permutation_refl|]. auto.
  Qed.

  (** writers that are finished in any order *)
  Definition finished (done : bool) (x y : bytes * output_at) : Prop :=
    fst (snd y) = fst (snd x) /\ bw_all (snd (snd y)) = bw_all (snd (snd x))
    /\ (done = true -> bw_buf (snd (snd y)) = []).

  Lemma wpart_finish_spec : forall ws e ws', wpart_finish ws = (e, ws') ->
    Forall2 (finished (match e with None => true | _ => false end)) ws ws'
    /\ match e with
       | Some k => exists x, In x ws /\ can_fail (bw_sink (snd (snd x))) k
       | None => True
       end.
  Proof.
    induction ws as [|[v [q w]] ws IH]; intros e ws' H; cbn [wpart_finish] in H.
    - injection H as <- <-. split; [constructor|exact I].
    - destruct (bw_flush w) as [e1 w1] eqn:E1.
      destruct (bw_flush_spec (can_fail (bw_sink w)) _ _ _ (fun k Hk => Hk) E1) as (A & _ & C).
      destruct e1 as [k|].
      + injection H as <- <-. split.
        * constructor; [split; [reflexivity|]; split; [exact A|discriminate]|].
          clear. induction ws as [|x ws IH]; constructor; [|exact IH].
          split; [reflexivity|]. split; [reflexivity|discriminate].
        * exists (v, (q, w)). split; [left; reflexivity|exact C].
      + destruct (wpart_finish ws) as [e2 ws2] eqn:E2. injection H as <- <-.
        destruct (IH _ _ eq_refl) as [F X]. split.
        * constructor; [|exact F]. split; [reflexivity|]. split; [exact A|]. intros _. exact C.
        * destruct e2 as [k|]; [|exact I]. destruct X as (x & Hx & Hk). exists x. split; [right; exact Hx|exact Hk].
  Qed.

  Lemma matched_In : forall ws fs i x, matched i ws fs -> In x ws ->
    exists j t, nth_error fs j = Some (fst x, t) /\ only (failing (opening (i + j) (vpath (fst x)))) (bw_sink (snd (snd x))).
  Proof.
    induction ws as [|[v y] ws IH]; intros [|[u t] fs] i x H Hin; cbn in *; try contradiction.
    destruct H as (-> & (_ & HK & _) & H). destruct Hin as [<-|Hin].
    - exists 0%nat, t. rewrite Nat.add_0_r. auto.
    - destruct (IH _ _ _ H Hin) as (j & t' & Hj & Hk). exists (S j), t'. rewrite Nat.add_succ_r. auto.
  Qed.

  Lemma matched_fails : forall ws fs x k, matched 0 ws fs -> In x ws -> can_fail (bw_sink (snd (snd x))) k ->
    value_fails fs k.
  Proof.
    intros ws fs x k H Hin Hk. destruct (matched_In _ _ _ _ H Hin) as (j & t & Hj & HK).
    exists j, (fst x), t. split; [exact Hj|]. apply HK. exact Hk.
  Qed.

  Lemma finished_contents : forall d ws ws' fs i, matched i ws fs -> Forall2 (finished d) ws ws' ->
    Forall2 (fun c f : bytes * bytes => fst c = fst f /\ is_prefix (snd c) (snd f)) (wpart_contents ws') (value_files_at fs)
    /\ (d = true -> wpart_contents ws' = value_files_at fs).
  Proof.
    intros d ws ws' fs i H F. revert fs i H. induction F as [|[v x] [v' y] ws ws' (F1 & F2 & F3) F IH]; intros [|[u t] fs] i H;
      cbn in *; try contradiction; [split; [constructor|reflexivity]|].
    destruct H as (-> & (Hp & _ & Ht) & H). destruct (IH _ _ H) as [G1 G2]. split.
    - constructor; [|exact G1]. cbn. split; [congruence|]. rewrite <- Ht, <- F2. apply bw_drop_prefix.
    - intros Hd. specialize (G2 Hd). change (at_last y :: wpart_contents ws' = (vpath u, t) :: value_files_at fs).
      rewrite G2. f_equal. unfold at_last. cbn [fst snd].
      rewrite (bw_drop_empty _ (F3 Hd)), F2, Ht, F1, Hp. reflexivity.
  Qed.

  Variable writer_order : outputs -> outputs.
  Hypothesis Horder : forall l, Permutation (writer_order l) l.

  Definition part_good (fs : list (bytes * bytes)) (e : option read_error) (st : N) (cs : list (bytes * bytes)) : Prop :=
    all_begun cs fs
    /\ ((st = status_of e /\ (Permutation cs fs \/ (st = 2 /\ exists k, one_fails opening fs k)))
        \/ exists k, st = match k with BrokenPipe => 0 | _ => 2 end /\ one_fails opening fs k).

  Lemma finish_good : forall a b, RP a b -> exists st cs,
    wpart_end writer_order (IDone b) = MExited st cs /\ part_good (value_files_at (snd a)) None st cs.
  Proof.
    intros a b (_ & ND & HM). cbn [wpart_end].
    destruct (wpart_finish (writer_order (snd b))) as [e ws] eqn:Ef.
    destruct (wpart_finish_spec _ _ _ Ef) as [F X].
    destruct (Permutation_Forall2 (Horder (snd b)) F) as (ws2 & HP & F2).
    destruct (finished_contents _ _ _ _ _ HM F2) as [G1 G2].
    assert (HB : all_begun (wpart_contents ws) (value_files_at (snd a))).
    { exists (wpart_contents ws2), (value_files_at (snd a)), []. split; [apply Permutation_map; exact HP|].
      split; [rewrite app_nil_r; reflexivity|exact G1]. }
    destruct e as [k|].
    - rewrite many_exit_io. eexists _, _. split; [reflexivity|]. split; [exact HB|]. right. exists k. split; [reflexivity|].
      apply value_fails_at. destruct X as (x & Hx & Hk). eapply matched_fails; [exact HM| |exact Hk].
      eapply Permutation_in; [apply Horder|exact Hx].
    - eexists _, _. split; [reflexivity|]. split; [exact HB|]. left. split; [reflexivity|]. left.
      rewrite <- (G2 eq_refl). apply Permutation_map. exact HP.
  Qed.

  Lemma drop_fails : forall w, bw_drop w = bw_all w \/ exists k, can_fail (bw_sink w) k.
  Proof.
    intros w. unfold bw_drop. destruct (bw_flush w) as [e w'] eqn:E.
    destruct (bw_flush_spec (can_fail (bw_sink w)) _ _ _ (fun k Hk => Hk) E) as (A & _ & C). cbn [snd].
    destruct e as [k|]; [right; eauto|left]. rewrite <- A. unfold bw_all. rewrite C, app_nil_r. reflexivity.
  Qed.

  Lemma dropped_contents : forall ws fs i, matched i ws fs ->
    wpart_contents ws = value_files_at fs \/ exists x k, In x ws /\ can_fail (bw_sink (snd (snd x))) k.
  Proof.
    induction ws as [|[v x] ws IH]; intros [|[u t] fs] i H; cbn [matched] in H; try contradiction; [left; reflexivity|].
    destruct H as (-> & (Hp & _ & Ht) & H). destruct (IH _ _ H) as [E|(y & k & Hy & Hk)].
    - destruct (drop_fails (snd x)) as [Ed|[k Hk]].
      + left. change (at_last x :: wpart_contents ws = (vpath u, t) :: value_files_at fs).
        rewrite E. unfold at_last. rewrite Ed, Ht, Hp. reflexivity.
      + right. exists (u, x), k. split; [left; reflexivity|exact Hk].
    - right. exists y, k. split; [right; exact Hy|exact Hk].
  Qed.

  Theorem partition_write_good : forall skip files contents fs e, Forall2 intact files contents ->
    partition_run O Od p skip o contents = Some (ended fs e) ->
    exists st cs,
      partition_write cap cut opening O Od lossy writer_order outdir template p skip o files = Some (MExited st cs)
      /\ part_good (value_files_at fs) e st cs.
  Proof.
    intros skip files contents fs e Hf Hrun. unfold partition_run in Hrun.
    assert (Hr : exists a, run_loop (on_result skip (partition_body O Od p o)) (0, []) contents = Some (ended a e) /\ fs = snd a).
    { destruct (run_loop _ _ _) as [x|]; [|discriminate]. exists (match x with Done a | Failed a _ => a | _ => (0, []) end).
      destruct x as [a|a e1|], e as [err|]; cbn in Hrun; try discriminate; injection Hrun; intros; subst; split; reflexivity. }
    destruct Hr as (a & Hr & ->). destruct (io_of_run _ _ _ _ _ _ _ _ Hf Hr) as (x & Hx & He).
    unfold partition_write.
    assert (HR : RP (0, []) (0, [])) by (split; [reflexivity|]; split; [constructor|exact I]).
    pose proof (files_step _ _ skip RP TP part_sim TP_grow files _ _ HR) as HS. rewrite Hx in HS.
    destruct (io_files_loop (fun s => s) (wpart_body cap cut opening O Od lossy outdir template p o) skip _ files)
      as [[b|b|b e'|]|]; cbn [in_step] in HS.
    - destruct HS as (a' & Ha & HRa). injection Ha as ->.
      assert (Eg : a' = a /\ e = None) by (destruct e; [discriminate|]; destruct He as [He|He]; [injection He as ->; auto|discriminate]).
      destruct Eg as [-> ->]. destruct (finish_good _ _ HRa) as (st & cs & E & G). exists st, cs.
      cbn [option_map]. rewrite E. auto.
    - destruct HS as (a' & Ha & HRa). injection Ha as ->.
      assert (Eg : a' = a /\ e = None) by (destruct e; [discriminate|]; destruct He as [He|He]; [discriminate|injection He as ->; auto]).
      destruct Eg as [-> ->]. destruct (finish_good _ _ HRa) as (st & cs & E & G). exists st, cs.
      change (wpart_end writer_order (IStopped b)) with (wpart_end writer_order (IDone b)). cbn [option_map].
      change (wpart_end writer_order (IStopped b)) with (wpart_end writer_order (IDone b)). rewrite E. auto.
    - destruct HS as [(a' & Ha & HRa)|HT].
      + injection Ha as ->. destruct e as [err|]; [|destruct He; discriminate].
        injection He as -> ->. exists 2, (wpart_contents (snd b)). split; [reflexivity|].
        destruct HRa as (_ & ND & HM). split; [apply torn_contents; eapply matched_torn; exact HM|].
        left. split; [reflexivity|]. destruct (dropped_contents _ _ _ HM) as [-> |(y & k & Hy & Hk)].
        * left. apply Permutation_refl.
        * right. split; [reflexivity|]. exists k. apply value_fails_at. eapply matched_fails; eassumption.
      + assert (HT' : TP a b e') by (destruct e as [err|]; [subst x; exact HT|destruct He as [-> | ->]; exact HT]).
        destruct HT' as (Ht & k & -> & Hk). cbn [option_map wpart_end]. rewrite many_exit_io.
        eexists _, _. split; [reflexivity|]. split; [apply torn_contents; exact Ht|]. right. exists k. split; [reflexivity|].
        apply value_fails_at. exact Hk.
    - injection HS as ->. destruct e; [discriminate|destruct He; discriminate].
    - discriminate.
  Qed.
  End Partition.
End Many.

(** ** The statements *)

Lemma split_many : forall cap cut opening O Od outdir template size skip o files contents recs e,
  divides cut -> new_files opening -> opts_wf O Od o -> 1 <= size ->
  Forall2 intact files contents -> selects O Od skip o contents recs e -> N.of_nat (length recs) <= 4294967296 ->
  exists chunks fs st cs, chunked size recs chunks /\ chunk_texts outdir template chunks fs
    /\ split_write cap cut opening O Od outdir template size skip o files = Some (MExited st cs)
    /\ begun cs fs
    /\ (st = 0 -> (e = None /\ cs = fs) \/ one_fails opening fs BrokenPipe)
    /\ ((forall k, ~ one_fails opening fs k) -> st = status_of e /\ cs = fs)
    /\ ((forall k, one_fails opening fs k -> k = BrokenPipe) -> st = status_of e \/ st = 0).
Proof.
  intros cap cut opening O Od outdir template size skip o files contents recs e Hc Hn W Hsz Hf Hs HM.
  destruct (split_write_good cap cut opening O Od Hc Hn outdir template size o skip files contents recs e W Hsz Hf Hs HM)
    as (chunks & fs & st & cs & H1 & H2 & H3 & HB & HG).
  exists chunks, fs, st, cs. split; [exact H1|]. split; [exact H2|]. split; [exact H3|]. split; [exact HB|]. split.
  - intros ->. destruct HG as [[He [Hcs|[Hx _]]]|([] & Hk & Hx)]; try discriminate; auto.
    left. split; [|exact Hcs]. destruct e; [discriminate|reflexivity].
  - split.
    + intros Hno. destruct HG as [[He [Hcs|[_ [k Hx]]]]|(k & _ & Hx)]; [auto|destruct (Hno _ Hx)|destruct (Hno _ Hx)].
    + intros Hb. destruct HG as [[He _]|(k & -> & Hx)]; [auto|]. rewrite (Hb _ Hx). auto.
Qed.

Lemma partition_many : forall cap cut opening O Od lossy writer_order outdir template p skip o files contents,
  divides cut -> new_files opening -> (forall l, Permutation (writer_order l) l) ->
  opts_wf O Od o -> opt_sm_wf O (fo_ci o) (p_sub p) -> Forall2 intact files contents ->
  exists all e0 sel wss ws e values fs st cs,
    reads skip contents all e0 /\ chosen (opts_hold O Od o) all sel
    /\ Forall2 (record_writes O (fo_ci o) p) sel wss
    /\ limited (fo_limit o) (concat wss) e0 ws e
    /\ value_files ws values /\ value_texts outdir template lossy values fs
    /\ partition_write cap cut opening O Od lossy writer_order outdir template p skip o files = Some (MExited st cs)
    /\ all_begun cs fs
    /\ (st = 0 -> (e = None /\ Permutation cs fs) \/ one_fails opening fs BrokenPipe)
    /\ ((forall k, ~ one_fails opening fs k) -> st = status_of e /\ Permutation cs fs)
    /\ ((forall k, one_fails opening fs k -> k = BrokenPipe) -> st = status_of e \/ st = 0).
Proof.
  intros cap cut opening O Od lossy writer_order outdir template p skip o files contents Hc Hn Ho W Wp Hf.
  destruct (partition_exact O Od p skip o contents W Wp)
    as (all & e0 & sel & wss & ws & e & values & G1 & G2 & G3 & G4 & G5 & Hrun).
  destruct (partition_write_good cap cut opening O Od Hc Hn lossy outdir template p o writer_order Ho skip files contents
              values e Hf Hrun) as (st & cs & E & HB & HG).
  exists all, e0, sel, wss, ws, e, values, (value_files_at lossy outdir template values), st, cs.
  split; [exact G1|]. split; [exact G2|]. split; [exact G3|]. split; [exact G4|]. split; [exact G5|].
  split; [apply value_files_texts|]. split; [exact E|]. split; [exact HB|]. split.
  - intros ->. destruct HG as [[He [Hcs|[Hx _]]]|([] & Hk & Hx)]; try discriminate; auto.
    left. split; [|exact Hcs]. destruct e; [discriminate|reflexivity].
  - split.
    + intros Hno. destruct HG as [[He [Hcs|[_ [k Hx]]]]|(k & _ & Hx)]; [auto|destruct (Hno _ Hx)|destruct (Hno _ Hx)].
    + intros Hb. destruct HG as [[He _]|(k & -> & Hx)]; [auto|]. rewrite (Hb _ Hx). auto.
Qed.

(** * The commands with files *)

From Coq Require Import String.
From Verif Require Import Bytes Winnow RecordModel BaseProofs TagOccModel Utf8Model ByteRecordModel ReaderModel
  MatcherModel StateParser MatcherParserModel BuilderModel PathModel FmtModel QueryModel CliModel TableModel
  ExplodeModel CheckModel CsvModel OptionsModel PrepareModel IoModel IoSpec IoProofs WriteSpec DiskModel DiskSpec
  DiskProofs.

Section Commands.
  Variable gz_enc : bytes -> bytes.
  Variable gz_dec : bytes -> list piece.
  Variable writable : bytes -> bool.
  Variables O Od : oracles.
  Variable transform : bytes -> bytes.
  Variable sha : bytes -> bytes.
  Variable lossy : bytes -> bytes.
  Variable T : text_fns.
  Variable rule_order : list (bytes * N) -> list (bytes * N).
  Variable link_order : list (bytes * list bytes) -> list (bytes * list bytes).
  Variable numeric : bytes -> bool.
  Variable hash : list bytes -> N.
  Variable freq_order : ftable -> ftable.

  Notation filter_on_disk := (filter_on_disk gz_enc gz_dec writable O Od transform).
  Notation concat_on_disk := (concat_on_disk gz_enc gz_dec writable O sha lossy).
  Notation count_on_disk := (count_on_disk gz_enc gz_dec writable O Od transform).
  Notation explode_on_disk := (explode_on_disk gz_enc gz_dec writable O Od transform).
  Notation check_on_disk := (check_on_disk gz_enc gz_dec writable O Od transform lossy T rule_order link_order).
  Notation hash_on_disk := (hash_on_disk gz_enc gz_dec writable O Od transform sha lossy numeric).
  Notation print_on_disk := (print_on_disk gz_enc gz_dec writable O Od transform).
  Notation slice_on_disk := (slice_on_disk gz_enc gz_dec writable O Od transform).
  Notation sample_on_disk := (sample_on_disk gz_enc gz_dec writable O Od transform).
  Notation select_on_disk := (select_on_disk gz_enc gz_dec writable O Od transform lossy T numeric hash).
  Notation freq_on_disk := (freq_on_disk gz_enc gz_dec writable O Od transform lossy T numeric freq_order).

  (** ** What is not an output stays as it is *)

  Section Moves.
    Variable R : world -> world -> Prop.
    Hypothesis R_refl : forall w, R w w.
    Hypothesis R_trans : forall a b c, R a b -> R b c -> R a c.
    Variable may : output -> Prop.
    Hypothesis may_allowed : forall o, may o -> allowed gz_enc writable R o.

    Lemma may_all : forall outs, Forall may outs -> Forall (allowed gz_enc writable R) outs.
    Proof. intros outs H. eapply Forall_impl; [|exact H]. exact may_allowed. Qed.

    Ltac outs := repeat (apply Forall_cons; [cbn; auto|]); try apply Forall_nil.
    Ltac run := repeat (intros; first
      [ apply (prepared_moves gz_enc writable R R_refl R_trans)
      | apply (open_all_moves gz_enc writable R R_refl R_trans)
      | apply (process_all_moves gz_enc gz_dec writable R R_refl R_trans)
      | apply R_refl | exact I ]); cbn [fst]; outs.

    Lemma filter_moves : forall a append gzip output tee w,
      (forall b n, wb_run wb_new [CAppend append; CGzip gzip] = Some b ->
         n = output \/ (n = tee /\ tee <> None) -> may (builder_output b n)) ->
      moves R (filter_on_disk a append gzip output tee w) w.
    Proof.
      intros a append gzip output tee w H. unfold DiskModel.filter_on_disk.
      apply (prepared_moves gz_enc writable R R_refl R_trans); [constructor|]. intros _.
      destruct (wb_run _ _) as [b|]; [|apply R_refl]. specialize (H b).
      assert (H1 : may (builder_output b output)) by auto.
      assert (H2 : Forall (allowed gz_enc writable R) match tee with Some n => [builder_output b (Some n)] | None => [] end).
      { destruct tee as [n|]; [|constructor]. constructor; [|constructor]. apply may_allowed, H; [reflexivity|].
        right. split; [reflexivity|discriminate]. }
      apply (open_all_moves gz_enc writable R R_refl R_trans); [constructor|constructor; auto|]. intros w1.
      apply (prepared_moves gz_enc writable R R_refl R_trans); [constructor; auto|]. intros c.
      apply (process_all_moves gz_enc gz_dec writable R R_refl R_trans). constructor; [cbn; auto|].
      destruct tee as [n|]; [|constructor]. inversion H2; subst. constructor; [assumption|constructor].
    Qed.

    Lemma concat_moves : forall append output tee unique skip names w,
      (forall b n, wb_run wb_new [CAppend append] = Some b ->
         n = output \/ (n = tee /\ tee <> None) -> may (builder_output b n)) ->
      moves R (concat_on_disk append output tee unique skip names w) w.
    Proof.
      intros append output tee unique skip names w H. unfold DiskModel.concat_on_disk.
      destruct (wb_run _ _) as [b|]; [|apply R_refl]. specialize (H b).
      assert (H1 : may (builder_output b output)) by auto.
      assert (H2 : Forall (allowed gz_enc writable R) match tee with Some n => [builder_output b (Some n)] | None => [] end).
      { destruct tee as [n|]; [|constructor]. constructor; [|constructor]. apply may_allowed, H; [reflexivity|].
        right. split; [reflexivity|discriminate]. }
      apply (open_all_moves gz_enc writable R R_refl R_trans); [constructor|constructor; auto|]. intros w1.
      apply (process_all_moves gz_enc gz_dec writable R R_refl R_trans). constructor; [cbn; auto|].
      destruct tee as [n|]; [|constructor]. inversion H2; subst. constructor; [assumption|constructor].
    Qed.

    Lemma count_moves : forall a append output m skip names w, may (mkOut output append false) ->
      moves R (count_on_disk a append output m skip names w) w.
    Proof. intros. unfold DiskModel.count_on_disk. run. Qed.

    Lemma explode_moves : forall a discard keep l gzip output skip names w,
      (forall b, wb_run wb_new [CGzip gzip] = Some b -> may (builder_output b output)) ->
      moves R (explode_on_disk a discard keep l gzip output skip names w) w.
    Proof.
      intros a discard keep l gzip output skip names w H. unfold DiskModel.explode_on_disk.
      apply (prepared_moves gz_enc writable R R_refl R_trans); [constructor|]. intros dk.
      destruct (wb_run _ _) as [b|]; [|apply R_refl]. specialize (H b eq_refl). run.
    Qed.

    Lemma check_moves : forall a rules output skip names w, may (mkOut output false false) ->
      moves R (check_on_disk a rules output skip names w) w.
    Proof. intros. unfold DiskModel.check_on_disk. run. Qed.

    Lemma hash_moves : forall a output tsv header skip names w, may (mkOut output false false) ->
      moves R (hash_on_disk a output tsv header skip names w) w.
    Proof. intros. unfold DiskModel.hash_on_disk. run. Qed.

    Lemma print_moves : forall a nf output skip names w, may (mkOut output false false) ->
      moves R (print_on_disk a nf output skip names w) w.
    Proof. intros. unfold DiskModel.print_on_disk. run. Qed.

    Lemma slice_moves : forall a gzip append output start end_ length skip names w,
      (forall b, wb_run wb_new [CGzip gzip; CAppend append] = Some b -> may (builder_output b output)) ->
      moves R (slice_on_disk a gzip append output start end_ length skip names w) w.
    Proof.
      intros a gzip append output start end_ length skip names w H. unfold DiskModel.slice_on_disk.
      apply (prepared_moves gz_enc writable R R_refl R_trans); [constructor|]. intros o.
      destruct (wb_run _ _) as [b|]; [|apply R_refl]. specialize (H b eq_refl). run.
    Qed.

    Lemma sample_moves : forall a gzip output draw size skip names w,
      (forall b, wb_run wb_new [CGzip gzip] = Some b -> may (builder_output b output)) ->
      moves R (sample_on_disk a gzip output draw size skip names w) w.
    Proof.
      intros a gzip output draw size skip names w H. unfold DiskModel.sample_on_disk.
      apply (prepared_moves gz_enc writable R R_refl R_trans); [constructor|]. intros o.
      destruct (wb_run _ _) as [b|]; [|apply R_refl]. specialize (H b eq_refl). run.
    Qed.

    Lemma select_moves : forall a unique no_empty nf q tsv append output skip names w, may (mkOut output append false) ->
      moves R (select_on_disk a unique no_empty nf q tsv append output skip names w) w.
    Proof. intros. unfold DiskModel.select_on_disk. run. Qed.

    Lemma freq_moves : forall a unique num threshold reverse nf tsv output skip names w, may (mkOut output false false) ->
      moves R (freq_on_disk a unique num threshold reverse nf tsv output skip names w) w.
    Proof. intros. unfold DiskModel.freq_on_disk. run. Qed.
  End Moves.

  Definition named_only (ns : list bytes) (o : output) : Prop := forall n, out_name o = Some n -> In n ns.

  Lemma named_only_named : forall x append gz, named_only (named x) (mkOut x append gz).
  Proof. intros [n|] append gz m H; [|discriminate]. injection H as <-. left. reflexivity. Qed.

  Lemma moves_some : forall R r w c w', r = Some (c, w') -> moves R r w -> R w w'.
  Proof. intros R r w c w' -> H. exact H. Qed.

  Ltac frame H lem :=
    eapply moves_some; [exact H|];
    eapply (lem _ (same_but_refl _) (same_but_trans _) (named_only _) (same_but_allowed gz_enc writable _)).

  Lemma filter_frame : forall a append gzip output tee w c w',
    filter_on_disk a append gzip output tee w = Some (c, w') -> same_but (named output ++ named tee) w w'.
  Proof.
    intros a append gzip output tee w c w' H. frame H filter_moves. intros b n _ Hn m Hm. cbn in Hm. subst n.
    apply in_or_app. destruct Hn as [E|[E _]]; rewrite <- E; cbn; auto.
  Qed.
  Lemma concat_frame : forall append output tee unique skip names w c w',
    concat_on_disk append output tee unique skip names w = Some (c, w') -> same_but (named output ++ named tee) w w'.
  Proof.
    intros append output tee unique skip names w c w' H. frame H concat_moves. intros b n _ Hn m Hm. cbn in Hm. subst n.
    apply in_or_app. destruct Hn as [E|[E _]]; rewrite <- E; cbn; auto.
  Qed.
  Lemma count_frame : forall a append output m skip names w c w',
    count_on_disk a append output m skip names w = Some (c, w') -> same_but (named output) w w'.
  Proof. intros a append output m skip names w c w' H. frame H count_moves. apply named_only_named. Qed.
  Lemma explode_frame : forall a discard keep l gzip output skip names w c w',
    explode_on_disk a discard keep l gzip output skip names w = Some (c, w') -> same_but (named output) w w'.
  Proof. intros a discard keep l gzip output skip names w c w' H. frame H explode_moves. intros b _. apply named_only_named. Qed.
  Lemma check_frame : forall a rules output skip names w c w',
    check_on_disk a rules output skip names w = Some (c, w') -> same_but (named output) w w'.
  Proof. intros a rules output skip names w c w' H. frame H check_moves. apply named_only_named. Qed.
  Lemma hash_frame : forall a output tsv header skip names w c w',
    hash_on_disk a output tsv header skip names w = Some (c, w') -> same_but (named output) w w'.
  Proof. intros a output tsv header skip names w c w' H. frame H hash_moves. apply named_only_named. Qed.
  Lemma print_frame : forall a nf output skip names w c w',
    print_on_disk a nf output skip names w = Some (c, w') -> same_but (named output) w w'.
  Proof. intros a nf output skip names w c w' H. frame H print_moves. apply named_only_named. Qed.
  Lemma slice_frame : forall a gzip append output start end_ length skip names w c w',
    slice_on_disk a gzip append output start end_ length skip names w = Some (c, w') -> same_but (named output) w w'.
  Proof. intros a gzip append output start end_ length skip names w c w' H. frame H slice_moves. intros b _. apply named_only_named. Qed.
  Lemma sample_frame : forall a gzip output draw size skip names w c w',
    sample_on_disk a gzip output draw size skip names w = Some (c, w') -> same_but (named output) w w'.
  Proof. intros a gzip output draw size skip names w c w' H. frame H sample_moves. intros b _. apply named_only_named. Qed.
  Lemma select_frame : forall a unique no_empty nf q tsv append output skip names w c w',
    select_on_disk a unique no_empty nf q tsv append output skip names w = Some (c, w') -> same_but (named output) w w'.
  Proof. intros a unique no_empty nf q tsv append output skip names w c w' H. frame H select_moves. apply named_only_named. Qed.
  Lemma freq_frame : forall a unique num threshold reverse nf tsv output skip names w c w',
    freq_on_disk a unique num threshold reverse nf tsv output skip names w = Some (c, w') -> same_but (named output) w w'.
  Proof. intros a unique num threshold reverse nf tsv output skip names w c w' H. frame H freq_moves. apply named_only_named. Qed.

  (** ** Appending loses nothing *)

  Ltac grown H lem :=
    eapply moves_some; [exact H|];
    eapply (lem _ only_grown_refl only_grown_trans _ (only_grown_allowed gz_enc writable)).

  Lemma filter_grown : forall a gzip output tee w c w',
    filter_on_disk a true gzip output tee w = Some (c, w') -> only_grown w w'.
  Proof. intros a gzip output tee w c w' H. grown H filter_moves. intros b n Hb _. right. destruct gzip; [discriminate|]. injection Hb as <-. reflexivity. Qed.
  Lemma concat_grown : forall output tee unique skip names w c w',
    concat_on_disk true output tee unique skip names w = Some (c, w') -> only_grown w w'.
  Proof. intros output tee unique skip names w c w' H. grown H concat_moves. intros b n Hb _. right. injection Hb as <-. reflexivity. Qed.
  Lemma count_grown : forall a output m skip names w c w',
    count_on_disk a true output m skip names w = Some (c, w') -> only_grown w w'.
  Proof. intros a output m skip names w c w' H. grown H count_moves. right. reflexivity. Qed.
  Lemma slice_grown : forall a gzip output start end_ length skip names w c w',
    slice_on_disk a gzip true output start end_ length skip names w = Some (c, w') -> only_grown w w'.
  Proof. intros a gzip output start end_ length skip names w c w' H. grown H slice_moves. intros b Hb. right. destruct gzip; [discriminate|]. injection Hb as <-. reflexivity. Qed.
  Lemma select_grown : forall a unique no_empty nf q tsv output skip names w c w',
    select_on_disk a unique no_empty nf q tsv true output skip names w = Some (c, w') -> only_grown w w'.
  Proof. intros a unique no_empty nf q tsv output skip names w c w' H. grown H select_moves. right. reflexivity. Qed.

  (** ** Refused commands that have not opened their output *)

  Lemma prepared_refused : forall A outs (x : option (option A)) w k w',
    prepared gz_enc outs x w k = Some (CRefused, w') ->
    w' = close_all gz_enc (map (fun o => (o, [])) outs) w \/ exists a, x = Some (Some a) /\ k a = Some (CRefused, w').
  Proof.
    intros A outs [[a|]|] w k w' H; cbn in H.
    - right. exists a. auto.
    - injection H as <-. left. reflexivity.
    - discriminate.
  Qed.

  Ltac late H :=
    apply prepared_refused in H; destruct H as [->|(a0 & _ & H)]; [reflexivity|];
    try (destruct (wb_run _ _) as [b0|] in H; [|discriminate]);
    eapply open_one_refused; [|exact H]; intros; apply process_all_not_refused.

  Lemma hash_refused : forall a output tsv header skip names w w',
    hash_on_disk a output tsv header skip names w = Some (CRefused, w') -> w' = w.
  Proof. intros a output tsv header skip names w w' H. unfold DiskModel.hash_on_disk in H. late H. Qed.
  Lemma print_refused : forall a nf output skip names w w',
    print_on_disk a nf output skip names w = Some (CRefused, w') -> w' = w.
  Proof. intros a nf output skip names w w' H. unfold DiskModel.print_on_disk in H. late H. Qed.
  Lemma slice_refused : forall a gzip append output start end_ length skip names w w',
    slice_on_disk a gzip append output start end_ length skip names w = Some (CRefused, w') -> w' = w.
  Proof. intros a gzip append output start end_ length skip names w w' H. unfold DiskModel.slice_on_disk in H. late H. Qed.
  Lemma sample_refused : forall a gzip output draw size skip names w w',
    sample_on_disk a gzip output draw size skip names w = Some (CRefused, w') -> w' = w.
  Proof. intros a gzip output draw size skip names w w' H. unfold DiskModel.sample_on_disk in H. late H. Qed.
  Lemma select_refused : forall a unique no_empty nf q tsv append output skip names w w',
    select_on_disk a unique no_empty nf q tsv append output skip names w = Some (CRefused, w') -> w' = w.
  Proof. intros a unique no_empty nf q tsv append output skip names w w' H. unfold DiskModel.select_on_disk in H. late H. Qed.
  Lemma freq_refused : forall a unique num threshold reverse nf tsv output skip names w w',
    freq_on_disk a unique num threshold reverse nf tsv output skip names w = Some (CRefused, w') -> w' = w.
  Proof. intros a unique num threshold reverse nf tsv output skip names w w' H. unfold DiskModel.freq_on_disk in H. late H. Qed.

  (** ** Completed commands *)

  Lemma prepared_ended : forall A outs (x : option (option A)) w k st w',
    prepared gz_enc outs x w k = Some (CEnded st, w') -> exists a, x = Some (Some a) /\ k a = Some (CEnded st, w').
  Proof.
    intros A outs [[a|]|] w k st w' H; cbn in H.
    - exists a. auto.
    - discriminate.
    - discriminate.
  Qed.

  Lemma open_all_ended : forall outs op w k st w', NoDup (out_names outs) ->
    open_all gz_enc writable op outs w k = Some (CEnded st, w') ->
    exists w1, opened outs w w1 /\ k w1 = Some (CEnded st, w').
  Proof.
    intros outs op w k st w' Hn H. destruct (open_all_cases gz_enc writable _ _ _ _ _ _ Hn H) as [[E _]|E]; [discriminate|exact E].
  Qed.

  Lemma one_nodup : forall o, NoDup (out_names [o]).
  Proof. intros o. unfold out_names. cbn. rewrite app_nil_r. destruct (out_name o); repeat constructor. intros []. Qed.

  Lemma one_distinct : forall x append gz names, (forall n, x = Some n -> ~ In n names) ->
    forall n, In n (out_names [mkOut x append gz]) -> ~ In n names.
  Proof. intros [m|] append gz names H n; cbn; intros Hn; [|destruct Hn]. destruct Hn as [<-|[]]. apply H. reflexivity. Qed.

  Ltac done w1 Ho H Hd :=
    apply (process_all_completed gz_enc gz_dec writable) with (w1 := w1); [apply one_nodup|apply one_distinct; exact Hd|exact Ho|exact H].

  Lemma count_completed : forall a append output m skip names w st w', (forall n, output = Some n -> ~ In n names) ->
    count_on_disk a append output m skip names w = Some (CEnded st, w') ->
    exists o, fst (opts_prepare O Od transform a) = Some (Some o)
      /\ completed gz_enc gz_dec [(mkOut output append false, (count_output m, fun _ => []))] (fun _ => false)
           (fun s => s) (fun s r => as_io (count_body O Od o s r)) skip (0, 0, 0) names st w w'.
  Proof.
    intros a append output m skip names w st w' Hd H. unfold DiskModel.count_on_disk in H. cbv zeta in H.
    apply open_all_ended in H; [|apply one_nodup]. destruct H as (w1 & Ho & H).
    apply prepared_ended in H. destruct H as (o & Ep & H). exists o. split; [exact Ep|]. done w1 Ho H Hd.
  Qed.

  Lemma explode_completed : forall a discard keep l gzip output skip names w st w',
    (forall n, output = Some n -> ~ In n names) ->
    explode_on_disk a discard keep l gzip output skip names w = Some (CEnded st, w') ->
    exists ds ks o, parse_predicates discard = Some ds /\ parse_predicates keep = Some ks
      /\ fst (opts_prepare O Od transform a) = Some (Some o)
      /\ completed gz_enc gz_dec [(builder_output (mkWB false gzip) output, (@snd N bytes, @snd N bytes))]
           (fun _ => false) (fun s => s) (fun s r => as_io (explode_body O Od (mkExplode l o ks ds) s r)) skip
           (0, []) names st w w'.
  Proof.
    intros a discard keep l gzip output skip names w st w' Hd H. unfold DiskModel.explode_on_disk in H.
    apply prepared_ended in H. destruct H as ([ds ks] & Ed & H).
    destruct (parse_predicates discard) as [ds'|]; [|discriminate]. destruct (parse_predicates keep) as [ks'|]; [|discriminate].
    injection Ed as -> ->. exists ds, ks.
    assert (Eb : wb_run wb_new [CGzip gzip] = Some (mkWB false gzip)) by (destruct gzip; reflexivity).
    rewrite Eb in H. cbv zeta in H. apply open_all_ended in H; [|apply one_nodup]. destruct H as (w1 & Ho & H).
    apply prepared_ended in H. destruct H as (o & Ep & H). exists o. repeat (split; [first [reflexivity|assumption]|]).
    done w1 Ho H Hd.
  Qed.

  Lemma check_completed : forall a rules output skip names w st w', (forall n, output = Some n -> ~ In n names) ->
    check_on_disk a rules output skip names w = Some (CEnded st, w') ->
    exists o sets, fst (opts_prepare O Od transform a) = Some (Some o) /\ rules = Some sets
      /\ completed gz_enc gz_dec
           [(mkOut output false false,
             (fun s : check_state => report_text output (snd s ++ sets_finish lossy link_order (snd (fst s))),
              fun s : check_state => report_text output (snd s)))] (fun _ => false)
           (fun s => s) (fun s r => as_io (check_body Od T lossy rule_order O o s r)) skip (0, sets, []) names st w w'.
  Proof.
    intros a rules output skip names w st w' Hd H. unfold DiskModel.check_on_disk in H. cbv zeta in H.
    apply open_all_ended in H; [|apply one_nodup]. destruct H as (w1 & Ho & H).
    apply prepared_ended in H. destruct H as (o & Ep & H).
    apply prepared_ended in H. destruct H as (sets & Es & H). injection Es as ->.
    exists o, sets. repeat (split; [first [reflexivity|assumption]|]). done w1 Ho H Hd.
  Qed.

  Lemma hash_completed : forall a output tsv header skip names w st w', (forall n, output = Some n -> ~ In n names) ->
    hash_on_disk a output tsv header skip names w = Some (CEnded st, w') ->
    exists o, fst (opts_prepare O Od transform a) = Some (Some o)
      /\ let text (s : N * list (list bytes) * bool) := csv_text numeric QNecessary (csv_delim tsv) (snd (fst s)) in
         completed gz_enc gz_dec [(mkOut output false false, (text, text))] (fun _ => false)
           (fun s => s) (fun s r => with_refused snd (hash_csv_body O Od sha lossy o s r)) skip
           (0, [map str_trim (split_on 44 header)], false) names st w w'.
  Proof.
    intros a output tsv header skip names w st w' Hd H. unfold DiskModel.hash_on_disk in H. cbv zeta in *.
    apply prepared_ended in H. destruct H as (o & Ep & H). exists o. split; [exact Ep|].
    apply open_all_ended in H; [|apply one_nodup]. destruct H as (w1 & Ho & H). done w1 Ho H Hd.
  Qed.

  Lemma print_completed : forall a nf output skip names w st w', (forall n, output = Some n -> ~ In n names) ->
    print_on_disk a nf output skip names w = Some (CEnded st, w') ->
    exists o, fst (opts_prepare O Od transform a) = Some (Some o)
      /\ completed gz_enc gz_dec [(mkOut output false false, (@snd N bytes, @snd N bytes))] (fun _ => false)
           (fun s => s) (fun s r => as_io (print_body O Od nf o s r)) skip (0, []) names st w w'.
  Proof.
    intros a nf output skip names w st w' Hd H. unfold DiskModel.print_on_disk in H. cbv zeta in *.
    apply prepared_ended in H. destruct H as (o & Ep & H). exists o. split; [exact Ep|].
    apply open_all_ended in H; [|apply one_nodup]. destruct H as (w1 & Ho & H). done w1 Ho H Hd.
  Qed.

  Lemma slice_completed : forall a gzip append output start end_ length skip names w st w',
    (forall n, output = Some n -> ~ In n names) ->
    slice_on_disk a gzip append output start end_ length skip names w = Some (CEnded st, w') ->
    exists o, fst (opts_prepare O Od transform a) = Some (Some o)
      /\ completed gz_enc gz_dec [(builder_output (mkWB append gzip) output, (sl_out, sl_out))] (fun _ => false)
           (slice_on_skip length) (fun s r => as_io (slice_body O Od start o s r)) skip
           (mkSlice (slice_end start end_ length) 0 0 []) names st w w'.
  Proof.
    intros a gzip append output start end_ length skip names w st w' Hd H. unfold DiskModel.slice_on_disk in H. cbv zeta in *.
    apply prepared_ended in H. destruct H as (o & Ep & H). exists o. split; [exact Ep|].
    destruct (wb_run _ _) as [b|] eqn:Eb in H; [|discriminate].
    assert (b = mkWB append gzip) as -> by (destruct gzip, append; try discriminate; injection Eb as <-; reflexivity).
    apply open_all_ended in H; [|apply one_nodup]. destruct H as (w1 & Ho & H). done w1 Ho H Hd.
  Qed.

  Lemma sample_completed : forall a gzip output draw size skip names w st w',
    (forall n, output = Some n -> ~ In n names) ->
    sample_on_disk a gzip output draw size skip names w = Some (CEnded st, w') ->
    exists o, fst (opts_prepare O Od transform a) = Some (Some o)
      /\ let text (s : sample_state) := match sample_write (snd s) with Some t => t | None => [] end in
         completed gz_enc gz_dec [(builder_output (mkWB false gzip) output, (text, fun _ => []))] (fun _ => false)
           (fun s => s) (fun s r => as_io (sample_body O Od draw size o s r)) skip (0, []) names st w w'.
  Proof.
    intros a gzip output draw size skip names w st w' Hd H. unfold DiskModel.sample_on_disk in H. cbv zeta in *.
    apply prepared_ended in H. destruct H as (o & Ep & H). exists o. split; [exact Ep|].
    assert (Eb : wb_run wb_new [CGzip gzip] = Some (mkWB false gzip)) by (destruct gzip; reflexivity).
    rewrite Eb in H. apply open_all_ended in H; [|apply one_nodup]. destruct H as (w1 & Ho & H). done w1 Ho H Hd.
  Qed.

  Lemma select_completed : forall a unique no_empty nf q tsv append output skip names w st w',
    (forall n, output = Some n -> ~ In n names) ->
    select_on_disk a unique no_empty nf q tsv append output skip names w = Some (CEnded st, w') ->
    exists o query, fst (table_prepare O Od transform a) = Some (Some (o, query))
      /\ let text (s : select_state) := csv_text numeric q (csv_delim tsv) (sel_rows s) in
         let c := mkSelect query (table_options a) unique no_empty (table_header a) nf in
         completed gz_enc gz_dec [(mkOut output append false, (text, text))] (fun _ => false)
           (fun s => s) (fun s r => with_refused sel_failed (select_body O Od T lossy hash c o s r)) skip
           (mkSel 0 [] (csv_header (table_header a)) false) names st w w'.
  Proof.
    intros a unique no_empty nf q tsv append output skip names w st w' Hd H. unfold DiskModel.select_on_disk in H. cbv zeta in *.
    apply prepared_ended in H. destruct H as ([o query] & Ep & H). exists o, query. split; [exact Ep|].
    apply open_all_ended in H; [|apply one_nodup]. destruct H as (w1 & Ho & H). done w1 Ho H Hd.
  Qed.

  Lemma freq_completed : forall a unique num threshold reverse nf tsv output skip names w st w',
    (forall n, output = Some n -> ~ In n names) ->
    freq_on_disk a unique num threshold reverse nf tsv output skip names w = Some (CEnded st, w') ->
    exists o query, fst (table_prepare O Od transform a) = Some (Some (o, query))
      /\ let c := mkFreq query (table_options a) unique num threshold reverse (table_header a) nf in
         let table (s : N * ftable) := freq_output lossy freq_order c (snd s) in
         completed gz_enc gz_dec
           [(mkOut output false false,
             (fun s => csv_text numeric QNecessary (csv_delim tsv) (fst (table s)), fun _ => []))]
           (fun s => snd (table s)) (fun s => s) (fun s r => as_io (freq_body O Od T c o s r)) skip (0, []) names st w w'.
  Proof.
    intros a unique num threshold reverse nf tsv output skip names w st w' Hd H. unfold DiskModel.freq_on_disk in H. cbv zeta in *.
    apply prepared_ended in H. destruct H as ([o query] & Ep & H). exists o, query. split; [exact Ep|].
    apply open_all_ended in H; [|apply one_nodup]. destruct H as (w1 & Ho & H). done w1 Ho H Hd.
  Qed.

  (** with a tee output *)

  Lemma two_nodup : forall b x y, (forall n, x = Some n -> y <> Some n) ->
    NoDup (out_names (builder_output b x :: match y with Some n => [builder_output b (Some n)] | None => [] end)).
  Proof.
    intros b [m|] [n|] H; cbn; repeat constructor; try (intros []; fail).
    intros [E|[]]. subst. apply (H m); reflexivity.
  Qed.

  Lemma two_names : forall b x y, out_names (builder_output b x :: match y with Some n => [builder_output b (Some n)] | None => [] end)
    = named x ++ named y.
  Proof. intros b [m|] [n|]; reflexivity. Qed.

  Lemma two_fst : forall b x (y : option bytes) S (f g : S -> bytes),
    map fst ((builder_output b x, (f, f)) :: match y with Some n => [(builder_output b (Some n), (g, g))] | None => [] end)
    = builder_output b x :: match y with Some n => [builder_output b (Some n)] | None => [] end.
  Proof. intros b x [n|] S f g; reflexivity. Qed.

  Lemma concat_completed : forall append output tee unique skip names w st w',
    (forall n, output = Some n -> tee <> Some n) ->
    (forall n, In n (named output ++ named tee) -> ~ In n names) ->
    concat_on_disk append output tee unique skip names w = Some (CEnded st, w') ->
    let b := mkWB append false in
    completed gz_enc gz_dec
      ((builder_output b output, (fun s : concat_state => snd (fst s), fun s => snd (fst s)))
         :: match tee with Some n => [(builder_output b (Some n), (fun s : concat_state => snd s, fun s => snd s))] | None => [] end)
      (fun _ => false) (fun s => s) (fun s r => as_io (concat_body O sha lossy unique s r)) skip ([], [], []) names st w w'.
  Proof.
    intros append output tee unique skip names w st w' Ht Hd H. unfold DiskModel.concat_on_disk in H.
    assert (Eb : wb_run wb_new [CAppend append] = Some (mkWB append false)) by (destruct append; reflexivity).
    rewrite Eb in H. cbv zeta in *. apply open_all_ended in H; [|apply two_nodup; exact Ht]. destruct H as (w1 & Ho & H).
    eapply (process_all_completed gz_enc gz_dec writable) with (w1 := w1); [| | |exact H]; rewrite two_fst.
    - apply two_nodup. exact Ht.
    - rewrite two_names. exact Hd.
    - exact Ho.
  Qed.

  Lemma filter_prepare_content : forall a f g, (forall n, fa_expr_file a = Some n -> f n = g n) ->
    filter_prepare O Od transform f a = filter_prepare O Od transform g a.
  Proof.
    intros a f g H. unfold filter_prepare, and_then. destruct (source_parse Od fresh (fa_source a)) as [[[source|]|] s]; try reflexivity.
    destruct (parse_predicates (fa_discard a)); [|reflexivity]. destruct (parse_predicates (fa_keep a)); [|reflexivity].
    destruct (filter_set_build _ _ _ _); [|reflexivity]. unfold filter_expr. destruct (fa_expr_file a) as [n|]; [|reflexivity].
    rewrite (H n eq_refl). reflexivity.
  Qed.

  Lemma filter_completed : forall a append gzip output tee w st w', 
    let names := filter_names (match fa_expr_file a with Some _ => true | None => false end) (fa_filter a) (fa_names a) in
    (forall n, output = Some n -> tee <> Some n) ->
    (forall n, In n (named output ++ named tee) -> ~ In n names /\ fa_expr_file a <> Some n) ->
    filter_on_disk a append gzip output tee w = Some (CEnded st, w') ->
    (forall n, fa_expr_file a = Some n -> disk_get (w_disk w) n <> None)
    /\ exists c, fst (filter_prepare O Od transform (before w) a) = Some (Some c)
    /\ let b := mkWB append gzip in
       completed gz_enc gz_dec
         ((builder_output b output, (fun s : filter_state => snd (fst s), fun s => snd (fst s)))
            :: match tee with Some n => [(builder_output b (Some n), (fun s : filter_state => snd s, fun s => snd s))] | None => [] end)
         (fun _ => false) (fun s => s) (fun s r => as_io (filter_body O Od c s r)) (fa_skip a) (0, [], []) names st w w'.
  Proof.
    intros a append gzip output tee w st w' names Ht Hd H. unfold DiskModel.filter_on_disk in H.
    apply prepared_ended in H. destruct H as (_ & _ & H).
    destruct (wb_run _ _) as [b|] eqn:Eb in H; [|discriminate].
    assert (b = mkWB append gzip) as -> by (destruct gzip, append; try discriminate; injection Eb as <-; reflexivity).
    cbv zeta in *. apply open_all_ended in H; [|apply two_nodup; exact Ht]. destruct H as (w1 & Ho & H).
    apply prepared_ended in H. destruct H as (c & Ep & H).
    assert (Hs : forall n, fa_expr_file a = Some n -> disk_get (w_disk w1) n = disk_get (w_disk w) n).
    { intros n En. destruct Ho as [Ho _]. apply Ho. rewrite two_names. intros Hi. apply (proj2 (Hd n Hi)). exact En. }
    split.
    { intros n En. rewrite <- (Hs n En). unfold expr_there in Ep. rewrite En in Ep.
      destruct (disk_get (w_disk w1) n); discriminate. }
    exists c. split.
    - destruct (expr_there a (w_disk w1)); [|discriminate]. rewrite <- Ep. f_equal. apply filter_prepare_content.
      intros n En. unfold before, content_of. rewrite (Hs n En). reflexivity.
    - eapply (process_all_completed gz_enc gz_dec writable) with (w1 := w1); [| | |exact H]; rewrite two_fst.
      + apply two_nodup. exact Ht.
      + rewrite two_names. intros n Hi. apply (proj1 (Hd n Hi)).
      + exact Ho.
  Qed.
End Commands.

(** ** Panics *)

Lemma prepared_panicked : forall gz_enc A outs (x : option (option A)) w k w',
  prepared gz_enc outs x w k = Some (CPanicked, w') -> exists a, x = Some (Some a) /\ k a = Some (CPanicked, w').
Proof.
  intros gz_enc A outs [[a|]|] w k w' H; cbn in H.
  - exists a. auto.
  - discriminate.
  - discriminate.
Qed.

Lemma open_all_panicked : forall gz_enc writable outs op w k w',
  open_all gz_enc writable op outs w k = Some (CPanicked, w') -> exists w1, k w1 = Some (CPanicked, w').
Proof.
  induction outs as [|o outs IH]; intros op w k w' H; cbn in H.
  - exists w. exact H.
  - destruct (open_output writable o (w_disk w)) as [d|]; [|discriminate]. exact (IH _ _ _ _ H).
Qed.

Lemma process_all_panicked : forall gz_enc gz_dec S (outs : list (output * ((S -> bytes) * (S -> bytes)))) bad on_skip
    body skip s names w w',
  process_all gz_enc gz_dec outs bad on_skip body skip s names w = Some (CPanicked, w') ->
  exists files, io_files_loop on_skip body skip s files = Some IPanicked.
Proof.
  intros gz_enc gz_dec S outs bad on_skip body skip s names w w' H. unfold process_all in H.
  destruct (io_files_loop _ _ _ _ _) as [x|] eqn:E; [|discriminate].
  destruct x as [s'|s'|s' e|]; cbn in H; try discriminate; [|eexists; exact E].
  destruct e as [p|k| |]; try destruct k; discriminate.
Qed.

Lemma filter_panicked : forall gz_enc gz_dec writable O Od transform a append gzip output tee w w',
  append && gzip = false ->
  filter_on_disk gz_enc gz_dec writable O Od transform a append gzip output tee w = Some (CPanicked, w') ->
  exists c files, io_files_loop (fun s => s) (fun s r => as_io (filter_body O Od c s r)) (fa_skip a) (0, [], []) files
    = Some IPanicked.
Proof.
  intros gz_enc gz_dec writable O Od transform a append gzip output tee w w' Hg H. unfold filter_on_disk in H.
  apply prepared_panicked in H. destruct H as (_ & _ & H).
  assert (Eb : wb_run wb_new [CAppend append; CGzip gzip] = Some (mkWB append gzip)) by (destruct append, gzip; try discriminate; reflexivity).
  rewrite Eb in H. cbv zeta in H. apply open_all_panicked in H. destruct H as (w1 & H).
  apply prepared_panicked in H. destruct H as (c & _ & H). apply process_all_panicked in H. destruct H as (files & H).
  exists c, files. exact H.
Qed.

Lemma slice_panicked : forall gz_enc gz_dec writable O Od transform a gzip append output start end_ length skip names w w',
  slice_on_disk gz_enc gz_dec writable O Od transform a gzip append output start end_ length skip names w = Some (CPanicked, w') ->
  (append = true /\ gzip = true)
  \/ exists o files, io_files_loop (slice_on_skip length) (fun s r => as_io (slice_body O Od start o s r)) skip
        (mkSlice (slice_end start end_ length) 0 0 []) files = Some IPanicked.
Proof.
  intros gz_enc gz_dec writable O Od transform a gzip append output start end_ length skip names w w' H. unfold slice_on_disk in H.
  apply prepared_panicked in H. destruct H as (o & _ & H).
  destruct (wb_run _ _) as [b|] eqn:Eb in H.
  - right. cbv zeta in H. apply open_all_panicked in H. destruct H as (w1 & H). apply process_all_panicked in H.
    destruct H as (files & H). exists o, files. exact H.
  - left. destruct append, gzip; try discriminate. auto.
Qed.

Lemma slice_both : forall gz_enc gz_dec writable O Od transform a output start end_ length skip names w o,
  fst (opts_prepare O Od transform a) = Some (Some o) ->
  slice_on_disk gz_enc gz_dec writable O Od transform a true true output start end_ length skip names w = Some (CPanicked, w).
Proof. intros. unfold slice_on_disk. rewrite H. reflexivity. Qed.

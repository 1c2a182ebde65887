(** * Proofs about pipes: the output *)

From Coq Require Import String ZArith Lia Permutation.
From Verif Require Import Bytes BaseProofs Winnow RecordModel TagOccModel Utf8Model ByteRecordModel ReaderModel
  MatcherModel StateParser MatcherParserModel BuilderModel PathModel FmtModel QueryModel CliModel TableModel
  ExplodeModel CheckModel ConvertModel CsvModel OptionsModel OptionsSpec ConfigModel PrepareModel IoModel IoSpec WriteSpec DiskModel DirModel RuleModel
  MainModel DiskSpec RuleSpec MainSpec PipeSpec DiskProofs DiskEndProofs MainProofs MainTwiceProofs MainUseProofs MainDependProofs.
From Verif Require DirSpec DirCommandProofs.

Section Redirect.
  Variable gz_enc : bytes -> bytes.
  Variable gz_dec : bytes -> list piece.
  Variable writable : bytes -> bool.
  Variable m : bytes.
  Hypothesis Hm : writable m = true.
  Variable w : world.
  Variable ap : bool.

  Notation get v n := (disk_get (w_disk v) n).

  Definition kept_text : bytes := if ap then before w m else [].

  (** [t] has gone to stdout here and to the file there *)
  Definition shifted (t : bytes) (v v' : world) : Prop :=
    w_stdin v' = w_stdin v /\ (forall n, n <> m -> get v' n = get v n)
    /\ w_stdout v = w_stdout w ++ t /\ w_stdout v' = w_stdout w /\ get v' m = Some (kept_text ++ t).

  Definition rel (r r' : option (command_end * world)) : Prop :=
    match r, r' with
    | None, None => True
    | Some (x, v), Some (x', v') =>
        x' = x /\ (forall n, n <> m -> get v' n = get v n) /\ w_stdout v' = w_stdout w
        /\ (forall st, x = CEnded st -> redirected m ap w v v')
    | _, _ => False
    end.

  Definition aside (o : output) : Prop := exists n, out_name o = Some n /\ n <> m.

  Lemma shifted_redirected : forall t v v', shifted t v v' -> redirected m ap w v v'.
  Proof. intros t v v' (H1 & H2 & H3 & H4 & H5). split; [exact H2|]. split; [exact H4|]. exists t. split; [exact H3|exact H5]. Qed.

  Lemma rel_shifted : forall t x v v', shifted t v v' -> rel (Some (x, v)) (Some (x, v')).
  Proof.
    intros t x v v' H. split; [reflexivity|]. split; [apply H|]. split; [apply H|]. intros st _. exact (shifted_redirected t v v' H).
  Qed.

  Lemma rel_refused : forall v v', (forall n, n <> m -> get v' n = get v n) -> w_stdout v' = w_stdout w ->
    rel (Some (CRefused, v)) (Some (CRefused, v')).
  Proof. intros v v' H1 H2. split; [reflexivity|]. split; [exact H1|]. split; [exact H2|]. discriminate. Qed.

  Lemma rel_panicked : forall v v', (forall n, n <> m -> get v' n = get v n) -> w_stdout v' = w_stdout w ->
    rel (Some (CPanicked, v)) (Some (CPanicked, v')).
  Proof. intros v v' H1 H2. split; [reflexivity|]. split; [exact H1|]. split; [exact H2|]. discriminate. Qed.

  Lemma shifted_set : forall t v v' n c, n <> m -> shifted t v v' ->
    shifted t (with_disk v (disk_set (w_disk v) n c)) (with_disk v' (disk_set (w_disk v') n c)).
  Proof.
    intros t v v' n c Hn (H1 & H2 & H3 & H4 & H5). split; [exact H1|]. split.
    - intros k Hk. cbn. rewrite !disk_get_set. destruct (bytes_eqb n k); [reflexivity|]. apply H2. exact Hk.
    - split; [exact H3|]. split; [exact H4|]. cbn. rewrite disk_get_other by exact Hn. exact H5.
  Qed.

  Lemma open_aside : forall t o v v', aside o -> shifted t v v' ->
    match open_output writable o (w_disk v), open_output writable o (w_disk v') with
    | None, None => True
    | Some d, Some d' => shifted t (with_disk v d) (with_disk v' d')
    | _, _ => False
    end.
  Proof.
    intros t o v v' (n & En & Hn) H. unfold open_output. rewrite En. destruct (writable n); [|exact I].
    replace (get v' n) with (get v n) by (symmetry; apply H; exact Hn). apply shifted_set; assumption.
  Qed.

  Lemma close_aside : forall t o text v v', aside o -> shifted t v v' ->
    shifted t (close_output gz_enc o text v) (close_output gz_enc o text v').
  Proof.
    intros t o text v v' (n & En & Hn) H. unfold close_output. rewrite En.
    replace (get v' n) with (get v n) by (symmetry; apply H; exact Hn). apply shifted_set; assumption.
  Qed.

  Lemma close_all_aside : forall (outs : list (output * bytes)) t v v', Forall aside (map fst outs) -> shifted t v v' ->
    shifted t (close_all gz_enc outs v) (close_all gz_enc outs v').
  Proof.
    induction outs as [|[o text] outs IH]; intros t v v' Ho H; [exact H|]. cbn [map fst] in Ho. inversion Ho as [|? ? Ho1 Ho2]. subst.
    unfold close_all in *. cbn [fold_left fst snd]. apply IH; [exact Ho2|]. apply close_aside; assumption.
  Qed.

  Lemma close_move : forall (gz : bool) text v v', shifted [] v v' ->
    shifted (if gz then gz_enc text else text) (close_output gz_enc (mkOut None ap gz) text v)
      (close_output gz_enc (mkOut (Some m) ap gz) text v').
  Proof.
    intros gz text v v' (H1 & H2 & H3 & H4 & H5). unfold close_output. cbn [out_name out_gz]. rewrite H5.
    set (data := if gz then gz_enc text else text). split; [exact H1|]. split; [|split; [|split]]; cbn.
    - intros n Hn. rewrite disk_get_other by congruence. apply H2. exact Hn.
    - rewrite H3, app_nil_r. reflexivity.
    - exact H4.
    - rewrite disk_get_same, app_nil_r. reflexivity.
  Qed.

  Lemma close_all_move : forall (gz : bool) text (outs : list (output * bytes)) v v', Forall aside (map fst outs) -> shifted [] v v' ->
    shifted (if gz then gz_enc text else text) (close_all gz_enc ((mkOut None ap gz, text) :: outs) v)
      (close_all gz_enc ((mkOut (Some m) ap gz, text) :: outs) v').
  Proof.
    intros gz text outs v v' Ho H. unfold close_all. cbn [fold_left fst snd].
    apply (close_all_aside outs); [exact Ho|]. apply close_move. exact H.
  Qed.

  Lemma open_rest : forall gz outs opened v v' k k', Forall aside outs -> Forall aside opened -> shifted [] v v' ->
    (forall u u', shifted [] u u' -> rel (k u) (k' u')) ->
    rel (open_all gz_enc writable (mkOut None ap gz :: opened) outs v k)
        (open_all gz_enc writable (mkOut (Some m) ap gz :: opened) outs v' k').
  Proof.
    intros gz. induction outs as [|o outs IH]; intros opened v v' k k' Ho Hp H Hk; [apply Hk; exact H|].
    inversion Ho as [|? ? Ho1 Ho2]. subst. cbn [open_all]. pose proof (open_aside [] o v v' Ho1 H) as X.
    destruct (open_output writable o (w_disk v)) as [d|], (open_output writable o (w_disk v')) as [d'|]; try contradiction.
    - cbn [app]. apply IH; [exact Ho2| |exact X|exact Hk]. apply Forall_app. split; [exact Hp|]. constructor; [exact Ho1|constructor].
    - cbn [map]. assert (Forall aside (map fst (map (fun o => (o, @nil N)) opened))) as Hq by (rewrite map_map, map_id; exact Hp).
      pose proof (close_all_move gz [] _ v v' Hq H) as Y. apply rel_refused; apply Y.
  Qed.

  (** the first output is moved, then the rest is opened *)
  Lemma open_move : forall gz outs k k', Forall aside outs ->
    (forall u u', shifted [] u u' -> rel (k u) (k' u')) ->
    rel (open_all gz_enc writable [] (mkOut None ap gz :: outs) w k)
        (open_all gz_enc writable [] (mkOut (Some m) ap gz :: outs) w k').
  Proof.
    intros gz outs k k' Ho Hk. cbn [open_all]. unfold open_output. cbn [out_name out_append]. rewrite Hm. cbn [app].
    apply open_rest; [exact Ho|constructor| |exact Hk]. split; [reflexivity|]. split; [|split; [|split]]; cbn.
    - intros n Hn. apply disk_get_other. congruence.
    - rewrite app_nil_r. reflexivity.
    - reflexivity.
    - rewrite disk_get_same, app_nil_r. reflexivity.
  Qed.

  Lemma prepared_move : forall {B} gz outs (x : option (option B)) u u' k k', Forall aside outs -> shifted [] u u' ->
    (forall a, x = Some (Some a) -> rel (k a) (k' a)) ->
    rel (prepared gz_enc (mkOut None ap gz :: outs) x u k) (prepared gz_enc (mkOut (Some m) ap gz :: outs) x u' k').
  Proof.
    intros B gz outs x u u' k k' Ho H Hk. destruct x as [[a|]|]; [apply Hk; reflexivity| |exact I]. cbn [prepared map].
    assert (Forall aside (map fst (map (fun o => (o, @nil N)) outs))) as Hq by (rewrite map_map, map_id; exact Ho).
    pose proof (close_all_move gz [] _ u u' Hq H) as Y. apply rel_refused; apply Y.
  Qed.

  Lemma first_prepared : forall {B} (x : option (option B)) k k', (forall a, x = Some (Some a) -> rel (k a) (k' a)) ->
    rel (prepared gz_enc [] x w k) (prepared gz_enc [] x w k').
  Proof.
    intros B x k k' Hk. destruct x as [[a|]|]; [apply Hk; reflexivity| |exact I]. apply rel_refused; [reflexivity|reflexivity].
  Qed.

  Lemma process_move : forall {S} gz (f g f' g' : S -> bytes) (rest : list (output * ((S -> bytes) * (S -> bytes)))) bad on_skip body skip
      (s : S) names u u', (forall s, f' s = f s) -> (forall s, g' s = g s) ->
    Forall aside (map fst rest) -> ~ In m names -> shifted [] u u' ->
    rel (process_all gz_enc gz_dec ((mkOut None ap gz, (f, g)) :: rest) bad on_skip body skip s names u)
        (process_all gz_enc gz_dec ((mkOut (Some m) ap gz, (f', g')) :: rest) bad on_skip body skip s names u').
  Proof.
    intros S gz f g f' g' rest bad on_skip body skip s names u u' Hf Hg Ho Hn H. unfold process_all.
    replace (w_stdin u') with (w_stdin u) by (symmetry; apply H).
    rewrite (inputs_twice gz_dec names (w_disk u') (w_disk u)).
    2:{ intros n Hin. apply H. intros ->. exact (Hn Hin). }
    destruct (io_files_loop _ _ _ _ _) as [x|]; [|exact I].
    assert (forall (h : output * ((S -> bytes) * (S -> bytes)) -> bytes), map fst (map (fun o => (fst o, h o)) rest) = map fst rest) as Hr
      by (intros h; rewrite map_map; reflexivity).
    destruct x as [s'|s'|s' er|]; [destruct (main_status _) as [n|]..|apply rel_panicked; apply H];
      try (apply rel_panicked; apply H); cbn [map fst snd]; rewrite ?Hf, ?Hg; eapply rel_shifted; apply close_all_move;
      try exact H; rewrite Hr; exact Ho.
  Qed.

  (** *** The commands *)

  Hypothesis Hplain : plain m.

  Lemma plain_gz : gz_name m = false.
  Proof. destruct (gz_name m) eqn:E; [|reflexivity]. apply gz_name_iff in E. destruct Hplain as [H _]. contradiction. Qed.

  Lemma moved_output : forall b, wb_append b = ap -> 
    builder_output b None = mkOut None ap (wb_gzip b) /\ builder_output b (Some m) = mkOut (Some m) ap (wb_gzip b).
  Proof. intros b <-. unfold builder_output. rewrite plain_gz, orb_false_r. auto. Qed.

  Definition tee_outputs (b : writer_builder) (tee : option bytes) : list output :=
    match tee with Some n => [builder_output b (Some n)] | None => [] end.

  Lemma tee_aside : forall b tee, tee <> Some m -> Forall aside (tee_outputs b tee).
  Proof.
    intros b [n|] H; [|constructor]. constructor; [|constructor]. exists n. split; [reflexivity|congruence].
  Qed.

  Variables O Od : oracles.
  Variable transform : bytes -> bytes.

  Lemma filter_move : forall a gzip tee, tee <> Some m ->
    ~ In m (filter_names (match fa_expr_file a with Some _ => true | None => false end) (fa_filter a) (fa_names a)) ->
    fa_expr_file a <> Some m ->
    rel (filter_on_disk gz_enc gz_dec writable O Od transform a ap gzip None tee w)
        (filter_on_disk gz_enc gz_dec writable O Od transform a ap gzip (Some m) tee w).
  Proof.
    intros a gzip tee Ht Hn He. unfold filter_on_disk. apply first_prepared. intros _ _.
    destruct (wb_run wb_new [CAppend ap; CGzip gzip]) as [b|] eqn:Eb; [|apply rel_panicked; reflexivity].
    assert (wb_append b = ap) as Hb by (destruct ap, gzip; cbn in Eb; try discriminate; injection Eb as <-; reflexivity).
    destruct (moved_output b Hb) as [E1 E2]. rewrite E1, E2. cbv zeta. fold (tee_outputs b tee).
    apply open_move; [apply tee_aside; exact Ht|]. intros u u' Hu.
    assert (forall n, n <> m -> disk_get (w_disk u') n = disk_get (w_disk u) n) as Hg by apply Hu.
    replace (if expr_there a (w_disk u') then fst (filter_prepare O Od transform (content_of (w_disk u')) a) else Some None)
      with (if expr_there a (w_disk u) then fst (filter_prepare O Od transform (content_of (w_disk u)) a) else Some None).
    - apply prepared_move; [apply tee_aside; exact Ht|exact Hu|]. intros c _.
      apply process_move; [reflexivity|reflexivity| |exact Hn|exact Hu]. destruct tee as [tn|]; [|constructor].
      exact (tee_aside b (Some tn) Ht).
    - rewrite (filter_expr_ext O Od transform (content_of (w_disk u)) (content_of (w_disk u')) a).
      + replace (expr_there a (w_disk u')) with (expr_there a (w_disk u)); [reflexivity|]. unfold expr_there.
        destruct (fa_expr_file a) as [n|]; [|reflexivity]. rewrite Hg by congruence. reflexivity.
      + intros n En. unfold content_of. rewrite Hg by congruence. reflexivity.
  Qed.

  Variable sha : bytes -> bytes.
  Variable lossy : bytes -> bytes.

  Lemma concat_move : forall tee unique skip names, tee <> Some m -> ~ In m names ->
    rel (concat_on_disk gz_enc gz_dec writable O sha lossy ap None tee unique skip names w)
        (concat_on_disk gz_enc gz_dec writable O sha lossy ap (Some m) tee unique skip names w).
  Proof.
    intros tee unique skip names Ht Hn. unfold concat_on_disk.
    destruct (wb_run wb_new [CAppend ap]) as [b|] eqn:Eb; [|apply rel_panicked; reflexivity].
    assert (wb_append b = ap) as Hb by (destruct ap; cbn in Eb; try discriminate; injection Eb as <-; reflexivity).
    destruct (moved_output b Hb) as [E1 E2]. rewrite E1, E2. cbv zeta. fold (tee_outputs b tee).
    apply open_move; [apply tee_aside; exact Ht|]. intros u u' Hu.
    apply process_move; [reflexivity|reflexivity| |exact Hn|exact Hu]. destruct tee as [tn|]; [|constructor].
    exact (tee_aside b (Some tn) Ht).
  Qed.

  Lemma count_move : forall a mode skip names, ~ In m names ->
    rel (count_on_disk gz_enc gz_dec writable O Od transform a ap None mode skip names w)
        (count_on_disk gz_enc gz_dec writable O Od transform a ap (Some m) mode skip names w).
  Proof.
    intros a mode skip names Hn. unfold count_on_disk. cbv zeta. apply open_move; [constructor|]. intros u u' Hu.
    apply prepared_move; [constructor|exact Hu|]. intros o _. apply process_move; [reflexivity|reflexivity|constructor|exact Hn|exact Hu].
  Qed.

  Lemma slice_move : forall a gzip from to length skip names, ~ In m names ->
    rel (slice_on_disk gz_enc gz_dec writable O Od transform a gzip ap None from to length skip names w)
        (slice_on_disk gz_enc gz_dec writable O Od transform a gzip ap (Some m) from to length skip names w).
  Proof.
    intros a gzip from to length skip names Hn. unfold slice_on_disk. apply first_prepared. intros o _.
    destruct (wb_run wb_new [CGzip gzip; CAppend ap]) as [b|] eqn:Eb; [|apply rel_panicked; reflexivity].
    assert (wb_append b = ap) as Hb by (destruct ap, gzip; cbn in Eb; try discriminate; injection Eb as <-; reflexivity).
    destruct (moved_output b Hb) as [E1 E2]. rewrite E1, E2. cbv zeta.
    apply open_move; [constructor|]. intros u u' Hu. apply process_move; [reflexivity|reflexivity|constructor|exact Hn|exact Hu].
  Qed.

  Variable T : text_fns.
  Variable numeric : bytes -> bool.
  Variable hash : list bytes -> N.

  Lemma select_move : forall a unique no_empty nf q tsv skip names, ~ In m names ->
    rel (select_on_disk gz_enc gz_dec writable O Od transform lossy T numeric hash a unique no_empty nf q tsv ap None skip names w)
        (select_on_disk gz_enc gz_dec writable O Od transform lossy T numeric hash a unique no_empty nf q tsv ap (Some m) skip names w).
  Proof.
    intros a unique no_empty nf q tsv skip names Hn. unfold select_on_disk. apply first_prepared. intros o _. cbv zeta.
    apply open_move; [constructor|]. intros u u' Hu. apply process_move; [reflexivity|reflexivity|constructor|exact Hn|exact Hu].
  Qed.

  Hypothesis Hap : ap = false.

  Lemma explode_move : forall a discard keep l gzip skip names, ~ In m names ->
    rel (explode_on_disk gz_enc gz_dec writable O Od transform a discard keep l gzip None skip names w)
        (explode_on_disk gz_enc gz_dec writable O Od transform a discard keep l gzip (Some m) skip names w).
  Proof.
    intros a discard keep l gzip skip names Hn. unfold explode_on_disk. apply first_prepared. intros dk _.
    destruct (wb_run wb_new [CGzip gzip]) as [b|] eqn:Eb; [|apply rel_panicked; reflexivity].
    assert (wb_append b = ap) as Hb by (rewrite Hap; destruct gzip; cbn in Eb; injection Eb as <-; reflexivity).
    destruct (moved_output b Hb) as [E1 E2]. rewrite E1, E2. cbv zeta. apply open_move; [constructor|]. intros u u' Hu.
    apply prepared_move; [constructor|exact Hu|]. intros o _. apply process_move; [reflexivity|reflexivity|constructor|exact Hn|exact Hu].
  Qed.

  Lemma sample_move : forall a gzip draw size skip names, ~ In m names ->
    rel (sample_on_disk gz_enc gz_dec writable O Od transform a gzip None draw size skip names w)
        (sample_on_disk gz_enc gz_dec writable O Od transform a gzip (Some m) draw size skip names w).
  Proof.
    intros a gzip draw size skip names Hn. unfold sample_on_disk. apply first_prepared. intros o _.
    destruct (wb_run wb_new [CGzip gzip]) as [b|] eqn:Eb; [|apply rel_panicked; reflexivity].
    assert (wb_append b = ap) as Hb by (rewrite Hap; destruct gzip; cbn in Eb; injection Eb as <-; reflexivity).
    destruct (moved_output b Hb) as [E1 E2]. rewrite E1, E2. cbv zeta. apply open_move; [constructor|]. intros u u' Hu.
    apply process_move; [reflexivity|reflexivity|constructor|exact Hn|exact Hu].
  Qed.

  Variable rule_order : list (bytes * N) -> list (bytes * N).
  Variable link_order : list (bytes * list bytes) -> list (bytes * list bytes).

  Lemma report_plain : forall rows, report_text (Some m) rows = report_text None rows.
  Proof.
    intros rows. unfold report_text. destruct Hplain as (_ & H1 & H2).
    assert (forall x, (forall p, m <> p ++ x) -> x <> [] -> ends_with (if utf8_valid m then m else []) x = false) as H.
    { intros x Hx Hne. destruct (ends_with _ _) eqn:E; [|reflexivity]. exfalso. pose proof (DirCommandProofs.suffix_dec (if utf8_valid m then m else []) x) as D. rewrite E in D. destruct D as [p D].
      destruct (utf8_valid m); [exact (Hx p D)|]. destruct p; [|discriminate]. cbn in D. congruence. }
    rewrite (H _ H1), (H _ H2) by discriminate. reflexivity.
  Qed.

  Lemma check_move : forall a rules skip names, ~ In m names ->
    rel (check_on_disk gz_enc gz_dec writable O Od transform lossy T rule_order link_order a rules None skip names w)
        (check_on_disk gz_enc gz_dec writable O Od transform lossy T rule_order link_order a rules (Some m) skip names w).
  Proof.
    intros a rules skip names Hn. unfold check_on_disk. cbv zeta. rewrite <- Hap. apply open_move; [constructor|]. intros u u' Hu.
    apply prepared_move; [constructor|exact Hu|]. intros o _. apply prepared_move; [constructor|exact Hu|]. intros sets _.
    apply process_move; [intros s; apply report_plain|intros s; apply report_plain|constructor|exact Hn|exact Hu].
  Qed.

  Lemma hash_move : forall a tsv header skip names, ~ In m names ->
    rel (hash_on_disk gz_enc gz_dec writable O Od transform sha lossy numeric a None tsv header skip names w)
        (hash_on_disk gz_enc gz_dec writable O Od transform sha lossy numeric a (Some m) tsv header skip names w).
  Proof.
    intros a tsv header skip names Hn. unfold hash_on_disk. rewrite <- Hap. apply first_prepared. intros o _. cbv zeta.
    apply open_move; [constructor|]. intros u u' Hu. apply process_move; [reflexivity|reflexivity|constructor|exact Hn|exact Hu].
  Qed.

  Lemma print_move : forall a nf skip names, ~ In m names ->
    rel (print_on_disk gz_enc gz_dec writable O Od transform a nf None skip names w)
        (print_on_disk gz_enc gz_dec writable O Od transform a nf (Some m) skip names w).
  Proof.
    intros a nf skip names Hn. unfold print_on_disk. rewrite <- Hap. apply first_prepared. intros o _. cbv zeta.
    apply open_move; [constructor|]. intros u u' Hu. apply process_move; [reflexivity|reflexivity|constructor|exact Hn|exact Hu].
  Qed.

  Variable freq_order : ftable -> ftable.

  Lemma freq_move : forall a unique num threshold reverse nf tsv skip names, ~ In m names ->
    rel (freq_on_disk gz_enc gz_dec writable O Od transform lossy T numeric freq_order a unique num threshold reverse nf tsv None skip names w)
        (freq_on_disk gz_enc gz_dec writable O Od transform lossy T numeric freq_order a unique num threshold reverse nf tsv (Some m) skip names w).
  Proof.
    intros a unique num threshold reverse nf tsv skip names Hn. unfold freq_on_disk. rewrite <- Hap. apply first_prepared. intros o _. cbv zeta.
    apply open_move; [constructor|]. intros u u' Hu. apply process_move; [reflexivity|reflexivity|constructor|exact Hn|exact Hu].
  Qed.

  Variable esc : bytes -> bytes.

  Lemma convert_move : forall from to skip names, ~ In m names ->
    rel (convert_on_disk gz_enc gz_dec writable lossy esc from to None skip names w)
        (convert_on_disk gz_enc gz_dec writable lossy esc from to (Some m) skip names w).
  Proof.
    intros from to skip names Hn. unfold convert_on_disk. destruct from; try (apply rel_refused; reflexivity). cbv zeta.
    assert (exists gz, convert_output to None = mkOut None ap gz /\ convert_output to (Some m) = mkOut (Some m) ap gz) as (gz & E1 & E2).
    { unfold convert_output. destruct to; try solve [exists false; rewrite Hap; auto]. exists (wb_gzip wb_new). apply moved_output. rewrite Hap. reflexivity. }
    rewrite E1, E2. apply open_move; [constructor|]. intros u u' Hu.
    apply process_move; [reflexivity|reflexivity|constructor|exact Hn|exact Hu].
  Qed.

  Lemma invalid_move : forall names, ~ In m names ->
    rel (invalid_on_disk gz_enc gz_dec writable None names w) (invalid_on_disk gz_enc gz_dec writable (Some m) names w).
  Proof.
    intros names Hn. unfold invalid_on_disk. cbv zeta. rewrite <- Hap. apply open_move; [constructor|]. intros u u' Hu.
    replace (w_stdin u') with (w_stdin u) by (symmetry; apply Hu).
    rewrite (inputs_twice gz_dec names (w_disk u') (w_disk u)).
    2:{ intros n Hin. apply Hu. intros ->. exact (Hn Hin). }
    destruct (io_invalid_run _ _) as [x|]; [|exact I]. pose proof (fun t => close_move false t u u' Hu) as Hc.
    destruct x as [t|t|t er|]; [destruct (main_status _) as [n|]..|apply rel_panicked; apply Hu]; try (apply rel_panicked; apply Hu); eapply rel_shifted; apply Hc.
  Qed.
End Redirect.

(** ** A run *)

Section Execute.
  Variable e : env.
  Variable m : bytes.
  Hypothesis Hm : e_writable e m = true.
  Hypothesis Hplain : plain m.

  Lemma opts_moved : forall w k o ap, ~ uses e w k m -> opts_of k = Some o ->
    load_opts e (after_open e (Some m) ap (w_disk w)) o = load_opts e (after_open e None ap (w_disk w)) o.
  Proof.
    intros w k o ap Hu Ho. apply load_opts_ext. intros n Hn. unfold after_open, open_output. cbn [out_name out_append]. rewrite Hm.
    apply disk_get_other. intros <-. apply Hu. exact (us_list e w k o m Ho Hn).
  Qed.

  Lemma execute_move : forall c k w, to_stdout k = true -> ~ In m (output_names k) -> ~ uses e w k m ->
    rel m w (appends k) (execute e c k w) (execute e c (with_output m k) w).
  Proof.
    intros c k w Ht Ho Hu.
    assert (~ In m (input_names k)) as Hi by (intros X; apply Hu, us_input, X).
    destruct k; cbn [to_stdout] in Ht; try discriminate;
      repeat match type of Ht with match ?x with _ => _ end = true => destruct x; try discriminate end;
      cbn [execute with_output input_names output_names appends DiskSpec.named app] in *.
    - (* check *)
      rewrite (opts_moved w _ o false Hu eq_refl). unfold check_files_on_disk. cbv zeta.
      fold (after_open e (Some m) false (w_disk w)). fold (after_open e None false (w_disk w)).
      match goal with |- rel _ _ _ (match ?x with Some _ => _ | None => _ end) (match ?y with Some _ => _ | None => _ end) => replace y with x end.
      + destruct (disk_rules _ _ _ _ _ _ _ _ _ _ _ _ _ _ _ _) as [rules'|]; [|exact I].
        apply check_move; [exact Hm|exact Hplain|reflexivity|exact Hi].
      + assert (forall n, n <> m -> disk_get (after_open e None false (w_disk w)) n = disk_get (after_open e (Some m) false (w_disk w)) n) as Hg.
        { intros n Hn. unfold after_open, open_output. cbn [out_name out_append]. rewrite Hm. symmetry. apply disk_get_other. congruence. }
        unfold disk_rules. f_equal.
        rewrite (map_ext_in (disk_get (after_open e None false (w_disk w))) (disk_get (after_open e (Some m) false (w_disk w))) rules).
        2:{ intros n Hn. apply Hg. intros ->. apply Hu. exact (us_rule e w _ o rules filter tags None names m eq_refl Hn). }
        apply rules_ext. intros b v Hin Hv n Hn. apply in_map_iff in Hin. destruct Hin as (r & Er & Hr). rewrite Hg; [reflexivity|].
        intros ->. apply Hu. refine (us_named e w _ o rules filter tags None names r b (cf_normalization c) v m eq_refl Hr _ Hv Hn).
        right. split; [discriminate|]. rewrite <- Hg in Er; [exact Er|]. intros ->. apply Hu.
        exact (us_rule e w _ o rules filter tags None names m eq_refl Hr).
    - apply concat_move; [exact Hm|exact Hplain| |exact Hi]. intros ->. apply Ho. left. reflexivity.
    - apply convert_move; [exact Hm|exact Hplain|reflexivity|exact Hi].
    - rewrite (opts_moved w _ o append Hu eq_refl). apply count_move; [exact Hm|exact Hi].
    - rewrite (opts_moved w _ o false Hu eq_refl). apply explode_move; [exact Hm|exact Hplain|reflexivity|exact Hi].
    - (* filter *)
      apply filter_move; [exact Hm|exact Hplain| | |].
      + intros ->. apply Ho. left. reflexivity.
      + cbn [fa_expr_file fa_filter fa_names load_filter]. intros Hn. unfold filter_names in Hn.
        destruct (fi_expr_file f) as [x|] eqn:Ex; [|exact (Hi Hn)].
        assert (In m names \/ m = fi_expr f) as [Hin|Hin]; [|exact (Hi Hin)|].
        { destruct (true && negb (bytes_eqb (fi_expr f) [])); [|left; exact Hn].
          destruct (list_eqb bytes_eqb names [lit "-"]); destruct Hn as [Hn|Hn]; auto. contradiction. }
        apply Hu. exact (us_expr e w _ o f append gzip None tee names x m eq_refl Ex (or_intror Hin)).
      + cbn [fa_expr_file load_filter]. intros Ex. apply Hu.
        exact (us_expr e w _ o f append gzip None tee names m m eq_refl Ex (or_introl eq_refl)).
    - apply freq_move; [exact Hm|reflexivity|exact Hi].
    - apply hash_move; [exact Hm|reflexivity|exact Hi].
    - apply invalid_move; [exact Hm|reflexivity|exact Hi].
    - apply print_move; [exact Hm|reflexivity|exact Hi].
    - apply sample_move; [exact Hm|exact Hplain|reflexivity|exact Hi].
    - apply select_move; [exact Hm|exact Hi].
    - apply slice_move; [exact Hm|exact Hplain|exact Hi].
  Qed.
End Execute.

(** the command does not matter for the configuration *)
Definition with_config (e : env) (cfg : option bytes) (w : world) (f : config -> option (command_end * world)) : option (command_end * world) :=
  let '(p, n) := match cfg with
                 | Some n => (PGiven, Some n)
                 | None => match e_home e with Some n => (PHome, Some n) | None => (PNowhere, None) end
                 end in
  match config_start (e_config_toml e) p (file_on (w_disk w) n) with
  | LFails => Some (CRefused, w)
  | LPanics => Some (CPanicked, w)
  | LConfig c => f c
  end.

Lemma run_other : forall e cfg k w, (forall a, k <> KConfig a) ->
  run e (mkInvocation cfg k) w = with_config e cfg w (fun c => execute e c k w).
Proof. intros e cfg k w Hk. unfold run. cbn [in_command]. destruct k; try reflexivity. exfalso. exact (Hk a eq_refl). Qed.

Lemma run_move : forall e cfg k m w x v, to_stdout k = true -> e_writable e m = true -> plain m ->
  ~ In m (output_names k) -> ~ needs e (mkInvocation cfg k) w m -> run e (mkInvocation cfg k) w = Some (x, v) ->
  exists v', run e (mkInvocation cfg (with_output m k)) w = Some (x, v')
    /\ (forall n, n <> m -> disk_get (w_disk v') n = disk_get (w_disk v) n) /\ w_stdout v' = w_stdout w
    /\ (forall st, x = CEnded st -> redirected m (appends k) w v v').
Proof.
  intros e cfg k m w x v Ht Hm Hp Ho Hn H.
  assert (~ uses e w k m) as Hu by (intros X; apply Hn, nd_used, X).
  assert (forall a, k <> KConfig a) as Hk by (intros a ->; discriminate).
  assert (forall a, with_output m k <> KConfig a) as Hk' by (intros a E; destruct k; discriminate).
  rewrite (run_other e cfg k w Hk) in H. rewrite (run_other e cfg _ w Hk'). unfold with_config in *.
  destruct (match cfg with Some n => _ | None => _ end) as [p n].
  destruct (config_start _ _ _) as [c| |].
  - pose proof (execute_move e m Hm Hp c k w Ht Ho Hu) as X. rewrite H in X.
    destruct (execute e c (with_output m k) w) as [[x' v']|]; [|contradiction]. destruct X as (-> & X1 & X2 & X3). exists v'. auto.
  - injection H as <- <-. exists w. repeat split; try reflexivity; discriminate.
  - injection H as <- <-. exists w. repeat split; try reflexivity; discriminate.
Qed.

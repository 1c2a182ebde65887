(** * Proofs about the whole program: a run depends on the files it uses *)

From Coq Require Import String ZArith Lia Permutation.
From Verif Require Import Bytes BaseProofs Winnow RecordModel TagOccModel Utf8Model ByteRecordModel ReaderModel
  MatcherModel StateParser MatcherParserModel BuilderModel PathModel FmtModel QueryModel CliModel TableModel
  ExplodeModel CheckModel ConvertModel CsvModel OptionsModel OptionsSpec ConfigModel PrepareModel IoModel IoSpec WriteSpec DiskModel DirModel RuleModel
  MainModel DiskSpec RuleSpec MainSpec DiskProofs MainProofs MainTwiceProofs.
From Verif Require DirSpec.

Section Commands.
  Variable gz_enc : bytes -> bytes.
  Variable gz_dec : bytes -> list piece.
  Variable writable : bytes -> bool.
  Variable A : bytes -> Prop.
  Variables w1 w2 : world.
  Hypothesis Hstdin : w_stdin w1 = w_stdin w2.

  Notation get w n := (disk_get (w_disk w) n).
  Notation done := (same_done A).
  Notation pair := (pair A w1 w2).
  Notation both := (both A w1 w2).
  Notation agree names := (forall n, In n names -> disk_get (w_disk w1) n = disk_get (w_disk w2) n).
  Let start := start A w1 w2 Hstdin.
  Let pair_agree := pair_agree A w1 w2.

  (** the outputs are opened, then the records are read *)
  Lemma run_twice : forall {S} (outs : list (output * ((S -> bytes) * (S -> bytes)))) bad on_skip body skip (s : S) names,
    Forall (allowed A) (map fst outs) -> agree names ->
    both (open_all gz_enc writable [] (map fst outs) w1 (process_all gz_enc gz_dec outs bad on_skip body skip s names))
         (open_all gz_enc writable [] (map fst outs) w2 (process_all gz_enc gz_dec outs bad on_skip body skip s names)).
  Proof.
    intros S outs bad on_skip body skip s names Ha Hn. apply open_all_twice; [exact Ha|constructor|exact start|].
    intros u1 u2 Hu _ R. apply process_twice; [exact R|exact Hu|]. intros n Hin. exact (pair_agree u1 u2 n Hu (Hn n Hin)).
  Qed.

  (** the outputs are opened, then something is checked, then the records are read *)
  Lemma checked_twice : forall {B S} (x : option (option B)) (outs : B -> list (output * ((S -> bytes) * (S -> bytes)))) os bad on_skip
      (body : B -> S -> byte_record -> io_ending S) skip (s : B -> S) names,
    (forall a, map fst (outs a) = os) -> Forall (allowed A) os -> agree names ->
    both (open_all gz_enc writable [] os w1 (fun w => prepared gz_enc os x w (fun a =>
            process_all gz_enc gz_dec (outs a) bad on_skip (body a) skip (s a) names w)))
         (open_all gz_enc writable [] os w2 (fun w => prepared gz_enc os x w (fun a =>
            process_all gz_enc gz_dec (outs a) bad on_skip (body a) skip (s a) names w))).
  Proof.
    intros B S x outs os bad on_skip body skip s names Ho Ha Hn. apply open_all_twice; [exact Ha|constructor|exact start|].
    intros u1 u2 Hu _ R. cbn [app] in R. apply prepared_twice; [exact R|exact Hu|]. intros a _.
    apply process_twice; [rewrite Ho; exact R|exact Hu|]. intros n Hin. exact (pair_agree u1 u2 n Hu (Hn n Hin)).
  Qed.

  Variables O Od : oracles.
  Variable transform : bytes -> bytes.

  Definition extending (append : bool) (ns : list bytes) : Prop := append = true -> forall n, In n ns -> A n.

  Lemma allow_one : forall append gz output, extending append (named output) -> Forall (allowed A) [mkOut output append gz].
  Proof.
    intros append gz output H. constructor; [|constructor]. intros n En Ea. cbn in En, Ea. subst output. apply (H Ea). left. reflexivity.
  Qed.

  Lemma allow_two : forall b append output tee, wb_append b = append -> extending append (named output ++ named tee) ->
    Forall (allowed A) (builder_output b output :: match tee with Some n => [builder_output b (Some n)] | None => [] end).
  Proof.
    intros b append output tee Hb H. constructor.
    - intros n En Ea. cbn in En, Ea. rewrite Hb in Ea. subst output. apply (H Ea). left. reflexivity.
    - destruct tee as [t|]; [|constructor]. constructor; [|constructor]. intros n En Ea. cbn in En, Ea. rewrite Hb in Ea. injection En as <-.
      apply (H Ea). apply in_or_app. right. left. reflexivity.
  Qed.

  Lemma no_extending : forall ns, extending false ns.
  Proof. intros ns H. discriminate. Qed.

  Lemma filter_expr_ext : forall c1 c2 a, (forall n, fa_expr_file a = Some n -> c1 n = c2 n) ->
    filter_prepare O Od transform c1 a = filter_prepare O Od transform c2 a.
  Proof.
    intros c1 c2 a H. unfold filter_prepare. f_equal. unfold filter_expr.
    destruct (fa_expr_file a) as [n|]; [rewrite (H n eq_refl); reflexivity|reflexivity].
  Qed.

  Lemma filter_twice : forall a append gzip output tee, extending append (named output ++ named tee) ->
    agree (filter_names (match fa_expr_file a with Some _ => true | None => false end) (fa_filter a) (fa_names a)) ->
    (forall n, fa_expr_file a = Some n -> get w1 n = get w2 n) ->
    both (filter_on_disk gz_enc gz_dec writable O Od transform a append gzip output tee w1)
         (filter_on_disk gz_enc gz_dec writable O Od transform a append gzip output tee w2).
  Proof.
    intros a append gzip output tee Hx Hn He. unfold filter_on_disk.
    apply prepared_twice; [constructor|exact start|]. intros _ _.
    destruct (wb_run wb_new [CAppend append; CGzip gzip]) as [b|] eqn:Eb; [|split; [reflexivity|apply done_refl]].
    assert (wb_append b = append) as Hb by (destruct append, gzip; cbn in Eb; try discriminate; injection Eb as <-; reflexivity).
    cbv zeta. apply open_all_twice; [exact (allow_two b append output tee Hb Hx)|constructor|exact start|].
    intros u1 u2 Hu _ R. cbn [app] in R.
    replace (if expr_there a (w_disk u2) then fst (filter_prepare O Od transform (content_of (w_disk u2)) a) else Some None)
      with (if expr_there a (w_disk u1) then fst (filter_prepare O Od transform (content_of (w_disk u1)) a) else Some None).
    - apply prepared_twice; [exact R|exact Hu|]. intros c _. apply process_twice.
      + destruct tee; exact R.
      + exact Hu.
      + intros n Hin. exact (pair_agree u1 u2 n Hu (Hn n Hin)).
    - rewrite (filter_expr_ext (content_of (w_disk u1)) (content_of (w_disk u2)) a).
      + replace (expr_there a (w_disk u2)) with (expr_there a (w_disk u1)); [reflexivity|]. unfold expr_there.
        destruct (fa_expr_file a) as [n|]; [|reflexivity]. rewrite (pair_agree u1 u2 n Hu (He n eq_refl)). reflexivity.
      + intros n En. unfold content_of. rewrite (pair_agree u1 u2 n Hu (He n En)). reflexivity.
  Qed.

  Variable sha : bytes -> bytes.
  Variable lossy : bytes -> bytes.

  Lemma concat_twice : forall append output tee unique skip names, extending append (named output ++ named tee) -> agree names ->
    both (concat_on_disk gz_enc gz_dec writable O sha lossy append output tee unique skip names w1)
         (concat_on_disk gz_enc gz_dec writable O sha lossy append output tee unique skip names w2).
  Proof.
    intros append output tee unique skip names Hx Hn. unfold concat_on_disk.
    destruct (wb_run wb_new [CAppend append]) as [b|] eqn:Eb; [|split; [reflexivity|apply done_refl]].
    assert (wb_append b = append) as Hb by (destruct append; cbn in Eb; injection Eb as <-; reflexivity).
    cbv zeta. apply open_all_twice; [exact (allow_two b append output tee Hb Hx)|constructor|exact start|].
    intros u1 u2 Hu _ R. cbn [app] in R. apply process_twice.
    - destruct tee; exact R.
    - exact Hu.
    - intros n Hin. exact (pair_agree u1 u2 n Hu (Hn n Hin)).
  Qed.

  Lemma count_twice : forall a append output m skip names, extending append (named output) -> agree names ->
    both (count_on_disk gz_enc gz_dec writable O Od transform a append output m skip names w1)
         (count_on_disk gz_enc gz_dec writable O Od transform a append output m skip names w2).
  Proof.
    intros a append output m skip names Hx Hn. unfold count_on_disk. cbv zeta.
    apply (checked_twice (fst (opts_prepare O Od transform a)) (fun _ => [(mkOut output append false, (count_output m, fun _ => []))])
             [mkOut output append false] (fun _ => false) (fun s => s) (fun o s r => as_io (count_body O Od o s r)) skip (fun _ => (0, 0, 0)));
      [reflexivity|exact (allow_one append false output Hx)|exact Hn].
  Qed.

  Lemma new_output : forall b output, wb_append b = false -> Forall (allowed A) [builder_output b output].
  Proof. intros b output H. apply (allow_two b false output None H). apply no_extending. Qed.

  Lemma explode_twice : forall a discard keep l gzip output skip names, agree names ->
    both (explode_on_disk gz_enc gz_dec writable O Od transform a discard keep l gzip output skip names w1)
         (explode_on_disk gz_enc gz_dec writable O Od transform a discard keep l gzip output skip names w2).
  Proof.
    intros a discard keep l gzip output skip names Hn. unfold explode_on_disk.
    apply prepared_twice; [constructor|exact start|]. intros dk _.
    destruct (wb_run wb_new [CGzip gzip]) as [b|] eqn:Eb; [|split; [reflexivity|apply done_refl]].
    assert (wb_append b = false) as Hb by (destruct gzip; cbn in Eb; injection Eb as <-; reflexivity). cbv zeta.
    apply (checked_twice (fst (opts_prepare O Od transform a)) (fun _ => [(builder_output b output, (@snd N bytes, @snd N bytes))])
             [builder_output b output] (fun _ => false) (fun s => s)
             (fun o s r => as_io (explode_body O Od (mkExplode l o (snd dk) (fst dk)) s r)) skip (fun _ => (0, [])));
      [reflexivity|exact (new_output b output Hb)|exact Hn].
  Qed.

  Variable T : text_fns.
  Variable rule_order : list (bytes * N) -> list (bytes * N).
  Variable link_order : list (bytes * list bytes) -> list (bytes * list bytes).

  Lemma check_twice : forall a rules output skip names, agree names ->
    both (check_on_disk gz_enc gz_dec writable O Od transform lossy T rule_order link_order a rules output skip names w1)
         (check_on_disk gz_enc gz_dec writable O Od transform lossy T rule_order link_order a rules output skip names w2).
  Proof.
    intros a rules output skip names Hn. unfold check_on_disk. cbv zeta.
    apply open_all_twice; [apply allow_one, no_extending|constructor|exact start|].
    intros u1 u2 Hu _ R. cbn [app] in R. apply prepared_twice; [exact R|exact Hu|]. intros o _.
    apply prepared_twice; [exact R|exact Hu|]. intros sets _. apply process_twice; [exact R|exact Hu|].
    intros n Hin. exact (pair_agree u1 u2 n Hu (Hn n Hin)).
  Qed.

  Variable numeric : bytes -> bool.
  Variable hash : list bytes -> N.
  Variable freq_order : ftable -> ftable.

  Lemma hash_twice : forall a output tsv header skip names, agree names ->
    both (hash_on_disk gz_enc gz_dec writable O Od transform sha lossy numeric a output tsv header skip names w1)
         (hash_on_disk gz_enc gz_dec writable O Od transform sha lossy numeric a output tsv header skip names w2).
  Proof.
    intros a output tsv header skip names Hn. unfold hash_on_disk.
    apply prepared_twice; [constructor|exact start|]. intros o _. cbv zeta.
    match goal with |- context [process_all _ _ ?outs] => apply (run_twice outs) end; [apply allow_one, no_extending|exact Hn].
  Qed.

  Lemma print_twice : forall a nf output skip names, agree names ->
    both (print_on_disk gz_enc gz_dec writable O Od transform a nf output skip names w1)
         (print_on_disk gz_enc gz_dec writable O Od transform a nf output skip names w2).
  Proof.
    intros a nf output skip names Hn. unfold print_on_disk.
    apply prepared_twice; [constructor|exact start|]. intros o _. cbv zeta.
    match goal with |- context [process_all _ _ ?outs] => apply (run_twice outs) end; [apply allow_one, no_extending|exact Hn].
  Qed.

  Lemma slice_twice : forall a gzip append output from to length skip names, extending append (named output) -> agree names ->
    both (slice_on_disk gz_enc gz_dec writable O Od transform a gzip append output from to length skip names w1)
         (slice_on_disk gz_enc gz_dec writable O Od transform a gzip append output from to length skip names w2).
  Proof.
    intros a gzip append output from to length skip names Hx Hn. unfold slice_on_disk.
    apply prepared_twice; [constructor|exact start|]. intros o _.
    destruct (wb_run wb_new [CGzip gzip; CAppend append]) as [b|] eqn:Eb; [|split; [reflexivity|apply done_refl]].
    assert (wb_append b = append) as Hb by (destruct append, gzip; cbn in Eb; try discriminate; injection Eb as <-; reflexivity). cbv zeta.
    match goal with |- context [process_all _ _ ?outs] => apply (run_twice outs) end; [|exact Hn].
    apply (allow_two b append output None Hb). cbn [named]. rewrite app_nil_r. exact Hx.
  Qed.

  Lemma sample_twice : forall a gzip output draw size skip names, agree names ->
    both (sample_on_disk gz_enc gz_dec writable O Od transform a gzip output draw size skip names w1)
         (sample_on_disk gz_enc gz_dec writable O Od transform a gzip output draw size skip names w2).
  Proof.
    intros a gzip output draw size skip names Hn. unfold sample_on_disk.
    apply prepared_twice; [constructor|exact start|]. intros o _.
    destruct (wb_run wb_new [CGzip gzip]) as [b|] eqn:Eb; [|split; [reflexivity|apply done_refl]].
    assert (wb_append b = false) as Hb by (destruct gzip; cbn in Eb; injection Eb as <-; reflexivity). cbv zeta.
    match goal with |- context [process_all _ _ ?outs] => apply (run_twice outs) end; [exact (new_output b output Hb)|exact Hn].
  Qed.

  Lemma select_twice : forall a unique no_empty nf q tsv append output skip names, extending append (named output) -> agree names ->
    both (select_on_disk gz_enc gz_dec writable O Od transform lossy T numeric hash a unique no_empty nf q tsv append output skip names w1)
         (select_on_disk gz_enc gz_dec writable O Od transform lossy T numeric hash a unique no_empty nf q tsv append output skip names w2).
  Proof.
    intros a unique no_empty nf q tsv append output skip names Hx Hn. unfold select_on_disk.
    apply prepared_twice; [constructor|exact start|]. intros o _. cbv zeta.
    match goal with |- context [process_all _ _ ?outs] => apply (run_twice outs) end; [exact (allow_one append false output Hx)|exact Hn].
  Qed.

  Lemma freq_twice : forall a unique num threshold reverse nf tsv output skip names, agree names ->
    both (freq_on_disk gz_enc gz_dec writable O Od transform lossy T numeric freq_order a unique num threshold reverse nf tsv output skip names w1)
         (freq_on_disk gz_enc gz_dec writable O Od transform lossy T numeric freq_order a unique num threshold reverse nf tsv output skip names w2).
  Proof.
    intros a unique num threshold reverse nf tsv output skip names Hn. unfold freq_on_disk.
    apply prepared_twice; [constructor|exact start|]. intros o _. cbv zeta.
    match goal with |- context [process_all _ _ ?outs] => apply (run_twice outs) end; [apply allow_one, no_extending|exact Hn].
  Qed.

  Variable esc : bytes -> bytes.

  Lemma convert_twice : forall from to output skip names, agree names ->
    both (convert_on_disk gz_enc gz_dec writable lossy esc from to output skip names w1)
         (convert_on_disk gz_enc gz_dec writable lossy esc from to output skip names w2).
  Proof.
    intros from to output skip names Hn. unfold convert_on_disk. destruct from; try (split; [reflexivity|apply done_refl]). cbv zeta.
    match goal with |- context [process_all _ _ ?outs] => apply (run_twice outs) end; [|exact Hn].
    cbn [map fst]. unfold convert_output. destruct to; first [apply allow_one, no_extending|apply new_output; reflexivity].
  Qed.

  Lemma invalid_twice : forall output names, agree names ->
    both (invalid_on_disk gz_enc gz_dec writable output names w1) (invalid_on_disk gz_enc gz_dec writable output names w2).
  Proof.
    intros output names Hn. unfold invalid_on_disk. cbv zeta.
    apply open_all_twice; [apply allow_one, no_extending|constructor|exact start|].
    intros u1 u2 Hu _ R. cbn [app] in R. inversion R as [|? ? R1 _]; subst.
    rewrite (inputs_twice gz_dec names (w_disk u1) (w_disk u2) (w_stdin u1)) by (intros n Hin; exact (pair_agree u1 u2 n Hu (Hn n Hin))).
    destruct Hu as [Hd Es]. rewrite Es.
    destruct (io_invalid_run (inputs gz_dec (w_disk u2) (w_stdin u2) names) []) as [x|]; [|exact I].
    assert (forall t, done w1 (close_output gz_enc (mkOut output false false) t u1) w2 (close_output gz_enc (mkOut output false false) t u2)) as C.
    { intros t. destruct (close_twice gz_enc A w1 w2 (mkOut output false false) t u1 u2 R1 (conj Hd Es)) as [[X _] _]. exact X. }
    destruct x as [t|t|t er|]; cbn [main_status]; try (split; [reflexivity|apply C]).
    - destruct er; try match goal with k : io_kind |- _ => destruct k end; (split; [reflexivity|apply C]).
    - split; [reflexivity|exact Hd].
  Qed.

  Variable tag_order : tag_counts -> tag_counts.
  Variable frame_text : frame_format -> list N * list (bytes * list N) -> bytes.

  Lemma describe_twice : forall a discard keep csv tsv output skip names, agree names ->
    both (describe_on_disk gz_enc gz_dec writable O Od transform tag_order frame_text a discard keep csv tsv output skip names w1)
         (describe_on_disk gz_enc gz_dec writable O Od transform tag_order frame_text a discard keep csv tsv output skip names w2).
  Proof.
    intros a discard keep csv tsv output skip names Hn. unfold describe_on_disk.
    apply prepared_twice; [constructor|exact start|]. intros dk _.
    apply prepared_twice; [constructor|exact start|]. intros o _.
    rewrite (inputs_twice gz_dec names (w_disk w1) (w_disk w2) (w_stdin w1) Hn), Hstdin.
    destruct (io_files_loop _ _ _ _ _) as [x|]; [|exact I].
    assert (forall t n,
      both (match open_output writable (mkOut output false false) (w_disk w1) with
            | None => Some (CEnded 2, w1)
            | Some d => Some (CEnded n, close_output gz_enc (mkOut output false false) t (with_disk w1 d))
            end)
           (match open_output writable (mkOut output false false) (w_disk w2) with
            | None => Some (CEnded 2, w2)
            | Some d => Some (CEnded n, close_output gz_enc (mkOut output false false) t (with_disk w2 d))
            end)) as C.
    { intros t n. pose proof (open_twice writable A w1 w2 (mkOut output false false) w1 w2 (not_appended A (mkOut output false false) eq_refl) start) as X.
      destruct (open_output writable (mkOut output false false) (w_disk w1)) as [d1|],
               (open_output writable (mkOut output false false) (w_disk w2)) as [d2|]; try contradiction.
      - destruct X as (X1 & X2 & _). destruct (close_twice gz_enc A w1 w2 (mkOut output false false) t _ _ X2 X1) as [[Y _] _].
        split; [reflexivity|exact Y].
      - split; [reflexivity|apply done_refl]. }
    destruct x as [s|s|s er|]; cbn [main_status]; try apply C.
    - destruct er; try match goal with k : io_kind |- _ => destruct k end; (split; [reflexivity|apply done_refl]).
    - split; [reflexivity|apply done_refl].
  Qed.
End Commands.

(** * convert, invalid and describe with their files *)

From Coq Require Import String Permutation.
From Verif Require DirSpec MatcherProofs OptionsSpec OptionsProofs GrammarSpec IoProofs PrepareProofs QueryExtraProofs ConvertRunProofs DescribeProofs.
From Verif Require Import Bytes Winnow RecordModel RecordSpec BaseProofs TagOccModel Utf8Model ByteRecordModel ByteRecordSpec ReaderModel
  MatcherModel MatcherSpec StateParser MatcherParserModel BuilderModel PathModel FmtModel QueryModel CliModel CliSpec CliProofs
  CliCommandProofs CliOutputProofs TableModel ConvertModel OptionsModel PrepareModel ConvertSpec PrepareSpec IoModel IoSpec WriteSpec QuerySpec
  DiskModel DirModel DiskSpec DiskProofs DiskCommandProofs DiskEndProofs DiskFullProofs EndSpec.
Import OptionsSpec GrammarSpec OptionsProofs PrepareProofs.
From Verif Require Import EndProofs.
Import EndSpec DiskModel.

Section Commands.
  Variable gz_enc : bytes -> bytes.
  Variable gz_dec : bytes -> list piece.
  Variable writable : bytes -> bool.
  Variables O Od : oracles.
  Variable transform : bytes -> bytes.
  Variable lossy : bytes -> bytes.
  Variable esc : bytes -> bytes.
  Variable tag_order : tag_counts -> tag_counts.
  Variable frame_text : frame_format -> list N * list (bytes * list N) -> bytes.

  Notation distinct output names := (forall n, output = Some n -> ~ In n names).
  Notation yields := (yields gz_enc writable).
  Notation avail w names cs := (available gz_dec (w_disk w) (w_stdin w) names cs).
  Notation convert_on_disk := (convert_on_disk gz_enc gz_dec writable lossy esc).
  Notation invalid_on_disk := (invalid_on_disk gz_enc gz_dec writable).
  Notation describe_on_disk := (describe_on_disk gz_enc gz_dec writable O Od transform tag_order frame_text).

  (** *** convert *)

  Lemma convert_refused : forall from to output skip names w w',
    convert_on_disk from to output skip names w = Some (CRefused, w') -> w' = w.
  Proof.
    intros from to output skip names w w' H. destruct from; try (cbn in H; injection H as <-; reflexivity).
    unfold DirModel.convert_on_disk in H. cbv zeta in H. eapply open_one_refused; [|exact H]. intros. apply process_all_not_refused.
  Qed.

  Lemma convert_out_name : forall to output, out_name (convert_output to output) = output.
  Proof. intros [] output; reflexivity. Qed.

  Lemma convert_frame : forall from to output skip names w c w',
    convert_on_disk from to output skip names w = Some (c, w') -> same_but (named output) w w'.
  Proof.
    intros from to output skip names w c w' H.
    assert (A : allowed gz_enc writable (same_but (named output)) (convert_output to output)).
    { apply same_but_allowed. intros n E. rewrite convert_out_name in E. rewrite E. left. reflexivity. }
    assert (M : moves (same_but (named output)) (convert_on_disk from to output skip names w) w).
    { destruct from; try (cbn; apply same_but_refl). unfold DirModel.convert_on_disk. cbv zeta.
      apply (open_all_moves gz_enc writable _ (same_but_refl _) (same_but_trans _)); [constructor|repeat constructor; apply A|].
      intros w1. apply (process_all_moves gz_enc gz_dec writable _ (same_but_refl _) (same_but_trans _)).
      repeat constructor; apply A. }
    rewrite H in M. exact M.
  Qed.

  Lemma convert_full : forall to output skip names w cs recs e, keeps_utf8 lossy -> avail w names cs -> distinct output names ->
    reads skip cs recs e -> (to = TXml -> Forall (fun r => utf8_record (br_record r)) recs) ->
    exists text, (e = None -> converted lossy esc to recs text)
      /\ yields (convert_on_disk TPlus to output skip names w) (status_of e) [(convert_output to output, text)] w.
  Proof.
    intros to output skip names w cs recs e HL Ha Hd Hr HU.
    destruct (ConvertRunProofs.convert_exact lossy esc HL to skip cs recs e Hr HU) as (out & H1 & H2).
    exists out. split; [exact H2|]. unfold DirModel.convert_on_disk. cbv zeta.
    unfold convert_run, finish_with in H1. destruct (run_loop _ _ cs) as [x|] eqn:Ex; [|discriminate].
    assert (Hd' : forall n, out_name (convert_output to output) = Some n -> ~ In n names).
    { intros n. rewrite convert_out_name. apply Hd. }
    pose proof (one_yields gz_enc gz_dec writable _ (convert_output to output)
      (fun s : N * bytes => snd s ++ conv_close to, @snd N bytes) (fun _ => false) _ _ _ skip (0, conv_open to) names cs w x
      (IoProofs.on_result_body _ (convert_body lossy esc to) skip) Ha Hd' Ex) as Y.
    destruct x as [s'|s' e'|], e as [err|]; cbn in H1; try discriminate.
    - injection H1 as <-. apply Y. discriminate.
    - injection H1 as <- ->. apply Y. discriminate.
  Qed.

  (** *** invalid *)

  Lemma invalid_frame : forall output names w c w',
    invalid_on_disk output names w = Some (c, w') -> same_but (named output) w w'.
  Proof.
    intros output names w c w' H.
    assert (A : allowed gz_enc writable (same_but (named output)) (mkOut output false false)).
    { apply same_but_allowed. intros n E. cbn in E. rewrite E. left. reflexivity. }
    assert (M : moves (same_but (named output)) (invalid_on_disk output names w) w).
    { unfold DirModel.invalid_on_disk. cbv zeta.
      apply (open_all_moves gz_enc writable _ (same_but_refl _) (same_but_trans _)); [constructor|repeat constructor; apply A|].
      intros w1. destruct (io_invalid_run _ _) as [x|]; [|exact I].
      destruct x as [t|t|t e|]; [apply A|apply A| |apply same_but_refl].
      destruct (main_status (IFailed t e)); [apply A|apply same_but_refl]. }
    rewrite H in M. exact M.
  Qed.

  Lemma invalid_refused : forall output names w w',
    invalid_on_disk output names w = Some (CRefused, w') -> w' = w.
  Proof.
    intros output names w w' H. unfold DirModel.invalid_on_disk in H. cbv zeta in H.
    eapply open_one_refused; [|exact H]. intros w1 w2 E. cbn beta in E.
    destruct (io_invalid_run _ _) as [x|]; [|discriminate].
    destruct x as [t|t|t e|]; [discriminate..| |discriminate]. destruct (main_status (IFailed t e)); discriminate.
  Qed.

  (** the lines that are no records *)
  Lemma invalid_full : forall output names w cs, avail w names cs -> distinct output names ->
    exists ls valid invalid, input_lines cs ls /\ Split (map snd ls) valid invalid
      /\ Forall (fun l => exists r, record_text r l) valid /\ Forall (fun l => forall r, ~ record_text r l) invalid
      /\ yields (invalid_on_disk output names w) 0 [(mkOut output false false, concat invalid)] w.
  Proof.
    intros output names w cs Ha Hd.
    destruct (invalid_complement O (fun x => x) (fun x => x) cs) as (ls & valid & invalid & H1 & H2 & H3 & H4 & _ & H6).
    exists ls, valid, invalid. repeat (split; [assumption|]).
    set (out := mkOut output false false).
    assert (K : forall w1, opened [out] w w1 -> exists w',
      match io_invalid_run (inputs gz_dec (w_disk w1) (w_stdin w1) names) [] with
      | None => None
      | Some x =>
          match x, main_status x with
          | IDone t, Some n | IStopped t, Some n | IFailed t _, Some n => Some (CEnded n, close_output gz_enc out t w1)
          | _, _ => Some (CPanicked, w1)
          end
      end = Some (CEnded 0, w') /\ received gz_enc [(out, concat invalid)] w w').
    { intros w1 Ho.
      assert (Hi : inputs gz_dec (w_disk w1) (w_stdin w1) names = inputs gz_dec (w_disk w) (w_stdin w) names).
      { destruct Ho as (S1 & _ & S3 & _). rewrite S3. apply inputs_same. intros n Hin. apply S1.
        intros Ho'. unfold out_names in Ho'. cbn in Ho'. destruct output as [m|]; [|exact Ho'].
        destruct Ho' as [<-|[]]. exact (Hd _ eq_refl Hin). }
      rewrite Hi. destruct (IoProofs.io_invalid_intact _ _ (available_intact _ _ _ _ _ Ha)) as (o & E1 & ->).
      assert (o = concat invalid) as -> by congruence. cbn [main_status].
      eexists. split; [reflexivity|].
      apply (opened_received gz_enc writable [(out, concat invalid)]); [apply one_nodup|exact Ho]. }
    split.
    - intros st w' H. unfold DirModel.invalid_on_disk in H. cbv zeta in H.
      apply open_all_ended in H; [|apply one_nodup]. destruct H as (w1 & Ho & H).
      destruct (K w1 Ho) as (w2 & E & Hr). unfold out in E. rewrite E in H. injection H as <- <-. auto.
    - intros Hw. unfold DirModel.invalid_on_disk. cbv zeta.
      match goal with |- context [open_all _ _ _ _ _ ?k] =>
        destruct (open_all_progress gz_enc writable [out] [] w k (one_nodup _) Hw) as (w1 & Ho & E) end.
      unfold out in E at 1. rewrite E. apply K. exact Ho.
  Qed.

  (** *** describe *)

  Lemma describe_refused : forall a discard keep csv tsv output skip names w w',
    describe_on_disk a discard keep csv tsv output skip names w = Some (CRefused, w') -> w' = w.
  Proof.
    intros a discard keep csv tsv output skip names w w' H. unfold DirModel.describe_on_disk in H.
    apply prepared_refused in H as [->|(dk & _ & H)]; [reflexivity|].
    apply prepared_refused in H as [->|(o & _ & H)]; [reflexivity|].
    destruct (io_files_loop _ _ _ _ _) as [x|]; [|discriminate].
    destruct x as [s|s|s e|].
    - cbn [main_status] in H. destruct (open_output _ _ _); discriminate.
    - cbn [main_status] in H. destruct (open_output _ _ _); discriminate.
    - destruct (main_status (IFailed s e)); discriminate.
    - discriminate.
  Qed.

  Lemma describe_frame : forall a discard keep csv tsv output skip names w c w',
    describe_on_disk a discard keep csv tsv output skip names w = Some (c, w') -> same_but (named output) w w'.
  Proof.
    intros a discard keep csv tsv output skip names w c w' H.
    assert (A : allowed gz_enc writable (same_but (named output)) (mkOut output false false)).
    { apply same_but_allowed. intros n E. cbn in E. rewrite E. left. reflexivity. }
    unfold DirModel.describe_on_disk, prepared in H.
    destruct (parse_predicates discard) as [d|], (parse_predicates keep) as [k|];
      try (injection H as <- <-; apply same_but_refl).
    destruct (fst (opts_prepare O Od transform a)) as [[o|]|]; [|injection H as <- <-; apply same_but_refl|discriminate].
    destruct (io_files_loop _ _ _ _ _) as [x|]; [|discriminate].
    destruct x as [s|s|s e|].
    - cbn [main_status] in H. destruct (open_output _ _ _) as [dd|] eqn:E; injection H as <- <-; [|apply same_but_refl].
      eapply same_but_trans; [exact (proj1 A w dd E)|apply A].
    - cbn [main_status] in H. destruct (open_output _ _ _) as [dd|] eqn:E; injection H as <- <-; [|apply same_but_refl].
      eapply same_but_trans; [exact (proj1 A w dd E)|apply A].
    - destruct (main_status (IFailed s e)); injection H as <- <-; apply same_but_refl.
    - injection H as <- <-. apply same_but_refl.
  Qed.

  Section Describe.
    Variable a : opts_args.
    Hypothesis R : regexes_compile O (oa_ci a).
    Hypothesis Rd : regexes_compile Od false.
    Hypothesis order_ok : forall t, Permutation (tag_order t) t.

    (** The inputs are read before the output is opened: it may be one of them.
        If reading fails, or if the output cannot be opened, nothing happens. *)
    Lemma describe_full : forall M V D K ds ks o discard keep csv tsv output skip names w cs,
      PrepareProofs.opts_prepared O Od a M V o -> fst (opts_prepare O Od transform a) = Some (Some o) ->
      parse_predicates discard = Some ds -> parse_predicates keep = Some ks -> Forall2 denotes ds D -> Forall2 denotes ks K ->
      avail w names cs ->
      (exists recs err, opts_records a M V skip cs recs (Some err)
         /\ describe_on_disk a discard keep csv tsv output skip names w = Some (CEnded 2, w))
      \/ exists text, describe_effect a M V skip cs D K (frame_text (describe_format csv tsv output)) text
         /\ ((exists w', describe_on_disk a discard keep csv tsv output skip names w = Some (CEnded 0, w')
               /\ received gz_enc [(mkOut output false false, text)] w w')
             \/ (exists n, output = Some n /\ writable n = false)
                /\ describe_on_disk a discard keep csv tsv output skip names w = Some (CEnded 2, w)).
    Proof.
      intros M V D K ds ks o discard keep csv tsv output skip names w cs Ho Ep Ed Ek HD HK Ha.
      destruct (opts_prepared_holds O Od _ _ _ _ R Rd Ho) as (W & _ & _ & Hs).
      destruct (DescribeProofs.describe_exact O Od tag_order ds ks skip o cs order_ok W) as (recs & e & fss & codes & rows & H1 & H2 & H3 & H4).
      apply Hs in H1. unfold describe_run, finish_with in H4. destruct (run_loop _ _ cs) as [x|] eqn:Ex; [|discriminate].
      unfold DirModel.describe_on_disk, prepared. rewrite Ed, Ek, Ep. cbn [fst snd].
      destruct (loop_runs gz_dec _ _ _ _ skip (0, []) names w cs x (IoProofs.on_result_body _ (describe_body O Od ds ks o) skip) Ha Ex)
        as (y & Ey & Hy).
      { intros ->. destruct e; discriminate. }
      repeat match goal with |- context [@io_files_loop ?a ?b ?c ?d ?e ?f] => replace (@io_files_loop a b c d e f) with (Some y) by (symmetry; exact Ey) end.
      destruct e as [err|].
      - left. exists recs, err. split; [exact H1|]. destruct x as [s'|s' e'|]; [discriminate| |discriminate].
        injection H4 as ->. subst y. reflexivity.
      - right. exists (frame_text (describe_format csv tsv output) (codes, rows)). split.
        + exists recs, fss, codes, rows. split; [exact H1|]. split; [|auto].
          eapply QueryExtraProofs.Forall2_impl; [|exact H2]. intros r fs He. eapply discard_keep_remaining; eassumption.
        + destruct x as [s'|s' e'|]; [|discriminate..].
          assert (Et : describe_table tag_order (snd s') = (codes, rows)) by congruence.
          set (out := mkOut output false false).
          match goal with |- _ \/ (_ /\ ?X = _) =>
            assert (Ez : X = match open_output writable out (w_disk w) with
                             | None => Some (CEnded 2, w)
                             | Some d => Some (CEnded 0, close_output gz_enc out (frame_text (describe_format csv tsv output) (codes, rows)) (with_disk w d))
                             end) end.
          { destruct Hy as [-> | ->]; cbn [main_status]; destruct (open_output writable out (w_disk w)) as [d|]; try reflexivity;
              exact (f_equal (fun z => Some (CEnded 0, close_output gz_enc out (frame_text (describe_format csv tsv output) z) (with_disk w d))) Et). }
          rewrite Ez.
          destruct (open_output writable out (w_disk w)) as [d|] eqn:Eo.
          * left. eexists. split; [reflexivity|].
            apply (opened_received gz_enc writable [(out, frame_text (describe_format csv tsv output) (codes, rows))]); [apply one_nodup|].
            eapply opened_step; [apply one_nodup|exact Eo|]. split; [apply same_but_refl|]. split; [intros ? ? []|]. split; reflexivity.
          * right. split; [|reflexivity]. unfold open_output, out in Eo. cbn in Eo. destruct output as [n|]; [|discriminate].
            exists n. split; [reflexivity|]. destruct (writable n); [discriminate|reflexivity].
    Qed.

    Lemma describe_accepted : forall M V D K discard keep csv tsv output skip names w cs,
      opts_say O Od true transform a M V -> fields_option discard D -> fields_option keep K -> avail w names cs ->
      (exists recs err, opts_records a M V skip cs recs (Some err)
         /\ describe_on_disk a discard keep csv tsv output skip names w = Some (CEnded 2, w))
      \/ exists text, describe_effect a M V skip cs D K (frame_text (describe_format csv tsv output)) text
         /\ ((exists w', describe_on_disk a discard keep csv tsv output skip names w = Some (CEnded 0, w')
               /\ received gz_enc [(mkOut output false false, text)] w w')
             \/ (exists n, output = Some n /\ writable n = false)
                /\ describe_on_disk a discard keep csv tsv output skip names w = Some (CEnded 2, w)).
    Proof.
      intros M V D K discard keep csv tsv output skip names w cs H Hd Hk Ha.
      destruct (to_prepared O Od transform a M V H) as (o & Ep & Ho).
      destruct (fields_accepted _ _ Hd) as (ds & Ed & HD), (fields_accepted _ _ Hk) as (ks & Ek & HK).
      eapply describe_full; eassumption.
    Qed.

    Lemma describe_reads : forall discard keep csv tsv output skip names w cs w', avail w names cs ->
      describe_on_disk a discard keep csv tsv output skip names w = Some (CEnded 0, w') ->
      exists M V D K text, opts_say O Od false transform a M V /\ fields_option discard D /\ fields_option keep K
        /\ describe_effect a M V skip cs D K (frame_text (describe_format csv tsv output)) text
        /\ received gz_enc [(mkOut output false false, text)] w w'.
    Proof.
      intros discard keep csv tsv output skip names w cs w' Ha H. pose proof H as Hc.
      unfold DirModel.describe_on_disk in Hc. apply prepared_ended in Hc as ([ds ks] & E1 & Hc).
      apply prepared_ended in Hc as (o & Ep & _).
      destruct (parse_predicates discard) as [ds'|] eqn:Ed, (parse_predicates keep) as [ks'|] eqn:Ek; try discriminate.
      injection E1 as -> ->. destruct (opts_read O Od transform a o Ep) as (M & V & Hs & Ho).
      destruct (fields_read _ _ Ed) as (D & HD & HD'), (fields_read _ _ Ek) as (K & HK & HK').
      destruct (describe_full M V D K ds ks o discard keep csv tsv output skip names w cs Ho Ep Ed Ek HD' HK' Ha)
        as [(recs & err & _ & E)|(text & He & [(w2 & E & Hr)|(_ & E)])]; rewrite E in H; [discriminate| |discriminate].
      injection H as ->. exists M, V, D, K, text. auto 6.
    Qed.

    (** without success nothing is written *)
    Lemma describe_unless_done : forall discard keep csv tsv output skip names w c w',
      describe_on_disk a discard keep csv tsv output skip names w = Some (c, w') -> c <> CEnded 0 -> w' = w.
    Proof.
      intros discard keep csv tsv output skip names w c w' H Hc. unfold DirModel.describe_on_disk, prepared in H.
      destruct (parse_predicates discard) as [d|], (parse_predicates keep) as [k|]; try (injection H as <- <-; reflexivity).
      destruct (fst (opts_prepare O Od transform a)) as [[o|]|]; [|injection H as <- <-; reflexivity|discriminate].
      destruct (io_files_loop _ _ _ _ _) as [x|]; [|discriminate].
      destruct x as [s|s|s e|].
      - cbn [main_status] in H. destruct (open_output _ _ _) as [dd|]; injection H as <- <-; [congruence|reflexivity].
      - cbn [main_status] in H. destruct (open_output _ _ _) as [dd|]; injection H as <- <-; [congruence|reflexivity].
      - destruct (main_status (IFailed s e)); injection H as <- <-; reflexivity.
      - injection H as <- <-. reflexivity.
    Qed.
  End Describe.
End Commands.

(** *** outputs and formats *)

Lemma convert_output_is : forall to name, out_name (convert_output to name) = name /\ out_append (convert_output to name) = false
  /\ (out_gz (convert_output to name) = true <-> to = TPlus /\ exists n, name = Some n /\ gz_extension n).
Proof.
  intros to name. destruct to; cbn [convert_output]; (split; [reflexivity|]); (split; [reflexivity|]);
    try (split; [discriminate|intros [? _]; discriminate]).
  destruct name as [n|].
  - rewrite builder_output_gz. cbn [wb_gzip wb_new]. split.
    + intros [H|H]; [discriminate|]. split; [reflexivity|]. exists n. auto.
    + intros (_ & m & [= <-] & H). right. exact H.
  - cbn. split; [discriminate|]. intros (_ & m & H & _). discriminate.
Qed.

Lemma suffix_dec : forall n t, if Bytes.ends_with n t then exists stem, n = stem ++ t else forall stem, n <> stem ++ t.
Proof.
  intros n t. destruct (Bytes.ends_with n t) eqn:E.
  - apply MatcherProofs.ends_with_iff in E. exact E.
  - intros stem ->. assert (H : Bytes.ends_with (stem ++ t) t = true) by (apply MatcherProofs.ends_with_iff; exists stem; reflexivity).
    congruence.
Qed.

Lemma describe_format_is : forall csv tsv output f, describe_format csv tsv output = f <-> DirSpec.table_format csv tsv output f.
Proof.
  assert (A : forall csv tsv output, DirSpec.table_format csv tsv output (describe_format csv tsv output)).
  { intros csv tsv [n|]; [|constructor]. cbn [describe_format].
    pose proof (suffix_dec n (lit ".tsv")) as Ht. pose proof (suffix_dec n (lit ".csv")) as Hc.
    destruct (Bytes.ends_with n (lit ".tsv")); [apply DirSpec.tf_tsv; auto|].
    destruct tsv; [apply DirSpec.tf_tsv; auto|]. cbn [orb].
    destruct (Bytes.ends_with n (lit ".csv")); [apply DirSpec.tf_csv; auto|].
    destruct csv; [apply DirSpec.tf_csv; auto|apply DirSpec.tf_ipc; auto]. }
  intros csv tsv output f. split; [intros <-; apply A|]. intros H. specialize (A csv tsv output).
  set (g := describe_format csv tsv output) in *. clearbody g.
  destruct H as [|n H|n H1 H2 H3|n H1 H2 H3 H4]; inversion A as [|m G|m G1 G2 G3|m G1 G2 G3 G4]; subst; try reflexivity; exfalso;
    firstorder congruence.
Qed.

Lemma describe_accepted_format : forall gz_enc gz_dec writable O Od transform tag_order frame_text a M V D K discard keep csv tsv output skip names w cs f,
  regexes_compile O (oa_ci a) -> regexes_compile Od false -> (forall t, Permutation (tag_order t) t) ->
  opts_say O Od true transform a M V -> fields_option discard D -> fields_option keep K ->
  available gz_dec (w_disk w) (w_stdin w) names cs -> DirSpec.table_format csv tsv output f ->
  (exists recs err, opts_records a M V skip cs recs (Some err)
     /\ describe_on_disk gz_enc gz_dec writable O Od transform tag_order frame_text a discard keep csv tsv output skip names w = Some (CEnded 2, w))
  \/ exists text, describe_effect a M V skip cs D K (frame_text f) text
     /\ ((exists w', describe_on_disk gz_enc gz_dec writable O Od transform tag_order frame_text a discard keep csv tsv output skip names w = Some (CEnded 0, w')
           /\ received gz_enc [(mkOut output false false, text)] w w')
         \/ (exists n, output = Some n /\ writable n = false)
            /\ describe_on_disk gz_enc gz_dec writable O Od transform tag_order frame_text a discard keep csv tsv output skip names w = Some (CEnded 2, w)).
Proof.
  intros. match goal with H : DirSpec.table_format _ _ _ _ |- _ => apply describe_format_is in H; subst f end.
  eapply describe_accepted; eassumption.
Qed.

Lemma describe_reads_format : forall gz_enc gz_dec writable O Od transform tag_order frame_text a discard keep csv tsv output skip names w cs w',
  regexes_compile O (oa_ci a) -> regexes_compile Od false -> (forall t, Permutation (tag_order t) t) ->
  available gz_dec (w_disk w) (w_stdin w) names cs ->
  describe_on_disk gz_enc gz_dec writable O Od transform tag_order frame_text a discard keep csv tsv output skip names w = Some (CEnded 0, w') ->
  exists M V D K f text, opts_say O Od false transform a M V /\ fields_option discard D /\ fields_option keep K
    /\ DirSpec.table_format csv tsv output f /\ describe_effect a M V skip cs D K (frame_text f) text
    /\ received gz_enc [(mkOut output false false, text)] w w'.
Proof.
  intros gz_enc gz_dec writable O Od transform tag_order frame_text a discard keep csv tsv output skip names w cs w' R Rd Ht Ha H.
  destruct (describe_reads gz_enc gz_dec writable O Od transform tag_order frame_text a R Rd Ht _ _ _ _ _ _ _ _ _ _ Ha H)
    as (M & V & D & K & text & H1 & H2 & H3 & H4 & H5).
  exists M, V, D, K, (describe_format csv tsv output), text. repeat (split; [assumption|]). split; [|split; assumption].
  apply describe_format_is. reflexivity.
Qed.

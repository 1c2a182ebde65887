(** * Commands from the texts of their arguments to the contents of the files *)

From Coq Require Import String Permutation.
From Verif Require OptionsSpec OptionsProofs GrammarSpec IoProofs PrepareProofs TablePrepareProofs QueryExtraProofs MatcherExtraProofs QueryProofs.
From Verif Require Import Bytes Winnow RecordModel RecordSpec BaseProofs TagOccModel Utf8Model ByteRecordModel ByteRecordSpec ReaderModel
  MatcherModel MatcherSpec StateParser MatcherParserModel BuilderModel PathModel FmtModel QueryModel CliModel CliSpec CliProofs
  CliCommandProofs CliOutputProofs TableModel ExplodeModel CheckModel CsvModel ConvertModel OptionsModel PrepareModel TableSpec CheckSpec CsvSpec ExplodeSpec
  ConvertSpec PrepareSpec IoModel IoSpec WriteSpec QuerySpec QueryGrammarSpec DiskModel DiskSpec DiskProofs DiskCommandProofs DiskEndProofs DiskFullProofs
  DiskTableProofs EndSpec.
Import OptionsSpec GrammarSpec OptionsProofs PrepareProofs.

(** both orders of --keep and --discard leave the same fields *)
Lemma keep_discard_remaining : forall ds ks D K part fs, Forall2 denotes ds D -> Forall2 denotes ks K ->
  edits_effect [EKeep ks; EDiscard ds] part fs -> Selected (remains D K) part fs.
Proof.
  intros ds ks D K part fs HD HK He.
  inversion He as [|e es l l' l'' E1 E2]; subst. inversion E2 as [|e es l1 l2 l3 E3 E4]; subst.
  inversion E4; subst. unfold remains.
  eapply selected_iff; [intros f; apply and_comm|].
  apply selected_two with (m := l').
  - pose proof (denotes_matched _ _ HK) as M. inversion E1 as [|?|p ? ? Hp Hs| |]; subst.
    + apply selected_all. intros f. left. inversion HK. reflexivity.
    + eapply selected_iff; [|exact Hs]. intros f. rewrite M. split; [auto|].
      intros [->|H]; [|exact H]. inversion HK; congruence.
  - pose proof (denotes_matched _ _ HD) as M. inversion E3 as [|?|?|? E0|p ? ? Hp Hs]; subst.
    + apply selected_all. intros f Hf. apply M in Hf. destruct Hf as (? & ? & [] & _).
    + eapply selected_iff; [|exact Hs]. intros f. rewrite <- M. reflexivity.
Qed.

Lemma discard_keep_remaining : forall ds ks D K part fs, Forall2 denotes ds D -> Forall2 denotes ks K ->
  edits_effect [EDiscard ds; EKeep ks] part fs -> Selected (remains D K) part fs.
Proof.
  intros ds ks D K part fs HD HK He.
  inversion He as [|e es l l' l'' E1 E2]; subst. inversion E2 as [|e es l1 l2 l3 E3 E4]; subst.
  inversion E4; subst. unfold remains.
  apply selected_two with (m := l').
  - pose proof (denotes_matched _ _ HD) as M. inversion E1 as [|?|?|? E0|p ? ? Hp Hs]; subst.
    + apply selected_all. intros f Hf. apply M in Hf. destruct Hf as (? & ? & [] & _).
    + eapply selected_iff; [|exact Hs]. intros f. rewrite <- M. reflexivity.
  - pose proof (denotes_matched _ _ HK) as M. inversion E3 as [|?|p ? ? Hp Hs| |]; subst.
    + apply selected_all. intros f. left. inversion HK. reflexivity.
    + eapply selected_iff; [|exact Hs]. intros f. rewrite M. split; [auto|].
      intros [->|H]; [|exact H]. inversion HK; congruence.
Qed.

Section End.
  Variable gz_enc : bytes -> bytes.
  Variable gz_dec : bytes -> list piece.
  Variable writable : bytes -> bool.
  Variables O Od : oracles.
  Variable transform : bytes -> bytes.
  Variable sha : bytes -> bytes.
  Variable lossy : bytes -> bytes.
  Variable T : text_fns.
  Variable rule_order : list (bytes * N) -> list (bytes * N).
  Variable link_order : list (bytes * list bytes) -> list (bytes * list bytes).
  Variable numeric : bytes -> bool.
  Variable hash : list bytes -> N.
  Variable freq_order : ftable -> ftable.

  Notation distinct output names := (forall n, output = Some n -> ~ In n names).
  Notation yields := (yields gz_enc writable).
  Notation avail w names cs := (available gz_dec (w_disk w) (w_stdin w) names cs).
  Notation opts_prepared := (PrepareProofs.opts_prepared O Od).
  Notation prep a o := (fst (opts_prepare O Od transform a) = Some (Some o)).

  (** from the arguments to the prepared options, and back *)
  Lemma to_prepared : forall a M V, opts_say O Od true transform a M V -> exists o, prep a o /\ opts_prepared a M V o.
  Proof. intros a M V H. apply opts_accepted in H as (o & E & H). exists o. rewrite E. auto. Qed.

  Section Opts.
    Variable a : opts_args.
    Hypothesis R : regexes_compile O (oa_ci a).
    Hypothesis Rd : regexes_compile Od false.

    Section Prepared.
      Variables (M : meaning field) (V : record -> list bytes -> Prop) (o : filter_opts).
      Hypothesis Ho : opts_prepared a M V o.
      Hypothesis Ep : prep a o.

      Let W := proj1 (opts_prepared_holds O Od a M V o R Rd Ho).
      Let Hh := proj1 (proj2 (opts_prepared_holds O Od a M V o R Rd Ho)).
      Let Hl := proj1 (proj2 (proj2 (opts_prepared_holds O Od a M V o R Rd Ho))).
      Let Hs := proj2 (proj2 (proj2 (opts_prepared_holds O Od a M V o R Rd Ho))).

      Lemma count_full : forall append output m skip names w cs, avail w names cs -> distinct output names ->
        exists st text, count_effect a M V skip cs m st text
          /\ yields (count_on_disk gz_enc gz_dec writable O Od transform a append output m skip names w) st
               [(mkOut output append false, text)] w.
      Proof.
        intros append output m skip names w cs Ha Hd.
        destruct (count_texts gz_enc gz_dec writable O Od transform a o append output m skip names w cs W Ep Ha Hd)
          as (all & sel & e & t & H1 & H2 & H3 & H4).
        eexists _, _. split; [|exact H4]. exists all, sel, e, t. split; [exact H1|]. split; [|auto].
        eapply QueryExtraProofs.picks_weaken; [|exact H2]. intros r. apply Hh.
      Qed.

      Lemma print_full : forall nf output skip names w cs all e0, avail w names cs -> distinct output names ->
        reads skip cs all e0 -> Forall (fun r => meant a M V (br_record r) -> utf8_record (br_record r)) all ->
        exists st text, print_effect a M V skip cs nf st text
          /\ yields (print_on_disk gz_enc gz_dec writable O Od transform a nf output skip names w) st
               [(mkOut output false false, text)] w.
      Proof.
        intros nf output skip names w cs all e0 Ha Hd Hr HU.
        destruct (print_texts gz_enc gz_dec writable O Od transform a o nf output skip names w cs all e0 W Ep Ha Hd Hr)
          as (recs & e & ts & H1 & H2 & H3).
        { eapply Forall_impl; [|exact HU]. intros r H Hm. apply H. apply Hh. exact Hm. }
        eexists _, _. split; [|exact H3]. exists recs, e, ts. split; [apply Hs; exact H1|]. auto.
      Qed.

      Lemma slice_full : forall gzip append output start end_ len stop skip names w cs, append && gzip = false ->
        avail w names cs -> distinct output names -> slice_stop start end_ len stop -> len = 0 \/ skip = false ->
        exists st text, slice_effect a M V skip cs start stop st text
          /\ yields (slice_on_disk gz_enc gz_dec writable O Od transform a gzip append output start end_ len skip names w) st
               [(builder_output (mkWB append gzip) output, text)] w.
      Proof.
        intros gzip append output start end_ len stop skip names w cs Hag Ha Hd Hst Hlen.
        destruct (slice_texts gz_enc gz_dec writable O Od transform a o gzip append output start end_ len stop skip names w cs W Ep Hag Ha Hd Hst Hlen)
          as (all & e0 & sel & range & e1 & recs & e & out & H1 & H2 & H3 & H4 & H5 & H6 & H7).
        eexists _, _. split; [|exact H7]. exists all, e0, sel, range, e1, recs, e. split; [exact H1|].
        split; [eapply QueryExtraProofs.picks_weaken; [|exact H2]; intros r; apply Hh|].
        split; [exact H3|]. split; [exact H4|]. split; [rewrite <- Hl; exact H5|]. auto.
      Qed.

      Lemma sample_full : forall gzip output draw size skip names w cs, avail w names cs -> distinct output names ->
        exists st text, sample_effect a M V skip cs size st text
          /\ yields (sample_on_disk gz_enc gz_dec writable O Od transform a gzip output draw size skip names w) st
               [(builder_output (mkWB false gzip) output, text)] w.
      Proof.
        intros gzip output draw size skip names w cs Ha Hd.
        destruct (sample_texts gz_enc gz_dec writable O Od transform a o gzip output draw size skip names w cs W Ep Ha Hd)
          as (recs & e & out & H1 & H2 & H3).
        eexists _, _. split; [|exact H3]. exists recs, e. split; [apply Hs; exact H1|]. auto.
      Qed.

      Lemma explode_full : forall discard keep ds ks D K l gzip output skip names w cs,
        parse_predicates discard = Some ds -> parse_predicates keep = Some ks ->
        Forall2 denotes ds D -> Forall2 denotes ks K ->
        avail w names cs -> distinct output names ->
        exists st text, explode_effect a M V skip cs l D K st text
          /\ yields (explode_on_disk gz_enc gz_dec writable O Od transform a discard keep l gzip output skip names w) st
               [(builder_output (mkWB false gzip) output, text)] w.
      Proof.
        intros discard keep ds ks D K l gzip output skip names w cs Ed Ek HD HK Ha Hd.
        destruct (explode_texts gz_enc gz_dec writable O Od transform a o ds ks discard keep l gzip output skip names w cs W Ep Ed Ek Ha Hd)
          as (all & partss & sel & parts & e0 & e & ts & H1 & H2 & H3 & H4 & H5 & H6).
        eexists _, _. split; [|exact H6]. exists all, partss, sel, parts, e0, e, ts. split; [exact H1|]. split; [exact H2|].
        split; [eapply QueryExtraProofs.picks_weaken; [|exact H3]; intros r; apply Hh|].
        split; [rewrite <- Hl; exact H4|]. split; [|auto].
        eapply QueryExtraProofs.Forall2_impl; [|exact H5]. intros part t (fs & He & Ht). exists fs. split; [|exact Ht].
        eapply keep_discard_remaining; eassumption.
      Qed.

      Lemma hash_full : forall output tsv header h1 h2 skip names w cs, avail w names cs -> distinct output names ->
        header_text (Some header) (Some [h1; h2]) ->
        exists st text, hash_effect a M V skip cs sha lossy tsv h1 h2 st text
          /\ yields (hash_on_disk gz_enc gz_dec writable O Od transform sha lossy numeric a output tsv header skip names w) st
               [(mkOut output false false, text)] w.
      Proof.
        intros output tsv header h1 h2 skip names w cs Ha Hd Hhd.
        destruct (hash_texts gz_enc gz_dec writable O Od transform sha lossy numeric a o output tsv header h1 h2 skip names w cs W Ep Ha Hd Hhd)
          as (recs & e & rows & t & H1 & H2 & H3 & H4).
        eexists _, _. split; [|exact H4]. exists recs, e, rows. split; [apply Hs; exact H1|]. auto.
      Qed.

      Lemma check_full : forall sets output skip names w cs,
        (forall v, lossy v = [] <-> v = []) ->
        (forall l, Permutation (rule_order l) l) -> (forall l, Permutation (link_order l) l) -> Forall (set_wf Od) sets ->
        avail w names cs -> distinct output names ->
        exists st text, check_effect a M V skip cs Od T lossy sets output st text
          /\ yields (check_on_disk gz_enc gz_dec writable O Od transform lossy T rule_order link_order a (Some sets) output skip names w) st
               [(mkOut output false false, text)] w.
      Proof.
        intros sets output skip names w cs HL H1 H2 Hw Ha Hd.
        destruct (check_texts gz_enc gz_dec writable O Od transform lossy T rule_order link_order a o sets output skip names w cs HL H1 H2 W Hw Ep Ha Hd)
          as (recs & e & rowss & finals & t & A1 & A2 & A3 & A4 & A5).
        eexists _, _. split; [|exact A5]. exists recs, e, rowss, finals. split; [apply Hs; exact A1|]. auto.
      Qed.
    End Prepared.

    (** *** Arguments of the strict language are accepted *)

    Lemma count_accepted : forall M V append output m skip names w cs,
      opts_say O Od true transform a M V -> avail w names cs -> distinct output names ->
      exists st text, count_effect a M V skip cs m st text
        /\ yields (count_on_disk gz_enc gz_dec writable O Od transform a append output m skip names w) st
             [(mkOut output append false, text)] w.
    Proof. intros M V append output m skip names w cs H. destruct (to_prepared a M V H) as (o & Ep & Ho). eapply count_full; eassumption. Qed.

    Lemma print_accepted : forall M V nf output skip names w cs all e0,
      opts_say O Od true transform a M V -> avail w names cs -> distinct output names ->
      reads skip cs all e0 -> Forall (fun r => meant a M V (br_record r) -> utf8_record (br_record r)) all ->
      exists st text, print_effect a M V skip cs nf st text
        /\ yields (print_on_disk gz_enc gz_dec writable O Od transform a nf output skip names w) st
             [(mkOut output false false, text)] w.
    Proof. intros M V nf output skip names w cs all e0 H. destruct (to_prepared a M V H) as (o & Ep & Ho). eapply print_full; eassumption. Qed.

    Lemma slice_accepted : forall M V gzip append output start end_ len stop skip names w cs,
      opts_say O Od true transform a M V -> append && gzip = false ->
      avail w names cs -> distinct output names -> slice_stop start end_ len stop -> len = 0 \/ skip = false ->
      exists st text, slice_effect a M V skip cs start stop st text
        /\ yields (slice_on_disk gz_enc gz_dec writable O Od transform a gzip append output start end_ len skip names w) st
             [(builder_output (mkWB append gzip) output, text)] w.
    Proof. intros M V gzip append output start end_ len stop skip names w cs H. destruct (to_prepared a M V H) as (o & Ep & Ho). eapply slice_full; eassumption. Qed.

    Lemma sample_accepted : forall M V gzip output draw size skip names w cs,
      opts_say O Od true transform a M V -> avail w names cs -> distinct output names ->
      exists st text, sample_effect a M V skip cs size st text
        /\ yields (sample_on_disk gz_enc gz_dec writable O Od transform a gzip output draw size skip names w) st
             [(builder_output (mkWB false gzip) output, text)] w.
    Proof. intros M V gzip output draw size skip names w cs H. destruct (to_prepared a M V H) as (o & Ep & Ho). eapply sample_full; eassumption. Qed.

    Lemma explode_accepted : forall M V D K discard keep l gzip output skip names w cs,
      opts_say O Od true transform a M V -> fields_option discard D -> fields_option keep K ->
      avail w names cs -> distinct output names ->
      exists st text, explode_effect a M V skip cs l D K st text
        /\ yields (explode_on_disk gz_enc gz_dec writable O Od transform a discard keep l gzip output skip names w) st
             [(builder_output (mkWB false gzip) output, text)] w.
    Proof.
      intros M V D K discard keep l gzip output skip names w cs H Hd Hk. destruct (to_prepared a M V H) as (o & Ep & Ho).
      destruct (fields_accepted _ _ Hd) as (ds & Ed & HD), (fields_accepted _ _ Hk) as (ks & Ek & HK). eapply explode_full; eassumption.
    Qed.

    Lemma hash_accepted : forall M V output tsv header h1 h2 skip names w cs,
      opts_say O Od true transform a M V -> header_text (Some header) (Some [h1; h2]) ->
      avail w names cs -> distinct output names ->
      exists st text, hash_effect a M V skip cs sha lossy tsv h1 h2 st text
        /\ yields (hash_on_disk gz_enc gz_dec writable O Od transform sha lossy numeric a output tsv header skip names w) st
             [(mkOut output false false, text)] w.
    Proof. intros M V output tsv header h1 h2 skip names w cs H Hh Ha Hd. destruct (to_prepared a M V H) as (o & Ep & Ho). eapply hash_full; eassumption. Qed.

    Lemma check_accepted : forall M V sets output skip names w cs,
      opts_say O Od true transform a M V -> (forall v, lossy v = [] <-> v = []) ->
      (forall l, Permutation (rule_order l) l) -> (forall l, Permutation (link_order l) l) -> Forall (set_wf Od) sets ->
      avail w names cs -> distinct output names ->
      exists st text, check_effect a M V skip cs Od T lossy sets output st text
        /\ yields (check_on_disk gz_enc gz_dec writable O Od transform lossy T rule_order link_order a (Some sets) output skip names w) st
             [(mkOut output false false, text)] w.
    Proof. intros M V sets output skip names w cs H. destruct (to_prepared a M V H) as (o & Ep & Ho). intros. eapply check_full; eassumption. Qed.

    (** *** Whatever is accepted means something *)

    Lemma count_reads : forall append output m skip names w cs st w', avail w names cs -> distinct output names ->
      count_on_disk gz_enc gz_dec writable O Od transform a append output m skip names w = Some (CEnded st, w') ->
      exists M V text, opts_say O Od false transform a M V /\ count_effect a M V skip cs m st text
        /\ received gz_enc [(mkOut output append false, text)] w w'.
    Proof.
      intros append output m skip names w cs st w' Ha Hd H. pose proof H as Hc.
      apply count_completed in Hc as (o & Ep & _); [|exact Hd]. destruct (opts_read O Od transform a o Ep) as (M & V & Hs & Ho).
      destruct (count_full M V o Ho Ep append output m skip names w cs Ha Hd) as (st' & text & He & Y & _).
      apply Y in H as [-> H]. exists M, V, text. auto.
    Qed.

    Lemma print_reads : forall nf output skip names w cs st w' all e0, avail w names cs -> distinct output names ->
      reads skip cs all e0 -> Forall (fun r => utf8_record (br_record r)) all ->
      print_on_disk gz_enc gz_dec writable O Od transform a nf output skip names w = Some (CEnded st, w') ->
      exists M V text, opts_say O Od false transform a M V /\ print_effect a M V skip cs nf st text
        /\ received gz_enc [(mkOut output false false, text)] w w'.
    Proof.
      intros nf output skip names w cs st w' all e0 Ha Hd Hr HU H. pose proof H as Hc.
      apply print_completed in Hc as (o & Ep & _); [|exact Hd]. destruct (opts_read O Od transform a o Ep) as (M & V & Hs & Ho).
      destruct (print_full M V o Ho Ep nf output skip names w cs all e0 Ha Hd Hr) as (st' & text & He & Y & _).
      { eapply Forall_impl; [|exact HU]. auto. }
      apply Y in H as [-> H]. exists M, V, text. auto.
    Qed.

    Lemma slice_reads : forall gzip append output start end_ len stop skip names w cs st w',
      avail w names cs -> distinct output names -> slice_stop start end_ len stop -> len = 0 \/ skip = false ->
      slice_on_disk gz_enc gz_dec writable O Od transform a gzip append output start end_ len skip names w = Some (CEnded st, w') ->
      exists M V text, opts_say O Od false transform a M V /\ slice_effect a M V skip cs start stop st text
        /\ received gz_enc [(builder_output (mkWB append gzip) output, text)] w w'.
    Proof.
      intros gzip append output start end_ len stop skip names w cs st w' Ha Hd Hst Hlen H. pose proof H as Hc.
      apply slice_completed in Hc as (o & Ep & _); [|exact Hd]. destruct (opts_read O Od transform a o Ep) as (M & V & Hs & Ho).
      assert (Hag : append && gzip = false).
      { destruct append, gzip; try reflexivity. exfalso. unfold slice_on_disk, prepared in H. rewrite Ep in H. cbn in H. discriminate. }
      destruct (slice_full M V o Ho Ep gzip append output start end_ len stop skip names w cs Hag Ha Hd Hst Hlen) as (st' & text & He & Y & _).
      apply Y in H as [-> H]. exists M, V, text. auto.
    Qed.

    Lemma sample_reads : forall gzip output draw size skip names w cs st w', avail w names cs -> distinct output names ->
      sample_on_disk gz_enc gz_dec writable O Od transform a gzip output draw size skip names w = Some (CEnded st, w') ->
      exists M V text, opts_say O Od false transform a M V /\ sample_effect a M V skip cs size st text
        /\ received gz_enc [(builder_output (mkWB false gzip) output, text)] w w'.
    Proof.
      intros gzip output draw size skip names w cs st w' Ha Hd H. pose proof H as Hc.
      apply sample_completed in Hc as (o & Ep & _); [|exact Hd]. destruct (opts_read O Od transform a o Ep) as (M & V & Hs & Ho).
      destruct (sample_full M V o Ho Ep gzip output draw size skip names w cs Ha Hd) as (st' & text & He & Y & _).
      apply Y in H as [-> H]. exists M, V, text. auto.
    Qed.

    Lemma explode_reads : forall discard keep l gzip output skip names w cs st w', avail w names cs -> distinct output names ->
      explode_on_disk gz_enc gz_dec writable O Od transform a discard keep l gzip output skip names w = Some (CEnded st, w') ->
      exists M V D K text, opts_say O Od false transform a M V /\ fields_option discard D /\ fields_option keep K
        /\ explode_effect a M V skip cs l D K st text
        /\ received gz_enc [(builder_output (mkWB false gzip) output, text)] w w'.
    Proof.
      intros discard keep l gzip output skip names w cs st w' Ha Hd H. pose proof H as Hc.
      apply explode_completed in Hc as (ds & ks & o & Ed & Ek & Ep & _); [|exact Hd].
      destruct (opts_read O Od transform a o Ep) as (M & V & Hs & Ho).
      destruct (fields_read _ _ Ed) as (D & HD & HD'), (fields_read _ _ Ek) as (K & HK & HK').
      destruct (explode_full M V o Ho Ep discard keep ds ks D K l gzip output skip names w cs Ed Ek HD' HK' Ha Hd) as (st' & text & He & Y & _).
      apply Y in H as [-> H]. exists M, V, D, K, text. auto 6.
    Qed.

    Lemma hash_reads : forall output tsv header h1 h2 skip names w cs st w', avail w names cs -> distinct output names ->
      header_text (Some header) (Some [h1; h2]) ->
      hash_on_disk gz_enc gz_dec writable O Od transform sha lossy numeric a output tsv header skip names w = Some (CEnded st, w') ->
      exists M V text, opts_say O Od false transform a M V /\ hash_effect a M V skip cs sha lossy tsv h1 h2 st text
        /\ received gz_enc [(mkOut output false false, text)] w w'.
    Proof.
      intros output tsv header h1 h2 skip names w cs st w' Ha Hd Hh H. pose proof H as Hc.
      apply hash_completed in Hc as (o & Ep & _); [|exact Hd]. destruct (opts_read O Od transform a o Ep) as (M & V & Hs & Ho).
      destruct (hash_full M V o Ho Ep output tsv header h1 h2 skip names w cs Ha Hd Hh) as (st' & text & He & Y & _).
      apply Y in H as [-> H]. exists M, V, text. auto.
    Qed.

    Lemma check_reads : forall rules output skip names w cs st w', avail w names cs -> distinct output names ->
      (forall v, lossy v = [] <-> v = []) ->
      (forall l, Permutation (rule_order l) l) -> (forall l, Permutation (link_order l) l) ->
      (forall sets, rules = Some sets -> Forall (set_wf Od) sets) ->
      check_on_disk gz_enc gz_dec writable O Od transform lossy T rule_order link_order a rules output skip names w = Some (CEnded st, w') ->
      exists M V sets text, opts_say O Od false transform a M V /\ rules = Some sets
        /\ check_effect a M V skip cs Od T lossy sets output st text
        /\ received gz_enc [(mkOut output false false, text)] w w'.
    Proof.
      intros rules output skip names w cs st w' Ha Hd HL H1 H2 Hw H. pose proof H as Hc.
      apply check_completed in Hc as (o & sets & Ep & -> & _); [|exact Hd]. destruct (opts_read O Od transform a o Ep) as (M & V & Hs & Ho).
      destruct (check_full M V o Ho Ep sets output skip names w cs HL H1 H2 (Hw _ eq_refl) Ha Hd) as (st' & text & He & Y & _).
      apply Y in H as [-> H]. exists M, V, sets, text. auto.
    Qed.
  End Opts.
End End.

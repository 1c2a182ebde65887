(** * Tables, concat, convert and describe from the texts of their arguments to the contents of the files *)

From Coq Require Import String Permutation.
From Verif Require OptionsSpec OptionsProofs GrammarSpec IoProofs PrepareProofs TablePrepareProofs QueryExtraProofs MatcherExtraProofs QueryProofs
  ConvertRunProofs DescribeProofs.
From Verif Require Import Bytes Winnow RecordModel RecordSpec BaseProofs TagOccModel Utf8Model ByteRecordModel ByteRecordSpec ReaderModel
  MatcherModel MatcherSpec StateParser MatcherParserModel BuilderModel PathModel FmtModel QueryModel CliModel CliSpec CliProofs
  CliCommandProofs CliOutputProofs TableModel ExplodeModel CheckModel CsvModel ConvertModel OptionsModel PrepareModel TableSpec CheckSpec CsvSpec ExplodeSpec
  ConvertSpec PrepareSpec IoModel IoSpec WriteSpec QuerySpec QueryGrammarSpec DiskModel DirModel DiskSpec DiskProofs DiskCommandProofs DiskEndProofs DiskFullProofs
  DiskTableProofs EndSpec.
Import OptionsSpec GrammarSpec OptionsProofs PrepareProofs TablePrepareProofs.
From Verif Require Import EndProofs.
Import EndSpec.

Section End.
  Variable gz_enc : bytes -> bytes.
  Variable gz_dec : bytes -> list piece.
  Variable writable : bytes -> bool.
  Variables O Od : oracles.
  Variable transform : bytes -> bytes.
  Variable sha : bytes -> bytes.
  Variable lossy : bytes -> bytes.
  Variable T : text_fns.
  Variable numeric : bytes -> bool.
  Variable hash : list bytes -> N.
  Variable freq_order : ftable -> ftable.

  Notation distinct output names := (forall n, output = Some n -> ~ In n names).
  Notation yields := (yields gz_enc writable).
  Notation avail w names cs := (available gz_dec (w_disk w) (w_stdin w) names cs).
  Notation opts_prepared := (PrepareProofs.opts_prepared O Od).

  Section Table.
    Variable a : table_args.
    Hypothesis R : regexes_compile O (oa_ci (ta_opts a)).
    Hypothesis Rd : regexes_compile Od false.

    Lemma select_full : forall M V Ms o q unique no_empty nf quote tsv append output skip names w cs,
      opts_prepared (ta_opts a) M V o -> query_stands O T q Ms -> fst (table_prepare O Od transform a) = Some (Some (o, q)) ->
      quote <> QNever -> (forall v, numeric v = true -> Forall (plain_byte (delimiter tsv)) v) ->
      header_fits (table_header a) (columns_of Ms) -> table_header a <> Some [] ->
      avail w names cs -> distinct output names ->
      exists st text, select_effect a M V Ms (table_header a) lossy skip cs hash unique no_empty nf tsv st text
        /\ yields (select_on_disk gz_enc gz_dec writable O Od transform lossy T numeric hash a unique no_empty nf quote tsv append output skip names w) st
             [(mkOut output append false, text)] w.
    Proof.
      intros M V Ms o q unique no_empty nf quote tsv append output skip names w cs Ho [Hc Hq] Ep Hqu Hn Hf Hne Ha Hd.
      destruct (opts_prepared_holds O Od _ _ _ _ R Rd Ho) as (W & _ & _ & Hs).
      destruct (Hq (table_options a) R) as [Wq Hr].
      destruct (select_texts gz_enc gz_dec writable O Od transform lossy T numeric hash a o q unique no_empty nf quote tsv append output
                  skip names w cs Hqu Hn W Wq) as (recs & e & rss & out & text & H1 & H2 & H3 & H4 & H5);
        [rewrite Hc; exact Hf|exact Hne|exact Ep|exact Ha|exact Hd|].
      eexists _, _. split; [|exact H5]. exists recs, e, rss, out. split; [apply Hs; exact H1|].
      split; [|auto]. eapply QueryExtraProofs.Forall2_impl; [|exact H2]. intros r rows. apply Hr.
    Qed.

    Lemma header_some : table_header a <> Some [].
    Proof.
      unfold table_header. destruct (ta_header a) as [h|]; [|discriminate]. intros E. injection E as E.
      apply map_eq_nil in E. destruct h as [|c h]; [discriminate|]. cbn in E.
      destruct (c =? 44); [discriminate|]. destruct (split_on 44 h); discriminate.
    Qed.

    Lemma select_accepted : forall M V Ms header unique no_empty nf quote tsv append output skip names w cs,
      opts_say O Od true transform (ta_opts a) M V -> table_says O T true transform a Ms header ->
      header_fits header (columns_of Ms) ->
      quote <> QNever -> (forall v, numeric v = true -> Forall (plain_byte (delimiter tsv)) v) ->
      avail w names cs -> distinct output names ->
      exists st text, select_effect a M V Ms header lossy skip cs hash unique no_empty nf tsv st text
        /\ yields (select_on_disk gz_enc gz_dec writable O Od transform lossy T numeric hash a unique no_empty nf quote tsv append output skip names w) st
             [(mkOut output append false, text)] w.
    Proof.
      intros M V Ms header unique no_empty nf quote tsv append output skip names w cs Hs Ht Hf Hqu Hn Ha Hd.
      destruct (table_accepted O Od T transform a M V Ms header Hs Ht) as (o & q & Ep & Ho & Hq & Eh).
      rewrite <- Eh in *. eapply select_full; try eassumption. apply header_some.
    Qed.

    Lemma select_reads : forall header unique no_empty nf quote tsv append output skip names w cs st w',
      header_text (ta_header a) header ->
      (forall Ms, table_says O T false transform a Ms header -> header_fits header (columns_of Ms)) ->
      quote <> QNever -> (forall v, numeric v = true -> Forall (plain_byte (delimiter tsv)) v) ->
      avail w names cs -> distinct output names ->
      select_on_disk gz_enc gz_dec writable O Od transform lossy T numeric hash a unique no_empty nf quote tsv append output skip names w
        = Some (CEnded st, w') ->
      exists M V Ms text, opts_say O Od false transform (ta_opts a) M V /\ table_says O T false transform a Ms header
        /\ select_effect a M V Ms header lossy skip cs hash unique no_empty nf tsv st text
        /\ received gz_enc [(mkOut output append false, text)] w w'.
    Proof.
      intros header unique no_empty nf quote tsv append output skip names w cs st w' Eh Hf Hqu Hn Ha Hd H. pose proof H as Hc.
      apply header_model in Eh. subst header.
      apply select_completed in Hc as (o & q & Ep & _); [|exact Hd].
      destruct (table_read O Od T transform a o q Ep) as (M & V & Ms & Hs & Ht & Ho & Hq).
      destruct (select_full M V Ms o q unique no_empty nf quote tsv append output skip names w cs Ho Hq Ep Hqu Hn (Hf Ms Ht) header_some Ha Hd)
        as (st' & text & He & Y & _).
      apply Y in H as [-> H]. exists M, V, Ms, text. auto.
    Qed.

    Lemma freq_full : forall M V Ms o q unique num threshold reverse nf tsv output skip names w cs,
      (forall t, Permutation (freq_order t) t) ->
      opts_prepared (ta_opts a) M V o -> query_stands O T q Ms -> fst (table_prepare O Od transform a) = Some (Some (o, q)) ->
      header_fits (table_header a) (columns_of Ms + 1) ->
      avail w names cs -> distinct output names ->
      exists st text, frequency_effect a M V Ms (table_header a) lossy skip cs unique num threshold reverse nf tsv st text
        /\ yields (freq_on_disk gz_enc gz_dec writable O Od transform lossy T numeric freq_order a unique num threshold reverse nf tsv output skip names w) st
             [(mkOut output false false, text)] w.
    Proof.
      intros M V Ms o q unique num threshold reverse nf tsv output skip names w cs Hp Ho [Hc Hq] Ep Hf Ha Hd.
      destruct (opts_prepared_holds O Od _ _ _ _ R Rd Ho) as (W & _ & _ & Hs).
      destruct (Hq (table_options a) R) as [Wq Hr].
      destruct (freq_texts gz_enc gz_dec writable O Od transform lossy T numeric freq_order a o q unique num threshold reverse nf tsv output
                  skip names w cs Hp W Wq) as (recs & e & rss & l & reached & listed & rows & text & H1 & H2 & H3 & H4 & H5 & H6 & H7 & H8);
        [rewrite Hc; exact Hf|exact Ep|exact Ha|exact Hd|].
      eexists _, _. split; [|exact H8]. exists recs, e, rss, l, reached, listed, rows, text. split; [apply Hs; exact H1|].
      split; [|repeat (split; [assumption|]); auto]. eapply QueryExtraProofs.Forall2_impl; [|exact H2]. intros r rws. apply Hr.
    Qed.

    Lemma freq_accepted : forall M V Ms header unique num threshold reverse nf tsv output skip names w cs,
      (forall t, Permutation (freq_order t) t) ->
      opts_say O Od true transform (ta_opts a) M V -> table_says O T true transform a Ms header ->
      header_fits header (columns_of Ms + 1) -> avail w names cs -> distinct output names ->
      exists st text, frequency_effect a M V Ms header lossy skip cs unique num threshold reverse nf tsv st text
        /\ yields (freq_on_disk gz_enc gz_dec writable O Od transform lossy T numeric freq_order a unique num threshold reverse nf tsv output skip names w) st
             [(mkOut output false false, text)] w.
    Proof.
      intros M V Ms header unique num threshold reverse nf tsv output skip names w cs Hp Hs Ht Hf Ha Hd.
      destruct (table_accepted O Od T transform a M V Ms header Hs Ht) as (o & q & Ep & Ho & Hq & Eh).
      rewrite <- Eh in *. eapply freq_full; eassumption.
    Qed.

    Lemma freq_reads : forall header unique num threshold reverse nf tsv output skip names w cs st w',
      (forall t, Permutation (freq_order t) t) -> header_text (ta_header a) header ->
      (forall Ms, table_says O T false transform a Ms header -> header_fits header (columns_of Ms + 1)) ->
      avail w names cs -> distinct output names ->
      freq_on_disk gz_enc gz_dec writable O Od transform lossy T numeric freq_order a unique num threshold reverse nf tsv output skip names w
        = Some (CEnded st, w') ->
      exists M V Ms text, opts_say O Od false transform (ta_opts a) M V /\ table_says O T false transform a Ms header
        /\ frequency_effect a M V Ms header lossy skip cs unique num threshold reverse nf tsv st text
        /\ received gz_enc [(mkOut output false false, text)] w w'.
    Proof.
      intros header unique num threshold reverse nf tsv output skip names w cs st w' Hp Eh Hf Ha Hd H. pose proof H as Hc.
      apply header_model in Eh. subst header.
      apply freq_completed in Hc as (o & q & Ep & _); [|exact Hd].
      destruct (table_read O Od T transform a o q Ep) as (M & V & Ms & Hs & Ht & Ho & Hq).
      destruct (freq_full M V Ms o q unique num threshold reverse nf tsv output skip names w cs Hp Ho Hq Ep (Hf Ms Ht) Ha Hd)
        as (st' & text & He & Y & _).
      apply Y in H as [-> H]. exists M, V, Ms, text. auto.
    Qed.
  End Table.

  (** *** concat *)

  Lemma concat_full : forall append output tee unique skip names w cs,
    avail w names cs ->
    (forall n, output = Some n -> tee <> Some n) -> (forall n, In n (named output ++ named tee) -> ~ In n names) ->
    (forall st recs e, unique = Some st -> reads skip cs recs e -> Forall (has_key sha lossy st) recs) ->
    exists st text, concat_effect sha lossy unique skip cs st text
      /\ yields (concat_on_disk gz_enc gz_dec writable O sha lossy append output tee unique skip names w) st
           (map (fun o => (builder_output (mkWB append false) o, text)) (output :: match tee with Some n => [Some n] | None => [] end)) w.
  Proof.
    intros append output tee unique skip names w cs Ha Ht Hd Hk. destruct unique as [strat|].
    - destruct (reads_exists skip cs) as (recs & e & Hr).
      destruct (unique_exact O sha lossy strat skip cs recs e Hr (Hk _ _ _ eq_refl Hr)) as (kept & seen & out & H1 & H2 & H3 & _).
      exists (status_of e), out. split; [exists recs, kept, e; auto|]. eapply concat_texts; eassumption.
    - destruct (concat_plain O sha lossy skip cs) as (recs & e & out & H1 & H2 & H3).
      exists (status_of e), out. split; [exists recs, recs, e; auto|]. eapply concat_texts; eassumption.
  Qed.
End End.

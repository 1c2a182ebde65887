(** * Commands that write tables, from their arguments to the contents of the files *)

From Coq Require Import String Permutation.
From Verif Require IoProofs PrepareProofs TablePrepareProofs CsvProofs CheckModel CheckSpec CsvSpec TableSpec ExplodeSpec ExplodeRunProofs.
From Verif Require Import Bytes Winnow RecordModel BaseProofs TagOccModel Utf8Model ByteRecordModel ReaderModel
  MatcherModel StateParser MatcherParserModel BuilderModel PathModel FmtModel QueryModel CliModel CliSpec CliProofs
  CliCommandProofs TableModel ExplodeModel CheckModel CsvModel OptionsModel PrepareModel TableSpec CheckSpec CsvSpec ExplodeSpec
  PrepareSpec IoModel IoSpec WriteSpec QuerySpec DiskModel DiskSpec EndSpec DiskProofs DiskCommandProofs DiskEndProofs DiskFullProofs.

Lemma csv_text_numeric : forall numeric d rows,
  csv_text numeric QNecessary d rows = csv_text (fun _ => false) QNecessary d rows.
Proof.
  assert (E : forall numeric d row, csv_cells numeric QNecessary d row = csv_cells (fun _ => false) QNecessary d row).
  { intros numeric d row. induction row as [|c row IH]; [reflexivity|]. cbn [csv_cells]. rewrite IH. reflexivity. }
  intros numeric d rows. induction rows as [|r rows IH]; [reflexivity|].
  cbn [csv_text flat_map] in *. unfold csv_line at 1 3. rewrite E. f_equal. exact IH.
Qed.

Section Tables.
  Variable gz_enc : bytes -> bytes.
  Variable gz_dec : bytes -> list piece.
  Variable writable : bytes -> bool.
  Variables O Od : oracles.
  Variable transform : bytes -> bytes.
  Variable sha : bytes -> bytes.
  Variable lossy : bytes -> bytes.
  Variable T : text_fns.
  Variable rule_order : list (bytes * N) -> list (bytes * N).
  Variable link_order : list (bytes * list bytes) -> list (bytes * list bytes).
  Variable numeric : bytes -> bool.
  Variable hash : list bytes -> N.
  Variable freq_order : ftable -> ftable.

  Notation distinct output names := (forall n, output = Some n -> ~ In n names).
  Notation yields := (yields gz_enc writable).
  Notation delim tsv := (if (tsv : bool) then 9 else 44).

  Lemma explode_texts : forall a o ds ks discard keep l gzip output skip names w cs,
    opts_wf O Od o -> fst (opts_prepare O Od transform a) = Some (Some o) ->
    parse_predicates discard = Some ds -> parse_predicates keep = Some ks ->
    available gz_dec (w_disk w) (w_stdin w) names cs -> distinct output names ->
    exists all partss sel parts e0 e texts, reads skip cs all e0
      /\ Forall2 (fun r ps => exploded l (br_record r) ps) all partss
      /\ picks (opts_hold O Od o) (fun p => p) (concat partss) sel
      /\ limited (fo_limit o) sel e0 parts e
      /\ Forall2 (part_text (mkExplode l o ks ds)) parts texts
      /\ yields (explode_on_disk gz_enc gz_dec writable O Od transform a discard keep l gzip output skip names w) (status_of e)
           [(builder_output (mkWB false gzip) output, concat texts)] w.
  Proof.
    intros a o ds ks discard keep l gzip output skip names w cs W Ep Ed Ek Ha Hd.
    destruct (ExplodeRunProofs.explode_exact O Od skip (mkExplode l o ks ds) cs W)
      as (all & partss & sel & parts & e0 & e & texts & H1 & H2 & H3 & H4 & H5 & H6).
    exists all, partss, sel, parts, e0, e, texts. repeat (split; [assumption|]).
    unfold explode_on_disk. rewrite Ed, Ek. unfold prepared. cbv zeta. cbn [fst snd].
    assert (Eb : wb_run wb_new [CGzip gzip] = Some (mkWB false gzip)) by (destruct gzip; reflexivity). rewrite Eb, Ep.
    pose proof (one_yields gz_enc gz_dec writable _ (builder_output (mkWB false gzip) output) (@snd N bytes, @snd N bytes) (fun _ => false) _ _ _ skip (0, []) names cs w _
      (IoProofs.on_result_body _ (explode_body O Od (mkExplode l o ks ds)) skip) Ha Hd H6) as Y.
    destruct e; apply Y; discriminate.
  Qed.

  Lemma hash_texts : forall a o output tsv header h1 h2 skip names w cs,
    opts_wf O Od o -> fst (opts_prepare O Od transform a) = Some (Some o) ->
    available gz_dec (w_disk w) (w_stdin w) names cs -> distinct output names ->
    header_text (Some header) (Some [h1; h2]) ->
    exists recs e rows text, selects O Od skip o cs recs e /\ Forall2 (hash_row sha lossy) recs rows
      /\ csv_rows (delim tsv) ([h1; h2] :: rows) text
      /\ yields (hash_on_disk gz_enc gz_dec writable O Od transform sha lossy numeric a output tsv header skip names w) (status_of e)
           [(mkOut output false false, text)] w.
  Proof.
    intros a o output tsv header h1 h2 skip names w cs W Ep Ha Hd Hh.
    assert (Eh : map str_trim (split_on 44 header) = [h1; h2]).
    { pose proof (TablePrepareProofs.header_model (mkTableArgs a [] [] false false (Some header)) (Some [h1; h2]) Hh) as E.
      unfold table_header in E. cbn in E. congruence. }
    destruct (CsvProofs.hash_text tsv O Od sha lossy [h1; h2] skip o cs W eq_refl) as (recs & e & rows & text & H1 & H2 & H3 & H4).
    exists recs, e, rows, text. repeat (split; [assumption|]).
    unfold hash_on_disk. unfold prepared. cbv zeta. rewrite Ep, Eh.
    unfold hash_csv_run, table_text, finish_with in H4.
    destruct (run_loop _ _ cs) as [x|] eqn:Ex; [|discriminate].
    pose proof (refused_yields gz_enc gz_dec writable _ (mkOut output false false)
      (fun s : N * list (list bytes) * bool => csv_text numeric QNecessary (csv_delim tsv) (snd (fst s)),
       fun s : N * list (list bytes) * bool => csv_text numeric QNecessary (csv_delim tsv) (snd (fst s))) (fun _ => false)
      snd (hash_csv_body O Od sha lossy o) skip _ names cs w x Ha Hd Ex) as Y.
    destruct x as [[[k rs] b]|[[k rs] b] e'|], e as [err|]; cbn in H4; try discriminate.
    - injection H4 as <- ->. specialize (Y eq_refl). cbn [run_texts map fst snd] in Y. rewrite csv_text_numeric in Y. exact Y.
    - injection H4 as <- -> ->. specialize (Y I). cbn [run_texts map fst snd] in Y. rewrite csv_text_numeric in Y. exact Y.
  Qed.

  Lemma select_texts : forall a o q unique no_empty nf quote tsv append output skip names w cs,
    quote <> QNever -> (forall v, numeric v = true -> Forall (plain_byte (delim tsv)) v) ->
    opts_wf O Od o -> query_wf O (table_options a) q ->
    header_fits (table_header a) (query_columns q) -> table_header a <> Some [] ->
    fst (table_prepare O Od transform a) = Some (Some (o, q)) ->
    available gz_dec (w_disk w) (w_stdin w) names cs -> distinct output names ->
    exists recs e rss out text, selects O Od skip o cs recs e
      /\ Forall2 (query_rows O T (table_options a) q) recs rss
      /\ select_writes hash unique no_empty (concat rss) out
      /\ csv_rows (delim tsv)
           (header_rows (table_header a)
            ++ map (fun row => match nf with
                               | None => row
                               | Some nf => map (fun v => nf (lossy v)) row
                               end) out) text
      /\ yields (select_on_disk gz_enc gz_dec writable O Od transform lossy T numeric hash a unique no_empty nf quote tsv append output skip names w) (status_of e)
           [(mkOut output append false, text)] w.
  Proof.
    intros a o q unique no_empty nf quote tsv append output skip names w cs Hq Hn W Wq Wh Hh Ep Ha Hd.
    destruct (CsvProofs.select_text numeric quote tsv O Od T lossy hash
                (mkSelect q (table_options a) unique no_empty (table_header a) nf) skip o cs Hq Hn W Wq Wh Hh)
      as (recs & e & rss & out & text & H1 & H2 & H3 & H4 & H5).
    exists recs, e, rss, out, text. repeat (split; [assumption|]).
    unfold select_on_disk. unfold prepared. cbv zeta. rewrite Ep. cbn [fst snd].
    unfold select_run, table_text, finish_with in H5.
    destruct (run_loop _ _ cs) as [x|] eqn:Ex; [|discriminate].
    pose proof (refused_yields gz_enc gz_dec writable _ (mkOut output append false)
      (fun s : select_state => csv_text numeric quote (csv_delim tsv) (sel_rows s),
       fun s : select_state => csv_text numeric quote (csv_delim tsv) (sel_rows s)) (fun _ => false)
      sel_failed (select_body O Od T lossy hash (mkSelect q (table_options a) unique no_empty (table_header a) nf) o) skip _ names cs w x Ha Hd Ex) as Y.
    destruct x as [s'|s' e'|], e as [err|]; cbn in H5; try discriminate.
    - injection H5 as <- E. specialize (Y E). exact Y.
    - injection H5 as <- E ->. specialize (Y I). exact Y.
  Qed.

  Lemma freq_texts : forall a o q unique num threshold reverse nf tsv output skip names w cs,
    (forall t, Permutation (freq_order t) t) ->
    opts_wf O Od o -> query_wf O (table_options a) q ->
    header_fits (table_header a) (query_columns q + 1) ->
    fst (table_prepare O Od transform a) = Some (Some (o, q)) ->
    available gz_dec (w_disk w) (w_stdin w) names cs -> distinct output names ->
    exists recs e rss l reached listed rows text, selects O Od skip o cs recs e
      /\ Forall2 (query_rows O T (table_options a) q) recs rss
      /\ frequencies unique reverse rss l
      /\ reaching reverse threshold l reached
      /\ first_num num reached listed
      /\ Forall2 (written_frequency (fun v => nf (lossy v))) listed rows
      /\ csv_rows (delim tsv) (header_rows (table_header a) ++ rows) text
      /\ yields (freq_on_disk gz_enc gz_dec writable O Od transform lossy T numeric freq_order a unique num threshold reverse nf tsv output skip names w) (status_of e)
           [(mkOut output false false, match e with None => text | Some _ => [] end)] w.
  Proof.
    intros a o q unique num threshold reverse nf tsv output skip names w cs Ho W Wq Wh Ep Ha Hd.
    destruct (CsvProofs.frequency_text tsv O Od T lossy freq_order
                (mkFreq q (table_options a) unique num threshold reverse (table_header a) nf) skip o cs Ho W Wq Wh)
      as (recs & e & rss & l & reached & listed & rows & text & H1 & H2 & H3 & H4 & H5 & H6 & H7 & H8).
    exists recs, e, rss, l, reached, listed, rows, text. repeat (split; [assumption|]).
    unfold freq_on_disk. unfold prepared. cbv zeta. rewrite Ep. cbn [fst snd].
    unfold freq_run, table_text, finish_with in H8.
    destruct (run_loop _ _ cs) as [x|] eqn:Ex; [|discriminate].
    pose proof (one_yields gz_enc gz_dec writable _ (mkOut output false false)
      (fun s : N * ftable => csv_text numeric QNecessary (csv_delim tsv) (fst (freq_output lossy freq_order
          (mkFreq q (table_options a) unique num threshold reverse (table_header a) nf) (snd s))),
       fun _ : N * ftable => [])
      (fun s : N * ftable => snd (freq_output lossy freq_order
          (mkFreq q (table_options a) unique num threshold reverse (table_header a) nf) (snd s)))
      _ _ _ skip (0, []) names cs w x
      (IoProofs.on_result_body _ (freq_body O Od T (mkFreq q (table_options a) unique num threshold reverse (table_header a) nf) o) skip) Ha Hd Ex) as Y.
    destruct x as [s'|s' e'|], e as [err|]; cbn in H8; try discriminate.
    - injection H8 as <- E. assert (Y' : Done s' <> Panicked) by discriminate. specialize (Y Y').
      cbn [run_texts run_status map fst snd] in Y. rewrite csv_text_numeric, E in Y. exact Y.
    - injection H8 as ->. apply Y. discriminate.
  Qed.

  Lemma check_texts : forall a o sets output skip names w cs,
    (forall v, lossy v = [] <-> v = []) ->
    (forall l, Permutation (rule_order l) l) -> (forall l, Permutation (link_order l) l) ->
    opts_wf O Od o -> Forall (set_wf Od) sets ->
    fst (opts_prepare O Od transform a) = Some (Some o) ->
    available gz_dec (w_disk w) (w_stdin w) names cs -> distinct output names ->
    exists recs e rowss finals text, selects O Od skip o cs recs e
      /\ Forall2 (fun r rows => exists parts, Forall2 (set_rows Od T lossy (br_record r)) sets parts /\ rows = concat parts)
           recs rowss
      /\ Forall2 (set_final Od T lossy (map br_record recs)) sets finals
      /\ report output (concat rowss ++ match e with None => concat finals | Some _ => [] end) text
      /\ yields (check_on_disk gz_enc gz_dec writable O Od transform lossy T rule_order link_order a (Some sets) output skip names w) (status_of e)
           [(mkOut output false false, text)] w.
  Proof.
    intros a o sets output skip names w cs Hl H1 H2 W Ws Ep Ha Hd.
    destruct (CsvProofs.check_text output Od T lossy Hl rule_order H1 link_order H2 O skip o sets cs W Ws)
      as (recs & e & rowss & finals & text & A1 & A2 & A3 & A4 & A5).
    exists recs, e, rowss, finals, text. repeat (split; [assumption|]).
    unfold check_on_disk. unfold prepared. cbv zeta. rewrite Ep. cbn [fst snd].
    unfold check_run, check_output, finish_with in A5.
    destruct (run_loop _ _ cs) as [x|] eqn:Ex; [|discriminate].
    pose proof (one_yields gz_enc gz_dec writable _ (mkOut output false false)
      (fun s : check_state => report_text output (snd s ++ sets_finish lossy link_order (snd (fst s))),
       fun s : check_state => report_text output (snd s))
      (fun _ => false) _ _ _ skip (0, sets, []) names cs w x
      (IoProofs.on_result_body _ (check_body Od T lossy rule_order O o) skip) Ha Hd Ex) as Y.
    destruct x as [s'|s' e'|], e as [err|]; cbn in A5; try discriminate.
    - injection A5 as <-. apply Y. discriminate.
    - injection A5 as <- ->. apply Y. discriminate.
  Qed.
End Tables.

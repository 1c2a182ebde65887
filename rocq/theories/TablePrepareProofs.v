(** * Proofs about the arguments of select and frequency *)

From Coq Require Import String Permutation.
From Verif Require Import Bytes Winnow RecordModel RecordSpec TagOccModel ByteRecordModel ReaderModel
  MatcherModel MatcherSpec StateParser MatcherParserModel PathModel FmtModel QueryModel QuerySpec QueryProofs
  QueryParserProofs QueryExtraProofs BuilderModel CliModel CliSpec CheckModel CheckSpec CheckRunProofs
  OptionsModel OptionsSpec OptionsProofs TableModel TableSpec TableProofs FrequencyProofs GrammarSpec QueryGrammarSpec
  QueryTextProofs PrepareModel PrepareSpec PrepareProofs.

Lemma header_model : forall a header, header_text (ta_header a) header -> table_header a = header.
Proof.
  intros a header H. unfold table_header. destruct (ta_header a) as [b|], header as [fields|]; try contradiction.
  - destruct H as (parts & H1 & H2). rewrite (comma_items_fun _ _ (split_on_items b) _ H1). f_equal. clear H1.
    induction H2 as [|x y l m H H2 IH]; cbn [map]; [reflexivity|]. f_equal; [|exact IH]. apply str_trim_iff. exact H.
  - reflexivity.
Qed.
Lemma header_read : forall a, header_text (ta_header a) (table_header a).
Proof.
  intros a. unfold table_header. destruct (ta_header a) as [b|]; [|exact I].
  exists (split_on 44 b). split; [apply split_on_items|].
  induction (split_on 44 b) as [|x l IH]; constructor; [apply str_trim_iff; reflexivity|exact IH].
Qed.

Section Tables.
  Variables O Od : oracles.
  Variable T : text_fns.
  Variable tr : bytes -> bytes.

  Definition query_stands (q : query) (Ms : list (nat * qmeaning)) : Prop :=
    query_columns q = columns_of Ms
    /\ forall qo, regexes_compile O (qo_case_ignore qo) ->
         query_wf O qo q /\ forall r rows, TableSpec.query_rows O T qo q r rows <-> query_rows Ms qo (br_record r) rows.

  Lemma stands_of : forall q Ms s t s', query_new O s t = (Some (Some q), s') ->
    Forall2 (qf_means O T) (q_fragments q) Ms -> query_stands q Ms.
  Proof.
    intros q Ms s t s' E H. split.
    - unfold query_columns, columns_of. f_equal. clear E. induction H as [|f M l Ms [H _] _ IH]; cbn [map]; congruence.
    - intros qo R. split; [eapply parsed_query; eassumption|].
      intros r rows. unfold TableSpec.query_rows, query_rows.
      split; intros (ts & H1 & ->); exists ts; (split; [|reflexivity]); apply (query_means O T _ _ qo (br_record r) ts H); exact H1.
  Qed.

  Lemma table_accepted : forall a M V Ms header, opts_say O Od true tr (ta_opts a) M V ->
    table_says O T true tr a Ms header ->
    exists o q, fst (table_prepare O Od tr a) = Some (Some (o, q))
      /\ opts_prepared O Od (ta_opts a) M V o /\ query_stands q Ms /\ table_header a = header.
  Proof.
    intros a M V Ms header H [(n & Hq & Hn) Hh]. destruct (opts_accepted O Od tr _ _ _ H) as (o & E & Ho).
    destruct (query_ok O T _ Ms n fresh Hq eq_refl (Hn eq_refl)) as (q & Eq & Hm).
    exists o, q. split; [unfold table_prepare; rewrite E; cbn [and_then]; rewrite Eq; reflexivity|].
    split; [exact Ho|]. split; [eapply stands_of; eassumption|apply header_model; exact Hh].
  Qed.

  Lemma table_read : forall a o q, fst (table_prepare O Od tr a) = Some (Some (o, q)) ->
    exists M V Ms, opts_say O Od false tr (ta_opts a) M V /\ table_says O T false tr a Ms (table_header a)
      /\ opts_prepared O Od (ta_opts a) M V o /\ query_stands q Ms.
  Proof.
    intros a o q H. unfold table_prepare in H.
    destruct (opts_prepare O Od tr (ta_opts a)) as [[[o1|]|] s] eqn:E; try discriminate. cbn [and_then] in H.
    destruct (query_new O s (tr (ta_query a))) as [[[q1|]|] s1] eqn:Eq; try discriminate.
    cbn [and_then fst] in H. injection H as -> ->.
    destruct (opts_read O Od tr (ta_opts a) o) as (M & V & Hs & Ho); [rewrite E; reflexivity|].
    destruct (query_read O T _ _ _ _ Eq) as (Ms & n & Ht & Hm).
    exists M, V, Ms. split; [exact Hs|]. split; [constructor; [exists n; split; [exact Ht|discriminate]|apply header_read]|].
    split; [exact Ho|]. eapply stands_of; eassumption.
  Qed.

  Lemma table_total : forall a, fst (table_prepare O Od tr a) <> None.
  Proof.
    intros a. unfold table_prepare. pose proof (opts_total O Od tr (ta_opts a)) as H.
    destruct (opts_prepare O Od tr (ta_opts a)) as [[[o|]|] s]; cbn [and_then]; [|discriminate|exfalso; apply H; reflexivity].
    destruct (query_new_total O s (tr (ta_query a))) as (r & E & _).
    destruct (query_new O s (tr (ta_query a))) as [x s1]. cbn in E. subst x. destruct r; cbn; discriminate.
  Qed.

  Variable lossy : bytes -> bytes.
  Variable hash : list bytes -> N.
  Variable order : ftable -> ftable.

  (** the table of a run of select *)
  Definition select_effect (a : table_args) (unique no_empty : bool) (nf : option (bytes -> bytes)) (skip : bool)
      (files : list (bytes * bytes)) (M : meaning field) (V : record -> list bytes -> Prop)
      (Ms : list (nat * qmeaning)) (header : option (list bytes)) (x : ending (list (list bytes) * bool)) : Prop :=
    exists recs e rss out, opts_records (ta_opts a) M V skip files recs e
      /\ Forall2 (fun r rows => query_rows Ms (table_options a) (br_record r) rows) recs rss
      /\ select_writes hash unique no_empty (concat rss) out
      /\ x = ended (header_rows header
                    ++ map (fun row => match nf with
                                       | None => row
                                       | Some nf => map (fun v => nf (lossy v)) row
                                       end) out, false) e.

  Lemma select_done : forall a unique no_empty nf skip files M V Ms o q,
    regexes_compile O (oa_ci (ta_opts a)) -> regexes_compile Od false ->
    opts_prepared O Od (ta_opts a) M V o -> query_stands q Ms -> header_fits (table_header a) (columns_of Ms) ->
    exists x, select_run O Od T lossy hash (mkSelect q (table_options a) unique no_empty (table_header a) nf) skip o files
              = Some x
      /\ select_effect a unique no_empty nf skip files M V Ms (table_header a) x.
  Proof.
    intros a unique no_empty nf skip files M V Ms o q R Rd Ho [Hc Hq] Hf.
    destruct (opts_prepared_holds O Od _ _ _ _ R Rd Ho) as (W & _ & _ & Hs).
    destruct (Hq (table_options a) R) as [Wq Hr].
    destruct (select_exact O Od T lossy hash (mkSelect q (table_options a) unique no_empty (table_header a) nf) skip o files)
      as (recs & e & rss & out & H1 & H2 & H3 & H4); [exact W|exact Wq|cbn; rewrite Hc; exact Hf|].
    eexists. split; [exact H4|]. exists recs, e, rss, out. split; [apply Hs; exact H1|].
    split; [|split; [exact H3|reflexivity]].
    eapply Forall2_impl; [|exact H2]. intros r rows. apply Hr.
  Qed.

  Lemma select_executed : forall a unique no_empty nf skip files M V Ms header,
    regexes_compile O (oa_ci (ta_opts a)) -> regexes_compile Od false ->
    opts_say O Od true tr (ta_opts a) M V -> table_says O T true tr a Ms header ->
    header_fits header (columns_of Ms) ->
    exists x, select_execute O Od tr T lossy hash a unique no_empty nf skip files = Some (Ran x)
      /\ exists recs e rss out, opts_records (ta_opts a) M V skip files recs e
      /\ Forall2 (fun r rows => query_rows Ms (table_options a) (br_record r) rows) recs rss
      /\ select_writes hash unique no_empty (concat rss) out
      /\ x = ended (header_rows header
                    ++ map (fun row => match nf with
                                       | None => row
                                       | Some nf => map (fun v => nf (lossy v)) row
                                       end) out, false) e.
  Proof.
    intros a unique no_empty nf skip files M V Ms header R Rd H Hq Hf.
    destruct (table_accepted a M V Ms header H Hq) as (o & q & E & Ho & Hm & Hh). subst header.
    destruct (select_done a unique no_empty nf skip files M V Ms o q R Rd Ho Hm Hf) as (x & Ex & Hx).
    exists x. split; [|exact Hx]. unfold select_execute, table_execute. rewrite E, Ex. reflexivity.
  Qed.

  Lemma select_executed_read : forall a unique no_empty nf skip files x,
    regexes_compile O (oa_ci (ta_opts a)) -> regexes_compile Od false ->
    select_execute O Od tr T lossy hash a unique no_empty nf skip files = Some (Ran x) ->
    exists M V Ms header, opts_say O Od false tr (ta_opts a) M V /\ table_says O T false tr a Ms header
      /\ (header_fits header (columns_of Ms) ->
          exists recs e rss out, opts_records (ta_opts a) M V skip files recs e
          /\ Forall2 (fun r rows => query_rows Ms (table_options a) (br_record r) rows) recs rss
          /\ select_writes hash unique no_empty (concat rss) out
          /\ x = ended (header_rows header
                        ++ map (fun row => match nf with
                                           | None => row
                                           | Some nf => map (fun v => nf (lossy v)) row
                                           end) out, false) e).
  Proof.
    intros a unique no_empty nf skip files x R Rd H. unfold select_execute, table_execute in H.
    destruct (fst (table_prepare O Od tr a)) as [[[o q]|]|] eqn:E; try discriminate.
    destruct (table_read a o q E) as (M & V & Ms & Hs & Hq & Ho & Hm).
    exists M, V, Ms, (table_header a). split; [exact Hs|]. split; [exact Hq|]. intros Hf.
    destruct (select_done a unique no_empty nf skip files M V Ms o q R Rd Ho Hm Hf) as (y & Ey & Hy).
    rewrite Ey in H. injection H as <-. exact Hy.
  Qed.

  Lemma freq_executed : forall a unique num threshold nf skip files M V Ms header,
    (forall t, Permutation (order t) t) ->
    regexes_compile O (oa_ci (ta_opts a)) -> regexes_compile Od false ->
    opts_say O Od true tr (ta_opts a) M V -> table_says O T true tr a Ms header ->
    header_fits header (columns_of Ms + 1) ->
    exists recs e rss l reaching listed rows, opts_records (ta_opts a) M V skip files recs e
      /\ Forall2 (fun r rows => query_rows Ms (table_options a) (br_record r) rows) recs rss
      /\ frequencies unique false rss l
      /\ picks (fun e => threshold <= snd e) (fun e => e) l reaching
      /\ first_num num reaching listed
      /\ Forall2 (written_frequency (fun v => nf (lossy v))) listed rows
      /\ freq_execute O Od tr T lossy order a unique num threshold false nf skip files
         = Some (Ran (match e with
                      | None => Done (header_rows header ++ rows, false)
                      | Some err => Failed ([], false) err
                      end)).
  Proof.
    intros a unique num threshold nf skip files M V Ms header P R Rd H Hq Hf.
    destruct (table_accepted a M V Ms header H Hq) as (o & q & E & Ho & [Hc Hm] & Hh). subst header.
    destruct (opts_prepared_holds O Od _ _ _ _ R Rd Ho) as (W & _ & _ & Hs).
    destruct (Hm (table_options a) R) as [Wq Hr].
    destruct (freq_exact_desc O Od T lossy order
      (mkFreq q (table_options a) unique num threshold false (table_header a) nf) skip o files P W Wq)
      as (recs & e & rss & l & reaching & listed & rows & H1 & H2 & H3 & H4 & H5 & H6 & H7);
      [cbn; rewrite Hc; exact Hf|reflexivity|].
    exists recs, e, rss, l, reaching, listed, rows. split; [apply Hs; exact H1|].
    split; [eapply Forall2_impl; [|exact H2]; intros r rs; apply Hr|].
    repeat (split; [assumption|]).
    unfold freq_execute, table_execute. rewrite E, H7. reflexivity.
  Qed.
End Tables.

(** * Proofs about commands that go record by record *)

From Coq Require Import String ZArith Lia.
From Verif Require Import Bytes BaseProofs Winnow RecordModel TagOccModel Utf8Model ByteRecordModel ByteRecordProofs ReaderModel
  MatcherModel MatcherProofs StateParser MatcherParserModel BuilderModel PathModel FmtModel QueryModel CliModel CliProofs TableModel
  ExplodeModel CheckModel ConvertModel CsvModel OptionsModel OptionsSpec ConfigModel PrepareModel
  IoModel IoSpec WriteSpec DiskModel DirModel RuleModel
  MainModel DiskSpec RuleSpec MainSpec PipeSpec DiskProofs PipeProofs PipeInProofs FrontLoop FrontSpec FrontProofs FrontRunProofs LimitProofs PartsSpec PartsProofs RecordwiseSpec QuerySpec TableSpec TableProofs HaltProofs.
From Verif Require RunSpec RunProofs CliChunkProofs.

(** ** Loops that go record by record *)

Lemma files_app : forall skip a b l l' l'', io_files_loop (fun l => l) snoc skip l a = Some (IDone l') ->
  io_files_loop (fun l => l) snoc skip l' b = Some l'' -> io_files_loop (fun l => l) snoc skip l (a ++ b) = Some l''.
Proof.
  intros skip. induction a as [|[n [reads|k]] a IH]; intros b l l' l'' H H'; cbn [io_files_loop app] in *; cbv zeta in *.
  - injection H as <-. exact H'.
  - destruct (io_reader_loop _ snoc _ _ l _) as [[l1| | |]|]; try discriminate. exact (IH _ _ _ _ H H').
  - discriminate.
Qed.

Lemma whole_read : forall S (body : S -> byte_record -> io_ending S) (text text2 : S -> bytes) gz_enc gz_dec skip s0 append names w w1,
  (forall s r, body s r = IPanicked \/ exists s', body s r = IDone s') ->
  process_all gz_enc gz_dec [(mkOut None append false, (text, text2))] (fun _ => false) (fun s => s) body skip s0 names w = Some (CEnded 0, w1) ->
  exists recs s', io_files_loop (fun l => l) snoc skip [] (inputs gz_dec (w_disk w) (w_stdin w) names) = Some (IDone recs)
    /\ fold_end body s0 recs = IDone s' /\ w1 = mkWorld (w_disk w) (w_stdin w) (w_stdout w ++ text s').
Proof.
  intros S body text text2 gz_enc gz_dec skip s0 append names w w1 Hcases H. unfold process_all in H. set (files := inputs gz_dec (w_disk w) (w_stdin w) names) in *.
  destruct (io_files_loop (fun s : S => s) body skip s0 files) as [x|] eqn:El; [|discriminate].
  assert (Hx0 : main_status x = Some 0).
  { destruct x as [s|s|s er|]; cbn [main_status] in *; try reflexivity; [|discriminate]. destruct er as [|[]| |]; try discriminate; reflexivity. }
  destruct (files_through skip body Hcases files s0 x) as (s1 & -> & Hc); [intros n k; apply inputs_kind|exact El|exact Hx0|].
  destruct (Hc []) as (recs & Hr). destruct (files_collects _ _ _ _ Hr) as (recs' & E' & _ & Hf). cbn in E'. subst recs'.
  rewrite (Hf _ (fun s => s) body s0) in El by (right; reflexivity). injection El as El.
  exists recs, s1. split; [exact Hr|]. split; [exact El|]. cbn [main_status] in H. injection H as <-. reflexivity.
Qed.

Lemma collected_app : forall gz_dec skip d stdin a b ra rb, ~ In (lit "-") b ->
  io_files_loop (fun l => l) snoc skip [] (inputs gz_dec d stdin a) = Some (IDone ra) ->
  io_files_loop (fun l => l) snoc skip [] (inputs gz_dec d stdin b) = Some (IDone rb) ->
  io_files_loop (fun l => l) snoc skip [] (inputs gz_dec d stdin (a ++ b)) = Some (IDone (ra ++ rb)).
Proof.
  intros gz_dec skip d stdin a b ra rb Hb Ra Rb. rewrite inputs_app by exact Hb. destruct (files_collects _ _ _ _ Rb) as (rb' & E' & _ & Hf). cbn in E'. subst rb'.
  eapply files_app; [exact Ra|]. rewrite Hf by (right; reflexivity). f_equal. clear. revert ra.
  induction rb as [|r rb IH]; intros ra; cbn [fold_end snoc]; [rewrite app_nil_r; reflexivity|]. rewrite IH, <- app_assoc. reflexivity.
Qed.

Section Steady.
  Context {S : Type}.
  Variable body : S -> byte_record -> io_ending S.
  Variable text : S -> bytes.

  (** what is added to the text depends on the record only *)
  Definition steady : Prop := forall r, (forall s, body s r = IPanicked)
    \/ exists t, forall s, exists s', body s r = IDone s' /\ text s' = text s ++ t.

  Hypothesis Hsteady : steady.

  Lemma steady_cases : forall s r, body s r = IPanicked \/ exists s', body s r = IDone s'.
  Proof. intros s r. destruct (Hsteady r) as [H|(t & H)]; [left; apply H|right]. destruct (H s) as (s' & E & _). exists s'. exact E. Qed.

  Lemma steady_fold : forall recs, (forall s, fold_end body s recs = IPanicked)
    \/ exists t, forall s, exists s', fold_end body s recs = IDone s' /\ text s' = text s ++ t.
  Proof.
    induction recs as [|r recs IH]; [right; exists []; intros s; exists s; split; [reflexivity|symmetry; apply app_nil_r]|].
    destruct (Hsteady r) as [H|(t & H)]; [left; intros s; cbn [fold_end]; rewrite H; reflexivity|].
    destruct IH as [IH|(t2 & IH)].
    - left. intros s. cbn [fold_end]. destruct (H s) as (s1 & -> & _). apply IH.
    - right. exists (t ++ t2). intros s. cbn [fold_end]. destruct (H s) as (s1 & -> & E1). destruct (IH s1) as (s2 & E2 & E3).
      exists s2. split; [exact E2|]. rewrite E3, E1. symmetry. apply app_assoc.
  Qed.

  Variables gz_enc : bytes -> bytes.
  Variable gz_dec : bytes -> list piece.
  Variable skip : bool.
  Variable s0 : S.
  Variable text2 : S -> bytes.
  Variable append : bool.
  Hypothesis Hs0 : text s0 = [].

  Let process := process_all gz_enc gz_dec [(mkOut None append false, (text, text2))] (fun _ => false) (fun s => s) body skip s0.

  Lemma steady_read : forall names w w1, process names w = Some (CEnded 0, w1) ->
    exists recs s', io_files_loop (fun l => l) snoc skip [] (inputs gz_dec (w_disk w) (w_stdin w) names) = Some (IDone recs)
      /\ fold_end body s0 recs = IDone s' /\ w1 = mkWorld (w_disk w) (w_stdin w) (w_stdout w ++ text s').
  Proof. intros names w w1 H. exact (whole_read _ _ _ _ _ _ _ _ _ _ _ _ steady_cases H). Qed.

  Lemma steady_app : forall a b w wa wb ta tb, ~ In (lit "-") b ->
    process a w = Some (CEnded 0, wa) -> w_stdout wa = w_stdout w ++ ta ->
    process b w = Some (CEnded 0, wb) -> w_stdout wb = w_stdout w ++ tb ->
    process (a ++ b) w = Some (CEnded 0, mkWorld (w_disk w) (w_stdin w) (w_stdout w ++ ta ++ tb)).
  Proof.
    intros a b w wa wb ta tb Hb Ha Ta Hb' Tb. destruct (steady_read _ _ _ Ha) as (ra & sa & Ra & Fa & ->). destruct (steady_read _ _ _ Hb') as (rb & sb & Rb & Fb & ->).
    cbn [w_stdout] in Ta, Tb. apply app_inv_head in Ta, Tb. subst ta tb.
    assert (R : io_files_loop (fun l => l) snoc skip [] (inputs gz_dec (w_disk w) (w_stdin w) (a ++ b)) = Some (IDone (ra ++ rb))).
    { exact (collected_app _ _ _ _ _ _ _ _ Hb Ra Rb). }
    destruct (files_collects _ _ _ _ R) as (r' & E' & _ & Hf). cbn in E'. subst r'.
    unfold process, process_all. rewrite (Hf _ (fun s => s) body s0) by (right; reflexivity). rewrite fold_end_app, Fa.
    destruct (steady_fold rb) as [X|(t & X)]; [rewrite X in Fb; discriminate|]. destruct (X sa) as (s2 & E2 & T2). destruct (X s0) as (s3 & E3 & T3).
    rewrite E2. rewrite Fb in E3. injection E3 as <-. rewrite Hs0 in T3. cbn in T3. cbn. rewrite T2, T3. reflexivity.
  Qed.
End Steady.

(** Loops whose bodies agree on the states that come up *)
Section Agree.
  Context {S : Type}.
  Variable I : S -> Prop.
  Variables b1 b2 : S -> byte_record -> io_ending S.
  Variable skip : bool.
  Hypothesis Heq : forall s r, I s -> b1 s r = b2 s r.
  Hypothesis Hinv : forall s r s', I s -> b2 s r = IDone s' -> I s'.

  Lemma reader_agree : forall fuel s rd, I s ->
    io_reader_loop (fun s => s) b1 skip fuel s rd = io_reader_loop (fun s => s) b2 skip fuel s rd
    /\ forall s', io_reader_loop (fun s => s) b2 skip fuel s rd = Some (IDone s') -> I s'.
  Proof.
    induction fuel as [|fuel IH]; intros s rd Hs; cbn [io_reader_loop]; [split; [reflexivity|discriminate]|].
    destruct (io_next_byte_record rd) as [[[r|e]|] rd'].
    - rewrite (Heq s r Hs). destruct (b2 s r) as [s'|s'|s' e|] eqn:E; [apply IH; exact (Hinv _ _ _ Hs E)|split; [reflexivity|discriminate]..].
    - destruct (pica_skip e skip); [apply IH; exact Hs|split; [reflexivity|discriminate]].
    - split; [reflexivity|]. intros s' H. injection H as <-. exact Hs.
  Qed.

  Lemma files_agree : forall files s, I s ->
    io_files_loop (fun s => s) b1 skip s files = io_files_loop (fun s => s) b2 skip s files.
  Proof.
    induction files as [|[name [rs|k]] files IH]; intros s Hs; cbn [io_files_loop]; cbv zeta; [reflexivity| |reflexivity].
    destruct (reader_agree (Datatypes.S (source_size (io_inner (io_reader_new rs (Some name))))) s (io_reader_new rs (Some name)) Hs) as [-> Hd].
    destruct (io_reader_loop _ b2 _ _ _ _) as [[s'|s'|s' e|]|]; [apply IH; apply Hd; reflexivity|reflexivity..].
  Qed.
End Agree.

(** ** The commands *)

Lemma guarded_steady : forall S (sel : record -> option bool) (f : S -> byte_record -> step S) (text : S -> bytes),
  (forall r, (forall s, f s r = Panic) \/ exists t, forall s, exists s', f s r = Next s' /\ text s' = text s ++ t) ->
  steady (fun s r => as_io (guarded sel f s r)) text.
Proof.
  intros S sel f text H r. unfold guarded. destruct (sel (br_record r)) as [[|]|].
  - destruct (H r) as [H1|(t & H1)]; [left; intros s; rewrite H1; reflexivity|]. right. exists t. intros s. destruct (H1 s) as (s' & -> & E).
    exists s'. split; [reflexivity|exact E].
  - right. exists []. intros s. exists s. split; [reflexivity|symmetry; apply app_nil_r].
  - left. reflexivity.
Qed.

Lemma filter_steady : forall O Od c, fc_limit c = 0 -> steady (fun s r => as_io (filter_body O Od c s r)) (fun s : filter_state => snd (fst s)).
Proof.
  intros O Od c Hl. apply guarded_steady. intros r. right. eexists. intros [[n out] tee]. rewrite Hl. cbn. eexists. split; [reflexivity|]. reflexivity.
Qed.

Lemma print_steady : forall O Od nf o, fo_limit o = 0 -> steady (fun s r => as_io (print_body O Od nf o s r)) (@snd N bytes).
Proof.
  intros O Od nf o Hl. apply guarded_steady. intros r. destruct (print_fields nf (br_record r)) as [t|] eqn:E.
  - right. eexists. intros [n out]. rewrite Hl. cbn. eexists. split; [reflexivity|]. reflexivity.
  - left. intros [n out]. reflexivity.
Qed.

Lemma concat_steady : forall O sha lossy, steady (fun s r => as_io (concat_body O sha lossy None s r)) (fun s : concat_state => snd (fst s)).
Proof. intros O sha lossy r. right. exists (br_write r). intros [[seen a] b]. eexists. split; reflexivity. Qed.

Lemma convert_steady : forall lossy esc to, to <> TJson -> to <> TXml ->
  steady (fun s r => as_io (convert_body lossy esc to s r)) (fun s : N * bytes => snd s ++ conv_close to).
Proof.
  intros lossy esc to H1 H2 r. right. exists (match conv_write lossy esc to 0 r with Some t => t | None => [] end).
  destruct to; try (destruct (H1 eq_refl)); try (destruct (H2 eq_refl)); intros [n out]; eexists; (split; [reflexivity|]); cbn;
    rewrite !app_nil_r; reflexivity.
Qed.

Lemma explode_steady : forall O Od c, fo_limit (ex_opts c) = 0 -> steady (fun s r => as_io (explode_body O Od c s r)) (@snd N bytes).
Proof.
  intros O Od c Hl r. unfold explode_body. destruct (process (ex_level c) (br_record r)) as [parts|]; [|left; reflexivity].
  induction parts as [|p parts IH]; [right; exists []; intros s; exists s; split; [reflexivity|symmetry; apply app_nil_r]|]. cbn [for_each].
  assert (H : (forall s, explode_part O Od c s p = Panic) \/ exists t, forall s, exists s', explode_part O Od c s p = Next s' /\ snd s' = snd s ++ t).
  { unfold explode_part. destruct (br_from_bytes (part_data p)) as [q|]; [|left; reflexivity]. unfold guarded.
    destruct (opts_select O Od (ex_opts c) (br_record q)) as [[|]|]; [right|right|left; reflexivity].
    - eexists. intros [n out]. rewrite Hl. cbn. eexists. split; [reflexivity|]. reflexivity.
    - exists []. intros s. exists s. split; [reflexivity|symmetry; apply app_nil_r]. }
  destruct H as [H|(t & H)]; [left; intros s; rewrite H; reflexivity|]. destruct IH as [IH|(t2 & IH)].
  - left. intros s. destruct (H s) as (s1 & -> & _). apply IH.
  - right. exists (t ++ t2). intros s. destruct (H s) as (s1 & -> & E1). destruct (IH s1) as (s2 & E2 & E3). exists s2. split; [exact E2|].
    rewrite E3, E1. symmetry. apply app_assoc.
Qed.

(** select, when no row is refused *)
Section Select.
  Variables O Od : oracles.
  Variable T : text_fns.
  Variable lossy : bytes -> bytes.
  Variable hash : list bytes -> N.
  Variable c : select_cmd.
  Variable o : filter_opts.
  Hypothesis Hq : query_wf O (se_qo c) (se_query c).
  Hypothesis Hu : se_unique c = false.
  Hypothesis Hl : fo_limit o = 0.

  Definition rows_body (s : select_state) (r : byte_record) : io_ending select_state :=
    as_io (guarded (opts_select O Od o) (fun s r => Next (sel_act O T lossy hash c s r)) s r).

  Lemma pass_seen : forall rows seen seen', snd (sel_pass hash c rows seen) = snd (sel_pass hash c rows seen').
  Proof.
    induction rows as [|row rows IH]; intros seen seen'; [reflexivity|]. cbn [sel_pass]. rewrite Hu. cbn [andb]. destruct (se_no_empty c && existsb is_nil row); [apply IH|].
    cbv zeta. specialize (IH seen seen'). destruct (sel_pass hash c rows seen), (sel_pass hash c rows seen'). cbn [snd] in *. rewrite IH. reflexivity.
  Qed.

  Lemma rows_steady : forall text, (forall a b, text (a ++ b) = text a ++ text b) -> steady rows_body (fun s => text (sel_rows s)).
  Proof.
    intros text Ht. apply guarded_steady. intros r. right. exists (text (map (select_fields lossy c) (snd (sel_pass hash c (sel_rec O T c r) [])))).
    intros s. eexists. split; [reflexivity|]. unfold sel_act. rewrite (pass_seen _ [] (sel_seen s)).
    destruct (sel_pass hash c (sel_rec O T c r) (sel_seen s)) as [s1 o1]. cbn [sel_rows snd]. apply Ht.
  Qed.

  Let I (s : select_state) : Prop := fits (query_columns (se_query c)) (sel_rows s) /\ sel_failed s = false.

  Lemma select_rows_same : forall s r, I s -> with_refused sel_failed (select_body O Od T lossy hash c o s r) = rows_body s r.
  Proof.
    intros s r [F Ff]. rewrite (select_body_act _ _ _ _ _ _ _ _ _ Hq F Ff). unfold rows_body, guarded. destruct (opts_select O Od o (br_record r)) as [[|]|]; try reflexivity.
    unfold sel_body. rewrite Hl. reflexivity.
  Qed.

  Lemma rows_fit : forall s r s', I s -> rows_body s r = IDone s' -> I s'.
  Proof.
    intros s r s' [F Ff] H. unfold rows_body, guarded in H. destruct (opts_select O Od o (br_record r)) as [[|]|]; cbn [as_io] in H; try discriminate.
    - injection H as <-. unfold sel_act.
      assert (Wd := sel_pass_width hash c (query_columns (se_query c)) (sel_rec O T c r) (sel_seen s)).
      destruct (sel_pass hash c (sel_rec O T c r) (sel_seen s)) as [s1 o1]. split; [|reflexivity]. cbn [sel_rows]. apply Forall_app. split; [exact F|].
      apply Forall_forall. intros x Hx. apply in_map_iff in Hx as (row & <- & Hrow). rewrite select_fields_length.
      unfold sel_rec in Wd. destruct (query_rows_exist O T (se_qo c) (se_query c) r Hq) as (rows & E & _ & Wr).
      rewrite E in Wd. specialize (Wd Wr). cbn [snd] in Wd. rewrite Forall_forall in Wd. apply Wd. exact Hrow.
    - injection H as <-. split; assumption.
  Qed.

  Lemma select_agrees : forall skip s files, I s ->
    io_files_loop (fun s => s) (fun s r => with_refused sel_failed (select_body O Od T lossy hash c o s r)) skip s files
    = io_files_loop (fun s => s) rows_body skip s files.
  Proof. intros skip s files Hs. apply (files_agree I); [exact select_rows_same|exact rows_fit|exact Hs]. Qed.
End Select.

Lemma opts_limit : forall O Od tr a o, fst (opts_prepare O Od tr a) = Some (Some o) -> fo_limit o = oa_limit a.
Proof.
  intros O Od tr a o H. unfold opts_prepare in H. unfold and_then in H.
  destruct (source_parse Od fresh (oa_source a)) as [[[src|]|] s1]; try discriminate.
  destruct (filter_set_build src _ _ _); [|discriminate].
  destruct (filter_opts_matcher _ _ _ _ _ _ _ _) as [[[m|]|] s2]; try discriminate. injection H as <-. reflexivity.
Qed.

Lemma filter_limit : forall O Od tr content a c, fst (filter_prepare O Od tr content a) = Some (Some c) -> fc_limit c = fa_limit a.
Proof.
  intros O Od tr content a c H. unfold filter_prepare, and_then in H.
  destruct (source_parse Od fresh (fa_source a)) as [[[src|]|] s1]; try discriminate.
  destruct (parse_predicates (fa_discard a)); [|discriminate]. destruct (parse_predicates (fa_keep a)); [|discriminate].
  destruct (filter_set_build src _ _ _); [|discriminate]. destruct (filter_expr content a); [|discriminate].
  destruct (builder_run _ _ _ _ _) as [[[m|]|] s2]; try discriminate. injection H as <-. reflexivity.
Qed.

Lemma table_limit : forall O Od tr a o q, fst (table_prepare O Od tr a) = Some (Some (o, q)) -> fo_limit o = oa_limit (ta_opts a).
Proof.
  intros O Od tr a o q H. unfold table_prepare in H. unfold and_then in H.
  destruct (opts_prepare O Od tr (ta_opts a)) as [x s1] eqn:E. cbn [fst] in H. destruct x as [[fo|]|]; try discriminate.
  destruct (query_new O s1 (tr (ta_query a))) as [[[q'|]|] s2]; try discriminate. injection H as <- _. apply (opts_limit O Od tr). rewrite E. reflexivity.
Qed.

Section Commands.
  Variable e : env.
  Variable c : config.

  (** the command either ends before the records are read, or goes record by record *)
  Definition goes (k : command) (w : world) : Prop :=
    (forall names st w1, execute e c (with_inputs names k) w <> Some (CEnded st, w1))
    \/ exists (S : Type) (body : S -> byte_record -> io_ending S) (text text2 : S -> bytes) skip s0 append,
         steady body text /\ text s0 = []
         /\ forall names, execute e c (with_inputs names k) w
              = process_all (e_gz_enc e) (e_gz_dec e) [(mkOut None append false, (text, text2))] (fun _ => false) (fun s => s) body skip s0 names w.

  Lemma filter_names_only : forall o f append w names skip0, fi_expr_file f = None \/ fi_expr f = [] ->
    let a := load_filter e (w_disk w) skip0 o f [] in
    filter_on_disk (e_gz_enc e) (e_gz_dec e) (e_writable e) (oracles_for e o) (default_oracles e) (translit e (cf_normalization c))
      (load_filter e (w_disk w) skip0 o f names) append false None None w
    = match filter_first (default_oracles e) a with
      | None => None
      | Some None => Some (CRefused, w)
      | Some (Some _) =>
          match (if expr_there a (w_disk w)
                 then fst (filter_prepare (oracles_for e o) (default_oracles e) (translit e (cf_normalization c)) (content_of (w_disk w)) a) else Some None) with
          | None => None
          | Some None => Some (CRefused, close_all (e_gz_enc e) [(mkOut None append false, [])] w)
          | Some (Some fc) =>
              process_all (e_gz_enc e) (e_gz_dec e) [(mkOut None append false, (fun s : filter_state => snd (fst s), fun s : filter_state => snd (fst s)))]
                (fun _ => false) (fun s => s) (fun s r => as_io (filter_body (oracles_for e o) (default_oracles e) fc s r)) skip0 (0, [], []) names w
          end
      end.
  Proof.
    intros o f append w names skip0 Hx a. unfold filter_on_disk.
    change (filter_first (default_oracles e) (load_filter e (w_disk w) skip0 o f names)) with (filter_first (default_oracles e) a).
    destruct (filter_first (default_oracles e) a) as [[u|]|]; try reflexivity. cbn [prepared].
    assert (Hb : exists b, wb_run wb_new [CAppend append; CGzip false] = Some b /\ builder_output b None = mkOut None append false) by (destruct append; eexists; (split; reflexivity)).
    destruct Hb as (b & -> & Hb). rewrite Hb. cbv zeta. cbn [open_all open_output out_name]. rewrite world_eta.
    change (expr_there (load_filter e (w_disk w) skip0 o f names) (w_disk w)) with (expr_there a (w_disk w)).
    change (filter_prepare (oracles_for e o) (default_oracles e) (translit e (cf_normalization c)) (content_of (w_disk w)) (load_filter e (w_disk w) skip0 o f names))
      with (filter_prepare (oracles_for e o) (default_oracles e) (translit e (cf_normalization c)) (content_of (w_disk w)) a).
    destruct (if expr_there a (w_disk w) then _ else _) as [[fc|]|]; [|reflexivity|reflexivity]. cbn [prepared].
    enough (filter_names (match fa_expr_file (load_filter e (w_disk w) skip0 o f names) with Some _ => true | None => false end)
      (fa_filter (load_filter e (w_disk w) skip0 o f names)) (fa_names (load_filter e (w_disk w) skip0 o f names)) = names) as -> by reflexivity.
    cbn. unfold filter_names. destruct Hx as [->| ->]; [reflexivity|]. destruct (fi_expr_file f); reflexivity.
  Qed.

  Lemma recordwise_goes : forall k w, recordwise k -> expression_free k -> select_ready e k -> goes k w.
  Proof.
    intros k w Hk Hx Hr. destruct k; try contradiction; cbn [recordwise] in Hk; unfold goes; cbn [with_inputs execute].
    - destruct Hk as (-> & -> & ->). right. unfold concat_on_disk. destruct append; cbn; rewrite world_eta;
      do 7 eexists; (split; [apply concat_steady|]; split; [|intros ns; reflexivity]; reflexivity).
    - destruct Hk as (-> & H1 & H2). unfold convert_on_disk. destruct from; try (left; intros ns st w1 H; discriminate). right.
      pose proof (convert_steady (e_lossy e) (e_esc e) to H1 H2) as Q.
      exists (N * bytes)%type, (fun s r => as_io (convert_body (e_lossy e) (e_esc e) to s r)), (fun s => snd s ++ conv_close to), (@snd N bytes), (skip || cf_skip_invalid c), (0, []), false.
      split; [exact Q|]. destruct to; try (destruct (H1 eq_refl)); try (destruct (H2 eq_refl)); (split; [reflexivity|]); intros ns;
        cbn [open_all open_output out_name convert_output builder_output]; rewrite world_eta; reflexivity.
    - destruct Hk as (-> & -> & Hl). unfold explode_on_disk. destruct (parse_predicates discard) as [d|]; [|left; intros ns st w1 H; discriminate].
      destruct (parse_predicates keep) as [kp|]; [|left; intros ns st w1 H; discriminate]. cbn. rewrite world_eta.
      destruct (fst (opts_prepare _ _ _ _)) as [[fo|]|] eqn:E; try (left; intros ns st w1 H; discriminate). right. apply opts_limit in E. cbn in E.
      do 7 eexists. split; [apply (explode_steady (oracles_for e o) (default_oracles e) (mkExplode l fo kp d)); cbn; congruence|].
      split; [|intros ns; reflexivity]. reflexivity.
    - destruct Hk as (-> & -> & -> & Hl). specialize (Hx _ _ _ _ _ _ _ eq_refl).
      pose (a := load_filter e (w_disk w) (o_skip o || cf_skip_invalid c) o f []).
      assert (Q := fun ns => filter_names_only o f append w ns (o_skip o || cf_skip_invalid c) Hx). cbv zeta in Q. fold a in Q.
      destruct (filter_first (default_oracles e) a) as [[u|]|]; [|left; intros ns st w1 H; rewrite Q in H; discriminate..].
      destruct (if expr_there a (w_disk w) then _ else _) as [[fc|]|] eqn:E; [|left; intros ns st w1 H; rewrite Q in H; discriminate..].
      right. destruct (expr_there a (w_disk w)); [|discriminate]. apply filter_limit in E. cbn in E.
      do 7 eexists. split; [apply (filter_steady (oracles_for e o) (default_oracles e) fc); congruence|]. split; [|intros ns; apply Q]. reflexivity.
    - destruct Hk as (-> & Hl). unfold print_on_disk.
      destruct (fst (opts_prepare _ _ _ _)) as [[fo|]|] eqn:E; try (left; intros ns st w1 H; discriminate). right. apply opts_limit in E. cbn in E.
      cbn. rewrite world_eta. do 7 eexists. split; [apply (print_steady (oracles_for e o) (default_oracles e) (translit e nf) fo); congruence|].
      split; [|intros ns; reflexivity]. reflexivity.
    - destruct Hk as (-> & -> & Hh & Hl). destruct Hr as [R1 R2]. unfold select_on_disk.
      destruct (fst (table_prepare _ _ _ _)) as [[[fo qu]|]|] eqn:E; try (left; intros ns st w1 H; discriminate). right.
      destruct (table_prepare_wf (oracles_for e o) (default_oracles e) (e_text e) _ (load_columns e (w_disk w) o q) fo qu R1 R2 E) as [_ Wq].
      apply table_limit in E. cbn in E. cbn [prepared fst snd open_all open_output out_name]. rewrite world_eta. cbv zeta.
      set (cmd := mkSelect qu (table_options (load_columns e (w_disk w) o q)) false no_empty (table_header (load_columns e (w_disk w) o q)) (option_map (e_nf e) nf)).
      assert (Eh : se_header cmd = None) by (cbn; unfold table_header; cbn; rewrite Hh; reflexivity). rewrite Eh. cbn [csv_header].
      exists select_state, (rows_body (oracles_for e o) (default_oracles e) (e_text e) (e_lossy e) (e_hash e) cmd fo),
        (fun s => csv_text (e_numeric e) quote (csv_delim tsv) (sel_rows s)), (fun s => csv_text (e_numeric e) quote (csv_delim tsv) (sel_rows s)),
        (o_skip o || cf_skip_invalid c), (mkSel 0 [] [] false), append.
      split; [apply rows_steady; [reflexivity|]; intros x y; unfold csv_text; apply flat_map_app|]. split; [reflexivity|].
      intros ns. unfold process_all. rewrite (select_agrees _ _ _ _ _ cmd fo Wq); [reflexivity|congruence|]. split; [constructor|reflexivity].
  Qed.

  Lemma execute_pair : forall k a b w wa wb ta tb, recordwise k -> expression_free k -> select_ready e k -> ~ In (lit "-") b ->
    execute e c (with_inputs a k) w = Some (CEnded 0, wa) -> w_stdout wa = w_stdout w ++ ta ->
    execute e c (with_inputs b k) w = Some (CEnded 0, wb) -> w_stdout wb = w_stdout w ++ tb ->
    execute e c (with_inputs (a ++ b) k) w = Some (CEnded 0, mkWorld (w_disk w) (w_stdin w) (w_stdout w ++ ta ++ tb)).
  Proof.
    intros k a b w wa wb ta tb Hk Hx Hq Hb Ha Ta Hb' Tb.
    destruct (recordwise_goes k w Hk Hx Hq) as [H|(S & body & text & text2 & skip & s0 & append & H1 & H2 & H3)]; [destruct (H _ _ _ Ha)|].
    rewrite H3 in *. exact (steady_app body text H1 (e_gz_enc e) (e_gz_dec e) skip s0 text2 append H2 a b w wa wb ta tb Hb Ha Ta Hb' Tb).
  Qed.

  Lemma execute_none : forall k a w wa, recordwise k -> expression_free k -> select_ready e k -> execute e c (with_inputs a k) w = Some (CEnded 0, wa) ->
    execute e c (with_inputs [] k) w = Some (CEnded 0, mkWorld (w_disk w) (w_stdin w) (w_stdout w ++ [])).
  Proof.
    intros k a w wa Hk Hx Hq Ha. destruct (recordwise_goes k w Hk Hx Hq) as [H|(S & body & text & text2 & skip & s0 & append & H1 & H2 & H3)]; [destruct (H _ _ _ Ha)|].
    rewrite H3. cbn. rewrite H2. reflexivity.
  Qed.

  Lemma execute_all : forall k w names ts, recordwise k -> expression_free k -> select_ready e k -> names <> [] ->
    Forall2 (fun ns t => exists w1, execute e c (with_inputs ns k) w = Some (CEnded 0, w1) /\ w_stdout w1 = w_stdout w ++ t) names ts ->
    ~ In (lit "-") (concat (tl names)) ->
    execute e c (with_inputs (concat names) k) w = Some (CEnded 0, mkWorld (w_disk w) (w_stdin w) (w_stdout w ++ concat ts)).
  Proof.
    intros k w names ts Hk Hx Hq Hne H Hn. assert (E0 : execute e c (with_inputs [] k) w = Some (CEnded 0, mkWorld (w_disk w) (w_stdin w) (w_stdout w ++ []))).
    { destruct H as [|ns t names ts (w1 & H1 & _) _]; [destruct (Hne eq_refl)|]. exact (execute_none k ns w w1 Hk Hx Hq H1). }
    clear Hne. induction H as [|ns t names ts (w1 & H1 & T1) H IH]; [exact E0|]. cbn [concat tl] in *.
    assert (Ht : ~ In (lit "-") (concat (tl names))).
    { intros X. apply Hn. destruct names as [|n names]; [destruct X|]. cbn [concat tl] in *. apply in_or_app. right. exact X. }
    exact (execute_pair k ns (concat names) w w1 _ t (concat ts) Hk Hx Hq Hn H1 T1 (IH Ht) eq_refl).
  Qed.
End Commands.

Lemma run_recordwise : forall e cfg k w names ts, recordwise k -> expression_free k -> select_ready e k -> names <> [] ->
  Forall2 (fun ns t => run_writes e cfg w (with_inputs ns k) t) names ts -> ~ In (lit "-") (concat (tl names)) ->
  run e (mkInvocation cfg (with_inputs (concat names) k)) w = Some (CEnded 0, mkWorld (w_disk w) (w_stdin w) (w_stdout w ++ concat ts)).
Proof.
  intros e cfg k w names ts Hk Hx Hq Hne H Hn. assert (Hc : forall ns, RunProofs.is_config (with_inputs ns k) = false) by (intros ns; destruct k; try contradiction; reflexivity).
  assert (exists c, RunSpec.settings e (mkInvocation cfg (with_inputs [] k)) w c) as (c & Hset).
  { destruct H as [|ns t names ts (w1 & H1 & _) _]; [destruct (Hne eq_refl)|].
    destruct (RunProofs.run_ended _ (mkInvocation cfg (with_inputs ns k)) _ _ _ (Hc ns) H1) as (c & Hset & _). exists c. eapply settings_same; [reflexivity|exact Hset]. }
  assert (R : forall ns, run e (mkInvocation cfg (with_inputs ns k)) w = execute e c (with_inputs ns k) w).
  { intros ns. apply (RunProofs.run_settings e (mkInvocation cfg (with_inputs ns k)) w c (Hc ns)). eapply settings_same; [reflexivity|exact Hset]. }
  rewrite R. apply execute_all; try assumption. clear - H R. induction H as [|ns t names ts (w1 & H1 & T1) H IH]; constructor; [|exact IH].
  exists w1. rewrite <- R. auto.
Qed.

(** ** invalid *)

Definition onto {A} (f : A -> A) (x : io_ending A) : io_ending A :=
  match x with IDone t => IDone (f t) | IStopped t => IStopped (f t) | IFailed t e => IFailed (f t) e | IPanicked => IPanicked end.

Lemma invalid_file_onto : forall fuel src out, io_invalid_file fuel src out = option_map (onto (app out)) (io_invalid_file fuel src []).
Proof.
  assert (G : forall fuel src o1 o2, io_invalid_file fuel src (o1 ++ o2) = option_map (onto (app o1)) (io_invalid_file fuel src o2)).
  { induction fuel as [|n IH]; intros src o1 o2; [reflexivity|]. cbn [io_invalid_file]. destruct (io_read_until src) as [[[|b buf]|k] src']; try reflexivity.
    destruct (br_from_bytes (b :: buf)); [apply IH|]. rewrite <- app_assoc. apply IH. }
  intros fuel src out. rewrite <- (G fuel src out []), app_nil_r. reflexivity.
Qed.

Lemma invalid_run_onto : forall files o1 o2, io_invalid_run files (o1 ++ o2) = option_map (onto (app o1)) (io_invalid_run files o2).
Proof.
  induction files as [|[n [reads|k]] files IH]; intros o1 o2; try reflexivity. cbn [io_invalid_run]. cbv zeta.
  rewrite (invalid_file_onto _ _ (o1 ++ o2)), (invalid_file_onto _ _ o2).
  destruct (io_invalid_file _ _ []) as [[t|t|t er|]|]; cbn [option_map onto]; rewrite <- ?app_assoc; try reflexivity. apply IH.
Qed.

Lemma invalid_run_app : forall a b out out', io_invalid_run a out = Some (IDone out') -> io_invalid_run (a ++ b) out = io_invalid_run b out'.
Proof.
  induction a as [|[n [reads|k]] a IH]; intros b out out' H; cbn [io_invalid_run app] in *; cbv zeta in *.
  - injection H as <-. reflexivity.
  - destruct (io_invalid_file _ _ out) as [[t|t|t er|]|]; try discriminate. exact (IH _ _ _ H).
  - discriminate.
Qed.

Lemma read_more_error : forall reads acc k src, read_more reads acc = (inr k, src) -> In (PError k) reads.
Proof.
  induction reads as [|[d| |j] reads IH]; intros acc k src H; cbn [read_more] in H; [discriminate| | |].
  - destruct d as [|x d]; [discriminate|]. destruct (split_lf (x :: d)) as [[a b]|]; [discriminate|]. right. exact (IH _ _ _ H).
  - right. exact (IH _ _ _ H).
  - injection H as -> _. left. reflexivity.
Qed.

Lemma read_more_rest : forall reads acc x src, read_more reads acc = (x, src) -> incl (so_reads src) reads.
Proof.
  induction reads as [|[d| |j] reads IH]; intros acc x src H; cbn [read_more] in H.
  - injection H as _ <-. apply incl_refl.
  - destruct d as [|y d]; [injection H as _ <-; apply incl_tl, incl_refl|]. destruct (split_lf (y :: d)) as [[a b]|].
    + injection H as _ <-. apply incl_tl, incl_refl.
    + apply incl_tl. exact (IH _ _ _ H).
  - apply incl_tl. exact (IH _ _ _ H).
  - injection H as _ <-. apply incl_tl, incl_refl.
Qed.

Lemma until_rest : forall s x src, io_read_until s = (x, src) -> incl (so_reads src) (so_reads s).
Proof.
  intros s x src H. unfold io_read_until in H. destruct (split_lf (so_buf s)) as [[a b]|]; [injection H as _ <-; apply incl_refl|].
  exact (read_more_rest _ _ _ _ H).
Qed.

Lemma invalid_file_fails : forall fuel src out x, io_invalid_file fuel src out = Some x ->
  (exists t, x = IDone t) \/ exists t k, x = IFailed t (CIo k) /\ In (PError k) (so_reads src).
Proof.
  induction fuel as [|n IH]; intros src out x H; [discriminate|]. cbn [io_invalid_file] in H. destruct (io_read_until src) as [[[|b buf]|k] src'] eqn:E.
  - injection H as <-. left. eexists. reflexivity.
  - destruct (IH _ _ _ H) as [Hx|(t & k & -> & Hk)]; [left; exact Hx|right]. exists t, k. split; [reflexivity|]. exact (until_rest _ _ _ E _ Hk).
  - injection H as <-. right. exists out, k. split; [reflexivity|]. unfold io_read_until in E. destruct (split_lf (so_buf src)) as [[a b]|]; [discriminate|].
    exact (read_more_error _ _ _ _ E).
Qed.

Lemma invalid_run_done : forall files out x, (forall n k, In (n, inr k) files -> k <> BrokenPipe) ->
  (forall n reads k, In (n, inl reads) files -> In (PError k) reads -> k <> BrokenPipe) ->
  io_invalid_run files out = Some x -> main_status x = Some 0 -> exists t, x = IDone t.
Proof.
  induction files as [|[n [reads|k]] files IH]; intros out x H1 H2 H Hs; cbn [io_invalid_run] in H; cbv zeta in H.
  - injection H as <-. eexists. reflexivity.
  - destruct (io_invalid_file _ _ out) as [y|] eqn:E; [|discriminate]. destruct (invalid_file_fails _ _ _ _ E) as [(t & ->)|(t & k & -> & Hk)].
    + apply (IH _ _ (fun n k X => H1 n k (or_intror X)) (fun n r k X => H2 n r k (or_intror X)) H Hs).
    + injection H as <-. specialize (H2 n reads k (or_introl eq_refl) Hk). destruct k; [destruct (H2 eq_refl)|discriminate].
  - injection H as <-. specialize (H1 n k (or_introl eq_refl)). destruct k; [destruct (H1 eq_refl)|discriminate].
Qed.

Lemma inputs_reads : forall gz_dec names d stdin n reads, In (n, inl reads) (inputs gz_dec d stdin names) ->
  (exists b, reads = gz_dec b) \/ exists b, reads = whole b.
Proof.
  intros gz_dec. induction names as [|m names IH]; intros d stdin n reads H; [destruct H|]. cbn [inputs] in H.
  destruct (bytes_eqb m (lit "-")); (destruct H as [H|H]; [|exact (IH _ _ _ _ H)]).
  - injection H as _ <-. right. eexists. reflexivity.
  - destruct (disk_get d m) as [b|]; [|discriminate]. injection H as _ <-. destruct (gz_name m); [left|right]; exists b; reflexivity.
Qed.

Section Invalid.
  Variable e : env.
  Hypothesis Hpipe : pipes_whole e.

  Lemma invalid_done : forall names w w1, invalid_on_disk (e_gz_enc e) (e_gz_dec e) (e_writable e) None names w = Some (CEnded 0, w1) ->
    exists t, io_invalid_run (inputs (e_gz_dec e) (w_disk w) (w_stdin w) names) [] = Some (IDone t) /\ w1 = mkWorld (w_disk w) (w_stdin w) (w_stdout w ++ t).
  Proof.
    intros names w w1 H. unfold invalid_on_disk in H. cbn -[inputs] in H. rewrite world_eta in H.
    destruct (io_invalid_run _ _) as [x|] eqn:E; [|discriminate].
    assert (Hs : main_status x = Some 0).
    { destruct x as [s|s|s er|]; cbn [main_status] in *; try reflexivity; [|discriminate]. destruct er as [|[]| |]; try discriminate; reflexivity. }
    destruct (fun A B => invalid_run_done _ _ _ A B E Hs) as (t & ->).
    - intros n k X. rewrite (inputs_kind _ _ _ _ _ _ X). discriminate.
    - intros n reads k X Hk. destruct (inputs_reads _ _ _ _ _ _ X) as [(b & ->)|(b & ->)]; [exact (Hpipe b k Hk)|].
      unfold whole in Hk. destruct b as [|y b]; cbn in Hk; [destruct Hk|]. destruct Hk as [Hk|[]]; discriminate.
    - exists t. split; [reflexivity|]. injection H as <-. reflexivity.
  Qed.

  Lemma run_invalid : forall cfg w names ts, names <> [] ->
    Forall2 (fun ns t => run_writes e cfg w (KInvalid None ns) t) names ts -> ~ In (lit "-") (concat (tl names)) ->
    run e (mkInvocation cfg (KInvalid None (concat names))) w = Some (CEnded 0, mkWorld (w_disk w) (w_stdin w) (w_stdout w ++ concat ts)).
  Proof.
    intros cfg w names ts Hne H Hn.
    assert (exists c, RunSpec.settings e (mkInvocation cfg (KInvalid None [])) w c) as (c & Hset).
    { destruct H as [|ns t names ts (w1 & H1 & _) _]; [destruct (Hne eq_refl)|].
      destruct (RunProofs.run_ended _ (mkInvocation cfg (KInvalid None ns)) _ _ _ eq_refl H1) as (c & Hset & _). exists c. eapply settings_same; [reflexivity|exact Hset]. }
    assert (R : forall ns, run e (mkInvocation cfg (KInvalid None ns)) w = invalid_on_disk (e_gz_enc e) (e_gz_dec e) (e_writable e) None ns w).
    { intros ns. apply (RunProofs.run_settings e (mkInvocation cfg (KInvalid None ns)) w c eq_refl). eapply settings_same; [reflexivity|exact Hset]. }
    rewrite R. enough (G : io_invalid_run (inputs (e_gz_dec e) (w_disk w) (w_stdin w) (concat names)) [] = Some (IDone (concat ts))).
    { unfold invalid_on_disk. cbn -[inputs]. rewrite world_eta, G. reflexivity. }
    clear Hne Hset. induction H as [|ns t names ts (w1 & H1 & T1) H IH]; [reflexivity|]. cbn [concat tl] in *.
    assert (Ht : ~ In (lit "-") (concat (tl names))).
    { intros X. apply Hn. destruct names as [|n names]; [destruct X|]. cbn [concat tl] in *. apply in_or_app. right. exact X. }
    rewrite R in H1. destruct (invalid_done _ _ _ H1) as (t' & E & ->). cbn [w_stdout] in T1. apply app_inv_head in T1. subst t'.
    rewrite inputs_app by exact Hn. rewrite (invalid_run_app _ _ _ _ E). rewrite <- (app_nil_r t) at 1. rewrite invalid_run_onto, (IH Ht). reflexivity.
  Qed.
End Invalid.

(** ** count *)

Section Count.
  Variables O Od : oracles.
  Variable o : filter_opts.

  Definition plus3 (a b : N * N * N) : N * N * N :=
    (fst (fst a) + fst (fst b), snd (fst a) + snd (fst b), snd a + snd b).

  Lemma plus3_0 : forall a, plus3 a (0, 0, 0) = a.
  Proof. intros [[a b] c]. unfold plus3. cbn. rewrite !N.add_0_r. reflexivity. Qed.

  Lemma plus3_assoc : forall a b c, plus3 (plus3 a b) c = plus3 a (plus3 b c).
  Proof. intros [[a1 a2] a3] [[b1 b2] b3] [[c1 c2] c3]. unfold plus3. cbn. rewrite !N.add_assoc. reflexivity. Qed.

  Lemma count_fold : forall recs, (forall s, fold_end (fun s r => as_io (count_body O Od o s r)) s recs = IPanicked)
    \/ exists d, forall s, fold_end (fun s r => as_io (count_body O Od o s r)) s recs = IDone (plus3 s d).
  Proof.
    induction recs as [|r recs IH]; [right; exists (0, 0, 0); intros s; rewrite plus3_0; reflexivity|].
    assert (H : (forall s, count_body O Od o s r = Panic) \/ exists d, forall s, count_body O Od o s r = Next (plus3 s d)).
    { unfold count_body, guarded. destruct (opts_select O Od o (br_record r)) as [[|]|]; [right|right|left; reflexivity].
      - eexists (1, _, _). intros [[a b] c]. reflexivity.
      - exists (0, 0, 0). intros s. rewrite plus3_0. reflexivity. }
    destruct H as [H|(d & H)]; [left; intros s; cbn [fold_end]; rewrite H; reflexivity|]. destruct IH as [IH|(d2 & IH)].
    - left. intros s. cbn [fold_end]. rewrite H. apply IH.
    - right. exists (plus3 d d2). intros s. cbn [fold_end]. rewrite H. cbn [as_io]. rewrite IH, plus3_assoc. reflexivity.
  Qed.

  Lemma count_cases : forall s r, as_io (count_body O Od o s r) = IPanicked \/ exists s', as_io (count_body O Od o s r) = IDone s'.
  Proof.
    intros [[a b] c] r. unfold count_body, guarded. destruct (opts_select O Od o (br_record r)) as [[|]|]; [right|right|left; reflexivity]; eexists; reflexivity.
  Qed.
End Count.

Definition one_number (m : count_mode) : option (N * N * N -> N) :=
  match m with
  | MRecords => Some (fun s => fst (fst s)) | MFields => Some (fun s => snd (fst s)) | MSubfields => Some snd
  | _ => None
  end.

Lemma one_number_text : forall m p, one_number m = Some p -> forall s, count_output m s = dec (p s) ++ [LF].
Proof. intros m p H [[a b] c]. destruct m; try discriminate; injection H as <-; reflexivity. Qed.

Lemma one_number_plus : forall m p, one_number m = Some p -> forall a b, p (plus3 a b) = p a + p b.
Proof. intros m p H a b. destruct m; try discriminate; injection H as <-; reflexivity. Qed.

Lemma run_count : forall e cfg o append m w names ns, (m = MRecords \/ m = MFields \/ m = MSubfields) -> names <> [] ->
  Forall2 (fun files n => run_writes e cfg w (KCount o append None m files) (dec n ++ [LF])) names ns -> ~ In (lit "-") (concat (tl names)) ->
  run e (mkInvocation cfg (KCount o append None m (concat names))) w
  = Some (CEnded 0, mkWorld (w_disk w) (w_stdin w) (w_stdout w ++ dec (fold_right N.add 0 ns) ++ [LF])).
Proof.
  intros e cfg o append m w names ns Hm Hne H Hn.
  assert (exists p, one_number m = Some p) as (p & Hp) by (destruct Hm as [->|[->| ->]]; eexists; reflexivity).
  assert (exists c, RunSpec.settings e (mkInvocation cfg (KCount o append None m [])) w c) as (c & Hset).
  { destruct H as [|files n names ns (w1 & H1 & _) _]; [destruct (Hne eq_refl)|].
    destruct (RunProofs.run_ended _ (mkInvocation cfg (KCount o append None m files)) _ _ _ eq_refl H1) as (c & Hset & _). exists c. eapply settings_same; [reflexivity|exact Hset]. }
  assert (R : forall files, run e (mkInvocation cfg (KCount o append None m files)) w = execute e c (KCount o append None m files) w).
  { intros files. apply (RunProofs.run_settings e (mkInvocation cfg (KCount o append None m files)) w c eq_refl). eapply settings_same; [reflexivity|exact Hset]. }
  cbn [execute] in R. unfold count_on_disk in R. cbn [open_all open_output out_name] in R. rewrite world_eta in R.
  destruct (fst (opts_prepare _ _ _ _)) as [[fo|]|].
  2,3: destruct H as [|files n names ns (w1 & H1 & _) _]; [destruct (Hne eq_refl)|]; rewrite R in H1; discriminate.
  cbn [prepared] in R. set (body := fun s r => as_io (count_body (oracles_for e o) (default_oracles e) fo s r)) in *. set (skip := o_skip o || cf_skip_invalid c) in *.
  assert (G : exists recs d, io_files_loop (fun l => l) snoc skip [] (inputs (e_gz_dec e) (w_disk w) (w_stdin w) (concat names)) = Some (IDone recs)
    /\ (forall s, fold_end body s recs = IDone (plus3 s d)) /\ p d = fold_right N.add 0 ns).
  { clear Hne Hset. induction H as [|files n names ns (w1 & H1 & T1) H IH].
    { exists [], (0, 0, 0). split; [reflexivity|]. split; [intros s; rewrite plus3_0; reflexivity|]. destruct Hm as [->|[->| ->]]; injection Hp as <-; reflexivity. }
    cbn [concat tl] in *. assert (Ht : ~ In (lit "-") (concat (tl names))).
    { intros X. apply Hn. destruct names as [|n' names]; [destruct X|]. cbn [concat tl] in *. apply in_or_app. right. exact X. }
    destruct (IH Ht) as (rb & db & Rb & Fb & Sb). rewrite R in H1.
    destruct (whole_read _ _ _ _ _ _ _ _ _ _ _ _ (count_cases _ _ fo) H1) as (ra & sa & Ra & Fa & ->). cbn [w_stdout] in T1. apply app_inv_head in T1.
    rewrite (one_number_text m p Hp) in T1. apply app_inv_tail in T1. apply CliChunkProofs.dec_inj in T1.
    destruct (count_fold (oracles_for e o) (default_oracles e) fo ra) as [X|(d & X)]; [rewrite X in Fa; discriminate|]. fold body in X.
    rewrite X in Fa. injection Fa as Fa. exists (ra ++ rb), (plus3 d db). split; [exact (collected_app _ _ _ _ _ _ _ _ Hn Ra Rb)|]. split.
    - intros s. rewrite fold_end_app, X, Fb, plus3_assoc. reflexivity.
    - rewrite (one_number_plus m p Hp), Sb. cbn [fold_right]. rewrite <- T1. rewrite <- Fa, (one_number_plus m p Hp).
      enough (p (0, 0, 0) = 0) as -> by reflexivity. destruct Hm as [->|[->| ->]]; injection Hp as <-; reflexivity. }
  destruct G as (recs & d & Hr & Hf & Hd). destruct (files_collects _ _ _ _ Hr) as (recs' & E' & _ & Hfl). cbn in E'. subst recs'.
  rewrite R. unfold process_all. pose proof (Hfl _ (fun s => s) body (0, 0, 0) (or_intror (fun _ => eq_refl))) as Q. rewrite Hf in Q.
  match goal with |- context [io_files_loop ?a ?b ?x ?y ?z] => replace (io_files_loop a b x y z) with (Some (IDone (plus3 (0, 0, 0) d))) by (symmetry; exact Q) end.
  cbn [main_status map close_all fold_left fst snd close_output out_gz out_name].
  rewrite (one_number_text m p Hp), (one_number_plus m p Hp), Hd.
  enough (p (0, 0, 0) = 0) as -> by reflexivity. destruct Hm as [->|[->| ->]]; injection Hp as <-; reflexivity.
Qed.

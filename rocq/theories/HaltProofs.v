(** * Every command comes to an end *)

From Coq Require Import String Lia Permutation.
From Verif Require Import Bytes Winnow RecordModel RecordSpec RecordProofs BaseProofs TagOccModel Utf8Model ByteRecordModel ByteRecordProofs ReaderModel
  MatcherModel MatcherSpec StateParser MatcherParserModel BuilderModel PathModel FmtModel QueryModel QuerySpec QueryProofs QueryParserProofs QueryExtraProofs MatcherExtraProofs
  CliModel CliSpec CliProofs TableModel TableProofs
  ExplodeModel ExplodeProofs ExplodeRunProofs CheckModel CheckSpec CheckRunProofs ConvertModel CsvModel OptionsModel
  PrepareModel PrepareSpec TablePrepareProofs IoModel IoSpec IoProofs WriteSpec DiskModel DirModel HaltSpec.
From Verif Require PrepareProofs.

(** ** The loops *)

Lemma split_lf_size : forall b x y, split_lf b = Some (x, y) -> (length y < length b)%nat.
Proof.
  induction b as [|c b IH]; intros x y H; cbn in H; [discriminate|]. destruct (c =? LF).
  - injection H as <- <-. cbn. lia.
  - destruct (split_lf b) as [[p q]|]; [|discriminate]. injection H as <- <-. specialize (IH _ _ eq_refl). cbn. lia.
Qed.

Definition reads_size (rs : list piece) : nat := fold_right (fun p n => (piece_size p + n)%nat) 0%nat rs.

Lemma read_more_size : forall rs acc b s, read_more rs acc = (inl b, s) -> b <> [] ->
  (source_size s < length acc + reads_size rs)%nat.
Proof.
  induction rs as [|[d| |k] rs IH]; intros acc b s H Hb; cbn in H.
  - injection H as <- <-. cbn. destruct acc; [congruence|cbn; lia].
  - destruct d as [|c d].
    + injection H as <- <-. unfold source_size, reads_size. cbn. destruct acc; [congruence|cbn; lia].
    + destruct (split_lf (c :: d)) as [[x y]|] eqn:E.
      * injection H as <- <-. apply split_lf_size in E. unfold source_size. cbn [so_buf so_reads].
        cbn [reads_size fold_right piece_size]. fold (reads_size rs). lia.
      * specialize (IH _ _ _ H Hb). rewrite app_length in IH. cbn [reads_size fold_right piece_size]. fold (reads_size rs). lia.
  - exact (IH _ _ _ H Hb).
  - discriminate.
Qed.

Lemma read_until_size : forall src b s, io_read_until src = (inl b, s) -> b <> [] -> (source_size s < source_size src)%nat.
Proof.
  intros [buf rs] b s H Hb. unfold io_read_until in H. cbn [so_buf so_reads] in H.
  destruct (split_lf buf) as [[x y]|] eqn:E.
  - injection H as <- <-. apply split_lf_size in E. unfold source_size. cbn [so_buf so_reads]. lia.
  - exact (read_more_size _ _ _ _ H Hb).
Qed.

(** what may come of reading *)
Lemma next_record_size : forall rd,
  match io_next_byte_record rd with
  | (Some (inl _), rd') | (Some (inr (PE _)), rd') => (source_size (io_inner rd') < source_size (io_inner rd))%nat
  | _ => True
  end.
Proof.
  intros rd. unfold io_next_byte_record. destruct (io_read_until (io_inner rd)) as [[b|k] inner] eqn:E; [|exact I].
  destruct b as [|c b]; [exact I|]. assert (H := read_until_size _ _ _ E ltac:(discriminate)).
  destruct (br_from_bytes (c :: b)); exact H.
Qed.

Section Loop.
  Context {S : Type}.
  Variable on_skip : S -> S.
  Variable body : S -> byte_record -> io_ending S.
  Variable skip : bool.

  Lemma reader_ends : forall fuel s rd, (source_size (io_inner rd) < fuel)%nat ->
    exists x, io_reader_loop on_skip body skip fuel s rd = Some x.
  Proof.
    induction fuel as [|n IH]; intros s rd H; [lia|]. cbn [io_reader_loop]. assert (D := next_record_size rd).
    destruct (io_next_byte_record rd) as [[[r|e]|] rd'].
    - destruct (body s r) as [s'|s'|s' e|]; eauto. apply IH. lia.
    - destruct (pica_skip e skip) eqn:K; [|eauto]. destruct e as [e|k]; [apply IH; lia|discriminate].
    - eauto.
  Qed.

  Lemma files_end : forall files s, exists x, io_files_loop on_skip body skip s files = Some x.
  Proof.
    induction files as [|[n [rs|k]] files IH]; intros s; cbn [io_files_loop]; [eauto| |eauto]. cbv zeta.
    destruct (reader_ends (Datatypes.S (source_size (io_inner (io_reader_new rs (Some n))))) s (io_reader_new rs (Some n))) as [x ->]; [lia|].
    destruct x as [s'|s'|s' e|]; eauto.
  Qed.

  (** no panic, and [I] is kept *)
  Definition calm (I : S -> Prop) (x : io_ending S) : Prop :=
    match x with IDone s => I s | IPanicked => False | _ => True end.

  Variable I : S -> Prop.
  Hypothesis skipped : forall s, I s -> I (on_skip s).
  Hypothesis quiet : forall s r, I s -> (exists b, br_from_bytes b = Some r) -> calm I (body s r).

  Lemma reader_calm : forall fuel s rd x, I s -> io_reader_loop on_skip body skip fuel s rd = Some x -> calm I x.
  Proof.
    induction fuel as [|n IH]; intros s rd x Hs H; [discriminate|]. cbn [io_reader_loop] in H.
    assert (P : forall r rd', io_next_byte_record rd = (Some (inl r), rd') -> exists b, br_from_bytes b = Some r).
    { intros r rd' E. unfold io_next_byte_record in E. destruct (io_read_until (io_inner rd)) as [[b|k] inner]; [|discriminate].
      destruct b as [|c b]; [discriminate|]. destruct (br_from_bytes (c :: b)) as [r'|] eqn:E'; [|discriminate].
      injection E as <- _. eauto. }
    destruct (io_next_byte_record rd) as [[[r|e]|] rd'].
    - specialize (P _ _ eq_refl). specialize (quiet s r Hs P). destruct (body s r) as [s'|s'|s' e|]; cbn in quiet.
      + exact (IH _ _ _ quiet H).
      + injection H as <-. exact Logic.I.
      + injection H as <-. exact Logic.I.
      + contradiction.
    - destruct (pica_skip e skip); [exact (IH _ _ _ (skipped _ Hs) H)|]. injection H as <-. exact Logic.I.
    - injection H as <-. exact Hs.
  Qed.

  Lemma files_calm : forall files s x, I s -> io_files_loop on_skip body skip s files = Some x -> calm I x.
  Proof.
    induction files as [|[n [rs|k]] files IH]; intros s x Hs H; cbn [io_files_loop] in H.
    - injection H as <-. exact Hs.
    - cbv zeta in H. destruct (io_reader_loop _ _ _ _ s (io_reader_new rs (Some n))) as [y|] eqn:E; [|discriminate].
      apply reader_calm in E; [|exact Hs]. destruct y as [s'|s'|s' e|]; cbn in E; [exact (IH _ _ E H)| | |contradiction];
        injection H as <-; exact Logic.I.
    - injection H as <-. exact Logic.I.
  Qed.
End Loop.

Lemma invalid_file_ends : forall fuel src out, (source_size src < fuel)%nat -> exists x, io_invalid_file fuel src out = Some x.
Proof.
  induction fuel as [|n IH]; intros src out H; [lia|]. cbn [io_invalid_file].
  destruct (io_read_until src) as [[b|k] s] eqn:E; [|eauto]. destruct b as [|c b]; [eauto|].
  apply IH. assert (D := read_until_size _ _ _ E ltac:(discriminate)). lia.
Qed.
Lemma invalid_file_calm : forall fuel src out, io_invalid_file fuel src out <> Some IPanicked.
Proof.
  induction fuel as [|n IH]; intros src out; cbn [io_invalid_file]; [discriminate|].
  destruct (io_read_until src) as [[b|k] s]; [|discriminate]. destruct b as [|c b]; [discriminate|]. apply IH.
Qed.
Lemma invalid_ends : forall files out, exists x, io_invalid_run files out = Some x /\ x <> IPanicked.
Proof.
  induction files as [|[n [rs|k]] files IH]; intros out; cbn [io_invalid_run].
  - eexists. split; [reflexivity|discriminate].
  - cbv zeta. destruct (invalid_file_ends (Datatypes.S (source_size (mkSource [] rs))) (mkSource [] rs) out) as [x E]; [lia|].
    assert (C := invalid_file_calm (Datatypes.S (source_size (mkSource [] rs))) (mkSource [] rs) out).
    rewrite E in C |- *. destruct x as [s'|s'|s' e|]; [apply IH| | |congruence]; eexists; (split; [reflexivity|discriminate]).
  - eexists. split; [reflexivity|discriminate].
Qed.

(** ** The parts of a command *)

Lemma stop : forall c w, (c = CRefused \/ c = CPanicked \/ c = CEnded 0 \/ c = CEnded 2) -> comes_to_an_end (Some (c, w)).
Proof. intros c w H. exists c, w. split; [reflexivity|]. intros n ->. destruct H as [H|[H|[H|H]]]; try discriminate; injection H as ->; auto. Qed.
Lemma stop_quietly : forall c w, (c = CRefused \/ c = CEnded 0 \/ c = CEnded 2) -> ends_without_panic (Some (c, w)).
Proof. intros c w H. exists c, w. auto. Qed.

Lemma prepared_end : forall gz_enc A outs (x : option (option A)) w k, x <> None ->
  (forall a, x = Some (Some a) -> comes_to_an_end (k a)) -> comes_to_an_end (prepared gz_enc outs x w k).
Proof. intros gz_enc A outs [[a|]|] w k N H; cbn; [apply H; reflexivity|apply stop; auto|congruence]. Qed.
Lemma prepared_quiet : forall gz_enc A outs (x : option (option A)) w k, x <> None ->
  (forall a, x = Some (Some a) -> ends_without_panic (k a)) -> ends_without_panic (prepared gz_enc outs x w k).
Proof. intros gz_enc A outs [[a|]|] w k N H; cbn; [apply H; reflexivity|apply stop_quietly; auto|congruence]. Qed.

Lemma open_all_end : forall gz_enc writable outs op w k, (forall w1, comes_to_an_end (k w1)) ->
  comes_to_an_end (open_all gz_enc writable op outs w k).
Proof.
  induction outs as [|o outs IH]; intros op w k H; cbn; [apply H|].
  destruct (open_output writable o (w_disk w)) as [d|]; [apply IH; exact H|apply stop; auto].
Qed.
Lemma open_all_quiet : forall gz_enc writable outs op w k, (forall w1, ends_without_panic (k w1)) ->
  ends_without_panic (open_all gz_enc writable op outs w k).
Proof.
  induction outs as [|o outs IH]; intros op w k H; cbn; [apply H|].
  destruct (open_output writable o (w_disk w)) as [d|]; [apply IH; exact H|apply stop_quietly; auto].
Qed.

Lemma failed_status : forall S (s : S) e, main_status (IFailed s e) = Some 0 \/ main_status (IFailed s e) = Some 2.
Proof. intros S s [p|[|]| |]; cbn; auto. Qed.

Section Process.
  Variable gz_enc : bytes -> bytes.
  Variable gz_dec : bytes -> list piece.
  Context {S : Type}.
  Variable outs : list (output * ((S -> bytes) * (S -> bytes))).
  Variable bad : S -> bool.
  Variable on_skip : S -> S.
  Variable body : S -> byte_record -> io_ending S.

  Lemma process_end : forall skip s names w, comes_to_an_end (process_all gz_enc gz_dec outs bad on_skip body skip s names w).
  Proof.
    intros skip s names w. unfold process_all.
    destruct (files_end on_skip body skip (inputs gz_dec (w_disk w) (w_stdin w) names) s) as [x ->].
    destruct x as [s'|s'|s' e|]; [| | |apply stop; auto].
    - apply stop. cbn. destruct (bad s'); auto.
    - apply stop. cbn. destruct (bad s'); auto.
    - destruct (failed_status S s' e) as [-> | ->]; apply stop; auto.
  Qed.

  Lemma process_quiet : forall I : S -> Prop, (forall s, I s -> I (on_skip s)) ->
    (forall s r, I s -> (exists b, br_from_bytes b = Some r) -> calm I (body s r)) ->
    forall skip s names w, I s -> ends_without_panic (process_all gz_enc gz_dec outs bad on_skip body skip s names w).
  Proof.
    intros I H1 H2 skip s names w Hs. unfold process_all.
    destruct (files_end on_skip body skip (inputs gz_dec (w_disk w) (w_stdin w) names) s) as [x E]. rewrite E.
    apply (files_calm on_skip body skip I H1 H2 _ _ _ Hs) in E.
    destruct x as [s'|s'|s' e|]; [| | |contradiction].
    - apply stop_quietly. cbn. destruct (bad s'); auto.
    - apply stop_quietly. cbn. destruct (bad s'); auto.
    - destruct (failed_status S s' e) as [-> | ->]; apply stop_quietly; auto.
  Qed.
End Process.

Section Live.
  Variable gz_dec : bytes -> list piece.
  Context {S : Type}.
  Variable view : S -> disk.
  Variable body : S -> byte_record -> io_ending S.

  Lemma live_files_end : forall skip names s stdin, exists x, live_files_loop gz_dec view body skip s stdin names = Some x.
  Proof.
    induction names as [|n names IH]; intros s stdin; cbn [live_files_loop]; [eauto|].
    destruct (files_end (fun s => s) body skip (inputs gz_dec (view s) stdin [n]) s) as [x ->]. destruct x; eauto.
  Qed.

  Lemma live_files_calm : forall I : S -> Prop, (forall s r, I s -> (exists b, br_from_bytes b = Some r) -> calm I (body s r)) ->
    forall skip names s stdin x, I s -> live_files_loop gz_dec view body skip s stdin names = Some x -> calm I x.
  Proof.
    intros I Q skip. induction names as [|n names IH]; intros s stdin x Hs H; cbn [live_files_loop] in H.
    - injection H as <-. exact Hs.
    - destruct (io_files_loop (fun s => s) body skip s (inputs gz_dec (view s) stdin [n])) as [y|] eqn:E; [|discriminate].
      apply (files_calm (fun s => s) body skip I (fun s h => h) Q _ _ _ Hs) in E.
      destruct y as [s'|s'|s' e|]; [exact (IH _ _ _ E H)| | |contradiction]; injection H as <-; exact Logic.I.
  Qed.

  Lemma live_end_ends : forall close skip names s stdin w,
    comes_to_an_end (live_end close (live_files_loop gz_dec view body skip s stdin names) w).
  Proof.
    intros close skip names s stdin w. destruct (live_files_end skip names s stdin) as [x ->]. unfold live_end.
    destruct x as [s'|s'|s' e|]; cbn [main_status]; [apply stop; auto|apply stop; auto| |apply stop; auto].
    destruct e as [p|[|]| |]; apply stop; auto.
  Qed.

  Lemma live_end_quiet : forall I : S -> Prop, (forall s r, I s -> (exists b, br_from_bytes b = Some r) -> calm I (body s r)) ->
    forall close skip names s stdin w, I s ->
    ends_without_panic (live_end close (live_files_loop gz_dec view body skip s stdin names) w).
  Proof.
    intros I Q close skip names s stdin w Hs. destruct (live_files_end skip names s stdin) as [x E]. rewrite E.
    apply (live_files_calm I Q _ _ _ _ _ Hs) in E. unfold live_end.
    destruct x as [s'|s'|s' e|]; cbn [main_status]; [apply stop_quietly; auto|apply stop_quietly; auto| |contradiction].
    destruct e as [p|[|]| |]; apply stop_quietly; auto.
  Qed.
End Live.

(** ** Preparation *)

Lemma first_total : forall Od a, filter_first Od a <> None.
Proof.
  intros Od a. unfold filter_first. pose proof (PrepareProofs.source_total Od fresh (fa_source a)) as T.
  destruct (fst (source_parse Od fresh (fa_source a))) as [[x|]|]; [|discriminate|congruence].
  destruct (parse_predicates (fa_discard a)); [|discriminate]. destruct (parse_predicates (fa_keep a)); [|discriminate].
  destruct (filter_set_build _ _ _ _); discriminate.
Qed.

Lemma opts_prepare_wf : forall O Od tr a o, regexes_compile O (oa_ci a) -> regexes_compile Od false ->
  fst (opts_prepare O Od tr a) = Some (Some o) -> opts_wf O Od o /\ fo_ci o = oa_ci a.
Proof.
  intros O Od tr a o R Rd H. destruct (PrepareProofs.opts_read O Od tr a o H) as (M & V & _ & P). split.
  - exact (proj1 (PrepareProofs.opts_prepared_holds O Od a M V o R Rd P)).
  - destruct P as (_ & _ & _ & E & _). exact E.
Qed.

Lemma filter_prepare_wf : forall O Od tr content a c, regexes_compile O (fa_ci a) -> regexes_compile Od false ->
  fst (filter_prepare O Od tr content a) = Some (Some c) -> filter_wf O Od c.
Proof.
  intros O Od tr content a c [R1 R2] [Rd1 Rd2] H.
  destruct (PrepareProofs.filter_read O Od tr content a c H) as (M & D & K & V & _ & (Sm & _ & _ & Cp & _ & Ec & _)).
  split.
  - exact (proj1 (path_checked_wf Od false Rd1 Rd2 _ Cp)).
  - rewrite Ec. apply fm_checked_wf; [assumption..|]. apply Sm.
Qed.

Lemma table_prepare_wf : forall O Od (T : text_fns) tr a o q, regexes_compile O (oa_ci (ta_opts a)) -> regexes_compile Od false ->
  fst (table_prepare O Od tr a) = Some (Some (o, q)) -> opts_wf O Od o /\ query_wf O (table_options a) q.
Proof.
  intros O Od T tr a o q R Rd H. destruct (table_read O Od T tr a o q H) as (M & V & Ms & _ & _ & P & Q). split.
  - exact (proj1 (PrepareProofs.opts_prepared_holds O Od _ M V o R Rd P)).
  - destruct Q as [_ Q]. apply (Q (table_options a) R).
Qed.

(** ** The bodies *)

Definition anything {S} (s : S) : Prop := True.

Lemma calm_any : forall S (x : io_ending S), x <> IPanicked -> calm anything x.
Proof. intros S [s|s|s e|] H; cbn; try exact I. congruence. Qed.

Lemma as_io_calm : forall S (x : step S), x <> Panic -> calm anything (as_io x).
Proof. intros S [s|s|s e|] H; cbn; try exact I. congruence. Qed.
Lemma with_refused_calm : forall S refused (x : step S), x <> Panic -> calm anything (with_refused refused x).
Proof. intros S refused [s|s|s e|] H; cbn; try exact I; [destruct (refused s); exact I|congruence]. Qed.

Lemma decided_some : forall sel P, decided sel P -> forall r, sel r <> None.
Proof. intros sel P D r. specialize (D r). destruct (decides_cases _ _ D) as [[-> _]|[-> _]]; discriminate. Qed.

Lemma guarded_calm : forall S sel (body : S -> byte_record -> step S), (forall r, sel r <> None) ->
  forall s r, body s r <> Panic -> guarded sel body s r <> Panic.
Proof.
  intros S sel body D s r H. unfold guarded. specialize (D (br_record r)).
  destruct (sel (br_record r)) as [[|]|]; [exact H|discriminate|congruence].
Qed.

Lemma ppn_some : forall O r, record_ppn O r <> None.
Proof. intros O r. destruct (ppn_identifiers O r) as (ids & _ & ->). discriminate. Qed.

Lemma opts_some : forall O Od o, opts_wf O Od o -> forall r, opts_select O Od o r <> None.
Proof. intros O Od o W. eapply decided_some. apply opts_decided. exact W. Qed.

(** ** The commands *)

Section Commands.
  Variable gz_enc : bytes -> bytes.
  Variable gz_dec : bytes -> list piece.
  Variable writable : bytes -> bool.
  Variables O Od : oracles.
  Variable transform : bytes -> bytes.
  Variable sha : bytes -> bytes.
  Variable lossy : bytes -> bytes.
  Variable T : text_fns.
  Variable rule_order : list (bytes * N) -> list (bytes * N).
  Variable link_order : list (bytes * list bytes) -> list (bytes * list bytes).
  Variable numeric : bytes -> bool.
  Variable hash : list bytes -> N.
  Variable freq_order : ftable -> ftable.
  Variable writer_order : list (bytes * bytes) -> list (bytes * bytes).
  Variable esc : bytes -> bytes.
  Variable tag_order : tag_counts -> tag_counts.
  Variable frame_text : frame_format -> list N * list (bytes * list N) -> bytes.

  Notation filter_on_disk := (filter_on_disk gz_enc gz_dec writable O Od transform).
  Notation concat_on_disk := (concat_on_disk gz_enc gz_dec writable O sha lossy).
  Notation count_on_disk := (count_on_disk gz_enc gz_dec writable O Od transform).
  Notation explode_on_disk := (explode_on_disk gz_enc gz_dec writable O Od transform).
  Notation check_on_disk := (check_on_disk gz_enc gz_dec writable O Od transform lossy T rule_order link_order).
  Notation hash_on_disk := (hash_on_disk gz_enc gz_dec writable O Od transform sha lossy numeric).
  Notation print_on_disk := (print_on_disk gz_enc gz_dec writable O Od transform).
  Notation slice_on_disk := (slice_on_disk gz_enc gz_dec writable O Od transform).
  Notation sample_on_disk := (sample_on_disk gz_enc gz_dec writable O Od transform).
  Notation select_on_disk := (select_on_disk gz_enc gz_dec writable O Od transform lossy T numeric hash).
  Notation freq_on_disk := (freq_on_disk gz_enc gz_dec writable O Od transform lossy T numeric freq_order).
  Notation split_on_disk := (split_on_disk gz_enc gz_dec writable O Od transform).
  Notation partition_on_disk := (partition_on_disk gz_enc gz_dec writable O Od transform lossy writer_order).
  Notation convert_on_disk := (convert_on_disk gz_enc gz_dec writable lossy esc).
  Notation invalid_on_disk := (invalid_on_disk gz_enc gz_dec writable).
  Notation describe_on_disk := (describe_on_disk gz_enc gz_dec writable O Od transform tag_order frame_text).

  Ltac ends := repeat (intros; cbv zeta; first
    [ apply process_end | apply live_end_ends | apply open_all_end
    | apply prepared_end; [first [discriminate|apply PrepareProofs.opts_total|apply table_total|apply first_total]|] ]); intros.
  Ltac quiet := repeat (intros; cbv zeta; first
    [ apply open_all_quiet
    | apply prepared_quiet; [first [discriminate|apply PrepareProofs.opts_total|apply table_total|apply first_total]|] ]); intros.
  Ltac calmly := apply (process_quiet _ _ _ _ _ _ anything); [intros; exact I| |exact I]; intros s r _ _.

  Lemma filter_ends : forall a append gzip output tee w, comes_to_an_end (filter_on_disk a append gzip output tee w).
  Proof.
    intros. unfold DiskModel.filter_on_disk. ends. destruct (wb_run _ _) as [b|]; [|apply stop; auto]. ends.
    apply prepared_end; [|ends]. destruct (expr_there _ _); [apply PrepareProofs.prepare_total|discriminate].
  Qed.
  Lemma filter_quiet : forall a append gzip output tee w, regexes_compile O (fa_ci a) -> regexes_compile Od false ->
    append && gzip = false -> ends_without_panic (filter_on_disk a append gzip output tee w).
  Proof.
    intros a append gzip output tee w R Rd G. unfold DiskModel.filter_on_disk. quiet.
    assert (Eb : wb_run wb_new [CAppend append; CGzip gzip] = Some (mkWB append gzip)) by (destruct append, gzip; try discriminate; reflexivity).
    rewrite Eb. quiet. apply prepared_quiet; [destruct (expr_there _ _); [apply PrepareProofs.prepare_total|discriminate]|].
    intros c E. destruct (expr_there a (w_disk w1)) in E; [|discriminate].
    apply filter_prepare_wf in E; [|assumption..]. calmly. apply as_io_calm. unfold filter_body. apply guarded_calm.
    - eapply decided_some. apply filter_decided. exact E.
    - destruct s as [[n o] t]. cbn. destruct (limit_reached _ _); discriminate.
  Qed.

  Lemma concat_ends : forall append output tee unique skip names w,
    comes_to_an_end (concat_on_disk append output tee unique skip names w).
  Proof. intros. unfold DiskModel.concat_on_disk. destruct (wb_run _ _) as [b|]; [|apply stop; auto]. ends. Qed.
  Lemma concat_quiet : forall append output tee unique skip names w, unique <> Some SIdn ->
    ends_without_panic (concat_on_disk append output tee unique skip names w).
  Proof.
    intros append output tee unique skip names w U. unfold DiskModel.concat_on_disk.
    assert (Eb : wb_run wb_new [CAppend append] = Some (mkWB append false)) by (destruct append; reflexivity). rewrite Eb. quiet.
    calmly. apply as_io_calm. destruct s as [[n o] t]. unfold concat_body.
    destruct unique as [[]|]; [congruence| |discriminate]. cbn. destruct (_ || _); discriminate.
  Qed.

  Lemma count_ends : forall a append output m skip names w, comes_to_an_end (count_on_disk a append output m skip names w).
  Proof. intros. unfold DiskModel.count_on_disk. ends. Qed.
  Lemma count_quiet : forall a append output m skip names w, regexes_compile O (oa_ci a) -> regexes_compile Od false ->
    ends_without_panic (count_on_disk a append output m skip names w).
  Proof.
    intros a append output m skip names w R Rd. unfold DiskModel.count_on_disk. quiet.
    apply opts_prepare_wf in H as [W _]; [|assumption..]. calmly. apply as_io_calm. apply guarded_calm; [apply opts_some; exact W|].
    destruct s as [[n o] t]. discriminate.
  Qed.

  Lemma explode_ends : forall a discard keep l gzip output skip names w,
    comes_to_an_end (explode_on_disk a discard keep l gzip output skip names w).
  Proof. intros. unfold DiskModel.explode_on_disk. ends. destruct (wb_run _ _) as [b|]; [|apply stop; auto]. ends. Qed.
  Lemma explode_quiet : forall a discard keep l gzip output skip names w, regexes_compile O (oa_ci a) -> regexes_compile Od false ->
    ends_without_panic (explode_on_disk a discard keep l gzip output skip names w).
  Proof.
    intros a discard keep l gzip output skip names w R Rd. unfold DiskModel.explode_on_disk. quiet.
    assert (Eb : wb_run wb_new [CGzip gzip] = Some (mkWB false gzip)) by (destruct gzip; reflexivity). rewrite Eb. quiet.
    apply opts_prepare_wf in H0 as [W _]; [|assumption..].
    apply (process_quiet _ _ _ _ _ _ anything); [intros; exact I| |exact I]. intros s r _ [b Hb].
    apply as_io_calm. unfold explode_body.
    assert (V : Forall valid_field (br_record r) /\ br_record r <> []).
    { unfold br_from_bytes in Hb. destruct (record_from_bytes b) as [fs|] eqn:E; [|discriminate]. injection Hb as <-. cbn.
      apply record_from_bytes_valid in E as [E1 E2]. split; assumption. }
    destruct V as [V Hne]. cbn [ex_level].
    destruct (process_exploded l (br_record r) V) as (ps & -> & X).
    assert (G : Forall good_part ps).
    { apply Forall_forall. intros p Hp. destruct (exploded_In _ _ _ Hne X p Hp) as [H1 H2]. split; [exact H1|].
      apply Forall_forall. intros f Hf. rewrite Forall_forall in V. apply V. apply H2. exact Hf. }
    clear X. revert s. induction G as [|p ps G _ IH]; intros s; cbn [for_each]; [discriminate|].
    unfold explode_part at 1. rewrite (part_from_bytes _ G). unfold guarded at 1. cbn [br_record ex_opts].
    assert (D := opts_some O Od a1 W p). destruct (opts_select O Od a1 p) as [[|]|]; [|apply IH|congruence].
    destruct s as [n o]. destruct (limit_reached _ _); [discriminate|apply IH].
  Qed.

  Lemma hash_ends : forall a output tsv header skip names w, comes_to_an_end (hash_on_disk a output tsv header skip names w).
  Proof. intros. unfold DiskModel.hash_on_disk. ends. Qed.
  Lemma hash_quiet : forall a output tsv header skip names w, regexes_compile O (oa_ci a) -> regexes_compile Od false ->
    ends_without_panic (hash_on_disk a output tsv header skip names w).
  Proof.
    intros a output tsv header skip names w R Rd. unfold DiskModel.hash_on_disk. quiet.
    apply opts_prepare_wf in H as [W _]; [|assumption..]. calmly. apply with_refused_calm. apply guarded_calm; [apply opts_some; exact W|].
    destruct s as [[n o] t]. assert (P := ppn_some O (br_record r)). destruct (record_ppn O (br_record r)); [|congruence].
    cbv zeta. destruct (csv_write _ _); [destruct (limit_reached _ _)|]; discriminate.
  Qed.

  Lemma print_ends : forall a nf output skip names w, comes_to_an_end (print_on_disk a nf output skip names w).
  Proof. intros. unfold DiskModel.print_on_disk. ends. Qed.

  Lemma slice_ends : forall a gzip append output start end_ length skip names w,
    comes_to_an_end (slice_on_disk a gzip append output start end_ length skip names w).
  Proof. intros. unfold DiskModel.slice_on_disk. ends. destruct (wb_run _ _) as [b|]; [|apply stop; auto]. ends. Qed.
  Lemma slice_quiet : forall a gzip append output start end_ length skip names w,
    regexes_compile O (oa_ci a) -> regexes_compile Od false -> append && gzip = false ->
    ends_without_panic (slice_on_disk a gzip append output start end_ length skip names w).
  Proof.
    intros a gzip append output start end_ length skip names w R Rd G. unfold DiskModel.slice_on_disk. quiet.
    assert (Eb : wb_run wb_new [CGzip gzip; CAppend append] = Some (mkWB append gzip)) by (destruct append, gzip; try discriminate; reflexivity).
    rewrite Eb. quiet.
    apply opts_prepare_wf in H as [W _]; [|assumption..]. calmly. apply as_io_calm. unfold slice_body.
    assert (D := opts_some O Od _ W (br_record r)). destruct (opts_select _ _ _ _) as [[|]|]; [|discriminate|congruence].
    destruct ((start <=? _) && _); [cbv zeta; destruct (limit_reached _ _); discriminate|]. destruct (_ <? _); discriminate.
  Qed.

  Lemma sample_ends : forall a gzip output draw size skip names w,
    comes_to_an_end (sample_on_disk a gzip output draw size skip names w).
  Proof. intros. unfold DiskModel.sample_on_disk. ends. destruct (wb_run _ _) as [b|]; [|apply stop; auto]. ends. Qed.
  Lemma sample_quiet : forall a gzip output draw size skip names w, regexes_compile O (oa_ci a) -> regexes_compile Od false ->
    ends_without_panic (sample_on_disk a gzip output draw size skip names w).
  Proof.
    intros a gzip output draw size skip names w R Rd. unfold DiskModel.sample_on_disk. quiet.
    assert (Eb : wb_run wb_new [CGzip gzip] = Some (mkWB false gzip)) by (destruct gzip; reflexivity). rewrite Eb. quiet.
    apply opts_prepare_wf in H as [W _]; [|assumption..]. calmly. apply as_io_calm. apply guarded_calm; [apply opts_some; exact W|].
    destruct s as [n o]. cbv zeta. destruct (limit_reached _ _); discriminate.
  Qed.

  Lemma select_ends : forall a unique no_empty nf q tsv append output skip names w,
    comes_to_an_end (select_on_disk a unique no_empty nf q tsv append output skip names w).
  Proof. intros. unfold DiskModel.select_on_disk. ends. Qed.
  Lemma select_quiet : forall a unique no_empty nf q tsv append output skip names w,
    regexes_compile O (oa_ci (ta_opts a)) -> regexes_compile Od false ->
    ends_without_panic (select_on_disk a unique no_empty nf q tsv append output skip names w).
  Proof.
    intros a unique no_empty nf q tsv append output skip names w R Rd. unfold DiskModel.select_on_disk. quiet.
    destruct a0 as [o q0]. apply (table_prepare_wf _ _ T) in H as [W Wq]; [|assumption..]. calmly. apply with_refused_calm.
    apply guarded_calm; [apply opts_some; exact W|]. cbn [se_qo se_query snd].
    destruct (query_rows_exist O T _ _ r Wq) as (rows & -> & _). cbv zeta. destruct (sel_failed _); [discriminate|].
    destruct (limit_reached _ _); discriminate.
  Qed.

  Lemma freq_ends : forall a unique num threshold reverse nf tsv output skip names w,
    comes_to_an_end (freq_on_disk a unique num threshold reverse nf tsv output skip names w).
  Proof. intros. unfold DiskModel.freq_on_disk. ends. Qed.
  Lemma freq_quiet : forall a unique num threshold reverse nf tsv output skip names w,
    regexes_compile O (oa_ci (ta_opts a)) -> regexes_compile Od false ->
    ends_without_panic (freq_on_disk a unique num threshold reverse nf tsv output skip names w).
  Proof.
    intros a unique num threshold reverse nf tsv output skip names w R Rd. unfold DiskModel.freq_on_disk. quiet.
    destruct a0 as [o q0]. apply (table_prepare_wf _ _ T) in H as [W Wq]; [|assumption..]. calmly. apply as_io_calm.
    apply guarded_calm; [apply opts_some; exact W|]. cbn [fq_qo fq_query snd].
    destruct (query_rows_exist O T _ _ r Wq) as (rows & -> & _). cbv zeta. destruct (limit_reached _ _); discriminate.
  Qed.

  Lemma check_ends : forall a rules output skip names w, comes_to_an_end (check_on_disk a rules output skip names w).
  Proof. intros. unfold DiskModel.check_on_disk. ends. Qed.
  Lemma check_quiet : forall a rules output skip names w,
    (forall v, lossy v = [] <-> v = []) -> (forall l, Permutation (rule_order l) l) ->
    regexes_compile O (oa_ci a) -> regexes_compile Od false -> (forall sets, rules = Some sets -> Forall (set_wf Od) sets) ->
    ends_without_panic (check_on_disk a rules output skip names w).
  Proof.
    intros a rules output skip names w L Pr R Rd Ws. unfold DiskModel.check_on_disk. quiet.
    apply opts_prepare_wf in H as [W _]; [|assumption..]. injection H0 as H0. specialize (Ws _ H0).
    apply (process_quiet _ _ _ _ _ _ (fun s => exists x, s = state_of Od T lossy rule_order a1 x)).
    - intros s Hs. exact Hs.
    - intros s r [x ->] _. rewrite check_body_act by assumption. unfold guarded.
      assert (D := opts_some O Od _ W (br_record r)). destruct (opts_select _ _ _ _) as [[|]|]; [|cbn; eauto|congruence].
      destruct (limit_reached _ _); cbn; eauto.
    - exists (0, [], []). cbn. f_equal. f_equal. clear. induction a1 as [|rs sets IH]; cbn; [reflexivity|]. rewrite set_after_nil. congruence.
  Qed.

  Lemma split_ends : forall a gzip outdir dir_ok template size skip names w,
    comes_to_an_end (split_on_disk a gzip outdir dir_ok template size skip names w).
  Proof.
    intros. unfold DirModel.split_on_disk. ends. destruct dir_ok; [|apply stop; auto]. cbv zeta.
    destruct (open_output _ _ _) as [d|]; [|apply stop; auto]. ends.
  Qed.
  Lemma split_quiet : forall a gzip outdir dir_ok template size skip names w, regexes_compile O (oa_ci a) -> regexes_compile Od false ->
    ends_without_panic (split_on_disk a gzip outdir dir_ok template size skip names w).
  Proof.
    intros a gzip outdir dir_ok template size skip names w R Rd. unfold DirModel.split_on_disk. quiet.
    apply opts_prepare_wf in H as [W _]; [|assumption..]. destruct dir_ok; [|apply stop_quietly; auto]. cbv zeta.
    destruct (open_output _ _ _) as [d|]; [|apply stop_quietly; auto].
    apply (live_end_quiet _ _ _ anything); [|exact I]. intros s r _ _. apply calm_any. unfold split_disk_body, io_guarded.
    assert (D := opts_some O Od _ W (br_record r)). destruct (opts_select _ _ _ _) as [[|]|]; [|discriminate|congruence].
    cbv zeta. destruct (_ && _); [destruct (open_output _ _ _) as [d'|]; [|discriminate]|]; destruct (limit_reached _ _); discriminate.
  Qed.

  Lemma partition_ends : forall a p gzip outdir dir_ok template skip names w,
    comes_to_an_end (partition_on_disk a p gzip outdir dir_ok template skip names w).
  Proof. intros. unfold DirModel.partition_on_disk. ends. destruct dir_ok; [|apply stop; auto]. ends. Qed.
  Lemma partition_quiet : forall a p gzip outdir dir_ok template skip names w, regexes_compile O (oa_ci a) -> regexes_compile Od false ->
    path_wf O (oa_ci a) p -> ends_without_panic (partition_on_disk a p gzip outdir dir_ok template skip names w).
  Proof.
    intros a p gzip outdir dir_ok template skip names w R Rd [Wp _]. unfold DirModel.partition_on_disk. quiet.
    apply opts_prepare_wf in H as [W Ec]; [|assumption..]. destruct dir_ok; [|apply stop_quietly; auto]. cbv zeta.
    apply (live_end_quiet _ _ _ anything); [|exact I]. intros s r _ _. apply calm_any. unfold partition_disk_body, io_guarded.
    assert (D := opts_some O Od _ W (br_record r)). destruct (opts_select _ _ _ _) as [[|]|]; [|discriminate|congruence].
    rewrite Ec. destruct (record_path_lists O (oa_ci a) p (br_record r) Wp) as (vs & -> & _).
    destruct (part_disk_values _ _ _ _ _) as [s' [[|]|]]; discriminate.
  Qed.

  Lemma convert_ends : forall from to output skip names w, comes_to_an_end (convert_on_disk from to output skip names w).
  Proof. intros. unfold DirModel.convert_on_disk. destruct from; try (apply stop; auto; fail). ends. Qed.
  Lemma convert_quiet : forall from to output skip names w, to <> TXml -> ends_without_panic (convert_on_disk from to output skip names w).
  Proof.
    intros from to output skip names w N. unfold DirModel.convert_on_disk. destruct from; try (apply stop_quietly; auto; fail). quiet.
    calmly. apply as_io_calm. unfold convert_body. destruct to; cbn; congruence.
  Qed.

  Lemma invalid_quiet : forall output names w, ends_without_panic (invalid_on_disk output names w).
  Proof.
    intros. unfold DirModel.invalid_on_disk. quiet. destruct (invalid_ends (inputs gz_dec (w_disk w1) (w_stdin w1) names) []) as (x & -> & N).
    destruct x as [s'|s'|s' e|]; cbn [main_status]; [apply stop_quietly; auto|apply stop_quietly; auto| |congruence].
    destruct e as [p|[|]| |]; apply stop_quietly; auto.
  Qed.

  Lemma invalid_command_ends : forall output names w, comes_to_an_end (invalid_on_disk output names w).
  Proof.
    intros. destruct (invalid_quiet output names w) as (c & w1 & E & H). rewrite E. apply stop. destruct H as [H|[H|H]]; auto.
  Qed.

  Lemma describe_ends : forall a discard keep csv tsv output skip names w,
    comes_to_an_end (describe_on_disk a discard keep csv tsv output skip names w).
  Proof.
    intros. unfold DirModel.describe_on_disk. ends.
    match goal with |- context [io_files_loop ?f ?b ?k ?s ?l] => destruct (files_end f b k l s) as [x ->] end.
    destruct x as [s'|s'|s' e|]; cbn [main_status];
      [destruct (open_output _ _ _); apply stop; auto|destruct (open_output _ _ _); apply stop; auto| |apply stop; auto].
    destruct e as [p|[|]| |]; apply stop; auto.
  Qed.
  Lemma describe_quiet : forall a discard keep csv tsv output skip names w, regexes_compile O (oa_ci a) -> regexes_compile Od false ->
    ends_without_panic (describe_on_disk a discard keep csv tsv output skip names w).
  Proof.
    intros a discard keep csv tsv output skip names w R Rd. unfold DirModel.describe_on_disk. quiet.
    apply opts_prepare_wf in H0 as [W _]; [|assumption..].
    match goal with |- context [io_files_loop ?f ?b ?k ?s ?l] => destruct (files_end f b k l s) as [x E] end.
    rewrite E. apply (files_calm _ _ _ anything) in E; [|intros; exact I| |exact I].
    - destruct x as [s'|s'|s' e|]; cbn [main_status];
        [destruct (open_output _ _ _); apply stop_quietly; auto|destruct (open_output _ _ _); apply stop_quietly; auto| |contradiction].
      destruct e as [p|[|]| |]; apply stop_quietly; auto.
    - intros s r _ _. apply as_io_calm. apply guarded_calm; [apply opts_some; exact W|]. cbv zeta. destruct (limit_reached _ _); discriminate.
  Qed.
End Commands.

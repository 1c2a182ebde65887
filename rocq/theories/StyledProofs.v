(** * Proofs about delimiters and quotes of tables *)

From Coq Require Import String ZArith Lia.
From Verif Require Import Bytes BaseProofs Winnow RecordModel TagOccModel Utf8Model ByteRecordModel ReaderModel
  MatcherModel StateParser MatcherParserModel BuilderModel PathModel FmtModel QueryModel CliModel TableModel
  ExplodeModel CheckModel ConvertModel CsvModel CsvSpec CsvProofs OptionsModel OptionsSpec ConfigModel PrepareModel IoModel IoSpec WriteSpec DiskModel DirModel RuleModel
  MainModel DiskSpec RuleSpec MainSpec PipeSpec FrontRunProofs PartsSpec TitledProofs FewerProofs TopmostProofs.
From Verif Require RunSpec RunProofs.

Definition sound (a b : select_state) : Prop := a = b /\ sel_failed a = false /\ cells_there (sel_rows a).

Lemma write_there : forall rows row out, cells_there rows -> row <> [] -> csv_write rows row = Some out -> cells_there out.
Proof.
  intros rows row out H Hr E. assert (out = rows ++ [row]) as ->.
  { destruct rows as [|r0 rows]; cbn [csv_write] in E; [injection E as <-; reflexivity|]. destruct (_ =? _)%nat; [|discriminate]. injection E as <-. reflexivity. }
  apply Forall_app. split; [exact H|constructor; [exact Hr|constructor]].
Qed.

Lemma sound_loop : forall lossy hash c rows a, sel_failed a = false -> cells_there (sel_rows a) ->
  sel_failed (select_loop lossy hash c rows a) = true \/ sel_failed (select_loop lossy hash c rows a) = false /\ cells_there (sel_rows (select_loop lossy hash c rows a)).
Proof.
  intros lossy hash c. induction rows as [|row rows IH]; intros a F H; [right; auto|]. cbn [select_loop]. cbv zeta.
  destruct (_ && _); [apply IH; assumption|]. destruct (_ && _); [apply IH; assumption|].
  destruct (negb _) eqn:En; [|apply IH; assumption].
  destruct (csv_write (sel_rows a) (select_fields lossy c row)) as [out|] eqn:Ew; [|left; reflexivity].
  apply IH; [exact F|]. cbn [sel_rows]. eapply write_there; [exact H| |exact Ew].
  apply not_nil_row in En. unfold select_fields. destruct row; [contradiction|]. destruct (se_nf c); discriminate.
Qed.

Lemma header_there : forall h : option bytes, cells_there (csv_header (option_map (fun h => map str_trim (split_on 44 h)) h)).
Proof.
  intros [h|]; cbn [option_map csv_header]; [|constructor]. constructor; [|constructor]. intros X. apply map_eq_nil in X.
  destruct h as [|b h]; cbn [split_on] in X; [discriminate|]. destruct (b =? 44); [discriminate|]. destruct (split_on 44 h); discriminate.
Qed.

Lemma run_styled : forall e cfg w o q s squash merge h unique no_empty nf q1 q2 tsv1 tsv2 names t, q1 <> QNever -> q2 <> QNever ->
  (forall v, e_numeric e v = true -> Forall (plain_byte 44) v /\ Forall (plain_byte 9) v) ->
  run_writes e cfg w (KSelect o (mkColumns q s squash merge h) unique no_empty nf q1 tsv1 false None names) t ->
  exists rows t', csv_rows (if tsv1 : bool then 9 else 44) rows t /\ csv_rows (if tsv2 : bool then 9 else 44) rows t'
    /\ run_writes e cfg w (KSelect o (mkColumns q s squash merge h) unique no_empty nf q2 tsv2 false None names) t'.
Proof.
  intros e cfg w o q s squash merge h unique no_empty nf q1 q2 tsv1 tsv2 names t Hq1 Hq2 Hv (w1 & H & T).
  assert (Hv1 : forall v, e_numeric e v = true -> Forall (plain_byte (if tsv1 : bool then 9 else 44)) v) by (intros v X; destruct tsv1; apply Hv; exact X).
  assert (Hv2 : forall v, e_numeric e v = true -> Forall (plain_byte (if tsv2 : bool then 9 else 44)) v) by (intros v X; destruct tsv2; apply Hv; exact X).
  destruct (fun X => RunProofs.run_ended _ _ _ _ _ X H) as (cf & Hset & He); [reflexivity|].
  set (k2 := KSelect o (mkColumns q s squash merge h) unique no_empty nf q2 tsv2 false None names).
  assert (RS := RunProofs.run_settings e (mkInvocation cfg k2) w cf eq_refl (settings_same e cfg _ k2 w w cf eq_refl Hset)).
  unfold run_writes. rewrite RS. cbn [in_command k2 execute] in *. unfold select_on_disk in *. cbv zeta in *.
  set (a2 := load_columns e (w_disk w) o (mkColumns q s squash merge h)) in *.
  destruct (fst (table_prepare _ _ _ a2)) as [[[op qu]|]|]; [|discriminate|discriminate]. cbn [prepared] in *.
  cbn [open_all open_output out_name app] in *. rewrite world_eta in *. unfold process_all in *. cbn [fst snd se_header] in *.
  assert (Hh : cells_there (csv_header (table_header a2))) by exact (header_there h).
  set (c := mkSelect qu (table_options a2) unique no_empty (table_header a2) (option_map (e_nf e) nf)) in *.
  match type of He with context [io_files_loop _ ?b ?k ?s0 ?fs] => set (b1 := b) in *; set (files := fs) in *; set (sk := k) in *; set (s1 := s0) in * end.
  assert (HR : forall x y r, sound x y -> follows sound (b1 x r) (b1 y r)).
  { intros x y r Hxy. apply fewer_body; auto.
    - intros x0 y0 (-> & X & _). auto.
    - intros x0 y0 (-> & _ & X). unfold sound. cbn. auto.
    - intros rows x0 y0 (-> & X & Y). destruct (sound_loop (e_lossy e) (e_hash e) c rows y0 X Y) as [Z|[Z Z']]; [left; exact Z|right; unfold sound; auto]. }
  destruct (io_files_loop (fun s => s) b1 sk s1 files) as [x|] eqn:E; [|discriminate].
  assert (Hx : main_status x = Some 0).
  { destruct x as [s0|s0|s0 er|]; cbn [main_status] in *; try reflexivity; [|discriminate]. destruct er as [|[]| |]; try discriminate; reflexivity. }
  destruct (files_follow sound b1 b1 sk HR files s1 s1 x) as (y & Ey & F); [unfold sound; cbn; auto|exact E|exact Hx|].
  destruct x as [u|u|u er|]; cbn [follows] in F; [| |specialize (F Hx)|discriminate]; destruct F as (v & _ & _ & _ & C); exists (sel_rows u).
  3: rewrite Hx in *.
  all: cbn [main_status] in *; injection He as <-; cbn [map fst snd close_all close_output out_name with_disk w_stdout] in T |- *.
  all: exists (csv_text (e_numeric e) q2 (csv_delim tsv2) (sel_rows u)).
  all: apply app_inv_head in T; rewrite <- T; (split; [exact (csv_text_rows _ _ _ Hq1 Hv1 _ C)|]); (split; [exact (csv_text_rows _ _ _ Hq2 Hv2 _ C)|]).
  all: eexists; split; [reflexivity|reflexivity].
Qed.

Lemma freq_there : forall lossy c l i rs, cells_there rs -> cells_there (fst (freq_write lossy c i l rs)).
Proof.
  intros lossy c. induction l as [|x l IH]; intros i rs H; cbn [freq_write]; [exact H|].
  destruct (_ && _); [exact H|]. destruct (snd x <? fq_threshold c); [exact H|].
  destruct (csv_write rs (freq_row lossy c x)) as [out|] eqn:E; [|exact H]. apply IH. eapply write_there; [exact H| |exact E].
  unfold freq_row. intros X. apply app_eq_nil in X. destruct X as [_ X]. discriminate.
Qed.

Lemma run_freq_styled : forall e cfg w o q s squash merge h unique num threshold reverse nf tsv1 tsv2 names t,
  (forall v, e_numeric e v = true -> Forall (plain_byte 44) v /\ Forall (plain_byte 9) v) ->
  run_writes e cfg w (KFrequency o (mkColumns q s squash merge h) unique num threshold reverse nf tsv1 None names) t ->
  exists rows t', csv_rows (if tsv1 : bool then 9 else 44) rows t /\ csv_rows (if tsv2 : bool then 9 else 44) rows t'
    /\ run_writes e cfg w (KFrequency o (mkColumns q s squash merge h) unique num threshold reverse nf tsv2 None names) t'.
Proof.
  intros e cfg w o q s squash merge h unique num threshold reverse nf tsv1 tsv2 names t Hv (w1 & H & T).
  assert (Hq : QNecessary <> QNever) by discriminate.
  assert (Hv1 : forall v, e_numeric e v = true -> Forall (plain_byte (if tsv1 : bool then 9 else 44)) v) by (intros v X; destruct tsv1; apply Hv; exact X).
  assert (Hv2 : forall v, e_numeric e v = true -> Forall (plain_byte (if tsv2 : bool then 9 else 44)) v) by (intros v X; destruct tsv2; apply Hv; exact X).
  destruct (fun X => RunProofs.run_ended _ _ _ _ _ X H) as (cf & Hset & He); [reflexivity|].
  set (k2 := KFrequency o (mkColumns q s squash merge h) unique num threshold reverse nf tsv2 None names).
  assert (RS := RunProofs.run_settings e (mkInvocation cfg k2) w cf eq_refl (settings_same e cfg _ k2 w w cf eq_refl Hset)).
  unfold run_writes. rewrite RS. cbn [in_command k2 execute] in *. unfold freq_on_disk in *. cbv zeta in *.
  set (a2 := load_columns e (w_disk w) o (mkColumns q s squash merge h)) in *.
  destruct (fst (table_prepare _ _ _ a2)) as [[[op qu]|]|]; [|discriminate|discriminate]. cbn [prepared] in *.
  cbn [open_all open_output out_name app] in *. rewrite world_eta in *. unfold process_all in *. cbn [fst snd] in *.
  assert (Hh : cells_there (csv_header (table_header a2))) by exact (header_there h).
  set (c := mkFreq qu (table_options a2) unique num threshold reverse (table_header a2) (translit e nf)) in *.
  destruct (io_files_loop _ _ _ _ _) as [x|]; [|discriminate].
  destruct x as [u|u|u er|]; [| | |discriminate].
  1, 2: cbn [main_status] in *; assert (C : cells_there (fst (freq_output (e_lossy e) (e_freq_order e) c (snd u)))) by (apply freq_there; exact Hh);
    exists (fst (freq_output (e_lossy e) (e_freq_order e) c (snd u))), (csv_text (e_numeric e) QNecessary (csv_delim tsv2) (fst (freq_output (e_lossy e) (e_freq_order e) c (snd u))));
    destruct (snd (freq_output (e_lossy e) (e_freq_order e) c (snd u))); [discriminate|]; injection He as <-;
    cbn [map fst snd close_all close_output out_name with_disk w_stdout] in T |- *; apply app_inv_head in T; rewrite <- T;
    (split; [exact (csv_text_rows _ _ _ Hq Hv1 _ C)|]); (split; [exact (csv_text_rows _ _ _ Hq Hv2 _ C)|]); eexists; split; reflexivity.
  exists [], []. destruct (main_status (IFailed u er)); [|discriminate]. injection He as -> <-. cbn [map fst snd close_all close_output out_name with_disk w_stdout] in T |- *.
  apply app_inv_head in T. rewrite <- T. split; [constructor|]. split; [constructor|]. eexists. split; reflexivity.
Qed.

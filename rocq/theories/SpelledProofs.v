(** * Proofs about tables with transliterated cells *)

From Coq Require Import String ZArith Lia.
From Verif Require Import Bytes BaseProofs Winnow RecordModel TagOccModel Utf8Model ByteRecordModel ReaderModel
  MatcherModel StateParser MatcherParserModel BuilderModel PathModel FmtModel QueryModel CliModel TableModel
  ExplodeModel CheckModel ConvertModel CsvModel CsvSpec CsvProofs OptionsModel OptionsSpec ConfigModel PrepareModel IoModel IoSpec WriteSpec DiskModel DirModel RuleModel
  MainModel DiskSpec RuleSpec MainSpec PipeSpec FrontRunProofs PartsSpec TitledProofs FewerProofs FrequencyProofs TopmostProofs StyledProofs.
From Verif Require RunSpec RunProofs.

Section Spell.
  Variable lossy : bytes -> bytes.
  Variable hash : list bytes -> N.
  Variable f : bytes -> bytes.
  Variables c1 c2 : select_cmd.
  Hypothesis E1 : se_nf c1 = None.
  Hypothesis E2 : se_nf c2 = Some f.
  Hypothesis Eu : se_unique c1 = se_unique c2.
  Hypothesis Ee : se_no_empty c1 = se_no_empty c2.

  Definition spelled (a b : select_state) : Prop :=
    (sel_count a = sel_count b /\ sel_failed a = false /\ sel_failed b = false) /\ sel_seen a = sel_seen b
    /\ sel_rows b = map (map (fun v => f (lossy v))) (sel_rows a) /\ cells_there (sel_rows a).

  Lemma spelled_loop : forall rows a b, spelled a b ->
    sel_failed (select_loop lossy hash c1 rows a) = true \/ spelled (select_loop lossy hash c1 rows a) (select_loop lossy hash c2 rows b).
  Proof.
    induction rows as [|row rows IH]; intros a b H; [right; exact H|]. cbn [select_loop]. cbv zeta. rewrite Eu, Ee.
    destruct H as ((H1 & H2 & H3) & H4 & H5 & H6). rewrite H4.
    assert (S : spelled a b) by (unfold spelled; auto).
    destruct (_ && _); [apply IH; exact S|]. destruct (_ && _); [apply IH; exact S|].
    destruct (negb _) eqn:En; [|apply IH; unfold spelled; cbn; auto].
    unfold select_fields. rewrite E1, E2, H5. apply not_nil_row in En.
    destruct (sel_rows a) as [|r0 rs] eqn:Er; cbn [map csv_write].
    - apply IH. unfold spelled. cbn. repeat (split; [auto|]). constructor; [exact En|constructor].
    - rewrite !map_length. destruct (_ =? _)%nat; [|left; reflexivity].
      apply IH. unfold spelled. cbn [sel_count sel_failed sel_seen sel_rows]. split; [auto|]. split; [reflexivity|]. split; [|apply (Forall_app _ (r0 :: rs) [row]); auto].
      change (r0 :: rs ++ [row]) with ((r0 :: rs) ++ [row]). rewrite map_app. reflexivity.
  Qed.
End Spell.

Lemma mapped_there : forall (f : bytes -> bytes) rows, cells_there rows -> cells_there (map (map f) rows).
Proof.
  intros f rows H. apply Forall_forall. intros r Hr. apply in_map_iff in Hr. destruct Hr as (x & <- & Hx). intros X. apply map_eq_nil in X.
  exact (proj1 (Forall_forall _ _) H x Hx X).
Qed.

Lemma run_spelled : forall e cfg w o q s squash merge unique no_empty nf quote tsv names t, quote <> QNever ->
  (forall v, e_numeric e v = true -> Forall (plain_byte (if tsv : bool then 9 else 44)) v) ->
  run_writes e cfg w (KSelect o (mkColumns q s squash merge None) unique no_empty None quote tsv false None names) t ->
  exists rows t', csv_rows (if tsv then 9 else 44) rows t /\ csv_rows (if tsv then 9 else 44) (map (map (fun v => e_nf e nf (e_lossy e v))) rows) t'
    /\ run_writes e cfg w (KSelect o (mkColumns q s squash merge None) unique no_empty (Some nf) quote tsv false None names) t'.
Proof.
  intros e cfg w o q s squash merge unique no_empty nf quote tsv names t Hq Hv (w1 & H & T).
  destruct (fun X => RunProofs.run_ended _ _ _ _ _ X H) as (cf & Hset & He); [reflexivity|].
  set (k2 := KSelect o (mkColumns q s squash merge None) unique no_empty (Some nf) quote tsv false None names).
  assert (RS := RunProofs.run_settings e (mkInvocation cfg k2) w cf eq_refl (settings_same e cfg _ k2 w w cf eq_refl Hset)).
  unfold run_writes. rewrite RS. cbn [in_command k2 execute option_map] in *. unfold select_on_disk in *. cbv zeta in *.
  set (a2 := load_columns e (w_disk w) o (mkColumns q s squash merge None)) in *.
  destruct (fst (table_prepare _ _ _ a2)) as [[[op qu]|]|]; [|discriminate|discriminate]. cbn [prepared] in *.
  cbn [open_all open_output out_name app] in *. rewrite world_eta in *. unfold process_all in *. cbn [fst snd] in *. change (table_header a2) with (@None (list bytes)) in *.
  cbn [se_header csv_header] in *.
  match type of He with context [io_files_loop _ ?b ?k ?s0 ?fs] => set (b1 := b) in *; set (files := fs) in *; set (sk := k) in *; set (s1 := s0) in * end.
  match goal with |- context [io_files_loop _ ?b _ s1 _] => set (b2 := b) in * end.
  set (R := spelled (e_lossy e) (e_nf e nf)).
  assert (HR : forall x y r, R x y -> follows R (b1 x r) (b2 y r)).
  { intros x y r Hxy. apply fewer_body; auto.
    - intros x0 y0 (X & _). exact X.
    - intros x0 y0 ((X1 & X2 & X3) & X). unfold R, spelled. cbn. rewrite X1. auto.
    - intros rows x0 y0 X. apply spelled_loop; auto. }
  destruct (io_files_loop (fun s => s) b1 sk s1 files) as [x|] eqn:E; [|discriminate].
  assert (Hx : main_status x = Some 0).
  { destruct x as [s0|s0|s0 er|]; cbn [main_status] in *; try reflexivity; [|discriminate]. destruct er as [|[]| |]; try discriminate; reflexivity. }
  destruct (files_follow R b1 b2 sk HR files s1 s1 x) as (y & Ey & F); [unfold R, spelled; cbn; repeat (split; [auto|]); constructor|exact E|exact Hx|]. rewrite Ey.
  destruct x as [u|u|u er|]; cbn [follows] in F; [| |specialize (F Hx)|discriminate]; destruct F as (v & -> & _ & _ & Ev & C); exists (sel_rows u).
  3: rewrite Hx in He; change (main_status (IFailed u er)) with (main_status (IFailed v er)) in Hx; rewrite Hx.
  all: cbn [main_status] in *; injection He as <-; cbn [map fst snd close_all close_output out_name with_disk w_stdout] in T |- *.
  all: exists (csv_text (e_numeric e) quote (csv_delim tsv) (sel_rows v)); apply app_inv_head in T; rewrite <- T, <- Ev.
  all: (split; [exact (csv_text_rows _ _ _ Hq Hv _ C)|]); (split; [apply (csv_text_rows _ _ _ Hq Hv); rewrite Ev; apply mapped_there; exact C|]).
  all: eexists; split; reflexivity.
Qed.

Lemma freq_spelled : forall lossy c1 c2 l i es out, fq_num c1 = fq_num c2 -> fq_threshold c1 = fq_threshold c2 ->
  freq_write lossy c1 i l (map (freq_row lossy c1) es) = (out, false) ->
  exists es', out = map (freq_row lossy c1) es' /\ freq_write lossy c2 i l (map (freq_row lossy c2) es) = (map (freq_row lossy c2) es', false).
Proof.
  intros lossy c1 c2. induction l as [|x l IH]; intros i es out E1 E2 H; cbn [freq_write] in *.
  - injection H as <-. exists es. auto.
  - rewrite <- E1, <- E2. destruct (_ && _); [injection H as <-; exists es; auto|]. destruct (snd x <? fq_threshold c1); [injection H as <-; exists es; auto|].
    assert (W : forall c, map (freq_row lossy c) es ++ [freq_row lossy c x] = map (freq_row lossy c) (es ++ [x])) by (intros c; rewrite map_app; reflexivity).
    assert (L : forall y, length (freq_row lossy c1 y) = length (freq_row lossy c2 y)) by (intros y; unfold freq_row; rewrite !app_length, !map_length; reflexivity).
    destruct es as [|y es].
    + cbn [map csv_write] in *. exact (IH _ [x] _ E1 E2 H).
    + cbn [map csv_write] in H |- *. rewrite <- !L. destruct (_ =? _)%nat; [|discriminate].
      pose proof (W c1) as W1. pose proof (W c2) as W2. cbn [map] in W1, W2. rewrite W1 in H. rewrite W2. exact (IH _ _ _ E1 E2 H).
Qed.

Lemma run_freq_spelled : forall e cfg w o q s squash merge unique num threshold reverse nf tsv names t,
  (forall v, e_numeric e v = true -> Forall (plain_byte (if tsv : bool then 9 else 44)) v) ->
  run_writes e cfg w (KFrequency o (mkColumns q s squash merge None) unique num threshold reverse None tsv None names) t ->
  exists l t', csv_rows (if tsv then 9 else 44) (map (fun x => fst x ++ [dec (snd x)]) l) t
    /\ csv_rows (if tsv then 9 else 44) (map (fun x => map (e_nf e nf) (fst x) ++ [dec (snd x)]) l) t'
    /\ run_writes e cfg w (KFrequency o (mkColumns q s squash merge None) unique num threshold reverse (Some nf) tsv None names) t'.
Proof.
  intros e cfg w o q s squash merge unique num threshold reverse nf tsv names t Hv (w1 & H & T).
  assert (Hq : QNecessary <> QNever) by discriminate.
  destruct (fun X => RunProofs.run_ended _ _ _ _ _ X H) as (cf & Hset & He); [reflexivity|].
  set (k2 := KFrequency o (mkColumns q s squash merge None) unique num threshold reverse (Some nf) tsv None names).
  assert (RS := RunProofs.run_settings e (mkInvocation cfg k2) w cf eq_refl (settings_same e cfg _ k2 w w cf eq_refl Hset)).
  unfold run_writes. rewrite RS. cbn [in_command k2 execute] in *. unfold freq_on_disk in *. cbv zeta in *.
  set (a2 := load_columns e (w_disk w) o (mkColumns q s squash merge None)) in *.
  destruct (fst (table_prepare _ _ _ a2)) as [[[op qu]|]|]; [|discriminate|discriminate]. cbn [prepared] in *.
  cbn [open_all open_output out_name app] in *. rewrite world_eta in *. unfold process_all in *. cbn [fst snd] in *. change (table_header a2) with (@None (list bytes)) in *.
  set (c1 := mkFreq qu (table_options a2) unique num threshold reverse None (translit e None)) in *.
  set (c2 := mkFreq qu (table_options a2) unique num threshold reverse None (translit e (Some nf))) in *.
  change (fun s r => as_io (freq_body (oracles_for e o) (default_oracles e) (e_text e) c1 op s r))
    with (fun s r => as_io (freq_body (oracles_for e o) (default_oracles e) (e_text e) c2 op s r)) in He.
  destruct (io_files_loop _ _ _ _ _) as [x|]; [|discriminate]. unfold freq_output in *. cbn [fq_header c1 c2 fq_reverse csv_header] in *.
  set (g := fun x : list bytes * N => (map (e_lossy e) (fst x), snd x)).
  assert (M1 : forall k, map (freq_row (e_lossy e) c1) k = map (fun x => fst x ++ [dec (snd x)]) (map g k)) by (intros k; rewrite map_map; reflexivity).
  assert (M2 : forall k, map (freq_row (e_lossy e) c2) k = map (fun x => map (e_nf e nf) (fst x) ++ [dec (snd x)]) (map g k)).
  { intros k. rewrite map_map. apply map_ext. intros y. unfold freq_row, g. cbn [fst snd fq_nf c2 translit]. rewrite map_map. reflexivity. }
  assert (N2 : forall k, cells_there (map (freq_row (e_lossy e) c2) k)).
  { intros k. apply Forall_forall. intros r Hr. apply in_map_iff in Hr. destruct Hr as (y & <- & _). unfold freq_row. intros X. apply app_eq_nil in X. destruct X as [_ X]. discriminate. }
  destruct x as [u|u|u er|]; [| | |discriminate].
  1, 2: cbn [main_status] in *;
    destruct (freq_write (e_lossy e) c1 0 (sort_by (freq_cmp reverse) (e_freq_order e (snd u))) []) as [rows b] eqn:Ew; cbn [fst snd] in *;
    destruct b; [discriminate|]; injection He as <-;
    destruct (freq_spelled (e_lossy e) c1 c2 _ _ [] _ eq_refl eq_refl Ew) as (es & -> & Ew2); cbn [map] in Ew2;
    cbn [map fst snd close_all close_output out_name with_disk w_stdout] in T |- *;
    rewrite Ew in T; cbn [fst] in T; apply app_inv_head in T; rewrite <- T;
    exists (map g es), (csv_text (e_numeric e) QNecessary (csv_delim tsv) (map (freq_row (e_lossy e) c2) es));
    (split; [rewrite M1; exact (csv_text_rows _ _ _ Hq Hv _ (shown_there _))|]); (split; [rewrite <- M2; exact (csv_text_rows _ _ _ Hq Hv _ (N2 _))|]);
    rewrite Ew2; eexists; split; reflexivity.
  exists [], []. destruct (main_status (IFailed u er)); [|discriminate]. injection He as -> <-. cbn [map fst snd close_all close_output out_name with_disk w_stdout] in T |- *.
  apply app_inv_head in T. rewrite <- T. split; [constructor|]. split; [constructor|]. eexists. split; reflexivity.
Qed.

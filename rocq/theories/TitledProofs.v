(** * Proofs about select with a header *)

From Coq Require Import String ZArith Lia.
From Verif Require Import Bytes BaseProofs Winnow RecordModel TagOccModel Utf8Model ByteRecordModel ReaderModel
  MatcherModel StateParser MatcherParserModel BuilderModel PathModel FmtModel QueryModel CliModel TableModel
  ExplodeModel CheckModel ConvertModel CsvModel CsvSpec CsvProofs OptionsModel OptionsSpec ConfigModel PrepareModel IoModel IoSpec WriteSpec DiskModel DirModel RuleModel
  MainModel DiskSpec RuleSpec MainSpec PipeSpec FrontRunProofs PartsSpec.
From Verif Require RunSpec RunProofs.

(** ** Two loops, the first of which may fail where the second does not *)

Section Follow.
  Context {S : Type}.
  Variable R : S -> S -> Prop.
  Variables body1 body2 : S -> byte_record -> io_ending S.
  Variable skip : bool.

  Definition follows (x y : io_ending S) : Prop :=
    match x with
    | IDone a => exists b, y = IDone b /\ R a b
    | IStopped a => exists b, y = IStopped b /\ R a b
    | IFailed a er => main_status x = Some 0 -> exists b, y = IFailed b er /\ R a b
    | IPanicked => True
    end.

  Hypothesis HR : forall a b r, R a b -> follows (body1 a r) (body2 b r).

  Lemma reader_follows : forall fuel a b rd x, R a b -> io_reader_loop (fun s => s) body1 skip fuel a rd = Some x ->
    main_status x = Some 0 -> exists y, io_reader_loop (fun s => s) body2 skip fuel b rd = Some y /\ follows x y.
  Proof.
    induction fuel as [|fuel IH]; intros a b rd x Hab H Hx; [discriminate|]. cbn [io_reader_loop] in *.
    destruct (io_next_byte_record rd) as [[[r|er]|] rd'].
    - pose proof (HR a b r Hab) as Hb. destruct (body1 a r) as [a'|a'|a' e1|]; cbn [follows] in Hb.
      + destruct Hb as (b' & -> & Hb). exact (IH _ _ _ _ Hb H Hx).
      + destruct Hb as (b' & -> & Hb). injection H as <-. eexists. split; [reflexivity|]. exists b'. auto.
      + injection H as <-. destruct (Hb Hx) as (b' & -> & Hb'). eexists. split; [reflexivity|]. intros _. exists b'. auto.
      + injection H as <-. discriminate.
    - destruct (pica_skip er skip); [exact (IH _ _ _ _ Hab H Hx)|]. injection H as <-. eexists. split; [reflexivity|]. intros _. exists b. auto.
    - injection H as <-. eexists. split; [reflexivity|]. exists b. auto.
  Qed.

  Lemma files_follow : forall files a b x, R a b -> io_files_loop (fun s => s) body1 skip a files = Some x -> main_status x = Some 0 ->
    exists y, io_files_loop (fun s => s) body2 skip b files = Some y /\ follows x y.
  Proof.
    induction files as [|[n [reads|k]] files IH]; intros a b x Hab H Hx; cbn [io_files_loop] in *; cbv zeta in *.
    - injection H as <-. eexists. split; [reflexivity|]. exists b. auto.
    - destruct (io_reader_loop _ body1 _ _ a _) as [y|] eqn:E; [|discriminate]. assert (Hy : main_status y = Some 0).
      { destruct y; try reflexivity; injection H as <-; exact Hx. }
      destruct (reader_follows _ _ _ _ _ Hab E Hy) as (z & -> & Hz). destruct y as [s|s|s er|]; cbn [follows] in Hz.
      + destruct Hz as (b' & -> & Hb'). exact (IH _ _ _ Hb' H Hx).
      + destruct Hz as (b' & -> & Hb'). injection H as <-. eexists. split; [reflexivity|]. exists b'. auto.
      + destruct (Hz Hy) as (b' & -> & Hb'). injection H as <-. eexists. split; [reflexivity|]. intros _. exists b'. auto.
      + discriminate.
    - injection H as <-. eexists. split; [reflexivity|]. intros _. exists b. auto.
  Qed.
End Follow.

(** ** The header *)

Section Header.
  Variable h : list bytes.

  (** the same with one more row in front, of the length of the other rows *)
  Definition titled (a b : select_state) : Prop :=
    sel_count a = sel_count b /\ sel_seen a = sel_seen b /\ sel_rows a = h :: sel_rows b /\ sel_failed a = false /\ sel_failed b = false
    /\ Forall (fun r => length r = length h) (sel_rows b).

  Lemma titled_loop : forall lossy hash c1 c2 rows a b, se_no_empty c1 = se_no_empty c2 -> se_unique c1 = se_unique c2 -> se_nf c1 = se_nf c2 -> titled a b ->
    sel_failed (select_loop lossy hash c1 rows a) = true \/ titled (select_loop lossy hash c1 rows a) (select_loop lossy hash c2 rows b).
  Proof.
    intros lossy hash c1 c2. induction rows as [|row rows IH]; intros a b E1 E2 E3 H; [right; exact H|]. cbn [select_loop]. cbv zeta. rewrite E1, E2.
    assert (Ef : select_fields lossy c1 row = select_fields lossy c2 row) by (unfold select_fields; rewrite E3; reflexivity). rewrite Ef.
    destruct H as (H1 & H2 & H3 & H4 & H5 & H6). rewrite H1, H2, H4, H5.
    destruct (se_no_empty c2 && existsb is_nil row); [apply IH; auto; unfold titled; auto 10|].
    destruct (se_unique c2 && _); [apply IH; auto; unfold titled; auto 10|].
    destruct (negb (forallb is_nil row)); [|apply IH; auto; unfold titled; cbn; auto 10].
    rewrite H3. cbn [csv_write]. destruct (Nat.eqb_spec (length h) (length (select_fields lossy c2 row))) as [El|El]; [|left; reflexivity].
    assert (X : csv_write (sel_rows b) (select_fields lossy c2 row) = Some (sel_rows b ++ [select_fields lossy c2 row])).
    { destruct (sel_rows b) as [|r0 rs] eqn:Er; [reflexivity|]. inversion H6 as [|? ? L _]. subst. cbn [csv_write]. rewrite L, El, Nat.eqb_refl. reflexivity. }
    rewrite X. apply IH; auto. unfold titled. cbn. repeat split; auto. apply Forall_app. split; [exact H6|]. constructor; [symmetry; exact El|constructor].
  Qed.

  Lemma titled_body : forall O Od T lossy hash c1 c2 o a b r, se_query c1 = se_query c2 -> se_qo c1 = se_qo c2 ->
    se_no_empty c1 = se_no_empty c2 -> se_unique c1 = se_unique c2 -> se_nf c1 = se_nf c2 -> titled a b ->
    follows titled (with_refused sel_failed (select_body O Od T lossy hash c1 o a r)) (with_refused sel_failed (select_body O Od T lossy hash c2 o b r)).
  Proof.
    intros O Od T lossy hash c1 c2 o a b r Eq Eo E1 E2 E3 H. unfold select_body, guarded. rewrite Eq, Eo.
    destruct (opts_select O Od o (br_record r)) as [[|]|]; [|cbn; exists b; auto|exact I].
    destruct (record_query O T (se_qo c2) (se_query c2) (br_record r)) as [rows|]; [|exact I].
    destruct (titled_loop lossy hash c1 c2 rows a b E1 E2 E3 H) as [F|F].
    - rewrite F. cbn [with_refused]. rewrite F. intros X. discriminate.
    - set (a' := select_loop lossy hash c1 rows a) in *. set (b' := select_loop lossy hash c2 rows b) in *.
      destruct F as (F1 & F2 & F3 & F4 & F5 & F6). rewrite F4, F5. cbn [sel_count]. rewrite F1.
      destruct (limit_reached _ _); cbn; (eexists; split; [reflexivity|]); unfold titled; cbn; auto 10.
  Qed.
End Header.

Lemma run_titled : forall e quote tsv h, exists line,
  (quote <> QNever -> (forall v, e_numeric e v = true -> Forall (plain_byte (if tsv : bool then 9 else 44)) v) ->
     csv_rows (if tsv then 9 else 44) [map str_trim (split_on 44 h)] line)
  /\ forall cfg w o q s squash merge unique no_empty nf names t,
       run_writes e cfg w (KSelect o (mkColumns q s squash merge (Some h)) unique no_empty nf quote tsv false None names) t ->
       exists t', t = line ++ t' /\ run_writes e cfg w (KSelect o (mkColumns q s squash merge None) unique no_empty nf quote tsv false None names) t'.
Proof.
  intros e quote tsv h. set (cells := map str_trim (split_on 44 h)). exists (csv_line (e_numeric e) quote (csv_delim tsv) cells). split.
  - intros Hq Hn. assert (X := csv_text_rows (e_numeric e) quote (if tsv then 9 else 44) Hq Hn [cells]). cbn [csv_text flat_map] in X. rewrite app_nil_r in X. apply X.
    constructor; [|constructor]. unfold cells. destruct (split_on 44 h) eqn:E; [|discriminate]. exfalso. clear -E. induction h as [|x l IH]; cbn [split_on] in E; [discriminate|].
    destruct (x =? 44); [discriminate|]. destruct (split_on 44 l); discriminate.
  - intros cfg w o q s squash merge unique no_empty nf names t (w1 & H & T). destruct (fun X => RunProofs.run_ended _ _ _ _ _ X H) as (cf & Hset & He); [reflexivity|].
    set (k2 := KSelect o (mkColumns q s squash merge None) unique no_empty nf quote tsv false None names).
    assert (RS := RunProofs.run_settings e (mkInvocation cfg k2) w cf eq_refl (settings_same e cfg _ k2 w w cf eq_refl Hset)).
    unfold run_writes. rewrite RS. cbn [in_command k2 execute] in *. unfold select_on_disk in *. cbv zeta in *.
    set (a1 := load_columns e (w_disk w) o (mkColumns q s squash merge (Some h))) in *. set (a2 := load_columns e (w_disk w) o (mkColumns q s squash merge None)) in *.
    change (table_prepare (oracles_for e o) (default_oracles e) (translit e (cf_normalization cf)) a1)
      with (table_prepare (oracles_for e o) (default_oracles e) (translit e (cf_normalization cf)) a2) in He.
    destruct (fst (table_prepare _ _ _ a2)) as [[[op qu]|]|]; [|discriminate|discriminate]. cbn [prepared] in *.
    cbn [open_all open_output out_name app] in *. rewrite world_eta in *. unfold process_all in *.
    match type of He with context [io_files_loop _ ?b ?k ?s0 ?fs] => set (b1 := b) in *; set (files := fs) in *; set (sk := k) in *; set (s1 := s0) in * end.
    match goal with |- context [io_files_loop _ ?b _ ?s0 _] => set (b2 := b) in *; set (s2 := s0) in * end.
    assert (HR : forall x y r, titled cells x y -> follows (titled cells) (b1 x r) (b2 y r)) by (intros; apply titled_body; auto).
    assert (H0 : titled cells s1 s2) by (unfold titled; cbn; auto 10).
    destruct (io_files_loop (fun s => s) b1 sk s1 files) as [x|] eqn:E; [|discriminate].
    assert (Hx : main_status x = Some 0).
    { destruct x as [s0|s0|s0 er|]; cbn [main_status] in *; try reflexivity; [|discriminate]. destruct er as [|[]| |]; try discriminate; reflexivity. }
    destruct (files_follow (titled cells) b1 b2 sk HR files s1 s2 x H0 E Hx) as (y & Ey & F). rewrite Ey.
    assert (G : forall u v, titled cells u v -> csv_text (e_numeric e) quote (csv_delim tsv) (sel_rows u)
      = csv_line (e_numeric e) quote (csv_delim tsv) cells ++ csv_text (e_numeric e) quote (csv_delim tsv) (sel_rows v)) by (intros u v (_ & _ & X & _); rewrite X; reflexivity).
    destruct x as [u|u|u er|]; cbn [follows] in F; [| |specialize (F Hx)|discriminate]; destruct F as (v & -> & F); apply G in F.
    all: exists (csv_text (e_numeric e) quote (csv_delim tsv) (sel_rows v)).
    3: rewrite Hx in He; change (main_status (IFailed u er)) with (main_status (IFailed v er)) in Hx; rewrite Hx.
    all: cbn [main_status] in *; injection He as <-; cbn [map fst snd close_all close_output out_name with_disk w_stdout] in T |- *.
    all: (split; [|eexists; split; [reflexivity|reflexivity]]).
    all: symmetry; rewrite <- F; exact (app_inv_head (w_stdout w) _ _ T).
Qed.

(** ** Another header *)

Section Other.
  Variables h1 h2 : list bytes.
  Hypothesis Hlen : length h1 = length h2.

  Definition retitled (a b : select_state) : Prop :=
    sel_count a = sel_count b /\ sel_seen a = sel_seen b /\ sel_failed a = sel_failed b /\ exists rs, sel_rows a = h1 :: rs /\ sel_rows b = h2 :: rs.

  Lemma retitled_loop : forall lossy hash c1 c2 rows a b, se_no_empty c1 = se_no_empty c2 -> se_unique c1 = se_unique c2 -> se_nf c1 = se_nf c2 -> retitled a b ->
    retitled (select_loop lossy hash c1 rows a) (select_loop lossy hash c2 rows b).
  Proof.
    intros lossy hash c1 c2. induction rows as [|row rows IH]; intros a b E1 E2 E3 H; [exact H|]. cbn [select_loop]. cbv zeta. rewrite E1, E2.
    assert (Ef : select_fields lossy c1 row = select_fields lossy c2 row) by (unfold select_fields; rewrite E3; reflexivity). rewrite Ef.
    pose proof H as (H1 & H2 & H3 & rs & R1 & R2). rewrite H1, H2, H3, R1, R2.
    destruct (se_no_empty c2 && existsb is_nil row); [apply IH; auto|].
    destruct (se_unique c2 && _); [apply IH; auto|].
    destruct (negb (forallb is_nil row)); [|apply IH; auto; unfold retitled; cbn; eauto 10].
    cbn [csv_write]. rewrite Hlen. destruct (Nat.eqb _ _); [apply IH; auto|]; unfold retitled; cbn; eauto 10.
  Qed.

  Lemma retitled_body : forall O Od T lossy hash c1 c2 o a b r, se_query c1 = se_query c2 -> se_qo c1 = se_qo c2 ->
    se_no_empty c1 = se_no_empty c2 -> se_unique c1 = se_unique c2 -> se_nf c1 = se_nf c2 -> retitled a b ->
    follows retitled (with_refused sel_failed (select_body O Od T lossy hash c1 o a r)) (with_refused sel_failed (select_body O Od T lossy hash c2 o b r)).
  Proof.
    intros O Od T lossy hash c1 c2 o a b r Eq Eo E1 E2 E3 H. unfold select_body, guarded. rewrite Eq, Eo.
    destruct (opts_select O Od o (br_record r)) as [[|]|]; [|cbn; exists b; auto|exact I].
    destruct (record_query O T (se_qo c2) (se_query c2) (br_record r)) as [rows|]; [|exact I].
    pose proof (retitled_loop lossy hash c1 c2 rows a b E1 E2 E3 H) as F.
    set (a' := select_loop lossy hash c1 rows a) in *. set (b' := select_loop lossy hash c2 rows b) in *.
    destruct F as (F1 & F2 & F3 & rs & F4 & F5). destruct (sel_failed a') eqn:Ea; rewrite <- F3.
    - cbn [with_refused]. rewrite Ea. intros X. discriminate.
    - cbn [sel_count]. rewrite F1. destruct (limit_reached _ _); cbn; (eexists; split; [reflexivity|]); unfold retitled; cbn; eauto 10.
  Qed.
End Other.

Lemma run_retitled : forall e cfg w o q s squash merge unique no_empty nf quote tsv h1 h2 names t,
  length (split_on 44 h1) = length (split_on 44 h2) ->
  run_writes e cfg w (KSelect o (mkColumns q s squash merge (Some h1)) unique no_empty nf quote tsv false None names) t ->
  exists t', run_writes e cfg w (KSelect o (mkColumns q s squash merge (Some h2)) unique no_empty nf quote tsv false None names) t'.
Proof.
  intros e cfg w o q s squash merge unique no_empty nf quote tsv h1 h2 names t Hlen (w1 & H & T).
  destruct (fun X => RunProofs.run_ended _ _ _ _ _ X H) as (cf & Hset & He); [reflexivity|].
  set (k2 := KSelect o (mkColumns q s squash merge (Some h2)) unique no_empty nf quote tsv false None names).
  assert (RS := RunProofs.run_settings e (mkInvocation cfg k2) w cf eq_refl (settings_same e cfg _ k2 w w cf eq_refl Hset)).
  unfold run_writes. rewrite RS. cbn [in_command k2 execute] in *. unfold select_on_disk in *. cbv zeta in *.
  set (a1 := load_columns e (w_disk w) o (mkColumns q s squash merge (Some h1))) in *. set (a2 := load_columns e (w_disk w) o (mkColumns q s squash merge (Some h2))) in *.
  change (table_prepare (oracles_for e o) (default_oracles e) (translit e (cf_normalization cf)) a1)
    with (table_prepare (oracles_for e o) (default_oracles e) (translit e (cf_normalization cf)) a2) in He.
  destruct (fst (table_prepare _ _ _ a2)) as [[[op qu]|]|]; [|discriminate|discriminate]. cbn [prepared] in *.
  cbn [open_all open_output out_name app] in *. rewrite world_eta in *. unfold process_all in *.
  set (g1 := map str_trim (split_on 44 h1)). set (g2 := map str_trim (split_on 44 h2)). assert (Hg : length g1 = length g2) by (unfold g1, g2; rewrite !map_length; exact Hlen).
  match type of He with context [io_files_loop _ ?b ?k ?s0 ?fs] => set (b1 := b) in *; set (files := fs) in *; set (sk := k) in *; set (s1 := s0) in * end.
  match goal with |- context [io_files_loop _ ?b _ ?s0 _] => set (b2 := b) in *; set (s2 := s0) in * end.
  assert (HR : forall x y r, retitled g1 g2 x y -> follows (retitled g1 g2) (b1 x r) (b2 y r)) by (intros; apply retitled_body; auto).
  assert (H0 : retitled g1 g2 s1 s2) by (unfold retitled; cbn; eauto 10).
  destruct (io_files_loop (fun s => s) b1 sk s1 files) as [x|] eqn:E; [|discriminate].
  assert (Hx : main_status x = Some 0).
  { destruct x as [s0|s0|s0 er|]; cbn [main_status] in *; try reflexivity; [|discriminate]. destruct er as [|[]| |]; try discriminate; reflexivity. }
  destruct (files_follow (retitled g1 g2) b1 b2 sk HR files s1 s2 x H0 E Hx) as (y & Ey & F). rewrite Ey.
  destruct x as [u|u|u er|]; cbn [follows] in F; [| |specialize (F Hx)|discriminate]; destruct F as (v & -> & F).
  all: exists (csv_text (e_numeric e) quote (csv_delim tsv) (sel_rows v)).
  3: change (main_status (IFailed u er)) with (main_status (IFailed v er)) in Hx; rewrite Hx.
  all: cbn [main_status]; eexists; split; [reflexivity|reflexivity].
Qed.

(** ** frequency *)

Lemma freq_write_titled : forall lossy c1 c2 h l i rs out, fq_num c1 = fq_num c2 -> fq_threshold c1 = fq_threshold c2 -> fq_nf c1 = fq_nf c2 ->
  Forall (fun r => length r = length h) rs -> freq_write lossy c1 i l (h :: rs) = (out, false) ->
  exists out', freq_write lossy c2 i l rs = (out', false) /\ out = h :: out'.
Proof.
  intros lossy c1 c2 h. induction l as [|x l IH]; intros i rs out E1 E2 E3 Hr H; cbn [freq_write] in *.
  - injection H as <-. exists rs. auto.
  - rewrite E1, E2 in H. destruct (_ && _); [injection H as <-; exists rs; auto|]. destruct (_ <? _); [injection H as <-; exists rs; auto|].
    assert (Ef : freq_row lossy c1 x = freq_row lossy c2 x) by (unfold freq_row; rewrite E3; reflexivity). rewrite Ef in H. cbn [csv_write] in H.
    destruct (Nat.eqb_spec (length h) (length (freq_row lossy c2 x))) as [El|El]; [|discriminate].
    assert (X : csv_write rs (freq_row lossy c2 x) = Some (rs ++ [freq_row lossy c2 x])).
    { destruct rs as [|r0 rs']; [reflexivity|]. inversion Hr as [|? ? L _]. subst. cbn [csv_write]. rewrite L, El, Nat.eqb_refl. reflexivity. }
    rewrite X. apply (IH (i + 1) (rs ++ [freq_row lossy c2 x])); auto. apply Forall_app. split; [exact Hr|]. constructor; [symmetry; exact El|constructor].
Qed.

Lemma run_freq_titled : forall e tsv h, exists line,
  ((forall v, e_numeric e v = true -> Forall (plain_byte (if tsv : bool then 9 else 44)) v) ->
     csv_rows (if tsv then 9 else 44) [map str_trim (split_on 44 h)] line)
  /\ forall cfg w o q s squash merge unique num threshold reverse nf names t,
       run_writes e cfg w (KFrequency o (mkColumns q s squash merge (Some h)) unique num threshold reverse nf tsv None names) t ->
       exists t', (t = line ++ t' \/ t = [] /\ t' = [])
         /\ run_writes e cfg w (KFrequency o (mkColumns q s squash merge None) unique num threshold reverse nf tsv None names) t'.
Proof.
  intros e tsv h. set (cells := map str_trim (split_on 44 h)). exists (csv_line (e_numeric e) QNecessary (csv_delim tsv) cells). split.
  - intros Hn. assert (X := csv_text_rows (e_numeric e) QNecessary (if tsv then 9 else 44) (fun Y => eq_ind QNecessary (fun q => match q with QNecessary => True | _ => False end) I _ Y) Hn [cells]).
    cbn [csv_text flat_map] in X. rewrite app_nil_r in X. apply X.
    constructor; [|constructor]. unfold cells. destruct (split_on 44 h) eqn:E; [|discriminate]. exfalso. clear -E. induction h as [|x l IH]; cbn [split_on] in E; [discriminate|].
    destruct (x =? 44); [discriminate|]. destruct (split_on 44 l); discriminate.
  - intros cfg w o q s squash merge unique num threshold reverse nf names t (w1 & H & T). destruct (fun X => RunProofs.run_ended _ _ _ _ _ X H) as (cf & Hset & He); [reflexivity|].
    set (k2 := KFrequency o (mkColumns q s squash merge None) unique num threshold reverse nf tsv None names).
    assert (RS := RunProofs.run_settings e (mkInvocation cfg k2) w cf eq_refl (settings_same e cfg _ k2 w w cf eq_refl Hset)).
    unfold run_writes. rewrite RS. cbn [in_command k2 execute] in *. unfold freq_on_disk in *. cbv zeta in *.
    set (a1 := load_columns e (w_disk w) o (mkColumns q s squash merge (Some h))) in *. set (a2 := load_columns e (w_disk w) o (mkColumns q s squash merge None)) in *.
    change (table_prepare (oracles_for e o) (default_oracles e) (translit e (cf_normalization cf)) a1)
      with (table_prepare (oracles_for e o) (default_oracles e) (translit e (cf_normalization cf)) a2) in He.
    destruct (fst (table_prepare _ _ _ a2)) as [[[op qu]|]|]; [|discriminate|discriminate]. cbn [prepared] in *.
    cbn [open_all open_output out_name app] in *. rewrite world_eta in *. unfold process_all in *. cbn [fst snd] in *.
    set (c1 := mkFreq qu (table_options a1) unique num threshold reverse (table_header a1) (translit e nf)) in *.
    set (c2 := mkFreq qu (table_options a2) unique num threshold reverse (table_header a2) (translit e nf)) in *.
    change (fun s r => as_io (freq_body (oracles_for e o) (default_oracles e) (e_text e) c1 op s r))
      with (fun s r => as_io (freq_body (oracles_for e o) (default_oracles e) (e_text e) c2 op s r)) in He.
    destruct (io_files_loop _ _ _ _ _) as [x|]; [|discriminate].
    assert (G : forall tb, snd (freq_output (e_lossy e) (e_freq_order e) c1 tb) = false ->
      snd (freq_output (e_lossy e) (e_freq_order e) c2 tb) = false
      /\ csv_text (e_numeric e) QNecessary (csv_delim tsv) (fst (freq_output (e_lossy e) (e_freq_order e) c1 tb))
         = csv_line (e_numeric e) QNecessary (csv_delim tsv) cells ++ csv_text (e_numeric e) QNecessary (csv_delim tsv) (fst (freq_output (e_lossy e) (e_freq_order e) c2 tb))).
    { intros tb Hb. unfold freq_output in *. cbn [fq_reverse c1 c2] in *.
      set (l := sort_by (freq_cmp reverse) (e_freq_order e tb)) in *.
      destruct (freq_write (e_lossy e) c1 0 l (csv_header (fq_header c1))) as [out b] eqn:E. cbn [snd] in Hb. subst b.
      destruct (freq_write_titled (e_lossy e) c1 c2 cells l 0 [] out eq_refl eq_refl eq_refl (Forall_nil _) E) as (out' & E' & ->).
      change (csv_header (fq_header c2)) with (@nil (list bytes)). rewrite E'. split; reflexivity. }
    destruct x as [u|u|u er|]; [| | |discriminate].
    1, 2: cbn [main_status] in *; destruct (snd (freq_output (e_lossy e) (e_freq_order e) c1 (snd u))) eqn:Eb; [discriminate|]; injection He as <-;
      destruct (G _ Eb) as [G1 G2]; rewrite G1; cbn [map fst snd close_all close_output out_name with_disk w_stdout] in T |- *;
      exists (csv_text (e_numeric e) QNecessary (csv_delim tsv) (fst (freq_output (e_lossy e) (e_freq_order e) c2 (snd u))));
      (split; [|eexists; split; [reflexivity|reflexivity]]); left; rewrite <- G2; symmetry; exact (app_inv_head (w_stdout w) _ _ T).
    exists []. destruct (main_status (IFailed u er)); [|discriminate]. injection He as -> <-. cbn [map fst snd close_all close_output out_name with_disk w_stdout] in T |- *.
    split; [|eexists; split; [reflexivity|reflexivity]]. right. split; [|reflexivity]. symmetry. exact (app_inv_head (w_stdout w) _ _ T).
Qed.

(** * Proofs about frequency with fewer rows *)

From Coq Require Import String ZArith Lia Sorted.
From Verif Require Import Bytes BaseProofs Winnow RecordModel TagOccModel Utf8Model ByteRecordModel ReaderModel
  MatcherModel StateParser MatcherParserModel BuilderModel PathModel FmtModel QueryModel CliModel TableModel
  ExplodeModel CheckModel ConvertModel CsvModel CsvSpec CsvProofs OptionsModel OptionsSpec ConfigModel PrepareModel IoModel IoSpec WriteSpec DiskModel DirModel RuleModel
  MainModel DiskSpec RuleSpec MainSpec PipeSpec FrontRunProofs PartsSpec FewerProofs FrequencyProofs.
From Verif Require RunSpec RunProofs.

Section Write.
  Variable lossy : bytes -> bytes.
  Variables c0 c : freq_cmd.
  Hypothesis Enf : fq_nf c0 = fq_nf c.
  Hypothesis E0 : fq_num c0 = 0.

  Lemma same_row : forall x, freq_row lossy c0 x = freq_row lossy c x.
  Proof. intros x. unfold freq_row. rewrite Enf. reflexivity. Qed.

  Lemma write_num : forall l i j rs out, fq_threshold c0 = fq_threshold c -> 0 < fq_num c -> even rs -> freq_write lossy c0 j l rs = (out, false) ->
    exists m, out = rs ++ m /\ freq_write lossy c i l rs = (rs ++ firstn (N.to_nat (fq_num c - i)) m, false) /\ Forall (fun r => r <> []) m.
  Proof.
    induction l as [|x l IH]; intros i j rs out Et Hn He H; cbn [freq_write] in *.
    - injection H as <-. exists []. rewrite firstn_nil, app_nil_r. auto.
    - rewrite E0, Et, same_row in H. cbn [N.ltb N.compare andb] in H.
      destruct (snd x <? fq_threshold c).
      + injection H as <-. exists []. rewrite firstn_nil, app_nil_r. destruct (_ && _); auto.
      + destruct (csv_write rs (freq_row lossy c x)) as [out1|] eqn:Ew; [|discriminate]. destruct (write_even _ _ _ He Ew) as [-> He1].
        destruct (IH (i + 1) _ _ _ Et Hn He1 H) as (m & -> & Hm & Hf). exists (freq_row lossy c x :: m). rewrite <- app_assoc. split; [reflexivity|]. split.
        * destruct ((0 <? fq_num c) && (fq_num c <=? i)) eqn:Eb.
          -- apply andb_prop in Eb. destruct Eb as [_ Eb]. apply N.leb_le in Eb. replace (fq_num c - i) with 0 by lia. cbn. rewrite app_nil_r. reflexivity.
          -- assert (Hi : i < fq_num c) by (apply Bool.andb_false_iff in Eb; destruct Eb as [Eb|Eb]; [apply N.ltb_ge in Eb; lia|apply N.leb_gt in Eb; exact Eb]).
             rewrite Hm. replace (N.to_nat (fq_num c - i)) with (Datatypes.S (N.to_nat (fq_num c - (i + 1)))) by lia. cbn [firstn]. rewrite <- app_assoc. reflexivity.
        * constructor; [|exact Hf]. unfold freq_row. intros X. apply app_eq_nil in X. destruct X as [_ X]. discriminate.
  Qed.

  Lemma filter_none : forall A (f : A -> bool) l, Forall (fun x => f x = false) l -> filter f l = [].
  Proof. intros A f l H. induction H as [|x l Hx _ IH]; [reflexivity|]. cbn. rewrite Hx. exact IH. Qed.

  Lemma write_threshold : forall l i j rs out, fq_num c = 0 -> fq_threshold c0 = 0 -> even rs ->
    StronglySorted (fun a b => snd b <= snd a) l -> freq_write lossy c0 j l rs = (out, false) ->
    out = rs ++ map (freq_row lossy c) l /\ freq_write lossy c i l rs = (rs ++ map (freq_row lossy c) (filter (fun x => fq_threshold c <=? snd x) l), false).
  Proof.
    induction l as [|x l IH]; intros i j rs out En Et He Hs H; cbn [freq_write] in *.
    - injection H as <-. cbn [map filter]. rewrite !app_nil_r. auto.
    - rewrite E0, Et, same_row in H. cbn [N.ltb N.compare andb] in H. rewrite En. cbn [N.ltb N.compare andb].
      assert (Z : (snd x <? 0) = false) by (apply N.ltb_ge; lia). rewrite Z in H. inversion Hs as [|? ? Hs' Hf]. subst.
      destruct (csv_write rs (freq_row lossy c x)) as [out1|] eqn:Ew; [|discriminate]. destruct (write_even _ _ _ He Ew) as [-> He1].
      destruct (IH (i + 1) _ _ _ En Et He1 Hs' H) as (-> & Hm). cbn [map filter]. rewrite <- app_assoc. split; [reflexivity|].
      destruct (N.ltb_spec (snd x) (fq_threshold c)) as [L|L].
      + replace (fq_threshold c <=? snd x) with false by (symmetry; apply N.leb_gt; exact L). rewrite filter_none; [cbn; rewrite app_nil_r; reflexivity|].
        eapply Forall_impl; [|exact Hf]. cbn. intros y Hy. apply N.leb_gt. lia.
      + replace (fq_threshold c <=? snd x) with true by (symmetry; apply N.leb_le; exact L). rewrite Hm. cbn [map]. rewrite <- app_assoc. reflexivity.
  Qed.
End Write.

Lemma run_freq_same : forall e cfg w o q s squash merge unique n1 n2 th1 th2 r1 r2 nf tsv names t,
  run_writes e cfg w (KFrequency o (mkColumns q s squash merge None) unique n1 th1 r1 nf tsv None names) t ->
  (t = [] /\ run_writes e cfg w (KFrequency o (mkColumns q s squash merge None) unique n2 th2 r2 nf tsv None names) [])
  \/ exists qu a tb, let c1 := mkFreq qu a unique n1 th1 r1 None (translit e nf) in let c2 := mkFreq qu a unique n2 th2 r2 None (translit e nf) in
       exists rows, freq_write (e_lossy e) c1 0 (sort_by (freq_cmp r1) (e_freq_order e tb)) [] = (rows, false) /\ t = csv_text (e_numeric e) QNecessary (csv_delim tsv) rows
         /\ forall rows', freq_write (e_lossy e) c2 0 (sort_by (freq_cmp r2) (e_freq_order e tb)) [] = (rows', false) ->
              run_writes e cfg w (KFrequency o (mkColumns q s squash merge None) unique n2 th2 r2 nf tsv None names) (csv_text (e_numeric e) QNecessary (csv_delim tsv) rows').
Proof.
  intros e cfg w o q s squash merge unique n1 n2 th1 th2 r1 r2 nf tsv names t (w1 & H & T). destruct (fun X => RunProofs.run_ended _ _ _ _ _ X H) as (cf & Hset & He); [reflexivity|].
  set (k2 := KFrequency o (mkColumns q s squash merge None) unique n2 th2 r2 nf tsv None names).
  assert (RS := RunProofs.run_settings e (mkInvocation cfg k2) w cf eq_refl (settings_same e cfg _ k2 w w cf eq_refl Hset)).
  unfold run_writes. rewrite RS. cbn [in_command k2 execute] in *. unfold freq_on_disk in *. cbv zeta in *.
  set (a2 := load_columns e (w_disk w) o (mkColumns q s squash merge None)) in *.
  destruct (fst (table_prepare _ _ _ a2)) as [[[op qu]|]|]; [|discriminate|discriminate]. cbn [prepared] in *.
  cbn [open_all open_output out_name app] in *. rewrite world_eta in *. unfold process_all in *. cbn [fst snd] in *. change (table_header a2) with (@None (list bytes)) in *.
  set (c1 := mkFreq qu (table_options a2) unique n1 th1 r1 None (translit e nf)) in *.
  set (c2 := mkFreq qu (table_options a2) unique n2 th2 r2 None (translit e nf)) in *.
  change (fun s r => as_io (freq_body (oracles_for e o) (default_oracles e) (e_text e) c1 op s r))
    with (fun s r => as_io (freq_body (oracles_for e o) (default_oracles e) (e_text e) c2 op s r)) in He.
  destruct (io_files_loop _ _ _ _ _) as [x|]; [|discriminate]. unfold freq_output in *. cbn [fq_header c1 c2 fq_reverse csv_header] in *.
  destruct x as [u|u|u er|]; [| | |discriminate].
  1, 2: right; exists qu, (table_options a2), (snd u); fold c1 c2; cbn [main_status] in *;
    destruct (freq_write (e_lossy e) c1 0 (sort_by (freq_cmp r1) (e_freq_order e (snd u))) []) as [rows b] eqn:Ew; cbn [fst snd] in *;
    destruct b; [discriminate|]; injection He as <-; exists rows; (split; [reflexivity|]);
    cbn [map fst snd close_all close_output out_name with_disk w_stdout] in T |- *;
    rewrite Ew in T; (split; [symmetry; exact (app_inv_head (w_stdout w) _ _ T)|]); intros rows' Ew'; rewrite Ew'; eexists; split; [reflexivity|reflexivity].
  left. destruct (main_status (IFailed u er)); [|discriminate]. injection He as -> <-. cbn [map fst snd close_all close_output out_name with_disk w_stdout] in T |- *.
  split; [|eexists; split; [reflexivity|reflexivity]]. symmetry. exact (app_inv_head (w_stdout w) _ _ T).
Qed.

Lemma even_nil : even [].
Proof. intros x y []. Qed.

Lemma run_num : forall e cfg w o q s squash merge unique num threshold reverse nf tsv names t, 0 < num ->
  (forall v, e_numeric e v = true -> Forall (plain_byte (if tsv : bool then 9 else 44)) v) ->
  run_writes e cfg w (KFrequency o (mkColumns q s squash merge None) unique 0 threshold reverse nf tsv None names) t ->
  exists rows t', csv_rows (if tsv then 9 else 44) rows t /\ csv_rows (if tsv then 9 else 44) (firstn (N.to_nat num) rows) t'
    /\ run_writes e cfg w (KFrequency o (mkColumns q s squash merge None) unique num threshold reverse nf tsv None names) t'.
Proof.
  intros e cfg w o q s squash merge unique num threshold reverse nf tsv names t Hn Hv H.
  assert (Hq : QNecessary <> QNever) by discriminate.
  destruct (run_freq_same _ _ _ _ _ _ _ _ _ _ num _ threshold _ reverse _ _ _ _ H) as [[-> R]|(qu & a & tb & rows & Ew & -> & R)].
  - exists [], []. rewrite firstn_nil. split; [exact (csv_text_rows _ _ _ Hq Hv [] (Forall_nil _))|]. split; [exact (csv_text_rows _ _ _ Hq Hv [] (Forall_nil _))|exact R].
  - destruct (write_num (e_lossy e) (mkFreq qu a unique 0 threshold reverse None (translit e nf)) (mkFreq qu a unique num threshold reverse None (translit e nf))
      eq_refl eq_refl _ 0 _ _ _ eq_refl Hn even_nil Ew) as (m & Em & Ew' & Hm).
    cbn [app] in Em, Ew'. subst m. rewrite N.sub_0_r in Ew'. cbn [fq_num] in Ew'.
    exists rows. eexists. split; [exact (csv_text_rows _ _ _ Hq Hv _ Hm)|]. split; [|exact (R _ Ew')].
    apply (csv_text_rows _ _ _ Hq Hv). apply Forall_forall. intros r Hr. apply (proj1 (Forall_forall _ _) Hm). rewrite <- (firstn_skipn (N.to_nat num) rows). apply in_or_app. left. exact Hr.
Qed.

Lemma sorted_desc : forall l, StronglySorted (fun a b : list bytes * N => snd b <= snd a) (sort_by (freq_cmp false) l).
Proof.
  intros l. apply sort_by_sorted.
  - intros x y H. unfold freq_cmp in H. destruct (N.compare_spec (snd y) (snd x)); [lia|lia|congruence].
  - intros x y H. unfold freq_cmp in H. destruct (N.compare_spec (snd y) (snd x)); [lia|discriminate|lia].
  - intros x y z. lia.
Qed.

Definition shown (x : list bytes * N) : list bytes := fst x ++ [dec (snd x)].

Lemma shown_there : forall l, Forall (fun r => r <> []) (map shown l).
Proof. intros l. apply Forall_forall. intros r Hr. apply in_map_iff in Hr. destruct Hr as (x & <- & _). unfold shown. intros X. apply app_eq_nil in X. destruct X as [_ X]. discriminate. Qed.

Lemma run_threshold : forall e cfg w o q s squash merge unique threshold nf tsv names t,
  (forall v, e_numeric e v = true -> Forall (plain_byte (if tsv : bool then 9 else 44)) v) ->
  run_writes e cfg w (KFrequency o (mkColumns q s squash merge None) unique 0 0 false nf tsv None names) t ->
  exists l t', csv_rows (if tsv then 9 else 44) (map (fun x => fst x ++ [dec (snd x)]) l) t
    /\ csv_rows (if tsv then 9 else 44) (map (fun x => fst x ++ [dec (snd x)]) (filter (fun x => threshold <=? snd x) l)) t'
    /\ run_writes e cfg w (KFrequency o (mkColumns q s squash merge None) unique 0 threshold false nf tsv None names) t'.
Proof.
  intros e cfg w o q s squash merge unique threshold nf tsv names t Hv H.
  assert (Hq : QNecessary <> QNever) by discriminate.
  destruct (run_freq_same _ _ _ _ _ _ _ _ _ _ 0 _ threshold _ false _ _ _ _ H) as [[-> R]|(qu & a & tb & rows & Ew & -> & R)].
  - exists [], []. split; [exact (csv_text_rows _ _ _ Hq Hv [] (Forall_nil _))|]. split; [exact (csv_text_rows _ _ _ Hq Hv [] (Forall_nil _))|exact R].
  - set (c2 := mkFreq qu a unique 0 threshold false None (translit e nf)) in *.
    destruct (write_threshold (e_lossy e) (mkFreq qu a unique 0 0 false None (translit e nf)) c2 eq_refl eq_refl _ 0 _ _ _ eq_refl eq_refl even_nil (sorted_desc _) Ew) as [-> Ew'].
    cbn [app fq_threshold c2] in *. set (l := sort_by (freq_cmp false) (e_freq_order e tb)) in *. fold c2 in R, Ew'.
    set (g := fun x : list bytes * N => (map (fun v => translit e nf (e_lossy e v)) (fst x), snd x)).
    assert (M : forall k, map (freq_row (e_lossy e) c2) k = map shown (map g k)) by (intros k; rewrite map_map; reflexivity).
    assert (F : filter (fun x => threshold <=? snd x) (map g l) = map g (filter (fun x => threshold <=? snd x) l)).
    { clear. induction l as [|x l IH]; [reflexivity|]. cbn [map filter]. change (snd (g x)) with (snd x). destruct (threshold <=? snd x); cbn [map]; rewrite IH; reflexivity. }
    exists (map g l). eexists. split; [rewrite M; exact (csv_text_rows _ _ _ Hq Hv _ (shown_there _))|]. split; [|exact (R _ Ew')].
    rewrite F, M. exact (csv_text_rows _ _ _ Hq Hv _ (shown_there _)).
Qed.

(** * Proofs about explode after explode *)

From Coq Require Import String ZArith Lia.
From Verif Require Import Bytes BaseProofs Winnow RecordModel RecordSpec RecordProofs TagOccModel Utf8Model ByteRecordModel ByteRecordProofs ReaderModel
  MatcherModel MatcherProofs StateParser MatcherParserModel BuilderModel PathModel FmtModel QueryModel CliModel CliSpec CliProofs TableModel
  ExplodeModel ExplodeSpec ExplodeProofs ExplodeRunProofs CheckModel ConvertModel CsvModel OptionsModel OptionsSpec ConfigModel PrepareModel
  IoModel IoSpec WriteSpec DiskModel DirModel RuleModel
  MainModel DiskSpec RuleSpec MainSpec PipeSpec DiskProofs PipeProofs PipeInProofs DiskEndProofs DirLoopProofs FrontLoop FrontSpec FrontProofs FrontRunProofs
  FrontExplodeProofs LimitProofs TwiceSpec.
From Verif Require RunSpec RunProofs IoProofs.

(** ** Groups of copies *)

Fixpoint groups_of (fs : list field) : list (list field) :=
  match fs with
  | [] => []
  | x :: fs' => match groups_of fs' with
                | (y :: g) :: gs => if occ_differ (f_occ x) (f_occ y) then [x] :: (y :: g) :: gs else (x :: y :: g) :: gs
                | gs => [x] :: gs
                end
  end.

Lemma occ_differ_false : forall a b, occ_differ a b = false <-> a = b.
Proof.
  intros [a|] [b|]; cbn; split; intros H; try discriminate; try reflexivity.
  - apply negb_false_iff in H. apply bytes_eqb_eq in H. subst. reflexivity.
  - injection H as ->. rewrite bytes_eqb_refl. reflexivity.
Qed.

Lemma copies_tail : forall fs g gs, copies_of fs (g :: gs) -> copies_of (concat gs) gs.
Proof.
  intros fs g gs (_ & H1 & H2). inversion H1 as [|? ? _ H3]. subst. split; [reflexivity|]. split; [exact H3|].
  intros pre a b post x y E. apply (H2 (g :: pre) a b post). rewrite E. reflexivity.
Qed.

Lemma groups_unique : forall fs gs, copies_of fs gs -> gs = groups_of fs.
Proof.
  induction fs as [|x fs IH]; intros gs H.
  - destruct gs as [|g gs]; [reflexivity|]. destruct H as (H & H1 & _). inversion H1 as [|? ? (f & g' & o & E & _) _]. rewrite E in H. discriminate H.
  - destruct gs as [|g gs]; [destruct H as (H & _); discriminate|].
    pose proof (copies_tail _ _ _ H) as Ht. destruct H as (H & H1 & H2).
    inversion H1 as [|? ? (f & g' & o & -> & Ho) H3]. subst. cbn [concat app] in H. injection H as -> Ef. subst fs. cbn [groups_of].
    destruct g' as [|y g'].
    + cbn [app] in *. rewrite <- (IH gs Ht). destruct gs as [|b gs]; [reflexivity|]. inversion H3 as [|? ? (y & g' & o' & -> & _) _]. subst.
      destruct (occ_differ (f_occ x) (f_occ y)) eqn:E; [reflexivity|]. apply occ_differ_false in E.
      destruct (H2 [] [x] (y :: g') gs x y eq_refl (or_introl eq_refl) (or_introl eq_refl) E).
    + inversion Ho as [|? ? Ex Ho']. subst. assert (Hc : copies_of ((y :: g') ++ concat gs) ((y :: g') :: gs)).
      { split; [reflexivity|]. split; [constructor; [exists y, g', (f_occ x); split; [reflexivity|exact Ho']|exact H3]|].
        intros pre a b post z z' E Hz. destruct pre as [|p pre].
        - injection E as <- ->. apply (H2 [] (x :: y :: g') b post z z' eq_refl). right. exact Hz.
        - injection E as <- E. apply (H2 ((x :: y :: g') :: pre) a b post z z'); [cbn; rewrite E; reflexivity|exact Hz]. }
      rewrite <- (IH _ Hc). replace (occ_differ (f_occ x) (f_occ y)) with false; [reflexivity|]. symmetry. apply occ_differ_false.
      inversion Ho' as [|? ? Ey _]. congruence.
Qed.

(** ** The libraries of a record *)

Lemma level_cases : forall f, valid_field f -> ~ at_level LMain f -> at_level LLocal f \/ at_level LCopy f.
Proof.
  intros f Hv Hm. destruct (valid_level f Hv) as [[] H]; [destruct (Hm H)|left; exact H|right; exact H].
Qed.

Lemma rest_libraries : forall rest, Forall valid_field rest -> Forall (fun f => ~ at_level LMain f) rest -> exists libs, libraries [] libs rest.
Proof.
  induction rest as [|x rest IH]; intros Hv Hr.
  - exists []. split; [reflexivity|]. split; [constructor|]. split; [constructor|]. intros [|? ?] a b post E; discriminate.
  - inversion Hv as [|? ? Hv1 Hv2]. inversion Hr as [|? ? Hr1 Hr2]. subst. destruct (IH Hv2 Hr2) as (libs & E & _ & HF & Ha). cbn [app] in E.
    destruct (level_cases x Hv1 Hr1) as [Hx|Hx].
    + destruct libs as [|[a b] libs].
      * exists [([x], [])]. split; [cbn in E; subst; reflexivity|]. split; [constructor|]. split.
        -- constructor; [|constructor]. split; [constructor; [exact Hx|constructor]|]. split; [constructor|discriminate].
        -- intros [|? [|? ?]] c d post E'; discriminate.
      * inversion HF as [|? ? (F1 & F2 & F3) F4]. subst. cbn [fst snd] in *.
        exists ((x :: a, b) :: libs). split; [reflexivity|]. split; [constructor|]. split.
        -- constructor; [|exact F4]. split; [constructor; [exact Hx|exact F1]|]. split; [exact F2|discriminate].
        -- intros [|p pre] c d post E'.
           ++ injection E' as <- ->. exact (Ha [] (a, b) d post eq_refl).
           ++ injection E' as <- E'. apply (Ha ((a, b) :: pre) c d post). rewrite E'. reflexivity.
    + destruct libs as [|[[|a0 a] b] libs].
      * exists [([], [x])]. split; [cbn in E; subst; reflexivity|]. split; [constructor|]. split.
        -- constructor; [|constructor]. split; [constructor|]. split; [constructor; [exact Hx|constructor]|discriminate].
        -- intros [|? [|? ?]] c d post E'; discriminate.
      * inversion HF as [|? ? (F1 & F2 & F3) F4]. subst. cbn [fst snd] in *.
        exists (([], x :: b) :: libs). split; [reflexivity|]. split; [constructor|]. split.
        -- constructor; [|exact F4]. split; [constructor|]. split; [constructor; [exact Hx|exact F2]|discriminate].
        -- intros [|p pre] c d post E'.
           ++ injection E' as <- ->. split; [discriminate|]. exact (proj2 (Ha [] ([], b) d post eq_refl)).
           ++ injection E' as <- E'. apply (Ha (([], b) :: pre) c d post). rewrite E'. reflexivity.
      * exists (([], [x]) :: (a0 :: a, b) :: libs). split; [subst; reflexivity|]. split; [constructor|]. split.
        -- constructor; [|exact HF]. split; [constructor|]. split; [constructor; [exact Hx|constructor]|discriminate].
        -- intros [|p pre] c d post E'.
           ++ injection E' as <- <- <-. split; discriminate.
           ++ injection E' as <- E'. exact (Ha pre c d post E').
Qed.

Lemma first_libraries : forall fields, Forall valid_field fields -> main_first fields -> exists main libs, libraries main libs fields.
Proof.
  intros fields Hv (main & rest & -> & Hm & Hr). apply Forall_app in Hv. destruct (rest_libraries rest (proj2 Hv) Hr) as (libs & E & _ & HF & Ha).
  exists main, libs. cbn [app] in E. split; [rewrite E; reflexivity|]. auto.
Qed.

(** ** Twice *)

Lemma one_library : forall main a b, Forall (at_level LMain) main -> Forall (at_level LLocal) a -> Forall (at_level LCopy) b -> a ++ b <> [] ->
  libraries main [(a, b)] (main ++ a ++ b).
Proof.
  intros main a b Hm Ha Hb Hn. split; [cbn; rewrite app_nil_r; reflexivity|]. split; [exact Hm|]. split; [constructor; [auto|constructor]|].
  intros [|? [|? ?]] c d post E; discriminate.
Qed.

(** the parts at the level of copies *)
Lemma copy_usual : forall main libs fields, libraries main libs fields ->
  process_copy fields = Some (flat_map (fun l => map (fun g => main ++ fst l ++ g) (groups_of (snd l))) libs).
Proof.
  intros main libs fields H. destruct (process_copy_usual _ _ _ H) as (parts & -> & groups & HF & ->). f_equal. clear H.
  induction HF as [|l gs libs groups Hl HF IH]; [reflexivity|]. cbn [combine map concat flat_map fst snd]. rewrite IH, <- (groups_unique _ _ Hl). reflexivity.
Qed.

Lemma groups_sound : forall fs, concat (groups_of fs) = fs /\ Forall (fun g => exists x g', g = x :: g' /\ Forall (fun y => f_occ y = f_occ x) g') (groups_of fs).
Proof.
  induction fs as [|x fs (IH1 & IH2)]; [split; [reflexivity|constructor]|]. cbn [groups_of].
  assert (D : forall gs, concat gs = fs -> Forall (fun g => exists x g', g = x :: g' /\ Forall (fun y => f_occ y = f_occ x) g') gs ->
    concat ([x] :: gs) = x :: fs /\ Forall (fun g => exists x g', g = x :: g' /\ Forall (fun y => f_occ y = f_occ x) g') ([x] :: gs)).
  { intros gs E F. split; [cbn; rewrite E; reflexivity|]. constructor; [|exact F]. exists x, []. split; [reflexivity|constructor]. }
  destruct (groups_of fs) as [|[|y g] gs]; [apply D; assumption|apply D; assumption|].
  destruct (occ_differ (f_occ x) (f_occ y)) eqn:E; [apply D; assumption|]. apply occ_differ_false in E.
  split; [cbn in IH1 |- *; rewrite IH1; reflexivity|]. inversion IH2 as [|? ? (z & g' & E' & Hg) IH3]. injection E' as <- <-. subst. constructor; [|exact IH3].
  exists x, (y :: g). split; [reflexivity|]. constructor; [symmetry; exact E|]. eapply Forall_impl; [|exact Hg]. intros u Hu. cbn in Hu. congruence.
Qed.

Lemma groups_one : forall x g, Forall (fun y => f_occ y = f_occ x) g -> groups_of (x :: g) = [x :: g].
Proof.
  intros x g. revert x. induction g as [|y g IH]; intros x H; [reflexivity|]. inversion H as [|? ? H1 H2]. subst.
  change (groups_of (x :: y :: g)) with (match groups_of (y :: g) with
    | (z :: g0) :: gs => if occ_differ (f_occ x) (f_occ z) then [x] :: (z :: g0) :: gs else (x :: z :: g0) :: gs | gs1 => [x] :: gs1 end).
  rewrite IH by (eapply Forall_impl; [|exact H2]; intros u Hu; cbn in Hu; congruence).
  replace (occ_differ (f_occ x) (f_occ y)) with false; [reflexivity|]. symmetry. apply occ_differ_false. congruence.
Qed.

Definition all_parts (l : ExplodeModel.level) (ps : list (list field)) : list (list field) :=
  flat_map (fun p => match process l p with Some qs => qs | None => [] end) ps.

Lemma usual_twice : forall l1 l2 main libs fields ps, libraries main libs fields -> process l1 fields = Some ps ->
  process (finer l1 l2) fields = Some (all_parts l2 ps).
Proof.
  intros l1 l2 main libs fields ps H E.
  assert (Hid : all_parts LMain ps = ps) by (unfold all_parts; cbn; induction ps as [|p ps' IH]; cbn; [reflexivity|f_equal; clear -ps']; induction ps'; cbn; congruence).
  pose proof H as (HE & Hm & HF & Ha).
  destruct l1, l2; cbn [finer process] in *; try (rewrite Hid; exact E); try (injection E as <-; unfold all_parts; cbn [flat_map process]; rewrite app_nil_r).
  - rewrite (process_local_usual _ _ _ H). reflexivity.
  - rewrite (copy_usual _ _ _ H). reflexivity.
  - (* local, local *)
    rewrite (process_local_usual _ _ _ H) in E. injection E as <-. rewrite (process_local_usual _ _ _ H). f_equal. clear H HE Ha Hid. unfold all_parts.
    induction HF as [|[a b] libs (F1 & F2 & F3) _ IH]; [reflexivity|]. cbn [map flat_map process fst snd] in *.
    rewrite (process_local_usual _ _ _ (one_library main a b Hm F1 F2 F3)). cbn [map app fst snd]. f_equal. exact IH.
  - (* local, copy *)
    rewrite (process_local_usual _ _ _ H) in E. injection E as <-. rewrite (copy_usual _ _ _ H). f_equal. clear H HE Ha Hid. unfold all_parts.
    induction HF as [|[a b] libs (F1 & F2 & F3) _ IH]; [reflexivity|]. cbn [map flat_map process fst snd] in *.
    rewrite (copy_usual _ _ _ (one_library main a b Hm F1 F2 F3)). cbn [flat_map fst snd]. rewrite app_nil_r. f_equal. exact IH.
  - (* copy, local *)
    rewrite (copy_usual _ _ _ H) in E. injection E as <-. rewrite (copy_usual _ _ _ H). f_equal. clear H HE Ha Hid. unfold all_parts.
    induction HF as [|[a b] libs (F1 & F2 & F3) _ IH]; [reflexivity|]. cbn [flat_map fst snd] in *. rewrite flat_map_app. f_equal; [|exact IH].
    destruct (groups_sound b) as (G1 & G2).
    assert (G3 : Forall (Forall (at_level LCopy)) (groups_of b)).
    { clear - F2 G1. rewrite <- G1 in F2. clear G1. induction (groups_of b) as [|g gs IHg]; [constructor|]. cbn [concat] in F2. apply Forall_app in F2. constructor; [apply F2|apply IHg; apply F2]. }
    clear G1. induction G2 as [|g gs (x & g' & -> & _) _ IHg]; [reflexivity|]. inversion G3. subst. cbn [map flat_map process].
    rewrite (process_local_usual _ _ _ (one_library main a (x :: g') Hm F1 ltac:(assumption) ltac:(destruct a; discriminate))).
    cbn [map app fst snd]. f_equal. apply IHg. assumption.
  - (* copy, copy *)
    rewrite (copy_usual _ _ _ H) in E. injection E as <-. rewrite (copy_usual _ _ _ H). f_equal. clear H HE Ha Hid. unfold all_parts.
    induction HF as [|[a b] libs (F1 & F2 & F3) _ IH]; [reflexivity|]. cbn [flat_map fst snd] in *. rewrite flat_map_app. f_equal; [|exact IH].
    destruct (groups_sound b) as (G1 & G2).
    assert (G3 : Forall (Forall (at_level LCopy)) (groups_of b)).
    { clear - F2 G1. rewrite <- G1 in F2. clear G1. induction (groups_of b) as [|g gs IHg]; [constructor|]. cbn [concat] in F2. apply Forall_app in F2. constructor; [apply F2|apply IHg; apply F2]. }
    clear G1. induction G2 as [|g gs (x & g' & -> & Hg) _ IHg]; [reflexivity|]. inversion G3. subst. cbn [map flat_map process].
    rewrite (copy_usual _ _ _ (one_library main a (x :: g') Hm F1 ltac:(assumption) ltac:(destruct a; discriminate))).
    cbn [flat_map fst snd]. rewrite (groups_one x g' Hg). cbn [map app]. f_equal. apply IHg. assumption.
Qed.

Lemma main_all : forall ps, all_parts LMain ps = ps.
Proof. unfold all_parts. cbn [process process_main]. induction ps as [|p ps IH]; cbn; congruence. Qed.

Lemma process_twice : forall l1 l2 fields ps, Forall valid_field fields -> l1 = LMain \/ l2 = LMain \/ main_first fields -> process l1 fields = Some ps ->
  process (finer l1 l2) fields = Some (all_parts l2 ps).
Proof.
  intros l1 l2 fields ps Hv H E. destruct (process_exploded (finer l1 l2) fields Hv) as (qs & Eq & _). destruct H as [->|[->|H]].
  - cbn [process] in E. injection E as <-. change (finer LMain l2) with l2 in *. unfold all_parts. cbn [flat_map]. rewrite Eq, app_nil_r. reflexivity.
  - rewrite main_all, <- E. destruct l1; reflexivity.
  - destruct (first_libraries fields Hv H) as (main & libs & Hl). exact (usual_twice _ _ _ _ _ _ Hl E).
Qed.

Lemma of_line_valid : forall r, of_line r -> Forall valid_field (br_record r).
Proof.
  intros r (p & Hp & Ew & Eb). unfold br_from_bytes in Eb. destruct (record_from_bytes (br_write r)) as [x|] eqn:Ex; [|discriminate].
  destruct (record_from_bytes_valid _ _ Ex) as [_ Hv]. injection Eb as Eb. rewrite <- Eb. exact Hv.
Qed.

Lemma parts_twice : forall l1 l2 recs, Forall of_line recs -> l1 = LMain \/ l2 = LMain \/ Forall (fun r => main_first (br_record r)) recs ->
  flat_map (parts_of l2) (flat_map (parts_of l1) recs) = flat_map (parts_of (finer l1 l2)) recs.
Proof.
  intros l1 l2 recs H Hm. induction H as [|r recs Hr H IH]; [reflexivity|]. cbn [flat_map]. rewrite flat_map_app, IH.
  2:{ destruct Hm as [Hm|[Hm|Hm]]; auto. inversion Hm. auto. }
  f_equal. clear IH H. assert (Hm' : l1 = LMain \/ l2 = LMain \/ main_first (br_record r)).
  { destruct Hm as [Hm|[Hm|Hm]]; auto. inversion Hm. auto. }
  destruct (process_exploded l1 (br_record r) (of_line_valid r Hr)) as (ps & E & _).
  pose proof (process_twice l1 l2 _ _ (of_line_valid r Hr) Hm' E) as E2. unfold parts_of at 2 3. rewrite E, E2. unfold all_parts. clear.
  induction ps as [|p ps IH]; [reflexivity|]. cbn [map flat_map]. rewrite map_app, <- IH. f_equal. unfold parts_of. cbn [br_record part_record].
  destruct (process l2 p); reflexivity.
Qed.

(** ** Runs *)

Lemma seen_skips : forall ls recs, seen false ls recs None -> seen true ls recs None.
Proof.
  intros ls recs H. remember false as skip eqn:Es. remember None as er eqn:Ee. induction H as [|s n l r ls rs er Hr H IH|s n l ls rs er Hk Hr H IH|s n l ls Hk Hr].
  - constructor.
  - constructor; [exact Hr|]. apply IH; assumption.
  - congruence.
  - discriminate.
Qed.

Lemma collected_reads : forall gz_dec d stdin names cs skip recs, available gz_dec d stdin names cs ->
  io_files_loop (fun l => l) snoc skip [] (inputs gz_dec d stdin names) = Some (IDone recs) -> reads true cs recs None.
Proof.
  intros gz_dec d stdin names cs skip recs Ha H. destruct (reads_exists skip cs) as (all & er & Hr).
  assert (E : io_files_loop (fun l => l) snoc skip [] (inputs gz_dec d stdin names) = option_map as_io (files_loop (on_result skip collect) [] cs))
    by exact (available_loop _ _ _ _ _ _ _ _ _ _ [] (IoProofs.on_result_body _ collect skip) Ha).
  rewrite H in E.
  destruct Hr as (ls & Hl & Hs). rewrite (files_loop_fold _ _ _ _ Hl), (fold_seen _ _ _ _ _ _ Hs), collect_fold in E.
  cbn [app] in E. destruct er as [er|]; [discriminate|]. cbn in E. injection E as ->. exists ls. split; [exact Hl|].
  destruct skip; [exact Hs|apply seen_skips; exact Hs].
Qed.

Lemma execute_twice : forall e c o discard keep l1 l2 gzip output names cs w w1 t,
  (forall n, output = Some n -> ~ In n names) -> available (e_gz_dec e) (w_disk w) (w_stdin w) names cs ->
  l1 = LMain \/ l2 = LMain \/ (forall all er, reads true cs all er -> Forall (fun r => main_first (br_record r)) all) ->
  execute e c (explode_of o l1 names) w = Some (CEnded 0, w1) -> w_stdout w1 = w_stdout w ++ t ->
  frel (w_stdin w) (execute e c (KExplode o discard keep l2 gzip output [lit "-"]) (mkWorld (w_disk w) t (w_stdout w)))
    (execute e c (KExplode o discard keep (finer l1 l2) gzip output names) w).
Proof.
  intros e c o discard keep l1 l2 gzip output names cs w w1 t Hout Hav Hm H Ht.
  set (O := oracles_for e o) in *. set (Od := default_oracles e) in *. set (tr := translit e (cf_normalization c)) in *.
  set (skip := o_skip o || cf_skip_invalid c) in *.
  cbn [explode_of execute] in H.
  change (oracles_for e _) with O in H. fold Od tr in H. set (a0 := load_opts e _ _) in H.
  assert (E0 : opts_prepare O Od tr a0 = (Some (Some (mkOpts (mkFSet None None ppn_path) None (o_ci o) 0)), fresh)) by reflexivity.
  destruct (explode_front_done _ _ _ _ _ _ _ _ _ _ _ _ _ _ E0 (fun r => proj1 (bare_selects O Od (mkFSet None None ppn_path) (o_ci o) 0 r eq_refl eq_refl eq_refl)) eq_refl H)
    as (recs & Hr & ->).
  cbn [w_stdout] in Ht. apply app_inv_head in Ht. subst t. cbn [o_skip] in Hr. fold skip in Hr.
  set (parts := flat_map (parts_of l1) recs) in *. set (v := mkWorld (w_disk w) (flat_map br_write parts) (w_stdout w)) in *.
  pose proof (good_lines _ _ _ _ _ _ Hr) as Hof.
  assert (Hop : Forall of_line parts).
  { apply Forall_forall. intros q Hq. apply in_flat_map in Hq. destruct Hq as (r & Hrr & Hq). rewrite Forall_forall in Hof.
    pose proof (parts_lines l1 r (Hof r Hrr)) as X. rewrite Forall_forall in X. exact (X q Hq). }
  assert (Hm' : l1 = LMain \/ l2 = LMain \/ Forall (fun r => main_first (br_record r)) recs).
  { destruct Hm as [Hm|[Hm|Hm]]; auto. right; right. eapply Hm. eapply collected_reads; [exact Hav|exact Hr]. }
  assert (Ek : filter (fun _ : byte_record => true) parts = parts) by (clear; induction parts; cbn; congruence).
  assert (Hv : fronted names (w_stdin w) (w_disk w) parts (fun _ => true) v w).
  { split; [|split]; [rewrite Ek; reflexivity|destruct w; reflexivity|intros n _; reflexivity]. }
  cbn [execute]. fold O Od tr skip. change (w_disk v) with (w_disk w). unfold explode_on_disk.
  apply (prepared_both (e_gz_enc e) names (w_stdin w) (w_disk w) parts (fun _ => true)); [exact Hv|]. intros dk _.
  destruct (wb_run wb_new [CGzip gzip]) as [b|]; [|apply (front_end _ _ _ _ _ _ _ Hv)]. cbv zeta.
  apply (open_front (e_gz_enc e) (e_writable e) names (w_stdin w) (w_disk w) parts (fun _ => true)); [|exact Hv|].
  { constructor; [|constructor]. intros n Hn. apply Hout. destruct output; exact Hn. }
  intros u u' Hu. apply (prepared_both (e_gz_enc e) names (w_stdin w) (w_disk w) parts (fun _ => true)); [exact Hu|]. intros fo _.
  destruct Hu as (Hu1 & -> & Hu3). unfold process_all. change (w_disk (fed (w_stdin w) u)) with (w_disk u). change (w_stdin (fed (w_stdin w) u)) with (w_stdin w).
  rewrite Hu1, Ek. rewrite (back_any (e_gz_dec e) (w_disk u) parts Hop).
  rewrite (loop_whole (e_gz_dec e) names (w_stdin w) (w_disk w) skip recs Hr _ (fun s => s) _ _ (w_disk u) Hu3 (or_intror (fun _ => eq_refl))).
  rewrite !explode_fold by assumption. cbn [ex_level]. unfold parts. rewrite (parts_twice l1 l2 recs Hof Hm').
  change (part_body O Od (mkExplode (finer l1 l2) fo (snd dk) (fst dk))) with (part_body O Od (mkExplode l2 fo (snd dk) (fst dk))).
  destruct (fold_end _ _ _) as [a|a|a er|].
  - split; [reflexivity|]. apply fed_close_all.
  - split; [reflexivity|]. apply fed_close_all.
  - destruct (main_status _); (split; [reflexivity|]); [apply fed_close_all|reflexivity].
  - split; reflexivity.
Qed.

Lemma run_twice : forall e cfg o discard keep l1 l2 gzip output names cs w w1 t x w2,
  (forall n, output = Some n -> ~ In n names) -> available (e_gz_dec e) (w_disk w) (w_stdin w) names cs ->
  l1 = LMain \/ l2 = LMain \/ (forall all er, reads true cs all er -> Forall (fun r => main_first (br_record r)) all) ->
  run e (mkInvocation cfg (explode_of o l1 names)) w = Some (CEnded 0, w1) -> w_stdout w1 = w_stdout w ++ t ->
  run e (mkInvocation cfg (KExplode o discard keep l2 gzip output [lit "-"])) (mkWorld (w_disk w) t (w_stdout w)) = Some (x, w2) ->
  run e (mkInvocation cfg (KExplode o discard keep (finer l1 l2) gzip output names)) w = Some (x, fed (w_stdin w) w2).
Proof.
  intros e cfg o discard keep l1 l2 gzip output names cs w w1 t x w2 Ho Hav Hm H Ht H2.
  destruct (fun X => RunProofs.run_ended _ _ _ _ _ X H) as (c & Hset & He); [reflexivity|].
  rewrite (RunProofs.run_settings e (mkInvocation cfg (KExplode o discard keep (finer l1 l2) gzip output names)) w c eq_refl) by (eapply settings_same; [reflexivity|exact Hset]).
  rewrite (RunProofs.run_settings e (mkInvocation cfg (KExplode o discard keep l2 gzip output [lit "-"])) _ c eq_refl) in H2 by (eapply settings_same; [|exact Hset]; reflexivity).
  cbn [in_command] in *. pose proof (execute_twice e c o discard keep l1 l2 gzip output names cs w w1 t Ho Hav Hm He Ht) as X. rewrite H2 in X.
  destruct (execute e c (KExplode o discard keep (finer l1 l2) gzip output names) w) as [[y v]|]; [|contradiction]. destruct X as [-> ->]. reflexivity.
Qed.

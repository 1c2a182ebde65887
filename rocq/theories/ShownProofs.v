(** * Proofs about what print shows *)

From Coq Require Import String ZArith Lia.
From Verif Require Import Bytes BaseProofs Winnow RecordModel RecordSpec RecordProofs TagOccModel Utf8Model ByteRecordModel ByteRecordProofs ReaderModel
  MatcherModel MatcherProofs StateParser MatcherParserModel BuilderModel PathModel FmtModel QueryModel CliModel CliProofs TableModel
  ExplodeModel ExplodeProofs ExplodeRunProofs CheckModel ConvertModel CsvModel OptionsModel OptionsSpec ConfigModel PrepareModel
  IoModel IoSpec WriteSpec DiskModel DirModel RuleModel
  MainModel DiskSpec RuleSpec MainSpec PipeSpec DiskProofs PipeProofs PipeInProofs FrontLoop FrontSpec FrontProofs FrontRunProofs FrontExplodeProofs LimitSpec LimitProofs PartsSpec PartsProofs RecordwiseProofs
  AgreedProofs ShownSpec.
From Verif Require RunSpec RunProofs.

(** ** Texts *)

Lemma until_byte : forall (b : byte) x y X Y, x ++ b :: X = y ++ b :: Y -> ~ In b x -> ~ In b y -> x = y /\ X = Y.
Proof.
  intros b. induction x as [|a x IH]; intros [|c y] X Y E Hx Hy; cbn in E.
  - injection E as E. auto.
  - injection E as <- _. destruct Hy. left. reflexivity.
  - injection E as -> _. destruct Hx. left. reflexivity.
  - injection E as <- E. destruct (IH y X Y E) as [-> ->]; [intros H; apply Hx; right; exact H|intros H; apply Hy; right; exact H|]. auto.
Qed.

(** what follows a value *)
Definition after_value (r : bytes) : Prop := r = [] \/ exists u, r = SP :: 36 :: u.

Lemma value_ends : forall v v' r r', v ++ r = v' ++ r' -> ~ In 36 v -> ~ In 36 v' -> after_value r -> after_value r' -> v = v' /\ r = r'.
Proof.
  intros v v' r r' E Hv Hv' [->|(u & ->)] [->|(u' & ->)].
  - rewrite !app_nil_r in E. auto.
  - destruct Hv. rewrite app_nil_r in E. rewrite E. apply in_or_app. right. right. left. reflexivity.
  - destruct Hv'. rewrite app_nil_r in E. rewrite <- E. apply in_or_app. right. right. left. reflexivity.
  - change (SP :: 36 :: u) with ([SP] ++ 36 :: u) in *. change (SP :: 36 :: u') with ([SP] ++ 36 :: u') in *. rewrite !app_assoc in E.
    assert (S : forall x : bytes, ~ In 36 x -> ~ In 36 (x ++ [SP])) by (intros x Hx H; apply in_app_or in H; destruct H as [H|[H|[]]]; [auto|discriminate]).
    destruct (until_byte _ _ _ _ _ E (S _ Hv) (S _ Hv')) as [E1 ->]. apply app_inj_tail in E1. destruct E1 as [-> _]. auto.
Qed.

(** ** Subfields, fields, records *)

Section Shown.
  Let same (b : bytes) : bytes := b.

  Lemma subfields_after : forall l t, print_subfields same l = Some t -> after_value t.
  Proof.
    intros [|s l] t H; cbn [print_subfields] in H; [injection H as <-; left; reflexivity|]. destruct (utf8_valid (sf_value s)); [|discriminate].
    destruct (print_subfields same l) as [u|]; [|discriminate]. injection H as <-. right. eexists. reflexivity.
  Qed.

  Lemma subfields_shown : forall l l' t, Forall (fun s => ~ In 36 (sf_value s)) l -> Forall (fun s => ~ In 36 (sf_value s)) l' ->
    print_subfields same l = Some t -> print_subfields same l' = Some t -> l = l'.
  Proof.
    induction l as [|s l IH]; intros l' t Hl Hl' E E'.
    - cbn in E. injection E as <-. destruct l' as [|s' l']; [reflexivity|]. cbn [print_subfields] in E'. destruct (utf8_valid _); [|discriminate].
      destruct (print_subfields same l'); discriminate.
    - cbn [print_subfields] in E. destruct (utf8_valid (sf_value s)); [|discriminate]. destruct (print_subfields same l) as [u|] eqn:Eu; [|discriminate]. injection E as <-.
      destruct l' as [|s' l']; [discriminate|]. cbn [print_subfields] in E'. destruct (utf8_valid (sf_value s')); [|discriminate].
      destruct (print_subfields same l') as [u'|] eqn:Eu'; [|discriminate]. cbn [app] in E'. injection E' as Ec Ev.
      inversion Hl as [|? ? H1 H2]. inversion Hl' as [|? ? H1' H2']. subst.
      destruct (value_ends (sf_value s') (sf_value s) u' u Ev H1' H1 (subfields_after _ _ Eu') (subfields_after _ _ Eu)) as [E1 ->].
      rewrite (IH l' u H2 H2' eq_refl Eu'). f_equal. destruct s, s'. cbn in *. congruence.
  Qed.

  Lemma subfields_oneline : forall l t, Forall (fun s => valid_code (sf_code s) /\ ~ In 10 (sf_value s)) l -> print_subfields same l = Some t -> ~ In 10 t.
  Proof.
    intros l t H. revert t. induction H as [|s l [Hc Hv] _ IH]; intros t E; cbn [print_subfields] in E; [injection E as <-; intros []|].
    destruct (utf8_valid _); [|discriminate]. destruct (print_subfields same l) as [u|]; [|discriminate]. injection E as <-. cbn [app].
    intros [X|[X|[X|[X|X]]]]; try discriminate.
    - rewrite X in Hc. cbv in Hc. repeat (destruct Hc as [Hc|Hc]; [discriminate|]). exact Hc.
    - apply in_app_or in X. destruct X as [X|X]; [exact (Hv X)|exact (IH u eq_refl X)].
  Qed.

  Definition occ_text (f : field) : bytes := match f_occ f with Some o => write_occ o | None => [] end.

  Lemma start_bytes : forall f b, valid_field f -> b = 10 \/ b = 32 -> ~ In b (f_tag f ++ occ_text f).
  Proof.
    intros f b (Ht & Ho & _) Hb X. apply in_app_or in X. destruct X as [X|X].
    - destruct Ht as (x & y & z & u & E & Hx & Hy & Hz & Hu). rewrite E in X.
      destruct X as [<-|[<-|[<-|[<-|[]]]]]; destruct Hb as [F|F]; rewrite F in *; clear F.
      all: match goal with H : In 10 _ |- _ => cbv in H | H : In 32 _ |- _ => cbv in H end.
      all: repeat match goal with H : _ \/ _ |- _ => destruct H as [H|H]; [discriminate|] end; assumption.
    - unfold occ_text in X. destruct (f_occ f) as [o|]; [|exact X]. destruct (Ho o eq_refl) as [_ H]. destruct X as [X|X]; [destruct Hb as [-> | ->]; discriminate|].
      rewrite Forall_forall in H. specialize (H b X). destruct Hb as [-> | ->]; cbv in H; repeat (destruct H as [H|H]; [discriminate|]); exact H.
  Qed.

  (** the fields whose text can be told apart *)
  Definition plain (f : field) : Prop := valid_field f /\ Forall (fun s => ~ In 10 (sf_value s) /\ ~ In 36 (sf_value s)) (f_subfields f).

  Lemma field_shown : forall f g t u, plain f -> plain g -> print_subfields same (f_subfields f) = Some t -> print_subfields same (f_subfields g) = Some u ->
    f_tag f ++ occ_text f ++ t = f_tag g ++ occ_text g ++ u -> f = g.
  Proof.
    intros f g t u [Vf Pf] [Vg Pg] Et Eu E.
    assert (X : f_tag f ++ occ_text f = f_tag g ++ occ_text g /\ t = u).
    { rewrite !app_assoc in E. pose proof (start_bytes f 32 Vf (or_intror eq_refl)) as Nf. pose proof (start_bytes g 32 Vg (or_intror eq_refl)) as Ng.
      destruct (subfields_after _ _ Et) as [->|(x & ->)]; destruct (subfields_after _ _ Eu) as [->|(y & ->)].
      - rewrite !app_nil_r in E. auto.
      - destruct Nf. rewrite app_nil_r in E. rewrite E. apply in_or_app. right. left. reflexivity.
      - destruct Ng. rewrite app_nil_r in E. rewrite <- E. apply in_or_app. right. left. reflexivity.
      - change SP with 32 in *. destruct (until_byte _ _ _ _ _ E Nf Ng) as [-> ->]. auto. }
    destruct X as [E1 ->]. destruct Vf as (Tf & Of & _), Vg as (Tg & Og & _).
    assert (E2 : f_tag f = f_tag g /\ occ_text f = occ_text g).
    { destruct Tf as (a & b & c & d & Ef & _), Tg as (a' & b' & c' & d' & Eg & _). rewrite Ef, Eg in *. cbn in E1. injection E1 as -> -> -> -> E1. auto. }
    destruct E2 as [E2 E3]. rewrite Forall_forall in Pf, Pg.
    assert (E4 : f_subfields f = f_subfields g).
    { eapply subfields_shown; [| |exact Et|exact Eu]; apply Forall_forall; intros s Hs; [apply Pf|apply Pg]; exact Hs. }
    assert (E5 : f_occ f = f_occ g) by (unfold occ_text in E3; destruct (f_occ f), (f_occ g); try discriminate; [injection E3 as ->|]; reflexivity).
    destruct f, g. cbn in *. congruence.
  Qed.

  Lemma fields_shown : forall fs gs t u X Y, Forall plain fs -> Forall plain gs -> print_fields same fs = Some t -> print_fields same gs = Some u ->
    t ++ 10 :: X = u ++ 10 :: Y -> fs = gs /\ X = Y.
  Proof.
    assert (Head : forall g x X, plain g -> 10 :: X <> f_tag g ++ x).
    { intros g x X [((a & b & c & d & -> & Ha & _) & _) _] E. injection E as Ea _. rewrite <- Ea in Ha. cbv in Ha. repeat (destruct Ha as [Ha|Ha]; [discriminate|]). exact Ha. }
    induction fs as [|f fs IH]; intros [|g gs] t u X Y Hf Hg Et Eu E; cbn [print_fields] in Et, Eu.
    - injection Et as <-. injection Eu as <-. injection E as E. auto.
    - injection Et as <-. destruct (print_subfields same (f_subfields g)) as [x|]; [|discriminate]. destruct (print_fields same gs) as [y|]; [|discriminate].
      injection Eu as <-. inversion Hg as [|? ? Pg _]. subst. rewrite <- app_assoc in E. destruct (Head _ _ _ Pg E).
    - injection Eu as <-. destruct (print_subfields same (f_subfields f)) as [x|]; [|discriminate]. destruct (print_fields same fs) as [y|]; [|discriminate].
      injection Et as <-. inversion Hf as [|? ? Pf _]. subst. rewrite <- app_assoc in E. symmetry in E. destruct (Head _ _ _ Pf E).
    - destruct (print_subfields same (f_subfields f)) as [x|] eqn:Ex; [|discriminate]. destruct (print_fields same fs) as [y|] eqn:Ey; [|discriminate].
      destruct (print_subfields same (f_subfields g)) as [x'|] eqn:Ex'; [|discriminate]. destruct (print_fields same gs) as [y'|] eqn:Ey'; [|discriminate].
      injection Et as <-. injection Eu as <-. inversion Hf as [|? ? Pf Pfs]. inversion Hg as [|? ? Pg Pgs]. subst. fold (occ_text f) in E. fold (occ_text g) in E.
      assert (One : forall h z, plain h -> print_subfields same (f_subfields h) = Some z -> ~ In 10 (f_tag h ++ occ_text h ++ z)).
      { intros h z [V P] Ez I. rewrite app_assoc in I. apply in_app_or in I. destruct I as [I|I]; [exact (start_bytes h 10 V (or_introl eq_refl) I)|].
        refine (subfields_oneline (f_subfields h) z _ Ez I). destruct V as (_ & _ & V). rewrite Forall_forall in *. intros s Hs. split; [apply (V s Hs)|apply (P s Hs)]. }
      assert (E1 : (f_tag f ++ occ_text f ++ x) ++ 10 :: (y ++ 10 :: X) = (f_tag g ++ occ_text g ++ x') ++ 10 :: (y' ++ 10 :: Y)).
      { rewrite <- !app_assoc in *. cbn [app] in E. exact E. }
      destruct (until_byte _ _ _ _ _ E1 (One f x Pf Ex) (One g x' Pg Ex')) as [E2 E3].
      destruct (IH gs y y' X Y Pfs Pgs eq_refl Ey' E3) as [-> ->]. rewrite (field_shown f g x x' Pf Pg Ex Ex' E2). auto.
  Qed.

  Definition record_shown (r : byte_record) : bytes := match print_fields same (br_record r) with Some t => t ++ [10] | None => [] end.

  Lemma records_shown : forall rs rs', Forall (fun r => Forall plain (br_record r) /\ print_fields same (br_record r) <> None) rs ->
    Forall (fun r => Forall plain (br_record r) /\ print_fields same (br_record r) <> None) rs' ->
    flat_map record_shown rs = flat_map record_shown rs' -> map br_record rs = map br_record rs'.
  Proof.
    induction rs as [|r rs IH]; intros [|r' rs'] H H' E; [reflexivity| | |]; cbn [flat_map] in E.
    - inversion H' as [|? ? [_ N] _]. subst. unfold record_shown at 1 in E. destruct (print_fields same (br_record r')) as [[|b u]|]; [discriminate|discriminate|destruct N; reflexivity].
    - inversion H as [|? ? [_ N] _]. subst. unfold record_shown at 1 in E. destruct (print_fields same (br_record r)) as [[|b u]|]; [discriminate|discriminate|destruct N; reflexivity].
    - inversion H as [|? ? [P N] Hs]. inversion H' as [|? ? [P' N'] Hs']. subst. unfold record_shown at 1 3 in E.
      destruct (print_fields same (br_record r)) as [t|] eqn:Et; [|destruct N; reflexivity]. destruct (print_fields same (br_record r')) as [t'|] eqn:Et'; [|destruct N'; reflexivity].
      rewrite <- !app_assoc in E. cbn [app] in E. destruct (fields_shown _ _ _ _ _ _ P P' Et Et' E) as [E1 E2]. cbn [map]. rewrite E1, (IH rs' Hs Hs' E2). reflexivity.
  Qed.
End Shown.

(** ** The command *)

Lemma print_fold : forall O Od fo recs n out s', (forall r, opts_select_print O Od fo r = Some true) -> fo_limit fo = 0 ->
  fold_end (fun s r => as_io (print_body O Od (fun b => b) fo s r)) (n, out) recs = IDone s' ->
  Forall (fun r => print_fields (fun b => b) (br_record r) <> None) recs /\ snd s' = out ++ flat_map record_shown recs.
Proof.
  intros O Od fo recs n out s' Hs Hl. revert n out. induction recs as [|r recs IH]; intros n out H.
  - injection H as <-. split; [constructor|]. cbn. rewrite app_nil_r. reflexivity.
  - cbn [fold_end] in H. unfold print_body at 1, guarded in H. rewrite Hs, Hl in H. destruct (print_fields (fun b => b) (br_record r)) as [t|] eqn:E; [|discriminate].
    change (limit_reached 0 (n + 1)) with false in H. cbn [as_io] in H. destruct (IH _ _ H) as [H1 H2]. split.
    + constructor; [rewrite E; discriminate|exact H1].
    + rewrite H2. cbn [flat_map]. unfold record_shown at 2. rewrite E. rewrite <- !app_assoc. reflexivity.
Qed.

Lemma print_read : forall e cfg skip names w a t, run_writes e cfg w (concat_part skip None names) a -> run_writes e cfg w (printed skip names) t ->
  exists recs, Forall of_line recs /\ a = flat_map br_write recs /\ Forall (fun r => print_fields (fun b => b) (br_record r) <> None) recs /\ t = flat_map record_shown recs.
Proof.
  intros e cfg skip names w a t (w1 & H1 & T1) (w2 & H2 & T2). destruct (fun X => RunProofs.run_ended _ _ _ _ _ X H1) as (c & Hset & He); [reflexivity|].
  rewrite (RunProofs.run_settings e (mkInvocation cfg (printed skip names)) w c eq_refl) in H2 by (eapply settings_same; [reflexivity|exact Hset]).
  cbn [in_command concat_part printed execute o_skip] in He, H2. destruct (concat_front_done _ _ _ _ _ _ _ _ _ _ He) as (recs & Hr & Ew).
  rewrite Ew in T1. cbn [w_stdout] in T1. apply app_inv_head in T1. subst a.
  change (mkFileOpts skip 0 false 0 [] [] None None None [] [] []) with (slice_opts skip) in H2.
  unfold print_on_disk in H2. rewrite slice_ready in H2. cbn [fst prepared] in H2. set (fo := mkOpts _ None false 0) in *.
  cbn [open_all open_output out_name app] in H2. rewrite world_eta in H2. change (translit e None) with (fun b : bytes => b) in H2.
  destruct (whole_read _ _ _ _ _ _ _ _ _ _ _ _ (steady_cases _ _ (print_steady (oracles_for e (slice_opts skip)) (default_oracles e) (fun b => b) fo eq_refl)) H2) as (recs' & s' & Hr' & Hf & Ew').
  change (o_skip (slice_opts skip)) with skip in Hr'. rewrite Hr in Hr'. injection Hr' as <-.
  destruct (print_fold _ _ fo recs 0 [] s' (fun r => proj2 (bare_selects _ _ (mkFSet None None ppn_path) false 0 r eq_refl eq_refl eq_refl)) eq_refl Hf) as [P Es].
  rewrite Ew' in T2. cbn [w_stdout] in T2. apply app_inv_head in T2. exists recs. split; [exact (good_lines _ _ _ _ _ _ Hr)|]. split; [reflexivity|]. split; [exact P|].
  rewrite <- T2. exact Es.
Qed.

Lemma lines_plain : forall recs, Forall of_line recs -> ~ In 36 (flat_map br_write recs) -> Forall (fun r => Forall plain (br_record r)) recs.
Proof.
  intros recs L H36. rewrite Forall_forall in *. intros r Hr. destruct (line_data r (L r Hr)) as (_ & V & _ & Ed). destruct (L r Hr) as (p & Hp & Ep & _).
  rewrite Ed in Ep. apply app_inj_tail in Ep. destruct Ep as [Ep _]. rewrite Forall_forall in *. intros f Hf. split; [exact (V f Hf)|].
  apply Forall_forall. intros s Hs. assert (I : forall b, In b (sf_value s) -> In b p).
  { intros b Hb. rewrite <- Ep. apply in_flat_map. exists f. split; [exact Hf|]. unfold write_field. rewrite !in_app_iff. do 3 right. left.
    apply in_flat_map. exists s. split; [exact Hs|]. right. right. exact Hb. }
  split; [intros X; exact (Hp (I _ X))|]. intros X. apply H36. apply in_flat_map. exists r. split; [exact Hr|]. rewrite Ed, Ep. apply in_or_app. left. exact (I _ X).
Qed.

Lemma run_shown : forall e e' cfg cfg' skip skip' names names' w w' a a' t,
  run_writes e cfg w (concat_part skip None names) a -> run_writes e' cfg' w' (concat_part skip' None names') a' -> ~ In 36 a -> ~ In 36 a' ->
  run_writes e cfg w (printed skip names) t -> run_writes e' cfg' w' (printed skip' names') t -> a = a'.
Proof.
  intros e e' cfg cfg' skip skip' names names' w w' a a' t Ha Ha' Da Da' Ht Ht'.
  destruct (print_read _ _ _ _ _ _ _ Ha Ht) as (recs & L & -> & P & Et). destruct (print_read _ _ _ _ _ _ _ Ha' Ht') as (recs' & L' & -> & P' & Et').
  assert (Q := lines_plain recs L Da). assert (Q' := lines_plain recs' L' Da').
  assert (E : map br_record recs = map br_record recs').
  { apply records_shown; [| |rewrite <- Et; exact Et']; rewrite Forall_forall in *; intros r Hr; split; auto. }
  assert (W : forall rs, Forall of_line rs -> flat_map br_write rs = flat_map (fun fs => flat_map write_field fs ++ [10]) (map br_record rs)).
  { clear. intros rs L. induction L as [|r rs H _ IH]; [reflexivity|]. cbn [flat_map map]. rewrite IH. destruct (line_data r H) as (_ & _ & _ & ->). reflexivity. }
  rewrite (W _ L), (W _ L'), E. reflexivity.
Qed.

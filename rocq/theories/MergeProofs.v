(** * Proofs about two runs of filter after each other *)

From Coq Require Import String ZArith Lia.
From Verif Require Import Bytes BaseProofs Winnow RecordModel TagOccModel Utf8Model ByteRecordModel ByteRecordProofs ReaderModel
  MatcherModel MatcherProofs StateParser MatcherParserModel BuilderModel PathModel QuerySpec FmtModel QueryModel CliModel CliProofs TableModel
  ExplodeModel CheckModel ConvertModel CsvModel OptionsModel OptionsSpec ConfigModel PrepareModel PrepareSpec PrepareProofs GrammarStateProofs
  IoModel IoSpec WriteSpec DiskModel DirModel RuleModel
  MainModel DiskSpec RuleSpec MainSpec PipeSpec DiskProofs PipeProofs PipeInProofs FrontLoop FrontSpec FrontProofs FrontRunProofs MergeSpec.
From Verif Require RunSpec RunProofs.

(** ** Reading the conditions *)

Section Read.
  Variable O : oracles.
  Variable tr : bytes -> bytes.
  Variable ci : bool.

  (** two results of parsing, related *)
  Definition both (R : field_matcher -> field_matcher -> Prop) (x y : presult field_matcher) : Prop :=
    snd x = snd y /\
    match fst x, fst y with
    | None, None | Some None, Some None => True
    | Some (Some a), Some (Some b) => R a b
    | _, _ => False
    end.

  Lemma fold_both : forall (R : field_matcher -> field_matcher -> Prop) op1 op2, (forall a b n, R a b -> R (op1 a n) (op2 b n)) ->
    forall l a b s, R a b -> both R (builder_fold O tr op1 l a s) (builder_fold O tr op2 l b s).
  Proof.
    intros R op1 op2 H. induction l as [|t l IH]; intros a b s Hab; cbn [builder_fold]; [split; [reflexivity|exact Hab]|].
    destruct (field_matcher_new O s (tr t)) as [[[n|]|] s']; cbn [and_then]; [|split; [reflexivity|exact I]..]. apply IH. apply H. exact Hab.
  Qed.

  Lemma eval_and : forall a b r, fm_is_match O ci (fm_and_assign a b) r = (do x <- fm_is_match O ci a r; if x then fm_is_match O ci b r else Some false).
  Proof.
    intros a b r. unfold fm_and_assign. cbn [fm_is_match].
    assert (G : forall m, fm_is_match O ci (match m with FMComposite _ BOr _ | FMComposite _ BXor _ => FMGroup m | _ => m end) r = fm_is_match O ci m r).
    { intros m. destruct m as [| | | |l [] q]; reflexivity. }
    rewrite !G. reflexivity.
  Qed.

  Lemma eval_not : forall a r, fm_is_match O ci (fm_not a) r = (do x <- fm_is_match O ci a r; Some (negb x)).
  Proof.
    intros a r. unfold fm_not. destruct a as [s| | | |]; try reflexivity. destruct s as [|q t o sm raw]; [reflexivity|].
    destruct sm as [s| | |]; try reflexivity. destruct s; reflexivity.
  Qed.

  Lemma eval_or : forall a b r, fm_is_match O ci (fm_or_assign a b) r = (do x <- fm_is_match O ci a r; if x then Some true else fm_is_match O ci b r).
  Proof. reflexivity. Qed.

  Variable m0 : field_matcher.

  (** what the whole condition says, from the second one *)
  Definition and_rel (M m : field_matcher) : Prop := forall r,
    fm_is_match O ci M r = do x <- fm_is_match O ci m0 r; if x then fm_is_match O ci m r else Some false.
  Definition not_rel (M m : field_matcher) : Prop := forall r,
    fm_is_match O ci M r = do x <- fm_is_match O ci m0 r; if x then (do y <- fm_is_match O ci m r; Some (negb y)) else Some false.
  Definition or_rel (M m : field_matcher) : Prop := forall r,
    fm_is_match O ci M r = do x <- fm_is_match O ci m0 r; if x then Some true else fm_is_match O ci m r.

  Lemma and_and : forall M m n, and_rel M m -> and_rel (fm_and_assign M n) (fm_and_assign m n).
  Proof. intros M m n H r. rewrite !eval_and, (H r). destruct (fm_is_match O ci m0 r) as [[]|]; reflexivity. Qed.

  Lemma and_not : forall M m n, and_rel M m -> and_rel (fm_and_assign M (fm_not n)) (fm_and_assign m (fm_not n)).
  Proof. intros M m n H r. rewrite !eval_and, (H r). destruct (fm_is_match O ci m0 r) as [[]|]; reflexivity. Qed.

  Lemma not_or : forall M m n, not_rel M m -> not_rel (fm_and_assign M (fm_not n)) (fm_or_assign m n).
  Proof.
    intros M m n H r. rewrite eval_and, eval_not, eval_or, (H r). destruct (fm_is_match O ci m0 r) as [[]|]; try reflexivity.
    destruct (fm_is_match O ci m r) as [[]|]; reflexivity.
  Qed.

  Lemma or_or : forall M m n, or_rel M m -> or_rel (fm_or_assign M n) (fm_or_assign m n).
  Proof. intros M m n H r. rewrite !eval_or, (H r). destruct (fm_is_match O ci m0 r) as [[]|]; reflexivity. Qed.

  Variable A : bytes.
  Hypothesis HA : builder_run O tr fresh A [CallAnd []; CallOr []; CallNot []] = (Some (Some m0), fresh).

  Lemma first_read : builder_new O tr fresh A = (Some (Some m0), fresh).
  Proof.
    unfold builder_run in HA. destruct (builder_new O tr fresh A) as [[[m|]|] s]; try discriminate. cbn in HA. exact HA.
  Qed.

  Lemma both_then : forall (R R' : field_matcher -> field_matcher -> Prop) x y f g, both R x y ->
    (forall a b s, R a b -> both R' (f a s) (g b s)) -> both R' (and_then x f) (and_then y g).
  Proof.
    intros R R' [x s] [y s'] f g [E H] Hf. cbn [fst snd] in *. subst s'.
    destruct x as [[a|]|], y as [[b|]|]; try contradiction; cbn [and_then]; [|split; [reflexivity|exact I]..]. apply Hf. exact H.
  Qed.

  Lemma both_done : forall (R : field_matcher -> field_matcher -> Prop) a b s, R a b -> both R (Some (Some a), s) (Some (Some b), s).
  Proof. intros R a b s H. split; [reflexivity|exact H]. Qed.

  Lemma run_and : forall B Bs Cs, both and_rel (builder_run O tr fresh A [CallAnd (B :: Bs); CallOr []; CallNot Cs])
    (builder_run O tr fresh B [CallAnd Bs; CallOr []; CallNot Cs]).
  Proof.
    intros B Bs Cs. unfold builder_run. rewrite first_read. cbn [and_then builder_calls builder_step builder_fold]. unfold builder_new.
    destruct (field_matcher_new O fresh (tr B)) as [[[n|]|] s]; cbn [and_then]; [|split; [reflexivity|exact I]..].
    eapply both_then; [apply (fold_both and_rel); [exact and_and|intros r; apply eval_and]|]. intros a b s1 H. cbn [and_then].
    eapply both_then; [apply (fold_both and_rel); [exact and_not|exact H]|]. intros a' b' s2 H'. apply both_done. exact H'.
  Qed.

  Lemma run_not : forall C Cs, both not_rel (builder_run O tr fresh A [CallAnd []; CallOr []; CallNot (C :: Cs)])
    (builder_run O tr fresh C [CallAnd []; CallOr Cs; CallNot []]).
  Proof.
    intros C Cs. unfold builder_run. rewrite first_read. cbn [and_then builder_calls builder_step builder_fold]. unfold builder_new.
    destruct (field_matcher_new O fresh (tr C)) as [[[n|]|] s]; cbn [and_then]; [|split; [reflexivity|exact I]..].
    eapply both_then; [apply (fold_both not_rel); [exact not_or|]|].
    - intros r. rewrite eval_and, eval_not. reflexivity.
    - intros a b s1 H. cbn [and_then]. apply both_done. exact H.
  Qed.

  Lemma run_or : forall B Bs, both or_rel (builder_run O tr fresh A [CallAnd []; CallOr (B :: Bs); CallNot []])
    (builder_run O tr fresh B [CallAnd []; CallOr Bs; CallNot []]).
  Proof.
    intros B Bs. unfold builder_run. rewrite first_read. cbn [and_then builder_calls builder_step builder_fold]. unfold builder_new.
    destruct (field_matcher_new O fresh (tr B)) as [[[n|]|] s]; cbn [and_then]; [|split; [reflexivity|exact I]..].
    eapply both_then; [apply (fold_both or_rel); [exact or_or|intros r; apply eval_or]|]. intros a b s1 H. cbn [and_then]. apply both_done. exact H.
  Qed.
End Read.

(** ** The two runs *)

(** The whole condition (with or without -v), from the first and the second: [i] and [j] are -v of the whole
    (and of the first) and of the second. *)
Definition splits (O : oracles) (ci : bool) (i j : bool) (m0 M m : field_matcher) : Prop := forall r,
  (do x <- rm_is_match O ci M r; Some (if i then negb x else x))
  = do x <- rm_is_match O ci m0 r; if (if i then negb x else x) then (do y <- rm_is_match O ci m r; Some (if j then negb y else y)) else Some false.

Lemma splits_and : forall O ci m0 M m, and_rel O ci m0 M m -> splits O ci false false m0 M m.
Proof.
  intros O ci m0 M m H r. unfold rm_is_match. rewrite (H r). destruct (fm_is_match O ci m0 r) as [[]|]; try reflexivity.
Qed.
Lemma splits_not : forall O ci m0 M m, not_rel O ci m0 M m -> splits O ci false true m0 M m.
Proof.
  intros O ci m0 M m H r. unfold rm_is_match. rewrite (H r). destruct (fm_is_match O ci m0 r) as [[]|]; try reflexivity.
  destruct (fm_is_match O ci m r); reflexivity.
Qed.
Lemma splits_or : forall O ci m0 M m, or_rel O ci m0 M m -> splits O ci true true m0 M m.
Proof.
  intros O ci m0 M m H r. unfold rm_is_match. rewrite (H r). destruct (fm_is_match O ci m0 r) as [[]|]; try reflexivity.
Qed.

Lemma execute_merge : forall e c o i j A ands ors nots B ands' ors' nots' keep discard append gzip output tee names w w1 t,
  leaves_levels e o A ->
  (forall tr m0, builder_run (oracles_for e o) tr fresh A [CallAnd []; CallOr []; CallNot []] = (Some (Some m0), fresh) ->
     both (splits (oracles_for e o) (o_ci o) i j m0) (builder_run (oracles_for e o) tr fresh A [CallAnd ands; CallOr ors; CallNot nots])
       (builder_run (oracles_for e o) tr fresh B [CallAnd ands'; CallOr ors'; CallNot nots'])) ->
  (forall n, output = Some n \/ tee = Some n -> ~ In n names) ->
  execute e c (filter_before o i A names) w = Some (CEnded 0, w1) -> w_stdout w1 = w_stdout w ++ t ->
  frel (w_stdin w) (execute e c (filter_behind o j B ands' ors' nots' keep discard append gzip output tee) (mkWorld (w_disk w) t (w_stdout w)))
    (execute e c (filter_whole o i A ands ors nots keep discard append gzip output tee names) w).
Proof.
  intros e c o i j A ands ors nots B ands' ors' nots' keep discard append gzip output tee names w w1 t [Hsrc Hbal] Hboth Hout H Ht.
  cbn [filter_before filter_behind filter_whole execute o_skip] in *.
  repeat match goal with |- context [oracles_for e (mkFileOpts ?a ?b ?c1 ?d ?f ?g ?h ?i ?j ?k ?l ?m)] =>
    change (oracles_for e (mkFileOpts a b c1 d f g h i j k l m)) with (oracles_for e o) end.
  change (oracles_for e (mkFileOpts _ _ _ _ _ _ _ _ _ _ _ _)) with (oracles_for e o) in H.
  set (O := oracles_for e o) in *. set (Od := default_oracles e) in *. set (tr := translit e (cf_normalization c)) in *.
  set (skip := o_skip o || cf_skip_invalid c) in *.
  set (a0 := load_filter e (w_disk w) skip _ _ names) in H.
  destruct (filter_front_done _ _ _ O Od tr a0 w w1 eq_refl eq_refl eq_refl eq_refl H) as (fc & s' & recs & Hp & Hr & Hsel & ->).
  unfold a0 in *. clear a0. cbn [fa_skip fa_names load_filter] in Hr. cbn [w_stdout] in Ht. apply app_inv_head in Ht. subst t.
  set (sel := chosen O Od fc) in *. set (v := mkWorld (w_disk w) (flat_map br_write (filter sel recs)) (w_stdout w)).
  assert (Hv : fronted names (w_stdin w) (w_disk w) recs sel v w).
  { split; [reflexivity|]. split; [destruct w; reflexivity|]. intros n _. reflexivity. }
  (* the first expression *)
  specialize (Hp (content_of (w_disk w))). unfold filter_prepare, filter_expr, load_filter in Hp.
  cbn [fa_source fa_discard fa_keep fa_column fa_allow fa_deny fa_expr_file fa_filter fa_and fa_or fa_not fa_ci fa_invert fa_limit
       o_source o_column o_allow o_deny o_and o_or o_not o_ci o_limit fi_keep fi_discard fi_expr_file fi_expr fi_invert parse_predicates] in Hp.
  assert (Ef : snd (source_parse Od fresh (o_source o)) = fresh).
  { destruct Hsrc as [->|(V & Hs)]; [reflexivity|]. destruct (source_accepted Od (o_source o) V fresh Hs eq_refl) as (x & -> & _). reflexivity. }
  destruct (source_parse Od fresh (o_source o)) as [[[src|]|] s0] eqn:Es; try discriminate. cbn [snd] in Ef. subst s0. cbn [and_then] in Hp.
  destruct (filter_set_build src (o_column o) (map (load_table e (w_disk w)) (o_allow o)) (map (load_table e (w_disk w)) (o_deny o))) as [fs|] eqn:Efs; [|discriminate].
  destruct (builder_run O tr fresh A [CallAnd []; CallOr []; CallNot []]) as [[[m0|]|] s1] eqn:Eb; try discriminate. cbn [and_then] in Hp. injection Hp as Ec Es'.
  assert (E1 : s1 = fresh).
  { pose proof (run_stays O tr fresh A [] [] [] (conj eq_refl eq_refl)) as X. rewrite Eb in X. apply X. intros t [->|[]]. apply Hbal. }
  rewrite E1 in Eb. specialize (Hboth tr m0 Eb).
  (* the other arguments *)
  set (a := load_filter e (w_disk v) _ _ _ _). set (a' := load_filter e (w_disk w) _ _ _ _).
  unfold filter_on_disk.
  assert (Hfirst : filter_first Od a' = filter_first Od a).
  { unfold filter_first, a, a'. cbn [fa_source fa_discard fa_keep fa_column fa_allow fa_deny load_filter o_source o_column o_allow o_deny fi_keep fi_discard].
    rewrite Es. cbn [fst]. rewrite Efs. reflexivity. }
  rewrite Hfirst. apply (prepared_both (e_gz_enc e) names (w_stdin w) (w_disk w) recs sel [] (filter_first Od a) v w _ _ Hv). intros _ _.
  destruct (wb_run wb_new [CAppend append; CGzip gzip]) as [b|]; [|apply (front_end _ _ _ _ _ _ _ Hv)]. cbv zeta.
  apply (open_front (e_gz_enc e) (e_writable e) names (w_stdin w) (w_disk w) recs sel); [|exact Hv|].
  { apply two_spare; intros n Hn; apply Hout; auto. }
  intros u u' Hu. change (expr_there a _) with true. change (expr_there a' _) with true. cbv iota.
  apply (prepared_front (e_gz_enc e) names (w_stdin w) (w_disk w) recs sel); [exact Hu|].
  unfold filter_prepare, filter_expr, a, a'.
  cbn [load_filter fa_source fa_discard fa_keep fa_column fa_allow fa_deny fa_expr_file fa_filter fa_and fa_or fa_not fa_ci fa_invert fa_limit fa_skip fa_names
       o_source o_column o_allow o_deny o_and o_or o_not o_ci o_limit fi_keep fi_discard fi_expr_file fi_expr fi_invert].
  rewrite Es. change (source_parse Od fresh None) with (Some (Some (@None path)), fresh). cbn [and_then map].
  destruct (parse_predicates discard) as [dd|]; [|exact I]. destruct (parse_predicates keep) as [kk|]; [|exact I]. rewrite Efs.
  change (filter_set_build None None [] []) with (Some (mkFSet None None ppn_path)). cbv iota.
  destruct (builder_run O tr fresh A [CallAnd ands; CallOr ors; CallNot nots]) as [[[M|]|] sM],
    (builder_run O tr fresh B [CallAnd ands'; CallOr ors'; CallNot nots']) as [[[m|]|] sm]; destruct Hboth as [_ Hboth]; cbn [fst snd] in Hboth; try contradiction;
    cbn [and_then fst]; [|exact I..].
  change (filter_names false B [lit "-"]) with [lit "-"]. change (filter_names false A names) with names.
  apply (process_front (e_gz_enc e) (e_gz_dec e) names (w_stdin w) (w_disk w) skip recs Hr sel); [exact Hu|right; reflexivity|].
  assert (E : forall r, In r recs -> filter_select O Od (mkFilter fs M (o_ci o) i dd kk (o_limit o)) (br_record r)
    = if sel r then filter_select O Od (mkFilter (mkFSet None None ppn_path) m (o_ci o) j dd kk (o_limit o)) (br_record r) else Some false).
  { intros r Hin. specialize (Hsel r Hin). specialize (Hboth (br_record r)). fold sel in Hsel. rewrite <- Ec in Hsel.
    unfold filter_select in Hsel |- *. cbn [fc_fset fc_ci fc_matcher fc_invert] in *.
    assert (F : filter_set_check Od (mkFSet None None ppn_path) (br_record r) = Some true).
    { destruct (bare_selects O Od (mkFSet None None ppn_path) (o_ci o) 0 (br_record r) eq_refl eq_refl eq_refl) as [X _].
      unfold opts_select in X. cbn [fo_fset fo_matcher] in X. destruct (filter_set_check Od (mkFSet None None ppn_path) (br_record r)) as [[]|]; [reflexivity|discriminate..]. }
    rewrite F. destruct (filter_set_check Od fs (br_record r)) as [[|]|]; [| |discriminate].
    2:{ injection Hsel as Hsel. rewrite <- Hsel. reflexivity. }
    cbv iota beta. rewrite Hboth. destruct (rm_is_match O (o_ci o) m0 (br_record r)) as [x|]; [|discriminate]. injection Hsel as Hsel. rewrite <- Hsel.
    destruct (if i then negb x else x); reflexivity. }
  intros s r Hin. unfold filter_body, guarded. rewrite (E r Hin). cbn [fc_keep fc_discard fc_limit]. destruct (sel r); reflexivity.
Qed.

Lemma run_merge : forall e cfg o i j A ands ors nots B ands' ors' nots' keep discard append gzip output tee names w w1 t x w2,
  leaves_levels e o A ->
  (forall tr m0, builder_run (oracles_for e o) tr fresh A [CallAnd []; CallOr []; CallNot []] = (Some (Some m0), fresh) ->
     both (splits (oracles_for e o) (o_ci o) i j m0) (builder_run (oracles_for e o) tr fresh A [CallAnd ands; CallOr ors; CallNot nots])
       (builder_run (oracles_for e o) tr fresh B [CallAnd ands'; CallOr ors'; CallNot nots'])) ->
  (forall n, output = Some n \/ tee = Some n -> ~ In n names) ->
  run e (mkInvocation cfg (filter_before o i A names)) w = Some (CEnded 0, w1) -> w_stdout w1 = w_stdout w ++ t ->
  run e (mkInvocation cfg (filter_behind o j B ands' ors' nots' keep discard append gzip output tee)) (mkWorld (w_disk w) t (w_stdout w)) = Some (x, w2) ->
  run e (mkInvocation cfg (filter_whole o i A ands ors nots keep discard append gzip output tee names)) w = Some (x, fed (w_stdin w) w2).
Proof.
  intros e cfg o i j A ands ors nots B ands' ors' nots' keep discard append gzip output tee names w w1 t x w2 Hl Hb Ho H Ht H2.
  destruct (fun X => RunProofs.run_ended _ _ _ _ _ X H) as (c & Hset & He); [reflexivity|].
  rewrite (RunProofs.run_settings e (mkInvocation cfg (filter_whole o i A ands ors nots keep discard append gzip output tee names)) w c eq_refl)
    by (eapply settings_same; [reflexivity|exact Hset]).
  rewrite (RunProofs.run_settings e (mkInvocation cfg (filter_behind o j B ands' ors' nots' keep discard append gzip output tee)) _ c eq_refl) in H2
    by (eapply settings_same; [|exact Hset]; reflexivity).
  cbn [in_command] in *.
  pose proof (execute_merge e c o i j A ands ors nots B ands' ors' nots' keep discard append gzip output tee names w w1 t Hl Hb Ho He Ht) as X. rewrite H2 in X.
  destruct (execute e c (filter_whole o i A ands ors nots keep discard append gzip output tee names) w) as [[y v]|]; [|contradiction]. destruct X as [-> ->]. reflexivity.
Qed.

Lemma both_weaken : forall (R R' : field_matcher -> field_matcher -> Prop) x y, (forall a b, R a b -> R' a b) -> both R x y -> both R' x y.
Proof. intros R R' [[[a|]|] s] [[[b|]|] s'] H [E X]; split; try exact E; cbn [fst] in *; auto. Qed.

Lemma merge_and : forall e cfg o A B Bs Cs keep discard append gzip output tee names w w1 t x w2,
  leaves_levels e o A -> (forall n, output = Some n \/ tee = Some n -> ~ In n names) ->
  run e (mkInvocation cfg (filter_before o false A names)) w = Some (CEnded 0, w1) -> w_stdout w1 = w_stdout w ++ t ->
  run e (mkInvocation cfg (filter_behind o false B Bs [] Cs keep discard append gzip output tee)) (mkWorld (w_disk w) t (w_stdout w)) = Some (x, w2) ->
  run e (mkInvocation cfg (filter_whole o false A (B :: Bs) [] Cs keep discard append gzip output tee names)) w = Some (x, fed (w_stdin w) w2).
Proof.
  intros e cfg o A B Bs Cs keep discard append gzip output tee names w w1 t x w2 Hl Ho. apply run_merge; [exact Hl| |exact Ho]. intros tr m0 Hm.
  eapply both_weaken; [apply splits_and|]. apply run_and. exact Hm.
Qed.

Lemma merge_not : forall e cfg o A C Cs keep discard append gzip output tee names w w1 t x w2,
  leaves_levels e o A -> (forall n, output = Some n \/ tee = Some n -> ~ In n names) ->
  run e (mkInvocation cfg (filter_before o false A names)) w = Some (CEnded 0, w1) -> w_stdout w1 = w_stdout w ++ t ->
  run e (mkInvocation cfg (filter_behind o true C [] Cs [] keep discard append gzip output tee)) (mkWorld (w_disk w) t (w_stdout w)) = Some (x, w2) ->
  run e (mkInvocation cfg (filter_whole o false A [] [] (C :: Cs) keep discard append gzip output tee names)) w = Some (x, fed (w_stdin w) w2).
Proof.
  intros e cfg o A C Cs keep discard append gzip output tee names w w1 t x w2 Hl Ho. apply run_merge; [exact Hl| |exact Ho]. intros tr m0 Hm.
  eapply both_weaken; [apply splits_not|]. apply run_not. exact Hm.
Qed.

Lemma merge_or : forall e cfg o A B Bs keep discard append gzip output tee names w w1 t x w2,
  leaves_levels e o A -> (forall n, output = Some n \/ tee = Some n -> ~ In n names) ->
  run e (mkInvocation cfg (filter_before o true A names)) w = Some (CEnded 0, w1) -> w_stdout w1 = w_stdout w ++ t ->
  run e (mkInvocation cfg (filter_behind o true B [] Bs [] keep discard append gzip output tee)) (mkWorld (w_disk w) t (w_stdout w)) = Some (x, w2) ->
  run e (mkInvocation cfg (filter_whole o true A [] (B :: Bs) [] keep discard append gzip output tee names)) w = Some (x, fed (w_stdin w) w2).
Proof.
  intros e cfg o A B Bs keep discard append gzip output tee names w w1 t x w2 Hl Ho. apply run_merge; [exact Hl| |exact Ho]. intros tr m0 Hm.
  eapply both_weaken; [apply splits_or|]. apply run_or. exact Hm.
Qed.

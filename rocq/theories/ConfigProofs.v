(** * Proofs about loading and saving the configuration *)

From Coq Require Import String.
From Verif Require Import Bytes BaseProofs Utf8Model Utf8Spec Utf8Proofs OptionsModel OptionsSpec OptionsProofs ConfigModel ConfigSpec.

Lemma decide_saves : forall a c name v, changes a name v ->
  exists c', config_decide a c = DSave c' /\ updated c name v c'.
Proof.
  intros a c name v (En & [->| ->] & H); unfold config_decide; rewrite En; cbn [negb andb].
  - rewrite bytes_eqb_refl. cbn [negb andb]. destruct v as [w|].
    + destruct H as [-> [[_ Hv]|[X _]]]; [|discriminate X]. cbn [In] in Hv.
      destruct Hv as [<-|[<-|[]]]; eexists; (split; [reflexivity|]); left; cbn; (split; [reflexivity|]);
        (split; [reflexivity|]); split; congruence.
    + destruct H as [-> ->]. eexists. split; [reflexivity|]. left. cbn. repeat split; discriminate.
  - replace (bytes_eqb (lit "normalization") (lit "skip-invalid")) with false by reflexivity.
    rewrite bytes_eqb_refl. cbn [negb andb]. destruct v as [w|].
    + destruct H as [-> [[X _]|[_ Hv]]]; [discriminate X|]. cbn [In] in Hv.
      destruct Hv as [<-|[<-|[<-|[<-|[]]]]]; eexists; (split; [reflexivity|]); right; cbn; (split; [reflexivity|]);
        (split; [reflexivity|]); eexists; (split; [reflexivity|]); cbn; auto.
    + destruct H as [-> ->]. eexists. split; [reflexivity|]. right. cbn. auto.
Qed.

Lemma decide_saved : forall a c c', args_allowed a = true -> config_decide a c = DSave c' ->
  exists name v, changes a name v /\ updated c name v c'.
Proof.
  intros a c c' Al H.
  assert (Hc : exists name v, changes a name v).
  { unfold config_decide in H.
    destruct (bytes_eqb (ca_name a) (lit "skip-invalid")) eqn:E1; cbn [negb andb] in H.
    - apply bytes_eqb_eq in E1. destruct (ca_value a) as [w|] eqn:Ev.
      + destruct (bool_parse w) as [b|] eqn:Eb; [|discriminate].
        exists (lit "skip-invalid"), (Some w). split; [exact E1|]. split; [left; reflexivity|].
        split; [exact Ev|]. apply skip_valid. exists b. exact Eb.
      + destruct (ca_unset a) eqn:Eu; [|destruct (ca_get a || negb false && negb (ca_set a)); discriminate].
        exists (lit "skip-invalid"), None. split; [exact E1|]. split; [left; reflexivity|]. auto.
    - destruct (bytes_eqb (ca_name a) (lit "normalization")) eqn:E2; cbn [negb andb] in H; [|discriminate].
      apply bytes_eqb_eq in E2. destruct (ca_value a) as [w|] eqn:Ev.
      + destruct (nf_parse w) as [b|] eqn:Eb; [|discriminate].
        exists (lit "normalization"), (Some w). split; [exact E2|]. split; [right; reflexivity|].
        split; [exact Ev|]. apply norm_valid. exists b. exact Eb.
      + destruct (ca_unset a) eqn:Eu; [|destruct (ca_get a || negb false && negb (ca_set a)); discriminate].
        exists (lit "normalization"), None. split; [exact E2|]. split; [right; reflexivity|]. auto. }
  destruct Hc as (name & v & Hc). exists name, v. split; [exact Hc|].
  destruct (decide_saves a c name v Hc) as (c2 & E & U). rewrite E in H. injection H as <-. exact U.
Qed.

(** ** C102 *)
Lemma home_start : forall from_toml f c, config_start from_toml PHome f = LConfig c <->
  (f = FMissing /\ c = config_default)
  \/ exists b, f = FHolds b /\ is_utf8 b /\ from_toml b = Some c.
Proof.
  intros from_toml f c. setoid_rewrite <- utf8_valid_iff. destruct f as [| |b]; cbn.
  - split; [intros [= <-]; auto|]. intros [[_ ->]|(b & X & _)]; [reflexivity|discriminate X].
  - split; [discriminate|]. intros [[X _]|(b & X & _)]; discriminate X.
  - split.
    + destruct (utf8_valid b) eqn:E; [|discriminate]. destruct (from_toml b) as [c0|] eqn:Et; [|discriminate].
      intros [= ->]. right. exists b. auto.
    + intros [[X _]|(b' & [= <-] & -> & ->)]; [discriminate X|reflexivity].
Qed.

Lemma unusable_reported : forall from_toml fate a f,
  (forall c, config_start from_toml PHome f <> LConfig c) ->
  exists e, config_main from_toml PHome fate a f = (e, f) /\ (e = CfError \/ e = CfPanic).
Proof.
  intros from_toml fate a f H. unfold config_main.
  destruct (config_start from_toml PHome f) as [c| |]; [exfalso; exact (H c eq_refl)| |]; eexists; split; eauto.
Qed.

Lemma given_ignored : forall from_toml f, illegible f -> config_start from_toml PGiven f = LConfig config_default.
Proof. 
  intros from_toml f [->|(b & -> & E)]; cbn; [reflexivity|]. rewrite <- utf8_valid_iff in E.
  destruct (utf8_valid b); [contradiction E; reflexivity|reflexivity].
Qed.

Lemma given_overwritten : forall from_toml f a name v, illegible f -> changes a name v ->
  exists t c, config_main from_toml PGiven SaveWorks a f = (CfDone [], FHolds t)
    /\ file_says t c /\ updated config_default name v c.
Proof.
  intros from_toml f a name v Hf Hc. destruct (decide_saves a config_default name v Hc) as (c & E & U).
  exists (config_toml c), c. unfold config_main. rewrite (given_ignored from_toml f Hf), E.
  split; [reflexivity|]. split; [apply config_toml_says|exact U].
Qed.

(** ** C103 *)
Lemma set_writes : forall from_toml p b c a name v, p <> PNowhere ->
  is_utf8 b -> from_toml b = Some c -> changes a name v ->
  exists t c', config_main from_toml p SaveWorks a (FHolds b) = (CfDone [], FHolds t)
    /\ file_says t c' /\ updated c name v c'.
Proof.
  intros from_toml p b c a name v Hp Hu Hb Hc. apply utf8_valid_iff in Hu. destruct (decide_saves a c name v Hc) as (c' & E & U).
  exists (config_toml c'), c'. unfold config_main.
  replace (config_start from_toml p (FHolds b)) with (LConfig c)
    by (destruct p; cbn; [rewrite Hu, Hb; reflexivity|rewrite Hu, Hb; reflexivity|congruence]).
  rewrite E. split; [destruct p; [reflexivity|reflexivity|congruence]|].
  split; [apply config_toml_says|exact U].
Qed.

Lemma set_forgets : forall from_toml p fate b1 b2 c a name v, p <> PNowhere -> fate <> SaveRefused ->
  is_utf8 b1 -> is_utf8 b2 ->
  from_toml b1 = Some c -> from_toml b2 = Some c -> changes a name v ->
  config_main from_toml p fate a (FHolds b1) = config_main from_toml p fate a (FHolds b2).
Proof.
  intros from_toml p fate b1 b2 c a name v Hp Hf U1 U2 E1 E2 Hc. apply utf8_valid_iff in U1, U2.
  destruct (decide_saves a c name v Hc) as (c' & E & _). unfold config_main.
  assert (S : forall b, utf8_valid b = true -> from_toml b = Some c -> config_start from_toml p (FHolds b) = LConfig c).
  { intros b U Eb. destruct p; cbn; [rewrite U, Eb; reflexivity|rewrite U, Eb; reflexivity|congruence]. }
  rewrite (S b1 U1 E1), (S b2 U2 E2), E. destruct p, fate; try reflexivity; congruence.
Qed.

(** ** C104 *)
Lemma panics_on : forall from_toml p b, p <> PNowhere -> utf8_valid b = true -> from_toml b = None ->
  forall runs, config_mains from_toml p runs (FHolds b) = (map (fun _ => CfPanic) runs, FHolds b).
Proof.
  intros from_toml p b Hp U E. induction runs as [|[fate a] runs IH]; [reflexivity|]. cbn [config_mains].
  assert (X : config_main from_toml p fate a (FHolds b) = (CfPanic, FHolds b)).
  { unfold config_main. destruct p; cbn; [rewrite U, E; reflexivity|rewrite U, E; reflexivity|congruence]. }
  rewrite X, IH. reflexivity.
Qed.

Lemma stop_kills : forall from_toml p f c a name v, p <> PNowhere ->
  config_start from_toml p f = LConfig c -> changes a name v -> from_toml [] = None ->
  forall runs, config_mains from_toml p ((SaveStops 0, a) :: runs) f
    = (CfError :: map (fun _ => CfPanic) runs, FHolds []).
Proof.
  intros from_toml p f c a name v Hp L Hc E runs. destruct (decide_saves a c name v Hc) as (c' & Ed & _).
  cbn [config_mains]. unfold config_main. rewrite L, Ed.
  replace (config_save p (SaveStops 0) c' f) with (false, FHolds []) by (destruct p; [reflexivity|reflexivity|congruence]).
  rewrite (panics_on from_toml p [] Hp eq_refl E). reflexivity.
Qed.

Lemma stop_mixes : forall from_toml p f c a w n, p <> PNowhere ->
  (forall t c, file_says t c -> from_toml t = Some c) ->
  config_start from_toml p f = LConfig c -> cf_normalization c = Some n ->
  changes a (lit "skip-invalid") (Some w) ->
  exists f' c', config_main from_toml p (SaveStops (length (lit "skip-invalid = " ++ w ++ [10]))) a f = (CfError, f')
    /\ config_start from_toml p f' = LConfig c'
    /\ (cf_skip_invalid c' = true <-> w = lit "true") /\ cf_normalization c' = None.
Proof.
  intros from_toml p f c a w n Hp RT L En Hc. destruct (decide_saves a c _ _ Hc) as (c' & Ed & U).
  destruct U as [(_ & E1 & E2)|(X & _)]; [|discriminate X].
  assert (Hw : w = bool_display (cf_skip_invalid c')).
  { destruct Hc as (_ & _ & Hv). destruct Hv as [_ [[_ Hv]|[X _]]]; [|discriminate X]. cbn [In] in Hv.
    destruct (cf_skip_invalid c') eqn:Es; cbn.
    - pose proof (proj1 E2 eq_refl) as X. injection X as X. exact X.
    - destruct Hv as [<-|[<-|[]]]; [|reflexivity]. pose proof (proj2 E2 eq_refl) as X. discriminate X. }
  set (c1 := mkConfig (cf_skip_invalid c') None).
  assert (Et : firstn (length (lit "skip-invalid = " ++ w ++ [10])) (config_toml c') = config_toml c1).
  { unfold config_toml. rewrite E1, En, Hw. unfold c1. cbn [cf_skip_invalid cf_normalization].
    destruct (cf_skip_invalid c'); reflexivity. }
  exists (FHolds (config_toml c1)), c1. unfold config_main. rewrite L, Ed.
  split; [destruct p; [| |congruence]; cbn [config_save]; rewrite Et; reflexivity|].
  split; [|split; [|reflexivity]].
  - pose proof (RT _ _ (config_toml_says c1)) as R.
    assert (Uv : utf8_valid (config_toml c1) = true) by (unfold c1; destruct (cf_skip_invalid c'); reflexivity).
    destruct p; cbn [config_start config_from_path]; rewrite ?Uv, ?R; try reflexivity. congruence.
  - unfold c1. cbn. rewrite E2. split; [intros [= ->]; reflexivity|intros ->; reflexivity].
Qed.

Lemma toml_utf8 : forall c, utf8_valid (config_toml c) = true.
Proof. intros [[] [[]|]]; vm_compute; reflexivity. Qed.

Lemma save_effect : forall from_toml p fate a f c, args_allowed a = true ->
  (forall t c, file_says t c -> from_toml t = Some c) ->
  config_start from_toml p f = LConfig c -> (fate = SaveWorks \/ fate = SaveRefused) ->
  exists e f' c', config_main from_toml p fate a f = (e, f') /\ config_start from_toml p f' = LConfig c'
    /\ ((c' = c /\ f' = f /\ ((exists name v, changes a name v) -> e = CfError))
        \/ (exists name v, e = CfDone [] /\ changes a name v /\ updated c name v c')).
Proof.
  intros from_toml p fate a f c Al RT L Hf. unfold config_main. rewrite L.
  destruct (config_decide a c) as [| |out|c'] eqn:Ed;
    try (eexists _, f, c; split; [reflexivity|]; split; [exact L|]; left; split; [reflexivity|]; split; [reflexivity|];
         intros (name & v & Hc); destruct (decide_saves a c name v Hc) as (c2 & E2 & _); congruence).
  destruct (decide_saved a c c' Al Ed) as (name & v & Hc & U).
  destruct p; [| |exists CfError, f, c; split; [destruct fate; reflexivity|]; auto];
    (destruct Hf as [-> | ->]; [|exists CfError, f, c; split; [reflexivity|]; auto]);
    exists (CfDone []), (FHolds (config_toml c')), c'; (split; [reflexivity|]);
    (split; [cbn [config_start config_from_path]; rewrite toml_utf8, (RT _ _ (config_toml_says c')); reflexivity|]);
    right; exists name, v; auto.
Qed.

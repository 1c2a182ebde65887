(** * Proofs about sessions: the configuration after a history of commands *)

From Coq Require Import String Lia.
From Verif Require Utf8Proofs.
From Verif Require Import Bytes BaseProofs Utf8Model Utf8Spec OptionsModel OptionsSpec OptionsProofs ConfigModel DiskModel MainModel RunSpec SessionSpec.
From Verif Require MainSpec MainUseProofs MainEndProofs DiskProofs RunProofs.

Lemma current_exists : forall name h, exists v, current name h v.
Proof.
  intros name h. induction h as [|a h (v & IH)] using rev_ind; [exists None; constructor|].
  assert (D : (exists v', changes a name v') \/ forall v', ~ changes a name v').
  { destruct (bytes_eqb (ca_name a) name) eqn:En.
    2:{ right. intros v' (E & _). rewrite E, bytes_eqb_refl in En. discriminate. }
    apply bytes_eqb_eq in En.
    assert (K : known name \/ ~ known name).
    { unfold known. destruct (bytes_eqb name (lit "skip-invalid")) eqn:E1; [left; left; apply bytes_eqb_eq; exact E1|].
      destruct (bytes_eqb name (lit "normalization")) eqn:E2; [left; right; apply bytes_eqb_eq; exact E2|].
      right. intros [->| ->]; rewrite bytes_eqb_refl in *; discriminate. }
    destruct K as [K|K]; [|right; intros v' (_ & X & _); contradiction].
    destruct (ca_value a) as [t|] eqn:Ev.
    - assert (V : valid_value name t \/ ~ valid_value name t).
      { destruct K as [->| ->].
        - rewrite skip_valid. destruct (bool_parse t) as [b|]; [left; eauto|right; intros (b & X); discriminate].
        - rewrite norm_valid. destruct (nf_parse t) as [b|]; [left; eauto|right; intros (b & X); discriminate]. }
      destruct V as [V|V].
      + left. exists (Some t). split; [exact En|]. split; [exact K|]. auto.
      + right. intros [t'|] (_ & _ & X & Y); [|congruence]. apply V. congruence.
    - destruct (ca_unset a) eqn:Eu.
      + left. exists None. split; [exact En|]. split; [exact K|]. auto.
      + right. intros [t'|] (_ & _ & X & Y); congruence. }
  destruct D as [(v' & D)|D]; [exists v'; apply cur_change; exact D|exists v; apply cur_keep; assumption].
Qed.

(** [mirrors] of OptionsProofs.v is the same *)
Lemma reflects_mirrors : forall h c, reflects h c <-> mirrors h c.
Proof.
  assert (S : forall h v, current (lit "skip-invalid") h v -> v = None \/ v = Some (lit "true") \/ v = Some (lit "false")).
  { intros h v H. induction H as [|h a v (_ & _ & Hc)|h a v _ IH _]; [left; reflexivity| |exact IH].
    destruct v as [t|]; [|left; reflexivity]. destruct Hc as [_ [[_ [<-|[<-|[]]]]|[X _]]]; [auto|auto|discriminate]. }
  intros h c. split.
  - intros [H1 H2]. destruct (current_exists (lit "skip-invalid") h) as (v1 & C1), (current_exists (lit "normalization") h) as (v2 & C2). split.
    + exists v1. split; [exact C1|]. specialize (H1 v1 C1). destruct (S h v1 C1) as [->|[->| ->]]; cbn [shown].
      * left. split; [reflexivity|]. destruct (cf_skip_invalid c); [|reflexivity]. destruct H1 as [H1 _]. specialize (H1 eq_refl). discriminate.
      * destruct H1 as [_ H1]. rewrite (H1 eq_refl). reflexivity.
      * destruct (cf_skip_invalid c); [|reflexivity]. destruct H1 as [H1 _]. specialize (H1 eq_refl). discriminate.
    + specialize (H2 v2 C2). destruct v2 as [t|]; [|rewrite H2; exact C2]. destruct H2 as (f & Hf & ->). cbn [option_map].
      assert (E : nf_display f = t); [|rewrite E; exact C2].
      destruct Hf as [E|[E|[E|[E|[]]]]]; injection E as <- <-; reflexivity.
  - intros [(v1 & C1 & H1) C2]. split.
    + intros v C. rewrite (current_fun _ _ _ _ C C1). clear C. destruct (S h v1 C1) as [->|[->| ->]]; cbn [shown] in H1.
      * destruct H1 as [[_ H1]|[X _]]; [|discriminate]. destruct (cf_skip_invalid c); [discriminate|]. split; intros X; discriminate.
      * destruct (cf_skip_invalid c); [split; reflexivity|discriminate].
      * destruct (cf_skip_invalid c); [discriminate|]. split; intros X; discriminate.
    + intros v C. rewrite (current_fun _ _ _ _ C C2). destruct (cf_normalization c) as [f|]; [|reflexivity]. cbn [option_map].
      exists f. split; [|reflexivity]. destruct f; cbn; auto 10.
Qed.

(** what the file of the configuration has *)
Definition has_config (n : bytes) (w : world) (c : config) : Prop :=
  (disk_get (w_disk w) n = None /\ c = config_default)
  \/ exists t, disk_get (w_disk w) n = Some t /\ OptionsSpec.file_says t c.

Lemma says_utf8 : forall t c, OptionsSpec.file_says t c -> is_utf8 t.
Proof.
  intros t c H. apply Utf8Proofs.utf8_valid_iff. destruct H as [b v ->|b f v w -> Hw].
  - destruct b; vm_compute; reflexivity.
  - destruct Hw as [E|[E|[E|[E|[]]]]]; injection E as <- <-; destruct b; vm_compute; reflexivity.
Qed.

Lemma has_settings : forall e i n w c, MainSpec.config_name e i = Some n -> reads_config e -> has_config n w c -> settings e i w c.
Proof.
  intros e i n w c Hn He [[Hd ->]|(t & Hd & Ht)].
  - eapply se_missing; eassumption.
  - eapply se_file; [exact Hn|exact Hd|eapply says_utf8; exact Ht|apply He; exact Ht].
Qed.

Lemma config_ran : forall e i a n w h c, in_command i = KConfig a -> fitting a -> MainSpec.config_name e i = Some n ->
  e_writable e n = true -> reads_config e -> has_config n w c -> reflects h c ->
  exists x f w' c', run e i w = Some (x, w') /\ answer h a f
    /\ match f with
       | CfDone out => x = CEnded 0 /\ w_stdout w' = w_stdout w ++ out
       | CfError => x = CRefused /\ w_stdout w' = w_stdout w
       | CfPanic => x = CPanicked /\ w_stdout w' = w_stdout w
       end
    /\ has_config n w' c' /\ reflects (h ++ [a]) c'
    /\ (forall m, m <> n -> disk_get (w_disk w') m = disk_get (w_disk w) m).
Proof.
  intros e i a n w h c Ek Fit Hn Hw He Hh Hr.
  assert (RT : forall c, e_config_toml e (config_toml c) = Some c) by (intros x; apply He, config_toml_says).
  assert (L : config_load (e_config_toml e) (disk_get (w_disk w) n) = Some c).
  { destruct Hh as [[Hd ->]|(t & Hd & Ht)]; rewrite Hd; [reflexivity|]. apply He. exact Ht. }
  apply reflects_mirrors in Hr.
  destruct (config_step (e_config_toml e) RT h a (disk_get (w_disk w) n) c (proj2 (allowed_fitting a) Fit) L Hr) as (f & file' & c' & H1 & H2 & H3 & H4).
  unfold config_execute in H1. rewrite L in H1.
  assert (Es : exists p, p <> PNowhere /\ place e i = (p, Some n) /\ config_start (e_config_toml e) p (file_on (w_disk w) (Some n)) = LConfig c).
  { assert (G : forall p, p <> PNowhere -> config_start (e_config_toml e) p (file_on (w_disk w) (Some n)) = LConfig c).
    { intros p Hp. unfold file_on. destruct Hh as [[Hd ->]|(t & Hd & Ht)]; rewrite Hd.
      - destruct p; [reflexivity|reflexivity|contradiction Hp; reflexivity].
      - pose proof (says_utf8 _ _ Ht) as Hu. apply Utf8Proofs.utf8_valid_iff in Hu.
        destruct p; cbn [config_start config_from_path]; rewrite ?Hu, ?(He _ _ Ht); try reflexivity. contradiction Hp; reflexivity. }
    unfold place, MainSpec.config_name in *. destruct (in_config i) as [m|].
    - injection Hn as ->. exists PGiven. split; [discriminate|]. split; [reflexivity|]. apply G. discriminate.
    - rewrite Hn. exists PHome. split; [discriminate|]. split; [reflexivity|]. apply G. discriminate. }
  destruct Es as (p & Hp & Ep & Es). unfold run. rewrite Ek. unfold run_config. rewrite Ep, Hw. unfold config_main. rewrite Es.
  assert (Same : forall b, file_on (w_disk w) (Some n) = FHolds b -> forall m, disk_get (disk_set (w_disk w) n b) m = disk_get (w_disk w) m).
  { intros b Eb m. unfold file_on in Eb. destruct (disk_get (w_disk w) n) as [b'|] eqn:Eg; [|discriminate]. injection Eb as ->.
    rewrite DiskProofs.disk_get_set. destruct (bytes_eqb n m) eqn:Em; [|reflexivity]. apply bytes_eqb_eq in Em. subst m. symmetry. exact Eg. }
  set (w1 := match file_on (w_disk w) (Some n) with FHolds b => with_disk w (disk_set (w_disk w) n b) | _ => w end).
  assert (W : (forall m, disk_get (w_disk w1) m = disk_get (w_disk w) m) /\ w_stdout w1 = w_stdout w).
  { unfold w1. destruct (file_on (w_disk w) (Some n)) eqn:Ef; [split; reflexivity..|]. split; [|reflexivity]. exact (Same b eq_refl). }
  destruct W as [W1 W2].
  assert (Keep : disk_get (w_disk w) n = file' -> has_config n w c' ).
  { intros <-. assert (c' = c) by congruence. subst c'. exact Hh. }
  assert (Move : forall v, (forall m, disk_get (w_disk v) m = disk_get (w_disk w) m) -> has_config n w c' -> has_config n v c').
  { intros v Hv. unfold has_config. rewrite Hv. auto. }
  destruct (config_decide a c) as [| |out|c1] eqn:Ed; [..|shelve]; injection H1 as <- <-; eexists _, _, _, c'; (split; [reflexivity|]);
    (split; [exact H2|]); (split; [split; [reflexivity|]|]);
    try exact W2; try (cbn [w_stdout]; fold w1; rewrite W2; reflexivity);
    (split; [apply Move; [exact W1|apply Keep; reflexivity]|]); (split; [apply reflects_mirrors; exact H4|]); intros m _; exact (W1 m).
  Unshelve.
  injection H1 as <- <-. cbn [config_load] in H3. rewrite RT in H3. injection H3 as ->.
  eexists _, _, _, c'. split; [destruct p; [reflexivity|reflexivity|contradiction Hp; reflexivity]|].
  split; [exact H2|]. cbn [w_stdout w_disk with_disk]. split; [split; reflexivity|].
  split; [right; exists (config_toml c'); split; [|apply config_toml_says]|split; [apply reflects_mirrors; exact H4|]].
  - cbn [w_disk]. apply DiskProofs.disk_get_same.
  - intros m Hm. apply DiskProofs.disk_get_other. congruence.
Qed.

Lemma history_kept : forall n steps h, history n steps h -> forall h0 w c cs w', has_config n w c -> reflects h0 c ->
  session steps w = Some (cs, w') -> exists c', has_config n w' c' /\ reflects (h0 ++ h) c'.
Proof.
  intros n steps h H. induction H as [|e i stdin a steps h Ek Fit Hn Hw He _ IH|e i stdin steps h Ho Hm _ IH]; intros h0 w c cs w' Hc Hr Hs.
  - cbn in Hs. injection Hs as _ <-. exists c. rewrite app_nil_r. auto.
  - cbn [session] in Hs. change (mkWorld (w_disk w) stdin (w_stdout w)) with (MainSpec.fed stdin w) in Hs.
    destruct (config_ran e i a n (MainSpec.fed stdin w) h0 c Ek Fit Hn Hw He Hc Hr) as (x & f & w1 & c1 & E & _ & _ & Hc1 & Hr1 & _).
    rewrite E in Hs. cbn [snd fst] in Hs. destruct (session steps w1) as [[cs2 w2]|] eqn:E2; [|discriminate]. cbn [snd] in Hs. injection Hs as _ <-.
    destruct (IH (h0 ++ [a]) w1 c1 cs2 w2 Hc1 Hr1 E2) as (c' & H1 & H2). exists c'. rewrite <- app_assoc in H2. auto.
  - cbn [session] in Hs. destruct (run e i _) as [[x w1]|] eqn:E; [|discriminate]. cbn [snd fst] in Hs.
    destruct (session steps w1) as [[cs2 w2]|] eqn:E2; [|discriminate]. cbn [snd] in Hs. injection Hs as _ <-.
    apply (IH h0 w1 c cs2 w2); [|exact Hr|exact E2].
    pose proof (MainEndProofs.run_leaves e i _ _ _ E n Hm) as Hd. cbn [w_disk] in Hd. unfold has_config in *. rewrite Hd. exact Hc.
Qed.

Lemma starts_config : forall n w h, starts n w h <-> exists c, has_config n w c /\ reflects h c.
Proof.
  intros n w h. split.
  - intros [[Hd Hr]|(t & c & Hd & Ht & Hr)].
    + exists config_default. split; [left; auto|exact Hr].
    + exists c. split; [right; exists t; auto|exact Hr].
  - intros (c & [[Hd ->]|(t & Hd & Ht)] & Hr); [left; auto|right; exists t, c; auto].
Qed.

Lemma no_history : reflects [] (mkConfig false None).
Proof. apply reflects_mirrors. split; [exists None; split; [constructor|left; split; reflexivity]|constructor]. Qed.

Lemma session_settings : forall n steps h h0 w cs w' e i stdin, history n steps h -> starts n w h0 ->
  session steps w = Some (cs, w') -> MainSpec.config_name e i = Some n -> reads_config e ->
  exists c, settings e i (MainSpec.fed stdin w') c /\ reflects (h0 ++ h) c.
Proof.
  intros n steps h h0 w cs w' e i stdin Hh Hs E Hn He. destruct (proj1 (starts_config _ _ _) Hs) as (c & Hc & Hr).
  destruct (history_kept n steps h Hh h0 w c cs w' Hc Hr E) as (c' & Hc' & Hr'). exists c'. split; [|exact Hr'].
  eapply has_settings; eassumption.
Qed.

Lemma session_answers : forall n steps h h0 w cs w' e i stdin a, history n steps h -> starts n w h0 ->
  session steps w = Some (cs, w') -> MainSpec.config_name e i = Some n -> reads_config e ->
  in_command i = KConfig a -> fitting a -> e_writable e n = true ->
  exists x f w2, run e i (MainSpec.fed stdin w') = Some (x, w2) /\ answer (h0 ++ h) a f
    /\ match f with
       | CfDone out => x = CEnded 0 /\ w_stdout w2 = w_stdout w' ++ out
       | CfError => x = CRefused /\ w_stdout w2 = w_stdout w'
       | CfPanic => False
       end
    /\ starts n w2 (h0 ++ h ++ [a])
    /\ (forall m, m <> n -> disk_get (w_disk w2) m = disk_get (w_disk w') m).
Proof.
  intros n steps h h0 w cs w' e i stdin a Hh Hs E Hn He Ek Fit Hw. destruct (proj1 (starts_config _ _ _) Hs) as (c & Hc & Hr).
  destruct (history_kept n steps h Hh h0 w c cs w' Hc Hr E) as (c' & Hc' & Hr').
  destruct (config_ran e i a n (MainSpec.fed stdin w') (h0 ++ h) c' Ek Fit Hn Hw He Hc' Hr') as (x & f & w2 & c2 & H1 & H2 & H3 & H4 & H5 & H6).
  exists x, f, w2. split; [exact H1|]. split; [exact H2|]. split.
  { destruct f; try exact H3. inversion H2. }
  split; [|exact H6]. rewrite <- app_assoc in H5. apply starts_config. exists c2. auto.
Qed.

Lemma reflects_one : forall h c1 c2, reflects h c1 -> reflects h c2 -> c1 = c2.
Proof.
  intros h [b1 f1] [b2 f2] [A1 A2] [B1 B2].
  destruct (current_exists (lit "skip-invalid") h) as (v1 & C1), (current_exists (lit "normalization") h) as (v2 & C2).
  specialize (A1 v1 C1). specialize (B1 v1 C1). specialize (A2 v2 C2). specialize (B2 v2 C2). cbn in *.
  assert (b1 = b2).
  { destruct b1, b2; try reflexivity; [destruct B1 as [_ B1]; destruct A1 as [A1 _]|destruct A1 as [_ A1]; destruct B1 as [B1 _]].
    - symmetry. apply B1. apply A1. reflexivity.
    - apply A1. apply B1. reflexivity. }
  subst b2. destruct v2 as [t|]; [|congruence]. destruct A2 as (x & Hx & ->), B2 as (y & Hy & ->). f_equal. f_equal.
  repeat (destruct Hx as [E|Hx]; [injection E as <- <-; repeat (destruct Hy as [E|Hy]; [try discriminate; injection E as <-; reflexivity|]); destruct Hy|]). destruct Hx.
Qed.

(** * Proofs about writing in pieces and failing writes *)

From Verif Require Import Bytes Winnow RecordModel BaseProofs ByteRecordModel ReaderModel
  CliModel IoModel IoSpec WriteModel WriteSpec.

Lemma prefix_refl : forall a, is_prefix a a.
Proof. intros a. exists []. rewrite app_nil_r. reflexivity. Qed.
Lemma prefix_app : forall a b, is_prefix a (a ++ b).
Proof. intros a b. exists b. reflexivity. Qed.
Lemma prefix_trans : forall a b c, is_prefix a b -> is_prefix b c -> is_prefix a c.
Proof. intros a b c [x ->] [y ->]. exists (x ++ y). rewrite app_assoc. reflexivity. Qed.
Lemma prefix_app_l : forall a b c, is_prefix b c -> is_prefix (a ++ b) (a ++ c).
Proof. intros a b c [x ->]. exists x. rewrite app_assoc. reflexivity. Qed.

(** ** Sinks *)

Definition only (K : io_kind -> Prop) (s : sink) : Prop := forall k, can_fail s k -> K k.

Lemma push_spec : forall K ws dead data b e rest s, only K (mkSink data ws dead) ->
  push ws dead data b = (e, rest, s) ->
  sk_data s ++ rest = data ++ b /\ only K s
  /\ match e with None => rest = [] | Some k => K k end.
Proof.
  intros K. induction ws as [|[n| |k] ws IH]; intros dead data b e rest s HK H; destruct b as [|c b]; cbn in H;
    try (injection H as <- <- <-; rewrite !app_nil_r; auto; fail).
  - destruct dead as [k|]; injection H as <- <- <-; cbn.
    + repeat split; try assumption. apply HK. right. left. reflexivity.
    + rewrite app_nil_r. repeat split. intros k Hk. apply HK. cbn in *. exact Hk.
  - assert (HK' : forall d, only K (mkSink d ws dead)).
    { intros d k [Hk|[Hk|[Hk Hi]]]; apply HK; cbn in *; [left; right; exact Hk|right; left; exact Hk|].
      right. right. split; [exact Hk|right; exact Hi]. }
    destruct n as [|n].
    + injection H as <- <- <-. repeat split; [apply HK'|]. apply HK. right. right. split; [reflexivity|].
      left. reflexivity.
    + change (push ws dead (data ++ firstn (S n) (c :: b)) (skipn (S n) (c :: b)) = (e, rest, s)) in H.
      destruct (IH _ _ _ _ _ _ (HK' _) H) as (E & H1 & H2). split; [|auto].
      rewrite E, <- app_assoc. f_equal. apply firstn_skipn.
  - assert (HK' : only K (mkSink data ws dead)).
    { intros k [Hk|[Hk|[Hk Hi]]]; apply HK; cbn in *; [left; right; exact Hk|right; left; exact Hk|].
      right. right. split; [exact Hk|right; exact Hi]. }
    exact (IH _ _ _ _ _ _ HK' H).
  - injection H as <- <- <-. repeat split.
    + intros k' [Hk|[Hk|[Hk Hi]]]; apply HK; cbn in *; [left; right; exact Hk|right; left; exact Hk|].
      right. right. split; [exact Hk|right; exact Hi].
    + apply HK. left. left. reflexivity.
Qed.

Lemma sink_push_spec : forall K sk b e rest s, only K sk -> sink_push sk b = (e, rest, s) ->
  sk_data s ++ rest = sk_data sk ++ b /\ only K s
  /\ match e with None => rest = [] | Some k => K k end.
Proof. intros K [data ws dead] b e rest s. apply push_spec. Qed.

(** ** BufWriter *)

(** everything that was accepted *)
Definition bw_all (w : bufwriter) : bytes := sk_data (bw_sink w) ++ bw_buf w.

Lemma bw_flush_spec : forall K w e w', only K (bw_sink w) -> bw_flush w = (e, w') ->
  bw_all w' = bw_all w /\ only K (bw_sink w')
  /\ match e with None => bw_buf w' = [] | Some k => K k end.
Proof.
  intros K [buf sk] e w' HK H. unfold bw_flush in H. cbn [bw_sink bw_buf] in *.
  destruct (sink_push sk buf) as [[e' rest] s] eqn:E. injection H as <- <-.
  destruct (sink_push_spec _ _ _ _ _ _ HK E) as (H1 & H2 & H3). unfold bw_all. cbn. auto.
Qed.

Lemma bw_write_spec : forall K cap w b e w', only K (bw_sink w) -> bw_write cap w b = (e, w') ->
  only K (bw_sink w') /\
  match e with
  | None => bw_all w' = bw_all w ++ b
  | Some k => K k /\ is_prefix (bw_all w') (bw_all w ++ b)
  end.
Proof.
  intros K cap w b e w' HK H. unfold bw_write in H.
  destruct (Nat.ltb_spec (length b) (cap - length (bw_buf w))) as [Hl|Hl].
  { injection H as <- <-. cbn. split; [exact HK|]. unfold bw_all. cbn. apply app_assoc. }
  destruct (if Nat.ltb (cap - length (bw_buf w)) (length b) then bw_flush w else (None, w)) as [e1 w1] eqn:E1.
  assert (H1 : bw_all w1 = bw_all w /\ only K (bw_sink w1)
     /\ match e1 with None => (cap <= length b)%nat -> bw_buf w1 = [] \/ b = [] | Some k => K k end).
  { destruct (Nat.ltb_spec (cap - length (bw_buf w)) (length b)) as [Hs|Hs].
    - destruct (bw_flush_spec _ _ _ _ HK E1) as (A & B & C). split; [exact A|]. split; [exact B|].
      destruct e1; [exact C|intros _; left; exact C].
    - injection E1 as <- <-. split; [reflexivity|]. split; [exact HK|]. intros Hc.
      destruct (bw_buf w) as [|c l]; [left; reflexivity|right]. cbn [length] in Hl, Hs.
      destruct b as [|c' b]; [reflexivity|]. cbn [length] in *. lia. }
  destruct H1 as (Ha & Hk & He). destruct e1 as [k|].
  - injection H as <- <-. split; [exact Hk|]. split; [exact He|]. rewrite Ha. apply prefix_app.
  - destruct (Nat.leb_spec cap (length b)) as [Hc|Hc].
    + destruct (sink_push (bw_sink w1) b) as [[e2 rest] s2] eqn:E2. injection H as <- <-.
      destruct (sink_push_spec _ _ _ _ _ _ Hk E2) as (A & B & C). specialize (He Hc).
      destruct He as [He| ->].
      2:{ rewrite app_nil_r in *. unfold sink_push in E2.
          assert (E3 : e2 = None /\ s2 = bw_sink w1).
          { destruct (bw_sink w1) as [data ws dead]. destruct ws; cbn in E2; injection E2; auto. }
          destruct E3 as [-> ->]. split; [exact B|]. rewrite <- Ha. destruct w1. reflexivity. }
      unfold bw_all in *. cbn. rewrite He, app_nil_r in *. rewrite <- Ha.
      split; [exact B|]. destruct e2 as [k|].
      * split; [exact C|]. exists rest. symmetry. exact A.
      * subst rest. rewrite app_nil_r in A. exact A.
    + injection H as <- <-. cbn. split; [exact Hk|]. rewrite <- Ha. unfold bw_all. cbn. apply app_assoc.
Qed.

Lemma bw_drop_prefix : forall w, is_prefix (bw_drop w) (bw_all w).
Proof.
  intros w. unfold bw_drop. destruct (bw_flush w) as [e w'] eqn:E.
  destruct (bw_flush_spec (fun _ => True) _ _ _ (fun _ _ => I) E) as (<- & _). cbn. apply prefix_app.
Qed.

Lemma bw_drop_empty : forall w, bw_buf w = [] -> bw_drop w = bw_all w.
Proof.
  intros [buf [data ws dead]] H. cbn in H. subst buf. unfold bw_drop, bw_flush, sink_push, bw_all. cbn.
  destruct ws; rewrite app_nil_r; reflexivity.
Qed.

Lemma bw_write_list_spec : forall K cap cs w e w', only K (bw_sink w) -> bw_write_list cap w cs = (e, w') ->
  only K (bw_sink w') /\
  match e with
  | None => bw_all w' = bw_all w ++ concat cs
  | Some k => K k /\ is_prefix (bw_all w') (bw_all w ++ concat cs)
  end.
Proof.
  intros K cap. induction cs as [|c cs IH]; intros w e w' HK H; cbn in H.
  - injection H as <- <-. cbn. rewrite app_nil_r. auto.
  - destruct (bw_write cap w c) as [e1 w1] eqn:E1.
    destruct (bw_write_spec _ _ _ _ _ _ HK E1) as (HK1 & H1). cbn [concat].
    destruct e1 as [k|].
    + injection H as <- <-. split; [exact HK1|]. destruct H1 as [Hk Hp]. split; [exact Hk|].
      eapply prefix_trans; [exact Hp|]. rewrite app_assoc. apply prefix_app.
    + destruct (IH _ _ _ HK1 H) as (HK2 & H2). rewrite H1, <- app_assoc in H2. auto.
Qed.

(** ** Lists of writers *)

Definition bws_ok (K : io_kind -> Prop) (ws : list bufwriter) (t : bytes) : Prop :=
  Forall (fun w => only K (bw_sink w) /\ bw_all w = t) ws.
Definition bws_torn (ws : list bufwriter) (t : bytes) : Prop :=
  Forall (fun w => is_prefix (bw_all w) t) ws.
Definition bws_done (ws : list bufwriter) (t : bytes) : Prop :=
  Forall (fun w => bw_buf w = [] /\ bw_all w = t) ws.

Lemma ok_torn : forall K ws t b, bws_ok K ws t -> bws_torn ws (t ++ b).
Proof.
  intros K ws t b H. eapply Forall_impl; [|exact H]. intros w [_ <-]. apply prefix_app.
Qed.

Lemma put_each_spec : forall K cap cut ws t b e ws', divides cut ->
  bws_ok K ws t -> bw_put_each cap cut ws b = (e, ws') ->
  match e with
  | None => bws_ok K ws' (t ++ b)
  | Some k => K k /\ bws_torn ws' (t ++ b)
  end /\ length ws' = length ws.
Proof.
  intros K cap cut ws t b e ws' Hc H. revert e ws'. induction H as [|w ws [HK Hw] Hws IH]; intros e ws' E; cbn in E.
  - injection E as <- <-. split; [constructor|reflexivity].
  - destruct (bw_write_list cap w (cut b)) as [e1 w1] eqn:E1.
    destruct (bw_write_list_spec _ _ _ _ _ _ HK E1) as (HK1 & H1). rewrite Hc, Hw in H1.
    destruct e1 as [k|].
    + injection E as <- <-. destruct H1 as [Hk Hp]. split; [|reflexivity]. split; [exact Hk|].
      constructor; [exact Hp|]. exact (ok_torn _ _ _ _ Hws).
    + destruct (bw_put_each cap cut ws b) as [e2 ws2] eqn:E2. injection E as <- <-.
      destruct (IH _ _ eq_refl) as [H2 H3]. cbn. split; [|congruence]. destruct e2 as [k|].
      * destruct H2 as [Hk Ht]. split; [exact Hk|]. constructor; [rewrite H1; apply prefix_refl|exact Ht].
      * constructor; [split; assumption|exact H2].
Qed.

Lemma finish_each_spec : forall K ws t e ws', bws_ok K ws t -> bw_finish_each ws = (e, ws') ->
  match e with
  | None => bws_done ws' t
  | Some k => K k /\ bws_torn ws' t
  end /\ length ws' = length ws.
Proof.
  intros K ws t e ws' H. revert e ws'. induction H as [|w ws [HK Hw] Hws IH]; intros e ws' E; cbn in E.
  - injection E as <- <-. split; [constructor|reflexivity].
  - destruct (bw_finish_each ws) as [e1 ws1] eqn:E1. destruct (IH _ _ eq_refl) as [H1 H2].
    destruct e1 as [k|].
    + injection E as <- <-. destruct H1 as [Hk Ht]. cbn. split; [|congruence]. split; [exact Hk|].
      constructor; [rewrite Hw; apply prefix_refl|exact Ht].
    + destruct (bw_flush w) as [e2 w2] eqn:E2. injection E as <- <-.
      destruct (bw_flush_spec _ _ _ _ HK E2) as (A & B & C). rewrite Hw in A. cbn. split; [|congruence].
      destruct e2 as [k|].
      * split; [exact C|]. constructor; [rewrite A; apply prefix_refl|].
        eapply Forall_impl; [|exact H1]. intros w' [_ <-]. apply prefix_refl.
      * constructor; [split; assumption|exact H1].
Qed.

Lemma close_torn : forall ws t, bws_torn ws t -> Forall (fun c => is_prefix c t) (map bw_drop ws).
Proof.
  intros ws t H. induction H as [|w ws Hw _ IH]; cbn; constructor; [|exact IH].
  eapply prefix_trans; [apply bw_drop_prefix|exact Hw].
Qed.
Lemma close_done : forall ws t, bws_done ws t -> map bw_drop ws = map (fun _ => t) ws.
Proof.
  intros ws t H. induction H as [|w ws [Hb Hw] _ IH]; cbn; [reflexivity|].
  rewrite (bw_drop_empty _ Hb), Hw, IH. reflexivity.
Qed.

(** ** The loops, for any kind of writer *)

Section Sim.
  Context {S W : Type}.
  Variables (out at_end : S -> bytes) (put : W -> bytes -> put_result W) (finish : W -> put_result W)
    (close : W -> list bytes).
  (** nothing has failed and everything was accepted; something has failed; all is written *)
  Variables (ok torn done : W -> bytes -> Prop) (E : cli_error -> Prop) (P : Prop).
  Hypothesis Hput : forall w t b, ok w t ->
    match put w b with
    | PutOk w' => ok w' (t ++ b)
    | PutErr w' e => torn w' (t ++ b) /\ E e
    | PutPanic => P
    end.
  Hypothesis Hfinish : forall w t, ok w t ->
    match finish w with
    | PutOk w' => done w' t
    | PutErr w' e => torn w' t /\ E e
    | PutPanic => P
    end.
  Variables (on_skip : S -> S) (body : S -> byte_record -> io_ending S) (skip : bool).
  Hypothesis Happ : appends out on_skip body.

  Definition reaches (o : bytes) (x : option (io_ending S)) : Prop :=
    match x with
    | Some (IDone s) | Some (IStopped s) | Some (IFailed s _) => is_prefix o (out s)
    | _ => True
    end.

  Definition related (x : option (io_ending S)) (y : option (io_ending (S * W))) : Prop :=
    match y with
    | None => x = None
    | Some (IDone (s, w)) => x = Some (IDone s) /\ ok w (out s)
    | Some (IStopped (s, w)) => x = Some (IStopped s) /\ ok w (out s)
    | Some (IFailed (s, w) e) =>
        (x = Some (IFailed s e) /\ ok w (out s)) \/ (E e /\ torn w (out s) /\ reaches (out s) x)
    | Some IPanicked => x = Some IPanicked \/ P
    end.

  Lemma reaches_trans : forall a b x, is_prefix a b -> reaches b x -> reaches a x.
  Proof.
    intros a b [[s|s|s e|]|] H Hr; cbn in *; try exact I; eapply prefix_trans; eauto.
  Qed.

  Lemma fresh_app : forall s s', is_prefix (out s) (out s') -> out s ++ fresh out s s' = out s'.
  Proof.
    intros s s' [c H]. unfold fresh. rewrite H. rewrite skipn_app, skipn_all, Nat.sub_diag. reflexivity.
  Qed.

  Lemma reader_reaches : forall fuel s rd, reaches (out s) (io_reader_loop on_skip body skip fuel s rd).
  Proof.
    destruct Happ as [Hskip Hbody].
    induction fuel as [|fuel IH]; intros s rd; cbn [io_reader_loop]; [exact I|].
    destruct (io_next_byte_record rd) as [[[r|e]|] rd'].
    - specialize (Hbody s r). destruct (body s r) as [s'|s'|s' e|]; cbn [reaches]; try assumption.
      eapply reaches_trans; [exact Hbody|apply IH].
    - destruct (pica_skip e skip); [|cbn; apply prefix_refl]. specialize (IH (on_skip s) rd').
      rewrite Hskip in IH. exact IH.
    - cbn. apply prefix_refl.
  Qed.

  Lemma reader_related : forall fuel s w rd, ok w (out s) ->
    related (io_reader_loop on_skip body skip fuel s rd)
      (io_reader_loop (fun x => (on_skip (fst x), snd x)) (writing out put body) skip fuel (s, w) rd).
  Proof.
    destruct Happ as [Hskip Hbody].
    induction fuel as [|fuel IH]; intros s w rd Hok; cbn [io_reader_loop]; [reflexivity|].
    destruct (io_next_byte_record rd) as [[[r|e]|] rd'].
    - unfold writing. cbn [fst snd]. specialize (Hbody s r). destruct (body s r) as [s'|s'|s' e|].
      + pose proof (Hput w (out s) (fresh out s s') Hok) as Hp. rewrite (fresh_app _ _ Hbody) in Hp.
        destruct (put w (fresh out s s')) as [w'|w' e|].
        * apply IH. exact Hp.
        * cbn [related]. right. destruct Hp as [Ht He]. repeat split; try assumption. apply reader_reaches.
        * cbn [related]. right. exact Hp.
      + pose proof (Hput w (out s) (fresh out s s') Hok) as Hp. rewrite (fresh_app _ _ Hbody) in Hp.
        destruct (put w (fresh out s s')) as [w'|w' e|]; cbn [related].
        * auto.
        * right. destruct Hp as [Ht He]. repeat split; try assumption. cbn. apply prefix_refl.
        * right. exact Hp.
      + pose proof (Hput w (out s) (fresh out s s') Hok) as Hp. rewrite (fresh_app _ _ Hbody) in Hp.
        destruct (put w (fresh out s s')) as [w'|w' e'|]; cbn [related].
        * auto.
        * right. destruct Hp as [Ht He]. repeat split; try assumption. cbn. apply prefix_refl.
        * right. exact Hp.
      + left. reflexivity.
    - destruct (pica_skip e skip).
      + cbn [fst snd]. apply IH. rewrite Hskip. exact Hok.
      + cbn. left. auto.
    - cbn. auto.
  Qed.

  Lemma files_reaches : forall files s, reaches (out s) (io_files_loop on_skip body skip s files).
  Proof.
    induction files as [|[name [rs|k]] files IH]; intros s; cbn [io_files_loop]; try apply prefix_refl.
    pose proof (reader_reaches (Datatypes.S (source_size (io_inner (io_reader_new rs (Some name))))) s
      (io_reader_new rs (Some name))) as Hr.
    destruct (io_reader_loop _ _ _ _ _ _) as [[s'|s'|s' e|]|]; try exact Hr.
    eapply reaches_trans; [exact Hr|apply IH].
  Qed.

  Lemma files_related : forall files s w, ok w (out s) ->
    related (io_files_loop on_skip body skip s files)
      (io_files_loop (fun x => (on_skip (fst x), snd x)) (writing out put body) skip (s, w) files).
  Proof.
    induction files as [|[name [rs|k]] files IH]; intros s w Hok; cbn [io_files_loop].
    - cbn. auto.
    - set (rd := io_reader_new rs (Some name)).
      pose proof (reader_related (Datatypes.S (source_size (io_inner rd))) s w rd Hok) as Hr.
      destruct (io_reader_loop (fun x => _) _ _ _ _ _) as [[[s' w']|[s' w']|[s' w'] e|]|]; cbn [related] in *.
      + destruct Hr as [-> Hok']. apply IH. exact Hok'.
      + destruct Hr as [-> Hok']. auto.
      + destruct Hr as [[-> Hok']|(He & Ht & Hr)]; [left; auto|]. right. repeat split; try assumption.
        destruct (io_reader_loop on_skip body skip _ s rd) as [[s1|s1|s1 e1|]|]; try exact Hr.
        eapply reaches_trans; [exact Hr|apply files_reaches].
      + destruct Hr as [->|Hp]; auto.
      + rewrite Hr. reflexivity.
    - cbn. left. auto.
  Qed.

  (** how runs end *)
  Definition good_end (x : io_ending S) (y : process_end) : Prop :=
    (exists s w, (x = IDone s \/ x = IStopped s) /\ done w (out s ++ at_end s) /\ y = Exited 0 (close w))
    \/ (exists s w e n, x = IFailed s e /\ ok w (out s) /\ main_status x = Some n /\ y = Exited n (close w)).
  Definition bad_end (x : io_ending S) (y : process_end) : Prop :=
    exists w t e n, E e /\ torn w t /\ (forall t', whole_output out at_end x t' -> is_prefix t t')
      /\ main_status (IFailed tt e) = Some n /\ y = Exited n (close w).

  Lemma status_some : forall (s : S) e, exists n, main_status (IFailed s e) = Some n /\ main_status (IFailed tt e) = Some n.
  Proof. intros s [e|[]| |]; cbn; eauto. Qed.

  Lemma write_run_spec : forall s w files x, ok w [] ->
    io_files_loop on_skip body skip s files = Some x ->
    exists y, write_run out at_end put finish close on_skip body skip s w files = Some y
      /\ (good_end x y \/ bad_end x y \/ (x = IPanicked /\ y = Aborted) \/ (P /\ y = Aborted)).
  Proof.
    intros s w files x Hok Hx. unfold write_run.
    pose proof (Hput w [] (out s) Hok) as Hp. cbn [app] in Hp.
    pose proof (files_reaches files s) as Hreach. rewrite Hx in Hreach.
    assert (Hall : forall t', whole_output out at_end x t' -> is_prefix (out s) t').
    { intros t' Ht'. destruct x as [s'|s'|s' e'|]; cbn in *; subst; try contradiction;
        try (eapply prefix_trans; [exact Hreach|apply prefix_app]); exact Hreach. }
    destruct (put w (out s)) as [w1|w1 e|].
    - pose proof (files_related files s w1 Hp) as Hr. rewrite Hx in Hr.
      destruct (io_files_loop (fun x => _) _ _ _ _) as [y|]; [|cbn in Hr; discriminate].
      cbn [option_map]. eexists. split; [reflexivity|].
      assert (Hend : forall s' w', ok w' (out s') -> x = IDone s' \/ x = IStopped s' ->
        let z := match put w' (at_end s') with
                 | PutPanic => Aborted
                 | PutErr w2 e => exit_with close e w2
                 | PutOk w2 => match finish w2 with
                               | PutPanic => Aborted
                               | PutErr w3 e => exit_with close e w3
                               | PutOk w3 => Exited 0 (close w3)
                               end
                 end in good_end x z \/ bad_end x z \/ (x = IPanicked /\ z = Aborted) \/ (P /\ z = Aborted)).
      { intros s' w' Hok' Hxs. cbv zeta. pose proof (Hput w' (out s') (at_end s') Hok') as Hp2.
        assert (Hw : forall t', whole_output out at_end x t' -> is_prefix (out s' ++ at_end s') t').
        { intros t' Ht'. destruct Hxs as [->| ->]; cbn in Ht'; subst; apply prefix_refl. }
        destruct (put w' (at_end s')) as [w2|w2 e|].
        - pose proof (Hfinish w2 _ Hp2) as Hf. destruct (finish w2) as [w3|w3 e|].
          + left. left. exists s', w3. auto.
          + right. left. destruct Hf as [Ht He]. destruct (status_some s' e) as (n & _ & Hn).
            exists w3, (out s' ++ at_end s'), e, n. unfold exit_with. rewrite Hn. auto.
          + right. right. right. auto.
        - right. left. destruct Hp2 as [Ht He]. destruct (status_some s' e) as (n & _ & Hn).
          exists w2, (out s' ++ at_end s'), e, n. unfold exit_with. rewrite Hn. auto.
        - right. right. right. auto. }
      destruct y as [[s' w']|[s' w']|[s' w'] e|]; cbn [related run_end] in *.
      + destruct Hr as [Hr Hok']. injection Hr as ->. apply Hend; auto.
      + destruct Hr as [Hr Hok']. injection Hr as ->. apply Hend; auto.
      + destruct (status_some s' e) as (n & Hn1 & Hn2). unfold exit_with. rewrite Hn2.
        destruct Hr as [[Hr Hok']|(He & Ht & Hr)].
        * injection Hr as ->. left. right. exists s', w', e, n. auto.
        * right. left. exists w', (out s'), e, n. repeat split; try assumption.
          intros t' Ht'. destruct x as [s1|s1|s1 e1|]; cbn in *; subst; try contradiction;
            try (eapply prefix_trans; [exact Hr|apply prefix_app]); exact Hr.
      + destruct Hr as [Hr|Hr]; [injection Hr as ->|]; right; right; auto.
    - eexists. split; [reflexivity|]. right. left. destruct Hp as [Ht He].
      destruct (status_some s e) as (n & _ & Hn). exists w1, (out s), e, n. unfold exit_with. rewrite Hn. auto.
    - eexists. split; [reflexivity|]. right. right. right. auto.
  Qed.
End Sim.

(** ** Commands with record writers *)

Section Records.
  Context {S : Type}.
  Variables (cap : nat) (cut : bytes -> list bytes) (out at_end : S -> bytes) (on_skip : S -> S)
    (body : S -> byte_record -> io_ending S) (skip : bool).
  Hypothesis Hcut : divides cut.
  Hypothesis Happ : appends out on_skip body.
  Variables (s : S) (sinks : list sink) (files : list (bytes * (list piece + io_kind))) (x : io_ending S).
  Hypothesis Hempty : Forall (fun k => sk_data k = []) sinks.
  Hypothesis Hx : io_files_loop on_skip body skip s files = Some x.

  Section Kinds.
    Variable K : io_kind -> Prop.
    Hypothesis HK : Forall (only K) sinks.

    Definition r_ok (ws : list bufwriter) (t : bytes) : Prop := bws_ok K ws t /\ length ws = length sinks.
    Definition r_torn (ws : list bufwriter) (t : bytes) : Prop := bws_torn ws t /\ length ws = length sinks.
    Definition r_done (ws : list bufwriter) (t : bytes) : Prop := bws_done ws t /\ length ws = length sinks.
    Definition r_err (e : cli_error) : Prop := exists k, e = CIo k /\ K k.

    Lemma r_put : forall w t b, r_ok w t ->
      match io_put (bw_put_each cap cut w b) with
      | PutOk w' => r_ok w' (t ++ b)
      | PutErr w' e => r_torn w' (t ++ b) /\ r_err e
      | PutPanic => False
      end.
    Proof.
      intros w t b [Hok Hl]. destruct (bw_put_each cap cut w b) as [e w'] eqn:E.
      destruct (put_each_spec _ _ _ _ _ _ _ _ Hcut Hok E) as [H1 H2].
      destruct e as [k|]; cbn.
      - destruct H1 as [Hk Ht]. repeat split; [exact Ht|congruence|]. exists k. auto.
      - split; [exact H1|congruence].
    Qed.

    Lemma r_finish : forall w t, r_ok w t ->
      match io_put (bw_finish_each w) with
      | PutOk w' => r_done w' t
      | PutErr w' e => r_torn w' t /\ r_err e
      | PutPanic => False
      end.
    Proof.
      intros w t [Hok Hl]. destruct (bw_finish_each w) as [e w'] eqn:E.
      destruct (finish_each_spec _ _ _ _ _ Hok E) as [H1 H2]. destruct e as [k|]; cbn.
      - destruct H1 as [Hk Ht]. repeat split; [exact Ht|congruence|]. exists k. auto.
      - split; [exact H1|congruence].
    Qed.

    Lemma r_start : r_ok (map (mkBuf []) sinks) [].
    Proof.
      split; [|apply map_length]. clear Hx.
      induction sinks as [|k l IH]; cbn; constructor.
      - inversion Hempty; inversion HK; subst. split; [assumption|]. unfold bw_all. cbn.
        rewrite app_nil_r. assumption.
      - inversion Hempty; inversion HK; subst. apply IH; assumption.
    Qed.

    Lemma record_run_spec : exists y,
      record_run cap cut out at_end on_skip body skip s sinks files = Some y
      /\ (good_end out at_end (map bw_drop) r_ok r_done x y
          \/ bad_end out at_end (map bw_drop) r_torn r_err x y
          \/ (x = IPanicked /\ y = Aborted)).
    Proof.
      destruct (write_run_spec out at_end _ _ (map bw_drop) r_ok r_torn r_done r_err False
                  r_put r_finish on_skip body skip Happ s (map (mkBuf []) sinks) files x r_start Hx)
        as (y & E & H).
      exists y. split; [exact E|]. destruct H as [H|[H|[H|[[] _]]]]; auto.
    Qed.
  End Kinds.

  Lemma all_only : Forall (only (fun k => exists sk, In sk sinks /\ can_fail sk k)) sinks.
  Proof. apply Forall_forall. intros sk Hi k Hk. exists sk. auto. Qed.

  Lemma good_prefix : forall K t y, whole_output out at_end x t ->
    good_end out at_end (map bw_drop) (r_ok K) r_done x y ->
    exists n cs, y = Exited n cs /\ length cs = length sinks /\ Forall (fun c => is_prefix c t) cs.
  Proof.
    intros K t y Ht [(s' & w & Hx' & [Hd Hl] & ->)|(s' & w & e & n & -> & [Ho Hl] & Hn & ->)].
    - assert (t = out s' ++ at_end s') as -> by (destruct Hx' as [-> | ->]; exact Ht).
      exists 0, (map bw_drop w). split; [reflexivity|]. split; [rewrite map_length; exact Hl|].
      apply close_torn. eapply Forall_impl; [|exact Hd]. intros w' [_ <-]. apply prefix_refl.
    - cbn in Ht. subst t. exists n, (map bw_drop w). split; [reflexivity|].
      split; [rewrite map_length; exact Hl|]. apply close_torn.
      rewrite <- (app_nil_r (out s')). eapply ok_torn. exact Ho.
  Qed.

  Lemma record_prefix : forall t, whole_output out at_end x t ->
    exists n cs, record_run cap cut out at_end on_skip body skip s sinks files = Some (Exited n cs)
      /\ length cs = length sinks /\ Forall (fun c => is_prefix c t) cs.
  Proof.
    intros t Ht. destruct (record_run_spec _ all_only) as (y & E & [H|[H|[-> _]]]).
    - destruct (good_prefix _ _ _ Ht H) as (n & cs & -> & H'). exists n, cs. auto.
    - destruct H as (w & t1 & e & n & He & [Hw Hl] & Hp & Hn & ->). exists n, (map bw_drop w).
      split; [exact E|]. split; [rewrite map_length; exact Hl|].
      apply close_torn in Hw. eapply Forall_impl; [|exact Hw]. intros c Hc.
      eapply prefix_trans; [exact Hc|apply Hp; exact Ht].
    - cbn in Ht. contradiction.
  Qed.

  Lemma done_repeat : forall w t n, bws_done w t -> length w = n -> map bw_drop w = repeat t n.
  Proof.
    intros w t n H <-. rewrite (close_done _ _ H). clear. induction w; cbn; congruence.
  Qed.

  Lemma record_complete : forall t cs, whole_output out at_end x t ->
    record_run cap cut out at_end on_skip body skip s sinks files = Some (Exited 0 cs) ->
    (main_status x = Some 0 /\ cs = repeat t (length sinks))
    \/ (exists sk, In sk sinks /\ can_fail sk BrokenPipe)
    \/ (exists s', x = IFailed s' (CIo BrokenPipe)).
  Proof.
    intros t cs Ht H. destruct (record_run_spec _ all_only) as (y & E & Hy). rewrite H in E. injection E as <-.
    destruct Hy as [[(s' & w & Hx' & [Hd Hl] & Ey)|(s' & w & e & n & -> & [Ho Hl] & Hn & Ey)]|
                    [(w & t1 & e & n & (k & -> & Hk) & _ & _ & Hn & Ey)|[_ Ey]]].
    - injection Ey as ->. left. split.
      + destruct Hx' as [-> | ->]; reflexivity.
      + assert (t = out s' ++ at_end s') as -> by (destruct Hx' as [-> | ->]; exact Ht).
        apply done_repeat; assumption.
    - injection Ey as <- ->. right. right. destruct e as [e|[]| |]; cbn in Hn; try discriminate. eauto.
    - injection Ey as <- ->. right. left. destruct k; [exact Hk|discriminate].
    - discriminate.
  Qed.

  Lemma no_fail_flush : forall w, only (fun _ => False) (bw_sink w) -> bw_drop w = bw_all w.
  Proof.
    intros w Hw. unfold bw_drop. destruct (bw_flush w) as [e w'] eqn:E.
    destruct (bw_flush_spec _ _ _ _ Hw E) as (<- & _ & He). destruct e as [k|]; [contradiction|].
    cbn. unfold bw_all. rewrite He, app_nil_r. reflexivity.
  Qed.

  Lemma record_faultless : forall t, (forall sk k, In sk sinks -> ~ can_fail sk k) ->
    whole_output out at_end x t ->
    exists n, main_status x = Some n
      /\ record_run cap cut out at_end on_skip body skip s sinks files
         = Some (Exited n (repeat t (length sinks))).
  Proof.
    intros t Hno Ht.
    assert (HK : Forall (only (fun _ => False)) sinks).
    { apply Forall_forall. intros sk Hi k Hk. exact (Hno sk k Hi Hk). }
    destruct (record_run_spec _ HK) as (y & E & Hy).
    destruct Hy as [[(s' & w & Hx' & [Hd Hl] & ->)|(s' & w & e & n & -> & [Ho Hl] & Hn & ->)]|
                    [(w & t1 & e & n & (k & -> & Hk) & _)|[-> _]]].
    - exists 0. split; [destruct Hx' as [-> | ->]; reflexivity|]. rewrite E.
      assert (t = out s' ++ at_end s') as -> by (destruct Hx' as [-> | ->]; exact Ht).
      rewrite (done_repeat _ _ _ Hd Hl). reflexivity.
    - exists n. split; [exact Hn|]. rewrite E. cbn in Ht. subst t. rewrite <- Hl. do 2 f_equal.
      clear - Ho. induction Ho as [|w ws [Hw <-] _ IH]; cbn; [reflexivity|].
      rewrite (no_fail_flush _ Hw), IH. reflexivity.
    - contradiction.
    - contradiction.
  Qed.

  Lemma record_broken_pipe : (forall sk k, In sk sinks -> can_fail sk k -> k = BrokenPipe) ->
    main_status x = Some 0 ->
    exists cs, record_run cap cut out at_end on_skip body skip s sinks files = Some (Exited 0 cs).
  Proof.
    intros Hno Hs.
    assert (HK : Forall (only (fun k => k = BrokenPipe)) sinks).
    { apply Forall_forall. intros sk Hi k Hk. exact (Hno sk k Hi Hk). }
    destruct (record_run_spec _ HK) as (y & E & Hy). rewrite E.
    destruct Hy as [[(s' & w & _ & _ & ->)|(s' & w & e & n & _ & _ & Hn & ->)]|
                    [(w & t1 & e & n & (k & -> & ->) & _ & _ & Hn & ->)|[-> _]]].
    - eauto.
    - rewrite Hs in Hn. injection Hn as <-. eauto.
    - cbn in Hn. injection Hn as <-. eauto.
    - discriminate.
  Qed.
End Records.

(** ** Tables *)

Definition cw_all (w : csvwriter) : bytes := sk_data (cw_sink w) ++ cw_buf w.

Lemma push_steady : forall ws dead data b e rest s, steady (mkSink data ws dead) ->
  push ws dead data b = (e, rest, s) ->
  steady s /\ (forall k, e = Some k -> exists k', s = mkSink (sk_data s) [] (Some k')).
Proof.
  induction ws as [|[n| |k] ws IH]; intros dead data b e rest s Hs H; destruct b as [|c b]; cbn in H;
    try (injection H as <- <- <-; split; [exact Hs|discriminate]).
  - destruct dead as [k|]; injection H as <- <- <-; (split; [split; cbn; auto|]).
    + intros k' _. exists k. reflexivity.
    + discriminate.
  - assert (Hs' : forall d, steady (mkSink d ws dead)).
    { intros d. destruct Hs as [H1 H2]. split; cbn in *; [tauto|]. intros k Hk. apply (H2 k). right. exact Hk. }
    destruct n as [|n]; [exfalso; apply Hs; left; reflexivity|].
    exact (IH _ _ _ _ _ _ (Hs' _) H).
  - apply (IH _ _ _ _ _ _) in H; [exact H|].
    destruct Hs as [H1 H2]. split; cbn in *; [tauto|]. intros k Hk. apply (H2 k). right. exact Hk.
  - exfalso. destruct Hs as [_ H2]. apply (H2 k). left. reflexivity.
Qed.

Lemma cw_flush_spec : forall K w e w', only K (cw_sink w) -> cw_flush w = (e, w') ->
  only K (cw_sink w') /\
  match e with
  | None => cw_all w' = cw_all w /\ cw_buf w' = []
  | Some k => K k
  end.
Proof.
  intros K [buf sk] e w' HK H. unfold cw_flush in H. cbn [cw_sink cw_buf] in *.
  destruct (sink_push sk buf) as [[e' rest] s'] eqn:E.
  destruct (sink_push_spec _ _ _ _ _ _ HK E) as (H1 & H2 & H3).
  destruct e' as [k|]; injection H as <- <-; cbn; (split; [exact H2|]).
  - exact H3.
  - subst rest. unfold cw_all. cbn. rewrite app_nil_r in *. auto.
Qed.

Lemma cw_flush_steady : forall w e w', steady (cw_sink w) -> cw_flush w = (e, w') ->
  steady (cw_sink w') /\ (forall k, e = Some k -> is_prefix (cw_drop w') (cw_all w)).
Proof.
  intros [buf sk] e w' HK H. unfold cw_flush in H. cbn [cw_sink cw_buf] in *.
  destruct (sink_push sk buf) as [[e' rest] s'] eqn:E.
  destruct (sink_push_spec (fun _ => True) _ _ _ _ _ (fun _ _ => I) E) as (H1 & _ & _).
  assert (HK' : steady (mkSink (sk_data sk) (sk_writes sk) (sk_dead sk))) by (destruct sk; exact HK).
  destruct (push_steady _ _ _ _ _ _ _ HK' E) as [H2 H3].
  destruct e' as [k|]; injection H as <- <-; cbn; (split; [exact H2|]); [|discriminate].
  intros k' _. destruct (H3 k eq_refl) as [k1 Hs]. unfold cw_all. cbn.
  assert (Hd : cw_drop (mkCsv buf s') = sk_data s').
  { rewrite Hs. unfold cw_drop, cw_flush, sink_push. cbn. destruct buf; reflexivity. }
  rewrite Hd, <- H1. apply prefix_app.
Qed.

Lemma cw_write_spec : forall K ps w e w', only K (cw_sink w) -> cw_write w ps = (e, w') ->
  only K (cw_sink w') /\
  match e with
  | None => cw_all w' = cw_all w ++ concat (map fst ps)
  | Some k => K k
  end.
Proof.
  intros K. induction ps as [|[p fl] ps IH]; intros w e w' HK H; cbn [cw_write] in H.
  - injection H as <- <-. cbn. rewrite app_nil_r. auto.
  - cbn [map fst concat]. destruct fl.
    + destruct (cw_flush (mkCsv (cw_buf w ++ p) (cw_sink w))) as [e1 w1] eqn:E1.
      destruct (cw_flush_spec K (mkCsv (cw_buf w ++ p) (cw_sink w)) _ _ HK E1) as [HK1 H1].
      destruct e1 as [k|]; [injection H as <- <-; auto|].
      destruct (IH _ _ _ HK1 H) as [HK2 H2]. split; [exact HK2|].
      destruct H1 as [H1 _]. unfold cw_all in H1 at 2. cbn in H1. rewrite app_assoc in H1.
      rewrite H1 in H2. destruct e; [exact H2|]. rewrite H2. unfold cw_all. rewrite <- !app_assoc. reflexivity.
    + assert (HK1 : only K (cw_sink (mkCsv (cw_buf w ++ p) (cw_sink w)))) by exact HK.
      destruct (IH _ _ _ HK1 H) as [HK2 H2]. split; [exact HK2|].
      destruct e; [exact H2|]. rewrite H2. unfold cw_all. cbn. rewrite <- !app_assoc. reflexivity.
Qed.

Lemma cw_write_steady : forall ps w e w', steady (cw_sink w) -> cw_write w ps = (e, w') ->
  steady (cw_sink w') /\ (forall k, e = Some k -> is_prefix (cw_drop w') (cw_all w ++ concat (map fst ps))).
Proof.
  induction ps as [|[p fl] ps IH]; intros w e w' HK H; cbn [cw_write] in H.
  - injection H as <- <-. split; [exact HK|discriminate].
  - cbn [map fst concat].
    assert (Ha : cw_all (mkCsv (cw_buf w ++ p) (cw_sink w)) = cw_all w ++ p).
    { unfold cw_all. cbn. apply app_assoc. }
    destruct fl.
    + destruct (cw_flush (mkCsv (cw_buf w ++ p) (cw_sink w))) as [e1 w1] eqn:E1.
      destruct (cw_flush_steady (mkCsv (cw_buf w ++ p) (cw_sink w)) _ _ HK E1) as [HK1 H1].
      destruct (cw_flush_spec (fun _ => True) _ _ _ (fun _ _ => I) E1) as [_ H1'].
      destruct e1 as [k|].
      * injection H as <- <-. split; [exact HK1|]. intros k' _. rewrite Ha in H1.
        eapply prefix_trans; [exact (H1 k eq_refl)|]. rewrite app_assoc. apply prefix_app.
      * destruct (IH _ _ _ HK1 H) as [HK2 H2]. split; [exact HK2|].
        destruct H1' as [H1' _]. rewrite H1', Ha, <- app_assoc in H2. exact H2.
    + destruct (IH (mkCsv (cw_buf w ++ p) (cw_sink w)) _ _ HK H) as [HK2 H2]. split; [exact HK2|].
      rewrite Ha, <- app_assoc in H2. exact H2.
Qed.

Lemma cw_drop_prefix : forall w, is_prefix (cw_drop w) (cw_all w).
Proof.
  intros [buf sk]. unfold cw_drop, cw_flush, cw_all. cbn [cw_buf cw_sink].
  destruct (sink_push sk buf) as [[e rest] s'] eqn:E.
  destruct (sink_push_spec (fun _ => True) _ _ _ _ _ (fun _ _ => I) E) as (<- & _ & _).
  destruct e; cbn; apply prefix_app.
Qed.

Section Tables.
  Context {S : Type}.
  Variables (c : table_command) (cut : bytes -> bytes -> list (bytes * bool)) (out at_end : S -> bytes)
    (on_skip : S -> S) (body : S -> byte_record -> io_ending S) (skip : bool).
  Hypothesis Hcut : forall buf b, concat (map fst (cut buf b)) = b.
  Hypothesis Happ : appends out on_skip body.
  Variables (s : S) (sk : sink) (files : list (bytes * (list piece + io_kind))) (x : io_ending S).
  Hypothesis Hempty : sk_data sk = [].
  Hypothesis Hx : io_files_loop on_skip body skip s files = Some x.

  Section TKinds.
    Variable K : io_kind -> Prop.
    Hypothesis HK : only K sk.
    (** whether the sink is steady *)
    Variable st : bool.
    Hypothesis Hst : st = true -> steady sk.

    Definition t_ok (w : csvwriter) (t : bytes) : Prop :=
      only K (cw_sink w) /\ cw_all w = t /\ (st = true -> steady (cw_sink w)).
    Definition t_torn (w : csvwriter) (t : bytes) : Prop := st = true -> is_prefix (cw_drop w) t.
    Definition t_done (w : csvwriter) (t : bytes) : Prop := cw_all w = t /\ cw_buf w = [].
    Definition t_err (e : cli_error) : Prop := exists k, K k /\ (e = row_error c k \/ e = flush_error c k).

    Lemma table_run_spec : exists y,
      table_run c cut out at_end on_skip body skip s sk files = Some y
      /\ (good_end out at_end (fun w => [cw_drop w]) t_ok t_done x y
          \/ bad_end out at_end (fun w => [cw_drop w]) t_torn t_err x y
          \/ (x = IPanicked /\ y = Aborted)).
    Proof.
      assert (Hstart : t_ok (mkCsv [] sk) []).
      { split; [exact HK|]. split; [|exact Hst]. unfold cw_all. cbn. rewrite app_nil_r. exact Hempty. }
      refine (let H := write_run_spec out at_end
                (fun w b => match cw_write w (cut (cw_buf w) b) with
                            | (None, w') => PutOk w'
                            | (Some k, w') => PutErr w' (row_error c k)
                            end)
                (fun w => match cw_flush w with
                          | (None, w') => PutOk w'
                          | (Some k, w') => PutErr w' (flush_error c k)
                          end)
                (fun w => [cw_drop w]) t_ok t_torn t_done t_err False _ _
                on_skip body skip Happ s (mkCsv [] sk) files x Hstart Hx in _).
      - destruct H as (y & E & H). exists y. split; [exact E|]. destruct H as [H|[H|[H|[[] _]]]]; auto.
      Unshelve.
      + intros w t b (Ho & Ha & Hs). destruct (cw_write w (cut (cw_buf w) b)) as [e w'] eqn:E.
        destruct (cw_write_spec _ _ _ _ _ Ho E) as [H1 H2]. rewrite Hcut, Ha in H2.
        destruct e as [k|].
        * split; [|exists k; auto]. intros Hst'. destruct (cw_write_steady _ _ _ _ (Hs Hst') E) as [_ H3].
          rewrite Hcut, Ha in H3. exact (H3 k eq_refl).
        * split; [exact H1|]. split; [exact H2|]. intros Hst'.
          exact (proj1 (cw_write_steady _ _ _ _ (Hs Hst') E)).
      + intros w t (Ho & Ha & Hs). destruct (cw_flush w) as [e w'] eqn:E.
        destruct (cw_flush_spec _ _ _ _ Ho E) as [H1 H2]. destruct e as [k|].
        * split; [|exists k; auto]. intros Hst'. rewrite <- Ha.
          exact (proj2 (cw_flush_steady _ _ _ (Hs Hst') E) k eq_refl).
        * destruct H2 as [H2 H3]. split; [congruence|exact H3].
    Qed.
  End TKinds.

  Lemma t_done_drop : forall w t, t_done w t -> cw_drop w = t.
  Proof.
    intros [buf [data ws dead]] t [H1 H2]. cbn in H2. subst buf. unfold cw_drop, cw_flush, sink_push, cw_all in *.
    cbn in *. rewrite app_nil_r in H1. destruct ws; exact H1.
  Qed.

  Lemma table_complete : forall t cs, whole_output out at_end x t ->
    table_run c cut out at_end on_skip body skip s sk files = Some (Exited 0 cs) ->
    (main_status x = Some 0 /\ cs = [t])
    \/ (c = TableCommand /\ can_fail sk BrokenPipe)
    \/ (exists s', x = IFailed s' (CIo BrokenPipe)).
  Proof.
    intros t cs Ht H.
    destruct (table_run_spec (can_fail sk) (fun _ H => H) false ltac:(discriminate)) as (y & E & Hy).
    rewrite H in E. injection E as <-.
    destruct Hy as [[(s' & w & Hx' & Hd & Ey)|(s' & w & e & n & -> & _ & Hn & Ey)]|
                    [(w & t1 & e & n & (k & Hk & He) & _ & _ & Hn & Ey)|[_ Ey]]].
    - injection Ey as ->. left. split; [destruct Hx' as [-> | ->]; reflexivity|].
      assert (t = out s' ++ at_end s') as -> by (destruct Hx' as [-> | ->]; exact Ht).
      rewrite (t_done_drop _ _ Hd). reflexivity.
    - injection Ey as <- ->. right. right. destruct e as [e|[]| |]; cbn in Hn; try discriminate. eauto.
    - injection Ey as <- ->. right. left.
      destruct He as [-> | ->], c, k; cbn in Hn; try discriminate. auto.
    - discriminate.
  Qed.

  Lemma table_prefix_steady : forall t, steady sk -> whole_output out at_end x t ->
    exists n out', table_run c cut out at_end on_skip body skip s sk files = Some (Exited n [out'])
      /\ is_prefix out' t.
  Proof.
    intros t Hs Ht.
    destruct (table_run_spec (can_fail sk) (fun _ H => H) true (fun _ => Hs)) as (y & E & Hy). rewrite E.
    destruct Hy as [[(s' & w & Hx' & [Hd _] & ->)|(s' & w & e & n & -> & (_ & Ha & _) & Hn & ->)]|
                    [(w & t1 & e & n & _ & Htorn & Hp & Hn & ->)|[-> _]]].
    - assert (t = out s' ++ at_end s') as -> by (destruct Hx' as [-> | ->]; exact Ht).
      do 2 eexists. split; [reflexivity|]. rewrite <- Hd. apply cw_drop_prefix.
    - cbn in Ht. subst t. do 2 eexists. split; [reflexivity|]. rewrite <- Ha. apply cw_drop_prefix.
    - do 2 eexists. split; [reflexivity|]. eapply prefix_trans; [exact (Htorn eq_refl)|]. apply Hp. exact Ht.
    - contradiction.
  Qed.

  Lemma table_faultless : forall t, (forall k, ~ can_fail sk k) -> whole_output out at_end x t ->
    exists n, main_status x = Some n
      /\ table_run c cut out at_end on_skip body skip s sk files = Some (Exited n [t]).
  Proof.
    intros t Hno Ht.
    destruct (table_run_spec (fun _ => False) Hno false ltac:(discriminate)) as (y & E & Hy). rewrite E.
    destruct Hy as [[(s' & w & Hx' & Hd & ->)|(s' & w & e & n & -> & (Ho & Ha & _) & Hn & ->)]|
                    [(w & t1 & e & n & (k & [] & _) & _)|[-> _]]].
    - exists 0. split; [destruct Hx' as [-> | ->]; reflexivity|].
      assert (t = out s' ++ at_end s') as -> by (destruct Hx' as [-> | ->]; exact Ht).
      rewrite (t_done_drop _ _ Hd). reflexivity.
    - exists n. split; [exact Hn|]. cbn in Ht. subst t. do 3 f_equal. unfold cw_drop.
      destruct (cw_flush w) as [e' w'] eqn:E'. destruct (cw_flush_spec _ _ _ _ Ho E') as [_ H2].
      destruct e' as [k|]; [contradiction|]. destruct H2 as [H2 H3]. cbn.
      unfold cw_all in H2 at 1. rewrite H3, app_nil_r in H2. congruence.
    - contradiction.
  Qed.
End Tables.

(** ** XML *)

Section Xml.
  Context {S : Type}.
  Variables (cap : nat) (cut : bytes -> list bytes) (out at_end : S -> bytes) (on_skip : S -> S)
    (body : S -> byte_record -> io_ending S) (skip : bool).
  Hypothesis Hcut : divides cut.
  Hypothesis Happ : appends out on_skip body.
  Variables (s : S) (sk : sink) (files : list (bytes * (list piece + io_kind))) (x : io_ending S).
  Hypothesis Hempty : sk_data sk = [].
  Hypothesis Hx : io_files_loop on_skip body skip s files = Some x.

  Definition x_ok (w : bufwriter) (t : bytes) : Prop := only (can_fail sk) (bw_sink w) /\ bw_all w = t.

  Lemma xml_run_spec : exists y,
    xml_run cap cut out at_end on_skip body skip s sk files = Some y
    /\ (good_end out at_end (fun w => [bw_drop w]) x_ok x_ok x y
        \/ (x = IPanicked /\ y = Aborted)
        \/ ((exists k, can_fail sk k) /\ y = Aborted)).
  Proof.
    assert (Hstart : x_ok (mkBuf [] sk) []).
    { split; [intros k Hk; exact Hk|]. unfold bw_all. cbn. rewrite app_nil_r. exact Hempty. }
    refine (let H := write_run_spec out at_end
              (fun w b => match bw_write_list cap w (cut b) with (None, w') => PutOk w' | (Some _, _) => PutPanic end)
              (@PutOk bufwriter) (fun w => [bw_drop w]) x_ok (fun _ _ => False) x_ok (fun _ => False)
              (exists k, can_fail sk k) _ _
              on_skip body skip Happ s (mkBuf [] sk) files x Hstart Hx in _).
    - destruct H as (y & E & H). exists y. split; [exact E|]. destruct H as [H|[H|[H|H]]]; auto.
      destruct H as (w & t & e & n & [] & _).
    Unshelve.
    + intros w t b [Ho Ha]. destruct (bw_write_list cap w (cut b)) as [e w'] eqn:E.
      destruct (bw_write_list_spec _ _ _ _ _ _ Ho E) as [H1 H2]. rewrite Hcut, Ha in H2.
      destruct e as [k|]; [exists k; apply H2|]. split; assumption.
    + intros w t Ho. exact Ho.
  Qed.

  (** the status does not depend on the last write *)
  Lemma xml_exit : forall t y, whole_output out at_end x t ->
    xml_run cap cut out at_end on_skip body skip s sk files = Some y ->
    (exists n out', main_status x = Some n /\ y = Exited n [out'] /\ is_prefix out' t
       /\ ((forall k, ~ can_fail sk k) -> out' = t))
    \/ ((exists k, can_fail sk k) /\ y = Aborted).
  Proof.
    intros t y Ht H. destruct xml_run_spec as (y' & E & Hy). rewrite H in E. injection E as <-.
    assert (Hdrop : forall w t', x_ok w t' -> is_prefix (bw_drop w) t' /\ ((forall k, ~ can_fail sk k) -> bw_drop w = t')).
    { intros w t' [Ho Ha]. split; [rewrite <- Ha; apply bw_drop_prefix|]. intros Hno. rewrite <- Ha.
      apply no_fail_flush. intros k Hk. exact (Hno k (Ho k Hk)). }
    destruct Hy as [[(s' & w & Hx' & Hd & ->)|(s' & w & e & n & -> & Ho & Hn & ->)]|[[-> _]|Hy]].
    - left. assert (t = out s' ++ at_end s') as -> by (destruct Hx' as [-> | ->]; exact Ht).
      exists 0, (bw_drop w). destruct (Hdrop _ _ Hd). split; [destruct Hx' as [-> | ->]; reflexivity|auto].
    - left. cbn in Ht. subst t. exists n, (bw_drop w). destruct (Hdrop _ _ Ho). auto.
    - contradiction.
    - right. exact Hy.
  Qed.
End Xml.

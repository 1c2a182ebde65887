(** * Proofs about the whole program: what a run depends on *)

From Coq Require Import String ZArith Lia.
From Verif Require Import Bytes BaseProofs Winnow RecordModel TagOccModel Utf8Model ByteRecordModel ReaderModel
  MatcherModel StateParser MatcherParserModel BuilderModel PathModel FmtModel QueryModel CliModel TableModel
  ExplodeModel CheckModel ConvertModel CsvModel OptionsModel OptionsSpec ConfigModel PrepareModel IoModel IoSpec WriteSpec DiskModel DirModel RuleModel
  MainModel DiskSpec RuleSpec MainSpec DiskProofs.
From Verif Require DirSpec.

Lemma append_nil : forall (w : world) n, disk_get (w_disk w) n <> None -> disk_get (w_disk w) n = Some (before w n ++ []).
Proof. intros w n H. unfold before. destruct (disk_get (w_disk w) n); [rewrite app_nil_r; reflexivity|congruence]. Qed.

Section Twice.
  Variable gz_enc : bytes -> bytes.
  Variable gz_dec : bytes -> list piece.
  Variable writable : bytes -> bool.
  Variable A : bytes -> Prop.
  Variables w1 w2 : world.

  Notation done := (same_done A).
  Notation get w n := (disk_get (w_disk w) n).

  Lemma done_refl : forall v1 v2, done v1 v1 v2 v2.
  Proof. intros v1 v2. split; [intros n; left; auto|]. exists []. rewrite !app_nil_r. auto. Qed.

  Lemma done_agree : forall v1 v2, done w1 v1 w2 v2 -> forall n, get w1 n = get w2 n -> get v1 n = get v2 n.
  Proof.
    intros v1 v2 [H _] n E. destruct (H n) as [[-> ->]|[(c & -> & ->)|(_ & t & -> & ->)]]; [exact E|reflexivity|].
    unfold before. rewrite E. reflexivity.
  Qed.

  Lemma done_set : forall v1 v2 n c, done w1 v1 w2 v2 ->
    done w1 (with_disk v1 (disk_set (w_disk v1) n c)) w2 (with_disk v2 (disk_set (w_disk v2) n c)).
  Proof.
    intros v1 v2 n c [H Ht]. split; [|exact Ht]. intros m. cbn.
    destruct (bytes_eqb n m) eqn:E.
    - apply bytes_eqb_eq in E. subst m. right. left. exists c. rewrite !disk_get_same. auto.
    - assert (n <> m) as Hne by (intros ->; rewrite bytes_eqb_refl in E; discriminate).
      rewrite !disk_get_other by congruence. apply H.
  Qed.

  Lemma done_add : forall v1 v2 n data, A n \/ get v1 n = get v2 n -> done w1 v1 w2 v2 ->
    done w1 (with_disk v1 (disk_set (w_disk v1) n (before v1 n ++ data)))
         w2 (with_disk v2 (disk_set (w_disk v2) n (before v2 n ++ data))).
  Proof.
    intros v1 v2 n data Hn H. destruct Hn as [Hn|E].
    - destruct H as [H Ht]. split; [|exact Ht]. intros m. cbn.
      destruct (bytes_eqb n m) eqn:E.
      + apply bytes_eqb_eq in E. subst m. rewrite !disk_get_same. destruct (H n) as [[H1 H2]|[(c & H1 & H2)|(_ & t & H1 & H2)]].
        * right. right. split; [exact Hn|]. exists data. unfold before. rewrite H1, H2. auto.
        * right. left. exists (c ++ data). unfold before. rewrite H1, H2. auto.
        * right. right. split; [exact Hn|]. exists (t ++ data). unfold before at 1 3. rewrite H1, H2. rewrite !app_assoc. auto.
      + assert (n <> m) as Hne by (intros ->; rewrite bytes_eqb_refl in E; discriminate).
        rewrite !disk_get_other by congruence. apply H.
    - replace (before v2 n) with (before v1 n) by (unfold before; rewrite E; reflexivity). apply done_set. exact H.
  Qed.

  Lemma done_out : forall v1 v2 data, done w1 v1 w2 v2 ->
    done w1 (mkWorld (w_disk v1) (w_stdin v1) (w_stdout v1 ++ data)) w2 (mkWorld (w_disk v2) (w_stdin v2) (w_stdout v2 ++ data)).
  Proof.
    intros v1 v2 data [H (t & H1 & H2)]. split; [exact H|]. exists (t ++ data). cbn. rewrite H1, H2, !app_assoc. auto.
  Qed.

  (** two worlds at the same point of the two runs *)
  Definition pair (v1 v2 : world) : Prop := done w1 v1 w2 v2 /\ w_stdin v1 = w_stdin v2.

  Definition ready (v1 v2 : world) (o : output) : Prop := forall n, out_name o = Some n -> A n \/ get v1 n = get v2 n.
  Definition allowed (o : output) : Prop := forall n, out_name o = Some n -> out_append o = true -> A n.

  Definition tie (v1 v2 v1' v2' : world) : Prop := forall n, get v1 n = get v2 n -> get v1' n = get v2' n.

  Lemma tie_set : forall v1 v2 n c1 c2, (get v1 n = get v2 n -> c1 = c2) ->
    tie v1 v2 (with_disk v1 (disk_set (w_disk v1) n c1)) (with_disk v2 (disk_set (w_disk v2) n c2)).
  Proof.
    intros v1 v2 n c1 c2 Hc m E. cbn. destruct (bytes_eqb n m) eqn:Em.
    - apply bytes_eqb_eq in Em. subst m. rewrite !disk_get_same. rewrite (Hc E). reflexivity.
    - assert (n <> m) as Hne by (intros ->; rewrite bytes_eqb_refl in Em; discriminate).
      rewrite !disk_get_other by congruence. exact E.
  Qed.

  Lemma ready_tie : forall v1 v2 v1' v2' o, tie v1 v2 v1' v2' -> ready v1 v2 o -> ready v1' v2' o.
  Proof. intros v1 v2 v1' v2' o T R n E. destruct (R n E) as [H|H]; [left; exact H|right; apply T; exact H]. Qed.

  Lemma all_ready_tie : forall v1 v2 v1' v2' os, tie v1 v2 v1' v2' -> Forall (ready v1 v2) os -> Forall (ready v1' v2') os.
  Proof. intros v1 v2 v1' v2' os T R. eapply Forall_impl; [|exact R]. intros o. apply ready_tie. exact T. Qed.

  Lemma open_twice : forall o v1 v2, allowed o -> pair v1 v2 ->
    match open_output writable o (w_disk v1), open_output writable o (w_disk v2) with
    | Some d1, Some d2 => pair (with_disk v1 d1) (with_disk v2 d2) /\ ready (with_disk v1 d1) (with_disk v2 d2) o
                          /\ tie v1 v2 (with_disk v1 d1) (with_disk v2 d2)
    | None, None => True
    | _, _ => False
    end.
  Proof.
    intros o v1 v2 Ha [H E]. unfold open_output. destruct (out_name o) as [n|] eqn:En.
    - destruct (writable n); [|exact I]. destruct (out_append o) eqn:Eo.
      + pose proof (Ha n En Eo) as HA. split; [|split].
        * split; [|exact E]. pose proof (done_add v1 v2 n [] (or_introl HA) H) as X. unfold before in X. rewrite !app_nil_r in X. exact X.
        * intros m Hm. rewrite En in Hm. injection Hm as <-. left. exact HA.
        * apply tie_set. intros ->. reflexivity.
      + split; [|split].
        * split; [apply done_set; exact H|exact E].
        * intros m Hm. rewrite En in Hm. injection Hm as <-. right. cbn. rewrite !disk_get_same. reflexivity.
        * apply tie_set. reflexivity.
    - split; [|split]; [split; [|exact E]; destruct v1, v2; exact H| |].
      + intros m Hm. rewrite En in Hm. discriminate.
      + intros m Hm. exact Hm.
  Qed.

  Lemma close_twice : forall o t v1 v2, ready v1 v2 o -> pair v1 v2 ->
    pair (close_output gz_enc o t v1) (close_output gz_enc o t v2) /\ tie v1 v2 (close_output gz_enc o t v1) (close_output gz_enc o t v2).
  Proof.
    intros o t v1 v2 R [H E]. unfold close_output. set (data := if out_gz o then gz_enc t else t).
    destruct (out_name o) as [n|] eqn:En.
    - split; [split; [|exact E]|].
      + apply (done_add v1 v2 n data); [apply R; exact En|exact H].
      + apply tie_set. intros ->. reflexivity.
    - split; [split; [|exact E]|].
      + apply done_out. exact H.
      + intros m Hm. exact Hm.
  Qed.

  Lemma close_all_twice : forall outs v1 v2, Forall (ready v1 v2) (map fst outs) -> pair v1 v2 ->
    pair (close_all gz_enc outs v1) (close_all gz_enc outs v2).
  Proof.
    induction outs as [|[o t] outs IH]; intros v1 v2 R H; [exact H|]. cbn [map fst] in R.
    inversion R as [|? ? R1 R2]; subst. destruct (close_twice o t v1 v2 R1 H) as [H' T]. cbn [close_all fold_left fst snd].
    apply IH; [apply (all_ready_tie _ _ _ _ _ T); exact R2|exact H'].
  Qed.

  Definition both (r1 r2 : option (command_end * world)) : Prop :=
    match r1, r2 with
    | None, None => True
    | Some (c1, v1), Some (c2, v2) => c1 = c2 /\ done w1 v1 w2 v2
    | _, _ => False
    end.

  Lemma map_fst_pairs : forall {B} (os : list output) (f : output -> B), map fst (map (fun o => (o, f o)) os) = os.
  Proof. intros B os f. rewrite map_map. cbn. apply map_id. Qed.

  Lemma open_all_twice : forall outs opened v1 v2 k1 k2, Forall allowed outs -> Forall (ready v1 v2) opened -> pair v1 v2 ->
    (forall u1 u2, pair u1 u2 -> tie v1 v2 u1 u2 -> Forall (ready u1 u2) (opened ++ outs) -> both (k1 u1) (k2 u2)) ->
    both (open_all gz_enc writable opened outs v1 k1) (open_all gz_enc writable opened outs v2 k2).
  Proof.
    induction outs as [|o outs IH]; intros opened v1 v2 k1 k2 Ha R H K; cbn [open_all].
    - apply K; [exact H|intros n E; exact E|rewrite app_nil_r; exact R].
    - inversion Ha as [|? ? Ha1 Ha2]; subst. pose proof (open_twice o v1 v2 Ha1 H) as X.
      destruct (open_output writable o (w_disk v1)) as [d1|], (open_output writable o (w_disk v2)) as [d2|]; try contradiction.
      + destruct X as (H' & R' & T). apply IH; [exact Ha2| |exact H'|].
        * apply Forall_app. split; [apply (all_ready_tie _ _ _ _ _ T); exact R|constructor; [exact R'|constructor]].
        * intros u1 u2 Hu Tu Ru. apply K; [exact Hu|intros n E; apply Tu, T; exact E|]. rewrite <- app_assoc in Ru. exact Ru.
      + split; [reflexivity|]. apply close_all_twice; [|exact H]. rewrite map_fst_pairs. exact R.
  Qed.

  Lemma prepared_twice : forall {B} outs (x : option (option B)) v1 v2 k1 k2, Forall (ready v1 v2) outs -> pair v1 v2 ->
    (forall a, x = Some (Some a) -> both (k1 a) (k2 a)) ->
    both (prepared gz_enc outs x v1 k1) (prepared gz_enc outs x v2 k2).
  Proof.
    intros B outs x v1 v2 k1 k2 R H K. unfold prepared. destruct x as [[a|]|]; [apply K; reflexivity| |exact I].
    split; [reflexivity|]. apply close_all_twice; [rewrite map_fst_pairs; exact R|exact H].
  Qed.

  Lemma inputs_twice : forall names d1 d2 stdin, (forall n, In n names -> disk_get d1 n = disk_get d2 n) ->
    inputs gz_dec d1 stdin names = inputs gz_dec d2 stdin names.
  Proof.
    induction names as [|n names IH]; intros d1 d2 stdin H; [reflexivity|]. cbn [inputs].
    rewrite (H n (or_introl eq_refl)). rewrite !(IH d1 d2) by (intros m Hm; apply H; right; exact Hm). reflexivity.
  Qed.

  Lemma process_twice : forall {S} (outs : list (output * ((S -> bytes) * (S -> bytes)))) bad on_skip body skip (s : S) names v1 v2,
    Forall (ready v1 v2) (map fst outs) -> pair v1 v2 -> (forall n, In n names -> get v1 n = get v2 n) ->
    both (process_all gz_enc gz_dec outs bad on_skip body skip s names v1)
         (process_all gz_enc gz_dec outs bad on_skip body skip s names v2).
  Proof.
    intros S outs bad on_skip body skip s names v1 v2 R H Hn. unfold process_all.
    destruct H as [Hd E]. rewrite (inputs_twice names (w_disk v1) (w_disk v2) (w_stdin v1) Hn), E.
    destruct (io_files_loop on_skip body skip s (inputs gz_dec (w_disk v2) (w_stdin v2) names)) as [x|]; [|exact I].
    assert (forall f : (output * ((S -> bytes) * (S -> bytes))) -> bytes,
      done w1 (close_all gz_enc (map (fun o => (fst o, f o)) outs) v1) w2 (close_all gz_enc (map (fun o => (fst o, f o)) outs) v2)) as C.
    { intros f. apply close_all_twice; [|split; assumption]. rewrite map_map. exact R. }
    destruct x as [s'|s'|s' er|]; cbn [main_status].
    - split; [reflexivity|apply C].
    - split; [reflexivity|apply C].
    - destruct er; try match goal with k : io_kind |- _ => destruct k end; (split; [reflexivity|apply C]).
    - split; [reflexivity|exact Hd].
  Qed.
End Twice.

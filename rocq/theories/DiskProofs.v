(** * Proofs about commands with files *)

From Coq Require Import String.
From Verif Require Import Bytes Winnow RecordModel BaseProofs TagOccModel Utf8Model ByteRecordModel ReaderModel
  MatcherModel StateParser MatcherParserModel BuilderModel PathModel FmtModel QueryModel CliModel TableModel
  ExplodeModel CheckModel CsvModel OptionsModel PrepareModel IoModel IoSpec IoProofs WriteSpec DiskModel DiskSpec.

Lemma eqb_refl : forall n, bytes_eqb n n = true.
Proof. intros. apply bytes_eqb_eq. reflexivity. Qed.

Lemma disk_get_set : forall d n c m,
  disk_get (disk_set d n c) m = if bytes_eqb n m then Some c else disk_get d m.
Proof.
  induction d as [|[k v] d IH]; intros n c m; cbn.
  - reflexivity.
  - destruct (bytes_eqb k n) eqn:E; cbn.
    + apply bytes_eqb_eq in E. subst k. destruct (bytes_eqb n m); reflexivity.
    + rewrite IH. destruct (bytes_eqb k m) eqn:E2; [|reflexivity].
      apply bytes_eqb_eq in E2. subst k. destruct (bytes_eqb n m) eqn:E3; [|reflexivity].
      apply bytes_eqb_eq in E3. subst n. rewrite eqb_refl in E. discriminate.
Qed.

Lemma eqb_neq : forall n m, n <> m -> bytes_eqb n m = false.
Proof. intros n m H. destruct (bytes_eqb n m) eqn:E; [|reflexivity]. apply bytes_eqb_eq in E. contradiction. Qed.

Lemma disk_get_same : forall d n c, disk_get (disk_set d n c) n = Some c.
Proof. intros. rewrite disk_get_set, eqb_refl. reflexivity. Qed.
Lemma disk_get_other : forall d n c m, n <> m -> disk_get (disk_set d n c) m = disk_get d m.
Proof. intros. rewrite disk_get_set, eqb_neq by assumption. reflexivity. Qed.

Section Disk.
  Variable gz_enc : bytes -> bytes.
  Variable gz_dec : bytes -> list piece.
  Variable writable : bytes -> bool.

  Notation open_output := (open_output writable).
  Notation close_output := (close_output gz_enc).
  Notation close_all := (close_all gz_enc).
  Notation open_all := (open_all gz_enc writable).
  Notation process_all := (process_all gz_enc gz_dec).
  Notation prepared := (prepared gz_enc).

  (** ** Relations between the worlds before and after *)

  Section Moves.
    Variable R : world -> world -> Prop.
    Hypothesis R_refl : forall w, R w w.
    Hypothesis R_trans : forall a b c, R a b -> R b c -> R a c.

    Definition moves (r : option (command_end * world)) (w : world) : Prop :=
      match r with Some (_, w') => R w w' | None => True end.

    Definition allowed (o : output) : Prop :=
      (forall w d, open_output o (w_disk w) = Some d -> R w (with_disk w d))
      /\ (forall w t, R w (close_output o t w)).

    Lemma close_all_moves : forall outs w, Forall (fun x => allowed (fst x)) outs -> R w (close_all outs w).
    Proof.
      induction outs as [|[o t] outs IH]; intros w H; inversion H as [|x l H1 H2]; subst.
      - apply R_refl.
      - cbn. eapply R_trans; [apply (proj2 H1)|apply IH; exact H2].
    Qed.

    Lemma moves_trans : forall r w w1, R w w1 -> moves r w1 -> moves r w.
    Proof. intros [[c w']|] w w1 H1 H2; [|exact I]. cbn in *. eapply R_trans; eassumption. Qed.

    Lemma allowed_empty : forall outs, Forall allowed outs ->
      Forall (fun x => allowed (fst x)) (map (fun o : output => (o, ([] : bytes))) outs).
    Proof. intros outs H. rewrite Forall_map. exact H. Qed.

    Lemma open_all_moves : forall outs opened w k, Forall allowed opened -> Forall allowed outs ->
      (forall w1, moves (k w1) w1) -> moves (open_all opened outs w k) w.
    Proof.
      induction outs as [|o outs IH]; intros opened w k H1 H2 Hk; cbn.
      - apply Hk.
      - inversion H2 as [|x l H3 H4]; subst. destruct (open_output o (w_disk w)) as [d|] eqn:E.
        + eapply moves_trans; [apply (proj1 H3); exact E|]. apply IH; try assumption.
          apply Forall_app. split; [assumption|]. constructor; [assumption|constructor].
        + cbn. apply close_all_moves. apply allowed_empty. exact H1.
    Qed.

    Lemma prepared_moves : forall A outs (x : option (option A)) w k, Forall allowed outs ->
      (forall a, moves (k a) w) -> moves (prepared outs x w k) w.
    Proof.
      intros A outs [[a|]|] w k H Hk; cbn.
      - apply Hk.
      - apply close_all_moves. apply allowed_empty. exact H.
      - exact I.
    Qed.

    Lemma process_all_moves : forall S (outs : list (output * ((S -> bytes) * (S -> bytes)))) bad on_skip body skip s
      names w, Forall (fun x => allowed (fst x)) outs ->
      moves (process_all outs bad on_skip body skip s names w) w.
    Proof.
      intros S outs bad on_skip body skip s names w H. unfold DiskModel.process_all.
      destruct (io_files_loop _ _ _ _ _) as [x|]; [|exact I].
      destruct x as [s'|s'|s' e|]; cbn; try (apply R_refl); try (apply close_all_moves; rewrite Forall_map; exact H).
      destruct e as [p|k| |]; try destruct k; cbn; apply close_all_moves; rewrite Forall_map; exact H.
    Qed.
  End Moves.

  (** ** Two such relations *)

  Lemma same_but_allowed : forall ns o, (forall n, out_name o = Some n -> In n ns) -> allowed (same_but ns) o.
  Proof.
    intros ns o H. split.
    - intros w d E. unfold DiskModel.open_output in E. destruct (out_name o) as [n|] eqn:En.
      + destruct (writable n); [|discriminate]. injection E as <-. intros m Hm. cbn. apply disk_get_other.
        intros ->. apply Hm. apply H. reflexivity.
      + injection E as <-. intros m Hm. reflexivity.
    - intros w t m Hm. unfold DiskModel.close_output. destruct (out_name o) as [n|] eqn:En; cbn; [|reflexivity].
      apply disk_get_other. intros ->. apply Hm. apply H. reflexivity.
  Qed.

  Lemma same_but_refl : forall ns w, same_but ns w w.
  Proof. intros ns w n _. reflexivity. Qed.
  Lemma same_but_trans : forall ns a b c, same_but ns a b -> same_but ns b c -> same_but ns a c.
  Proof. intros ns a b c H1 H2 n Hn. rewrite H2, H1 by assumption. reflexivity. Qed.

  Lemma only_grown_refl : forall w, only_grown w w.
  Proof. intros w n c H. exists []. rewrite app_nil_r. exact H. Qed.
  Lemma only_grown_trans : forall a b c, only_grown a b -> only_grown b c -> only_grown a c.
  Proof.
    intros a b c H1 H2 n x H. destruct (H1 n x H) as [m Hm]. destruct (H2 n _ Hm) as [m' Hm'].
    exists (m ++ m'). rewrite app_assoc. exact Hm'.
  Qed.

  Lemma only_grown_allowed : forall o, (out_name o = None \/ out_append o = true) -> allowed only_grown o.
  Proof.
    intros o H. split.
    - intros w d E. unfold DiskModel.open_output in E. destruct (out_name o) as [n|] eqn:En.
      + destruct (writable n); [|discriminate]. injection E as <-. destruct H as [H|H]; [discriminate|].
        rewrite H. intros m c Hc. cbn. rewrite disk_get_set. destruct (bytes_eqb n m) eqn:E.
        * apply bytes_eqb_eq in E. subst m. rewrite Hc. exists []. rewrite app_nil_r. reflexivity.
        * exists []. rewrite app_nil_r. exact Hc.
      + injection E as <-. intros m c Hc. exists []. rewrite app_nil_r. exact Hc.
    - intros w t m c Hc. unfold DiskModel.close_output. destruct (out_name o) as [n|] eqn:En; cbn.
      + rewrite disk_get_set. destruct (bytes_eqb n m) eqn:E.
        * apply bytes_eqb_eq in E. subst m. rewrite Hc. eexists. reflexivity.
        * exists []. rewrite app_nil_r. exact Hc.
      + exists []. rewrite app_nil_r. exact Hc.
  Qed.

  (** ** Opening *)

  (** the outputs are open *)
  Definition opened (outs : list output) (w w1 : world) : Prop :=
    same_but (out_names outs) w w1
    /\ (forall o n, In o outs -> out_name o = Some n ->
          disk_get (w_disk w1) n = Some (if out_append o then before w n else []))
    /\ w_stdin w1 = w_stdin w /\ w_stdout w1 = w_stdout w.

  Lemma in_names : forall outs o n, In o outs -> out_name o = Some n -> In n (out_names outs).
  Proof. intros outs o n H E. unfold out_names. apply in_flat_map. exists o. rewrite E. split; [exact H|left; reflexivity]. Qed.

  Lemma opened_step : forall o outs w d w1, NoDup (out_names (o :: outs)) ->
    open_output o (w_disk w) = Some d -> opened outs (with_disk w d) w1 -> opened (o :: outs) w w1.
  Proof.
    intros o outs w d w1 Hn E (H1 & H2 & H3 & H4).
    unfold DiskModel.open_output in E. unfold out_names in Hn. cbn in Hn. fold (out_names outs) in Hn.
    destruct (out_name o) as [n|] eqn:En.
    - destruct (writable n); [|discriminate]. injection E as <-. inversion Hn as [|x l N1 N2]; subst.
      assert (Hb : forall m, m <> n -> before (with_disk w (disk_set (w_disk w) n
                (if out_append o then match disk_get (w_disk w) n with Some c => c | None => [] end else []))) m = before w m).
      { intros m Hm. unfold before. cbn. rewrite disk_get_other by congruence. reflexivity. }
      split; [|split; [|split; [exact H3|exact H4]]].
      + intros m Hm. unfold out_names in Hm. cbn in Hm. rewrite En in Hm. cbn in Hm. rewrite H1 by (intros Hi; apply Hm; right; exact Hi).
        cbn. apply disk_get_other. intros ->. apply Hm. left. reflexivity.
      + intros o' m [<-|Hi] Em.
        * rewrite En in Em. injection Em as <-. rewrite H1 by exact N1. cbn. rewrite disk_get_same. reflexivity.
        * rewrite (H2 _ _ Hi Em). rewrite Hb; [reflexivity|]. intros ->. apply N1. eapply in_names; eassumption.
    - injection E as <-. split; [|split; [|split; [exact H3|exact H4]]].
      + intros m Hm. unfold out_names in Hm. cbn in Hm. rewrite En in Hm. cbn in Hm. rewrite H1 by exact Hm. reflexivity.
      + intros o' m [<-|Hi] Em; [congruence|]. rewrite (H2 _ _ Hi Em). reflexivity.
  Qed.

  Lemma open_all_cases : forall outs op w k c w', NoDup (out_names outs) ->
    open_all op outs w k = Some (c, w') ->
    (c = CRefused /\ exists n, In n (out_names outs) /\ writable n = false)
    \/ exists w1, opened outs w w1 /\ k w1 = Some (c, w').
  Proof.
    induction outs as [|o outs IH]; intros op w k c w' Hn H; cbn in H.
    - right. exists w. split; [|exact H]. split; [apply same_but_refl|]. split; [intros ? ? []|]. split; reflexivity.
    - destruct (open_output o (w_disk w)) as [d|] eqn:E.
      + destruct (IH _ _ _ _ _ (ltac:(unfold out_names in Hn |- *; cbn in Hn; destruct (out_name o);
          [inversion Hn; assumption|exact Hn])) H) as [[-> (n & Hin & Hw)]|(w1 & Ho & Hk)].
        * left. split; [reflexivity|]. exists n. split; [|exact Hw]. unfold out_names. cbn. apply in_or_app. right. exact Hin.
        * right. exists w1. split; [|exact Hk]. eapply opened_step; eassumption.
      + left. injection H as <- _. split; [reflexivity|]. unfold DiskModel.open_output in E.
        destruct (out_name o) as [n|] eqn:En; [|discriminate]. destruct (writable n) eqn:Ew; [discriminate|].
        exists n. split; [|exact Ew]. eapply in_names; [left; reflexivity|exact En].
  Qed.

  (** ** Closing *)

  Lemma close_received : forall outs w1, NoDup (out_names (map fst outs)) ->
    same_but (out_names (map fst outs)) w1 (close_all outs w1)
    /\ (forall o t n, In (o, t) outs -> out_name o = Some n ->
          disk_get (w_disk (close_all outs w1)) n = Some (before w1 n ++ encoded gz_enc o t))
    /\ w_stdout (close_all outs w1) = w_stdout w1
       ++ flat_map (fun x => match out_name (fst x) with None => encoded gz_enc (fst x) (snd x) | Some _ => [] end) outs.
  Proof.
    intros outs w1 Hn. split.
    { apply (close_all_moves (same_but (out_names (map fst outs)))).
      - apply same_but_refl.
      - apply same_but_trans.
      - apply Forall_forall. intros x Hx. apply same_but_allowed. intros n En.
        eapply in_names; [apply in_map; exact Hx|exact En]. }
    revert w1 Hn. induction outs as [|[o t] outs IH]; intros w1 Hn.
    - split; [intros ? ? ? []|]. cbn. rewrite app_nil_r. reflexivity.
    - unfold out_names in Hn. cbn in Hn. fold (out_names (map fst outs)) in Hn.
      assert (Hn' : NoDup (out_names (map fst outs))).
      { destruct (out_name o); [inversion Hn; assumption|exact Hn]. }
      destruct (IH (close_output o t w1) Hn') as [I1 I2].
      change (close_all ((o, t) :: outs) w1) with (close_all outs (close_output o t w1)).
      split.
      + intros o' t' n [E|Hi] En.
        * injection E as <- <-. 
          assert (Hs : same_but (out_names (map fst outs)) (close_output o t w1) (close_all outs (close_output o t w1))).
          { apply (close_all_moves (same_but (out_names (map fst outs)))).
            - apply same_but_refl.
            - apply same_but_trans.
            - apply Forall_forall. intros x Hx. apply same_but_allowed. intros m Em.
              eapply in_names; [apply in_map; exact Hx|exact Em]. }
          rewrite Hs.
          -- unfold DiskModel.close_output. rewrite En. cbn. rewrite disk_get_same. reflexivity.
          -- rewrite En in Hn. inversion Hn; assumption.
        * rewrite (I1 _ _ _ Hi En). f_equal. f_equal. unfold before, DiskModel.close_output.
          destruct (out_name o) as [m|] eqn:Em; cbn; [|reflexivity]. rewrite disk_get_other; [reflexivity|].
          intros ->. inversion Hn as [|x l N1 N2]; subst. apply N1. eapply in_names; [|exact En].
          apply (in_map fst) in Hi. exact Hi.
      + rewrite I2. unfold DiskModel.close_output, encoded. cbn [flat_map fst snd].
        destruct (out_name o); cbn; [reflexivity|]. rewrite <- app_assoc. reflexivity.
  Qed.

  Lemma opened_received : forall outs w w1, NoDup (out_names (map fst outs)) ->
    opened (map fst outs) w w1 -> received gz_enc outs w (close_all outs w1).
  Proof.
    intros outs w w1 Hn (H1 & H2 & H3 & H4). destruct (close_received outs w1 Hn) as (C1 & C2 & C3). split; [|split].
    - eapply same_but_trans; eassumption.
    - intros o t n Hi En. rewrite (C2 _ _ _ Hi En). unfold before at 1.
      rewrite (H2 o n); [|apply (in_map fst) in Hi; exact Hi|exact En]. reflexivity.
    - rewrite C3, H4. reflexivity.
  Qed.

  (** ** Processing *)

  Lemma inputs_same : forall names d d' stdin, (forall n, In n names -> disk_get d' n = disk_get d n) ->
    inputs gz_dec d' stdin names = inputs gz_dec d stdin names.
  Proof.
    induction names as [|n names IH]; intros d d' stdin H; cbn; [reflexivity|].
    rewrite (H n) by (left; reflexivity). destruct (bytes_eqb n [45]); f_equal; apply IH; intros; apply H;
      right; assumption.
  Qed.

  Lemma process_all_completed : forall S (outs : list (output * ((S -> bytes) * (S -> bytes)))) bad on_skip body skip s
      names w w1 st w',
    NoDup (out_names (map fst outs)) -> (forall n, In n (out_names (map fst outs)) -> ~ In n names) ->
    opened (map fst outs) w w1 ->
    process_all outs bad on_skip body skip s names w1 = Some (CEnded st, w') ->
    completed gz_enc gz_dec outs bad on_skip body skip s names st w w'.
  Proof.
    intros S outs bad on_skip body skip s names w w1 st w' Hn Hd Ho H. unfold DiskModel.process_all in H.
    assert (Hi : inputs gz_dec (w_disk w1) (w_stdin w1) names = inputs gz_dec (w_disk w) (w_stdin w) names).
    { destruct Ho as (H1 & _ & H3 & _). rewrite H3. apply inputs_same. intros n Hin. apply H1. intros Ho'. exact (Hd n Ho' Hin). }
    rewrite Hi in H. destruct (io_files_loop _ _ _ _ _) as [x|] eqn:Ex; [|discriminate]. exists x. split; [exact Ex|].
    assert (Hr : forall f, received gz_enc (map (fun o => (fst o, f o)) outs) w
                   (close_all (map (fun o => (fst o, f o)) outs) w1)).
    { intros f. apply opened_received; rewrite map_map; cbn; assumption. }
    destruct x as [s'|s'|s' e|]; cbn [main_status] in H.
    - injection H as <- <-. split; [reflexivity|apply Hr].
    - injection H as <- <-. split; [reflexivity|apply Hr].
    - destruct (main_status (IFailed s' e)) as [n|] eqn:E.
      + cbn in E. rewrite E in H. injection H as <- <-. split; [reflexivity|apply Hr].
      + cbn in E. rewrite E in H. discriminate.
    - discriminate.
  Qed.

  Lemma process_all_not_refused : forall S (outs : list (output * ((S -> bytes) * (S -> bytes)))) bad on_skip body skip s
      names w w', process_all outs bad on_skip body skip s names w <> Some (CRefused, w').
  Proof.
    intros S outs bad on_skip body skip s names w w' H. unfold DiskModel.process_all in H.
    destruct (io_files_loop _ _ _ _ _) as [x|]; [|discriminate].
    destruct x as [s'|s'|s' e|]; cbn in H; try discriminate. destruct e as [p|k| |]; try destruct k; discriminate.
  Qed.

  (** one output: it cannot be opened, or the records are processed *)
  Lemma open_one_refused : forall o w k w', (forall w1 w2, k w1 <> Some (CRefused, w2)) ->
    open_all [] [o] w k = Some (CRefused, w') -> w' = w.
  Proof.
    intros o w k w' Hk H. cbn in H. destruct (open_output o (w_disk w)) as [d|].
    - exfalso. exact (Hk _ _ H).
    - injection H as <-. destruct w; reflexivity.
  Qed.
End Disk.

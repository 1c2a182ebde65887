(** * Loops over the records of the inputs, and over what has been written of them *)

From Coq Require Import String Lia.
From Verif Require Import Bytes BaseProofs Winnow RecordModel RecordProofs ByteRecordModel ReaderModel CliModel IoModel IoSpec IoProofs
  DiskModel DirModel DirLoopProofs.

(** ** Folding over records *)

Section Fold.
  Context {S : Type}.

  (** the loop over records *)
  Fixpoint fold_end (body : S -> byte_record -> io_ending S) (s : S) (recs : list byte_record) : io_ending S :=
    match recs with
    | [] => IDone s
    | r :: rest => match body s r with IDone s' => fold_end body s' rest | other => other end
    end.

  Lemma fold_end_app : forall body a b s, fold_end body s (a ++ b) = match fold_end body s a with IDone s' => fold_end body s' b | other => other end.
  Proof. intros body. induction a as [|r a IH]; intros b s; [reflexivity|]. cbn [app fold_end]. destruct (body s r); try reflexivity. apply IH. Qed.

  Lemma fold_filter : forall (b1 b2 : S -> byte_record -> io_ending S) (sel : byte_record -> bool) recs s,
    (forall s r, In r recs -> b1 s r = if sel r then b2 s r else IDone s) ->
    fold_end b1 s recs = fold_end b2 s (filter sel recs).
  Proof.
    intros b1 b2 sel. induction recs as [|r recs IH]; intros s H; [reflexivity|].
    assert (H' : forall s r, In r recs -> b1 s r = if sel r then b2 s r else IDone s) by (intros s' r' Hr; apply H; right; exact Hr).
    cbn [fold_end filter]. rewrite (H s r (or_introl eq_refl)). destruct (sel r); [|apply IH; exact H'].
    cbn [fold_end]. destruct (b2 s r); try reflexivity. apply IH. exact H'.
  Qed.

  Lemma fold_ext : forall (b1 b2 : S -> byte_record -> io_ending S) recs s, (forall s r, In r recs -> b1 s r = b2 s r) ->
    fold_end b1 s recs = fold_end b2 s recs.
  Proof.
    intros b1 b2. induction recs as [|r recs IH]; intros s H; [reflexivity|]. cbn [fold_end]. rewrite (H s r (or_introl eq_refl)).
    destruct (b2 s r); try reflexivity. apply IH. intros s' r' Hr. apply H. right. exact Hr.
  Qed.
End Fold.

(** a record read from a line *)
Definition of_line (r : byte_record) : Prop :=
  exists p, ~ In 10 p /\ br_write r = p ++ [10] /\ br_from_bytes (br_write r) = Some r.

Definition snoc (l : list byte_record) (r : byte_record) : io_ending (list byte_record) := IDone (l ++ [r]).

(** ** Lines *)

Lemma split_lf_shape : forall b x y, split_lf b = Some (x, y) -> exists p, x = p ++ [10] /\ ~ In 10 p.
Proof.
  induction b as [|c b IH]; cbn; intros x y H; [discriminate|].
  destruct (N.eqb_spec c LF) as [->|Hc].
  - injection H as <- <-. exists []. split; [reflexivity|intros []].
  - destruct (split_lf b) as [[x' y']|]; [|discriminate]. injection H as <- <-.
    destruct (IH _ _ eq_refl) as (p & -> & Hp). exists (c :: p). split; [reflexivity|]. intros [E|E]; [exact (Hc E)|exact (Hp E)].
Qed.

Lemma read_more_line : forall rs acc b s, read_more rs acc = (inl b, s) -> ~ In 10 acc ->
  (exists p, b = p ++ [10] /\ ~ In 10 p) \/ ~ In 10 b.
Proof.
  induction rs as [|[d| |k] rs IH]; intros acc b s H Ha; cbn [read_more] in H.
  - injection H as <- _. right. exact Ha.
  - destruct d as [|c d]; [injection H as <- _; right; exact Ha|].
    destruct (split_lf (c :: d)) as [[x y]|] eqn:E.
    + injection H as <- _. apply split_lf_shape in E. destruct E as (p & -> & Hp).
      left. exists (acc ++ p). split; [apply app_assoc|]. rewrite in_app_iff. tauto.
    + apply split_lf_none in E. apply (IH _ _ _ H). rewrite in_app_iff. tauto.
  - apply (IH _ _ _ H Ha).
  - discriminate.
Qed.

Lemma io_read_line : forall src b s, io_read_until src = (inl b, s) -> (exists p, b = p ++ [10] /\ ~ In 10 p) \/ ~ In 10 b.
Proof.
  intros src b s H. unfold io_read_until in H. destruct (split_lf (so_buf src)) as [[x y]|] eqn:E.
  - injection H as <- _. left. apply split_lf_shape in E. exact E.
  - apply split_lf_none in E. apply (read_more_line _ _ _ _ H). tauto.
Qed.

Lemma parsed_of_line : forall b r, (exists p, b = p ++ [10] /\ ~ In 10 p) \/ ~ In 10 b -> br_from_bytes b = Some r -> of_line r.
Proof.
  intros b r Hb H. assert (E : br_write r = b).
  { unfold br_from_bytes in H. destruct (record_from_bytes b); [|discriminate]. injection H as <-. reflexivity. }
  unfold of_line. rewrite E. destruct Hb as [(p & -> & Hp)|Hb]; [exists p; auto|]. exfalso. apply Hb.
  unfold br_from_bytes in H. destruct (record_from_bytes b) as [x|] eqn:Ex; [|discriminate].
  destruct (record_from_bytes_valid _ _ Ex) as [Hn _]. apply record_parse_write in Ex.
  rewrite (write_record_nonempty x Hn) in Ex. rewrite <- Ex. apply in_or_app. right. left. reflexivity.
Qed.

(** ** The records that are read *)

Section Collect.
  Variable skip : bool.

  Lemma reader_collects : forall fuel rd l l', io_reader_loop (fun l => l) snoc skip fuel l rd = Some (IDone l') ->
    exists recs, l' = l ++ recs /\ Forall of_line recs
      /\ forall S (on_skip : S -> S) body s, skip = false \/ (forall s, on_skip s = s) ->
           io_reader_loop on_skip body skip fuel s rd = Some (fold_end body s recs).
  Proof.
    induction fuel as [|fuel IH]; intros rd l l' H; [discriminate|]. cbn [io_reader_loop] in *.
    destruct (io_next_byte_record rd) as [[[r|er]|] rd'] eqn:E.
    - cbn [snoc] in H. destruct (IH _ _ _ H) as (recs & -> & Hr & Hl). exists (r :: recs). split; [rewrite <- app_assoc; reflexivity|]. split.
      + constructor; [|exact Hr]. unfold io_next_byte_record in E. destruct (io_read_until (io_inner rd)) as [[[|c b]|k] src] eqn:Er; try discriminate.
        destruct (br_from_bytes (c :: b)) as [x|] eqn:Ex; [|discriminate]. injection E as <- _. exact (parsed_of_line _ _ (io_read_line _ _ _ Er) Ex).
      + intros S on_skip body s Hs. cbn [fold_end]. destruct (body s r); try reflexivity. apply Hl. exact Hs.
    - destruct (pica_skip er skip) eqn:Ek; [|discriminate]. destruct (IH _ _ _ H) as (recs & -> & Hr & Hl). exists recs. split; [reflexivity|].
      split; [exact Hr|]. intros S on_skip body s Hs. destruct Hs as [->|Hs].
      + destruct er as [[]|]; discriminate.
      + rewrite Hs. apply Hl. right. exact Hs.
    - injection H as <-. exists []. split; [symmetry; apply app_nil_r|]. split; [constructor|]. reflexivity.
  Qed.

  Lemma files_collects : forall files l l', io_files_loop (fun l => l) snoc skip l files = Some (IDone l') ->
    exists recs, l' = l ++ recs /\ Forall of_line recs
      /\ forall S (on_skip : S -> S) body s, skip = false \/ (forall s, on_skip s = s) ->
           io_files_loop on_skip body skip s files = Some (fold_end body s recs).
  Proof.
    induction files as [|[n [reads|k]] files IH]; intros l l' H; cbn [io_files_loop] in *; [|cbv zeta in *|discriminate].
    - injection H as <-. exists []. split; [symmetry; apply app_nil_r|]. split; [constructor|]. reflexivity.
    - destruct (io_reader_loop _ _ _ _ l _) as [[l1| | |]|] eqn:E; try discriminate.
      destruct (reader_collects _ _ _ _ E) as (recs & -> & Hr & Hl). destruct (IH _ _ H) as (recs' & -> & Hr' & Hl').
      exists (recs ++ recs'). split; [symmetry; apply app_assoc|]. split; [apply Forall_app; auto|]. intros S on_skip body s Hs.
      rewrite (Hl S on_skip body s Hs), fold_end_app. destruct (fold_end body s recs); try reflexivity. apply Hl'. exact Hs.
  Qed.

  (** a loop that gets to the end collects as well *)
  Section Through.
    Context {S : Type}.
    Variable body : S -> byte_record -> io_ending S.
    Hypothesis Hbody : forall s r, body s r = IPanicked \/ exists s', body s r = IDone s'.

    Lemma reader_through : forall fuel s rd x, io_reader_loop (fun s => s) body skip fuel s rd = Some x -> main_status x = Some 0 ->
      exists s', x = IDone s' /\ forall l, exists l', io_reader_loop (fun l => l) snoc skip fuel l rd = Some (IDone l').
    Proof.
      induction fuel as [|fuel IH]; intros s rd x H Hx; [discriminate|]. cbn [io_reader_loop] in *.
      destruct (io_next_byte_record rd) as [[[r|er]|] rd'].
      - destruct (Hbody s r) as [Eb|[s1 Eb]]; rewrite Eb in H; [injection H as <-; discriminate|].
        destruct (IH _ _ _ H Hx) as (s' & -> & Hl). exists s'. split; [reflexivity|]. intros l. exact (Hl _).
      - destruct (pica_skip er skip); [|injection H as <-; discriminate]. exact (IH _ _ _ H Hx).
      - injection H as <-. exists s. split; [reflexivity|]. intros l. exists l. reflexivity.
    Qed.

    Lemma files_through : forall files s x, (forall n k, In (n, inr k) files -> k = OtherKind) ->
      io_files_loop (fun s => s) body skip s files = Some x -> main_status x = Some 0 ->
      exists s', x = IDone s' /\ forall l, exists l', io_files_loop (fun l => l) snoc skip l files = Some (IDone l').
    Proof.
      induction files as [|[n [reads|k]] files IH]; intros s x Hf H Hx; cbn [io_files_loop] in *; cbv zeta in *.
      - injection H as <-. exists s. split; [reflexivity|]. intros l. exists l. reflexivity.
      - destruct (io_reader_loop _ body _ _ s _) as [y|] eqn:E; [|discriminate].
        assert (Hy : exists s1, y = IDone s1 /\ forall l, exists l', io_reader_loop (fun l => l) snoc skip
          (Datatypes.S (source_size (io_inner (io_reader_new reads (Some n))))) l (io_reader_new reads (Some n)) = Some (IDone l')).
        { destruct (main_status y) as [st|] eqn:Es.
          - destruct (N.eq_dec st 0) as [->|Hs]; [exact (reader_through _ _ _ _ E Es)|]. exfalso.
            destruct y; try (injection Es as <-; exact (Hs eq_refl)); [|discriminate].
            injection H as <-. congruence.
          - destruct y; try discriminate; injection H as <-; congruence. }
        destruct Hy as (s1 & -> & Hl). destruct (IH s1 x) as (s' & -> & Hl'); [intros m k Hk; apply (Hf m); right; exact Hk|exact H|exact Hx|].
        exists s'. split; [reflexivity|]. intros l. destruct (Hl l) as (l1 & ->). apply Hl'.
      - injection H as <-. rewrite (Hf n k (or_introl eq_refl)) in Hx. discriminate.
    Qed.
  End Through.

  (** what has been written of records is read back *)
  Lemma lines_collected : forall recs nm n fuel l, Forall of_line recs -> (length recs < fuel)%nat ->
    io_reader_loop (fun l => l) snoc skip fuel l (mkIoReader (mkSource (flat_map br_write recs) []) nm n) = Some (IDone (l ++ recs)).
  Proof.
    induction recs as [|r recs IH]; intros nm n [|fuel] l H Hf; try (cbn in Hf; lia).
    - cbn. rewrite app_nil_r. reflexivity.
    - inversion H as [|? ? (p & Hp & Ew & Eb) Hr]. subst. cbn [io_reader_loop]. unfold io_next_byte_record. cbn [io_inner io_line io_source].
      unfold io_read_until. cbn [so_buf so_reads flat_map]. rewrite Ew, <- app_assoc. cbn [app]. rewrite split_lf_line by exact Hp.
      rewrite <- Ew. destruct (br_write r) as [|c b] eqn:E; [destruct p; discriminate|]. rewrite Eb. cbn [snoc].
      rewrite IH; [|exact Hr|cbn in Hf; lia]. rewrite <- app_assoc. reflexivity.
  Qed.

  Lemma line_nonempty : forall r, of_line r -> (1 <= length (br_write r))%nat.
  Proof. intros r (p & _ & E & _). rewrite E, app_length. cbn. lia. Qed.

  Lemma lines_length : forall recs, Forall of_line recs -> (length recs <= length (flat_map br_write recs))%nat.
  Proof.
    induction recs as [|r recs IH]; intros H; [constructor|]. inversion H as [|? ? H1 H2]. subst. cbn [length flat_map]. rewrite app_length.
    pose proof (line_nonempty r H1). specialize (IH H2). lia.
  Qed.

  Lemma written_collected : forall recs nm l, Forall of_line recs ->
    io_files_loop (fun l => l) snoc skip l [(nm, inl (whole (flat_map br_write recs)))] = Some (IDone (l ++ recs)).
  Proof.
    intros recs nm l H. destruct recs as [|r recs]; [cbn; rewrite app_nil_r; reflexivity|]. cbn [io_files_loop]. cbv zeta.
    pose proof (lines_length (r :: recs) H) as HL. inversion H as [|? ? (p & Hp & Ew & Eb) Hr]. subst.
    set (t := flat_map br_write (r :: recs)) in *. assert (Et : t = p ++ 10 :: flat_map br_write recs).
    { unfold t. cbn [flat_map]. rewrite Ew, <- app_assoc. reflexivity. }
    assert (Ewh : whole t = [PData t]) by (rewrite Et; destruct p; reflexivity). rewrite Ewh.
    set (fuel := Datatypes.S (source_size (io_inner (io_reader_new [PData t] (Some nm))))).
    assert (Hf : (length (r :: recs) < fuel)%nat) by (unfold fuel, io_reader_new, source_size; cbn [io_inner so_buf so_reads fold_right piece_size length] in *; lia).
    enough (X : io_reader_loop (fun l => l) snoc skip fuel l (io_reader_new [PData t] (Some nm)) = Some (IDone (l ++ r :: recs))) by (rewrite X; reflexivity).
    destruct fuel as [|fuel']; [lia|]. cbn [io_reader_loop]. unfold io_next_byte_record, io_reader_new. cbn [io_inner io_line io_source].
    unfold io_read_until. cbn [so_buf so_reads split_lf read_more].
    assert (Es : split_lf t = Some (br_write r, flat_map br_write recs)) by (rewrite Et, Ew; apply split_lf_line; exact Hp).
    destruct t as [|c0 t0] eqn:Ett; [discriminate|]. rewrite Es. cbn [app].
    destruct (br_write r) as [|c b] eqn:E; [destruct p; discriminate|]. rewrite Eb. cbn [snoc].
    rewrite lines_collected; [|exact Hr|cbn in Hf; lia]. rewrite <- app_assoc. reflexivity.
  Qed.

  (** *** Inputs that are opened while outputs are written *)

  Section Live.
    Variable gz_dec : bytes -> list piece.
    Context {S : Type}.
    Variable view : S -> disk.
    Variable body : S -> byte_record -> io_ending S.
    Variable P : S -> Prop.
    Variable d : disk.
    Hypothesis HP : forall s r, P s -> end_holds P (body s r).

    Lemma live_collects : forall names stdin l l' s, P s -> (forall s n, P s -> In n names -> disk_get (view s) n = disk_get d n) ->
      io_files_loop (fun l => l) snoc skip l (inputs gz_dec d stdin names) = Some (IDone l') ->
      exists recs, l' = l ++ recs /\ live_files_loop gz_dec view body skip s stdin names = Some (fold_end body s recs).
    Proof.
      induction names as [|n names IH]; intros stdin l l' s Hs Hv H.
      - cbn in H. injection H as <-. exists []. split; [symmetry; apply app_nil_r|reflexivity].
      - assert (E : exists x, inputs gz_dec (view s) stdin [n] = [x]
          /\ inputs gz_dec d stdin (n :: names) = x :: inputs gz_dec d (if bytes_eqb n (lit "-") then [] else stdin) names).
        { cbn [inputs]. rewrite (Hv s n Hs (or_introl eq_refl)). destruct (bytes_eqb n (lit "-")); eexists; split; reflexivity. }
        destruct E as (x & E1 & E2). rewrite E2 in H. cbn [live_files_loop]. rewrite E1.
        assert (H1 : exists l1, io_files_loop (fun l => l) snoc skip l [x] = Some (IDone l1)
          /\ io_files_loop (fun l => l) snoc skip l1 (inputs gz_dec d (if bytes_eqb n (lit "-") then [] else stdin) names) = Some (IDone l')).
        { destruct x as [m [reads|k]]; cbn [io_files_loop] in H |- *; [|discriminate]. cbv zeta in *.
          destruct (io_reader_loop _ _ _ _ l _) as [[l1| | |]|]; try discriminate. exists l1. split; [reflexivity|exact H]. }
        destruct H1 as (l1 & H1 & H2). destruct (files_collects _ _ _ H1) as (recs & -> & _ & Hl).
        pose proof (Hl S (fun s => s) body s (or_intror (fun s => eq_refl))) as X. rewrite X.
        pose proof (files_invariant P body skip HP _ _ _ Hs X) as Hy.
        destruct (fold_end body s recs) as [s'| | |] eqn:Ef.
        + destruct (IH _ _ _ s' Hy (fun s0 m H0 Hm => Hv s0 m H0 (or_intror Hm)) H2) as (recs' & -> & ->).
          exists (recs ++ recs'). split; [symmetry; apply app_assoc|]. rewrite fold_end_app, Ef. reflexivity.
        + destruct (files_collects _ _ _ H2) as (recs' & -> & _). exists (recs ++ recs'). split; [symmetry; apply app_assoc|]. rewrite fold_end_app, Ef. reflexivity.
        + destruct (files_collects _ _ _ H2) as (recs' & -> & _). exists (recs ++ recs'). split; [symmetry; apply app_assoc|]. rewrite fold_end_app, Ef. reflexivity.
        + destruct (files_collects _ _ _ H2) as (recs' & -> & _). exists (recs ++ recs'). split; [symmetry; apply app_assoc|]. rewrite fold_end_app, Ef. reflexivity.
    Qed.
  End Live.
End Collect.

(** an input that is not there is the only error of opening *)
Lemma inputs_kind : forall gz_dec names d stdin n k, In (n, inr k) (inputs gz_dec d stdin names) -> k = OtherKind.
Proof.
  intros gz_dec. induction names as [|m names IH]; intros d stdin n k H; [destruct H|]. cbn [inputs] in H.
  destruct (bytes_eqb m (lit "-")); (destruct H as [H|H]; [|exact (IH _ _ _ _ H)]).
  - discriminate.
  - destruct (disk_get d m); injection H; intros; subst; try discriminate; congruence.
Qed.

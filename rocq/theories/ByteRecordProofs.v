(** * Proofs about byte records *)

From Coq Require Import String.
From Verif Require Import Bytes Winnow RecordModel RecordSpec BaseProofs RecordProofs
  TagOccModel Utf8Model Utf8Spec Utf8Proofs ByteRecordModel ByteRecordSpec.

Lemma matches_any_iff : forall p f, matches_any p f = true <-> field_matched p f.
Proof.
  induction p as [|[t o] p IH]; intros f; cbn.
  - split; [discriminate|]. intros (t & o & [] & _).
  - destruct (tm_is_match t (f_tag f) && om_is_match o (f_occ f)) eqn:E.
    + apply andb_prop in E as [E1 E2]. split; [|reflexivity].
      intros _. exists t, o. cbn. auto.
    + rewrite IH. split.
      * intros (t' & o' & H & H1 & H2). exists t', o'. cbn. auto.
      * intros (t' & o' & [H|H] & H1 & H2).
        -- injection H as -> ->. rewrite H1, H2 in E. discriminate.
        -- exists t', o'. auto.
Qed.

Lemma retain_mut_pure : forall (p : field -> bool) l seen,
  retain_mut (fun _ => p) seen l = filter p l.
Proof.
  intros p. induction l as [|x l IH]; intros seen; cbn; [reflexivity|].
  rewrite IH. reflexivity.
Qed.

Lemma filter_Selected : forall {A} (p : A -> bool) (P : A -> Prop),
  (forall x, p x = true <-> P x) -> forall l, Selected P l (filter p l).
Proof.
  intros A p P H. induction l as [|x l IH]; cbn; [constructor|].
  destruct (p x) eqn:E.
  - constructor; [apply H; exact E|exact IH].
  - constructor; [|exact IH]. intros Hx. apply H in Hx. congruence.
Qed.

Lemma Selected_unique : forall {A} (P : A -> Prop) l a b,
  Selected P l a -> Selected P l b -> a = b.
Proof.
  intros A P l a b H. revert b. induction H; intros b Hb; inversion Hb; subst; try contradiction; auto.
  f_equal. auto.
Qed.

Lemma keep_record : forall p r,
  br_record (br_keep p r) = match p with [] => br_record r | _ => filter (matches_any p) (br_record r) end.
Proof. intros [|q p] r; [reflexivity|]. apply retain_mut_pure. Qed.

Lemma discard_record : forall p r,
  br_record (br_discard p r)
  = match p with [] => br_record r | _ => filter (fun f => negb (matches_any p f)) (br_record r) end.
Proof. intros [|q p] r; [reflexivity|]. apply retain_mut_pure. Qed.

Lemma retain_mut_flags : forall f l seen,
  exists keep : list bool, length keep = length l
    /\ (forall k x, nth_error l k = Some x -> nth_error keep k = Some (f (seen ++ firstn k l) x))
    /\ retain_mut f seen l = map snd (filter fst (combine keep l)).
Proof.
  intros f. induction l as [|x l IH]; intros seen; cbn.
  - exists []. repeat split. intros [|k] y; discriminate.
  - destruct (IH (seen ++ [x])) as (keep & Hl & Hk & ->).
    exists (f seen x :: keep). split; [cbn; lia|]. split.
    + intros [|k] y; cbn.
      * intros E. injection E as <-. rewrite app_nil_r. reflexivity.
      * intros E. apply Hk in E. rewrite <- app_assoc in E. exact E.
    + cbn. destruct (f seen x); reflexivity.
Qed.

Lemma run_edit_effect : forall e r, edit_effect e (br_record r) (br_record (run_edit r e)).
Proof.
  intros [f|p|p] r; cbn [run_edit].
  - constructor. apply (retain_mut_flags f (br_record r) []).
  - rewrite keep_record. destruct p as [|q p]; [constructor|].
    constructor; [discriminate|]. apply filter_Selected. apply matches_any_iff.
  - rewrite discard_record. destruct p as [|q p]; [constructor|].
    constructor; [discriminate|]. apply filter_Selected. intros f.
    rewrite negb_true_iff, <- matches_any_iff. destruct (matches_any (q :: p) f); split; congruence.
Qed.

Lemma run_edits_effect : forall es r,
  edits_effect es (br_record r) (br_record (fold_left run_edit es r)).
Proof.
  induction es as [|e es IH]; intros r; cbn; [constructor|].
  econstructor; [apply run_edit_effect|apply IH].
Qed.

(** The cached bytes, when present, are the serialisation of the fields. *)
Definition coherent (r : byte_record) : Prop :=
  br_write r = write_record (br_record r) /\ Forall valid_field (br_record r).

Lemma coherent_from_bytes : forall b r, br_from_bytes b = Some r -> coherent r.
Proof.
  unfold br_from_bytes. intros b r H. destruct (record_from_bytes b) as [rec|] eqn:E; [|discriminate].
  injection H as <-. split; cbn.
  - symmetry. apply record_parse_write; exact E.
  - apply record_from_bytes_valid in E. tauto.
Qed.

Lemma incl_Forall_field : forall (P : field -> Prop) l l', (forall x, In x l' -> In x l) -> Forall P l -> Forall P l'.
Proof. intros P l l' H HF. rewrite Forall_forall in *. auto. Qed.

Lemma retain_mut_incl : forall f l seen x, In x (retain_mut f seen l) -> In x l.
Proof.
  intros f. induction l as [|y l IH]; intros seen x; cbn; [tauto|].
  destruct (f seen y); cbn; intros H; [destruct H as [H|H]|]; eauto.
Qed.

Lemma coherent_retain : forall f r, coherent r -> coherent (br_retain f r).
Proof.
  intros f r [_ H]. split; [reflexivity|]. cbn.
  eapply incl_Forall_field; [|exact H]. apply retain_mut_incl.
Qed.

Lemma coherent_edit : forall e r, coherent r -> coherent (run_edit r e).
Proof.
  intros [f|[|q p]|[|q p]] r H; cbn; auto using coherent_retain.
Qed.

Lemma coherent_edits : forall es r, coherent r -> coherent (fold_left run_edit es r).
Proof. induction es as [|e es IH]; intros r H; cbn; auto using coherent_edit. Qed.

Lemma coherent_reachable : forall r, reachable r -> coherent r.
Proof.
  induction 1 as [b r H|r H|r e _ IH].
  - eapply coherent_from_bytes; eauto.
  - split; [reflexivity|exact H].
  - apply coherent_edit; exact IH.
Qed.

Lemma coherent_text : forall r, coherent r -> contents_text (br_record r) (br_write r).
Proof.
  intros r [H1 H2]. unfold contents_text. rewrite H1.
  destruct (br_record r) as [|f fs] eqn:E; [left; auto|].
  right. apply record_text_iff. split; [discriminate|auto].
Qed.

(** C05 *)
Lemma edited_record_writes_current : forall sha b r es,
  br_from_bytes b = Some r ->
  let r' := fold_left run_edit es r in
  edits_effect es (br_record r) (br_record r')
  /\ contents_text (br_record r') (br_write r')
  /\ br_sha256 sha r' = sha (br_write r').
Proof.
  intros sha b r es H r'. split; [apply run_edits_effect|]. split; [|reflexivity].
  apply coherent_text, coherent_edits. eapply coherent_from_bytes; eauto.
Qed.

(** C06 *)
Lemma write_record_inj : forall a b, Forall valid_field a -> Forall valid_field b ->
  write_record a = write_record b -> a = b.
Proof.
  intros a b Ha Hb H.
  destruct a as [|x a], b as [|y b]; [reflexivity| | |].
  - exfalso. cbn in H. destruct (write_field y ++ _); discriminate.
  - exfalso. cbn in H. destruct (write_field x ++ _); discriminate.
  - assert (E : record_from_bytes (write_record (x :: a)) = Some (x :: a))
      by (apply record_write_parse; [discriminate|exact Ha]).
    assert (F : record_from_bytes (write_record (y :: b)) = Some (y :: b))
      by (apply record_write_parse; [discriminate|exact Hb]).
    congruence.
Qed.

Lemma coherent_eqb : forall a b, coherent a -> coherent b ->
  (br_eqb a b = true <-> br_record a = br_record b).
Proof.
  intros a b [Ha Va] [Hb Vb]. unfold br_eqb, br_write in *.
  destruct (br_raw a) as [x|], (br_raw b) as [y|]; try apply record_eqb_eq.
  rewrite bytes_eqb_eq. split.
  - intros ->. apply write_record_inj; auto. congruence.
  - intros E. rewrite Ha, Hb, E. reflexivity.
Qed.

Lemma hash_input_write : forall r, br_hash_input r = br_write r.
Proof. intros [[d|] r]; reflexivity. Qed.

Lemma coherent_hash : forall a b, coherent a -> coherent b ->
  (br_eqb a b = true <-> br_hash_input a = br_hash_input b).
Proof.
  intros a b Ha Hb. rewrite coherent_eqb by assumption.
  rewrite !hash_input_write. destruct Ha as [-> Va], Hb as [-> Vb]. split; [congruence|].
  apply write_record_inj; assumption.
Qed.

(** C07 *)
Lemma keep_selected : forall p r, p <> [] ->
  Selected (field_matched p) (br_record r) (br_record (br_keep p r)).
Proof.
  intros p r H. rewrite keep_record. destruct p; [congruence|].
  apply filter_Selected, matches_any_iff.
Qed.

Lemma discard_selected : forall p r, p <> [] ->
  Selected (fun f => ~ field_matched p f) (br_record r) (br_record (br_discard p r)).
Proof.
  intros p r H. rewrite discard_record. destruct p as [|q p]; [congruence|].
  apply filter_Selected. intros f. rewrite negb_true_iff, <- matches_any_iff.
  destruct (matches_any (q :: p) f); split; congruence.
Qed.

Lemma filter_idem : forall {A} (p : A -> bool) l, filter p (filter p l) = filter p l.
Proof.
  intros A p. induction l as [|x l IH]; cbn; [reflexivity|].
  destruct (p x) eqn:E; cbn; [rewrite E, IH; reflexivity|exact IH].
Qed.

Lemma filter_comm : forall {A} (p q : A -> bool) l, filter p (filter q l) = filter q (filter p l).
Proof.
  intros A p q. induction l as [|x l IH]; cbn; [reflexivity|].
  destruct (p x) eqn:E, (q x) eqn:F; cbn; rewrite ?E, ?F, ?IH; reflexivity.
Qed.

Lemma keep_idem : forall p r, br_record (br_keep p (br_keep p r)) = br_record (br_keep p r).
Proof. intros [|q p] r; rewrite !keep_record; [reflexivity|apply filter_idem]. Qed.
Lemma discard_idem : forall p r, br_record (br_discard p (br_discard p r)) = br_record (br_discard p r).
Proof. intros [|q p] r; rewrite !discard_record; [reflexivity|apply filter_idem]. Qed.
Lemma keep_discard_comm : forall p q r,
  br_record (br_keep p (br_discard q r)) = br_record (br_discard q (br_keep p r)).
Proof.
  intros p q r. rewrite keep_record, !discard_record, keep_record.
  destruct p, q; try reflexivity. apply filter_comm.
Qed.

Lemma filter_split : forall {A} (p : A -> bool) l, Split l (filter p l) (filter (fun x => negb (p x)) l).
Proof.
  intros A p. induction l as [|x l IH]; cbn; [constructor|].
  destruct (p x); cbn; constructor; exact IH.
Qed.

Lemma keep_discard_split : forall p r, p <> [] ->
  Split (br_record r) (br_record (br_keep p r)) (br_record (br_discard p r)).
Proof.
  intros [|q p] r H; [congruence|]. rewrite keep_record, discard_record. apply filter_split.
Qed.

(** C08 *)
Lemma string_record_iff : forall r,
  (exists s, sr_try_from r = Some s) <->
  forall f s, In f (br_record r) -> In s (f_subfields f) -> is_utf8 (sf_value s).
Proof.
  intros r. unfold sr_try_from. rewrite <- record_validate_iff.
  destruct (record_validate (br_record r)); split; try congruence; eauto.
  intros [s H]. discriminate.
Qed.

Lemma string_record_same : forall r s, sr_try_from r = Some s -> s = r.
Proof. intros r s. unfold sr_try_from. destruct (record_validate _); congruence. Qed.

Lemma keep_nil : forall p r, p = [] -> br_keep p r = r.
Proof. intros p r ->. reflexivity. Qed.
Lemma discard_nil : forall p r, p = [] -> br_discard p r = r.
Proof. intros p r ->. reflexivity. Qed.

Lemma reachable_equivalence : forall a b c,
  reachable a -> reachable b -> reachable c ->
  br_eqb a a = true
  /\ br_eqb b a = br_eqb a b
  /\ (br_eqb a b = true -> br_eqb b c = true -> br_eqb a c = true).
Proof.
  intros a b c Ha Hb Hc. apply coherent_reachable in Ha, Hb, Hc. split; [|split].
  - apply coherent_eqb; auto.
  - destruct (br_eqb b a) eqn:E; destruct (br_eqb a b) eqn:F; try reflexivity; exfalso.
    + apply coherent_eqb in E; auto. symmetry in E. apply coherent_eqb in E; auto. congruence.
    + apply coherent_eqb in F; auto. symmetry in F. apply coherent_eqb in F; auto. congruence.
  - intros H1 H2. apply coherent_eqb in H1; auto. apply coherent_eqb in H2; auto.
    apply coherent_eqb; auto. congruence.
Qed.

Lemma reachable_hash : forall sha a b,
  reachable a -> reachable b ->
  (br_eqb a b = true <-> br_hash_input a = br_hash_input b)
  /\ (br_eqb a b = true -> br_sha256 sha a = br_sha256 sha b).
Proof.
  intros sha a b Ha Hb. apply coherent_reachable in Ha, Hb. split; [apply coherent_hash; auto|].
  intros H. apply coherent_hash in H; auto. rewrite !hash_input_write in H.
  unfold br_sha256. rewrite H. reflexivity.
Qed.

(** * Proofs about owned values *)

From Coq Require Import String.
From Verif Require Import Bytes Winnow RecordModel RecordSpec BaseProofs RecordProofs OwnedModel.

(** ** Conversions keep everything *)

Lemma subfield_owned_inj : forall a b, subfield_owned a = subfield_owned b -> a = b.
Proof. intros [c v] [c' v'] H. injection H as -> ->. reflexivity. Qed.

Lemma map_inj : forall {A B} (f : A -> B), (forall a b, f a = f b -> a = b) ->
  forall l l', map f l = map f l' -> l = l'.
Proof.
  intros A B f Hf. induction l as [|x l IH]; destruct l' as [|y l']; intros H; try discriminate; [reflexivity|].
  injection H as E H. f_equal; auto.
Qed.

Lemma field_owned_inj : forall a b, field_owned a = field_owned b -> a = b.
Proof.
  intros [t o s] [t' o' s'] H. unfold field_owned in H. cbn in H. injection H as -> O S.
  apply (map_inj _ subfield_owned_inj) in S. subst s'. f_equal.
  destruct o, o'; try discriminate; [|reflexivity]. injection O as ->. reflexivity.
Qed.

Lemma record_owned_inj : forall a b, record_owned a = record_owned b -> a = b.
Proof. intros a b H. injection H as H. exact (map_inj _ field_owned_inj a b H). Qed.

Lemma subfield_owned_onto : forall s, exists a, s = subfield_owned a.
Proof. intros [c [v]]. exists (mkSubfield c v). reflexivity. Qed.

Lemma map_onto : forall {A B} (f : A -> B), (forall b, exists a, b = f a) -> forall l, exists l', l = map f l'.
Proof.
  intros A B f Hf. induction l as [|x l (l' & ->)]; [exists []; reflexivity|].
  destruct (Hf x) as (a & ->). exists (a :: l'). reflexivity.
Qed.

Lemma field_owned_onto : forall f, exists a, f = field_owned a.
Proof.
  intros [[t] o s]. destruct (map_onto _ subfield_owned_onto s) as (s' & ->).
  destruct o as [[o]|]; [exists (mkField t (Some o) s')|exists (mkField t None s')]; reflexivity.
Qed.

Lemma record_owned_onto : forall r, exists a, r = record_owned a.
Proof. intros [fs]. destruct (map_onto _ field_owned_onto fs) as (a & ->). exists a. reflexivity. Qed.

Lemma owned_bijective :
  (forall a b, record_owned a = record_owned b -> a = b) /\ (forall o, exists a, o = record_owned a).
Proof. split; [exact record_owned_inj|exact record_owned_onto]. Qed.

(** ** Comparisons *)

Lemma vec_eqb_map : forall {A B} (eqb : A -> B -> bool) (f : A -> B), (forall a b, eqb a b = true <-> b = f a) ->
  forall l l', vec_eqb eqb l l' = true <-> l' = map f l.
Proof.
  intros A B eqb f Hf. induction l as [|x l IH]; destruct l' as [|y l']; cbn; try (split; congruence).
  rewrite Bool.andb_true_iff, Hf, IH. split; [intros [-> ->]; reflexivity|intros E; injection E as -> ->; auto].
Qed.

Lemma vec_eqb_flip : forall {A B} (e : A -> B -> bool) (e' : B -> A -> bool), (forall a b, e' b a = e a b) ->
  forall l l', vec_eqb e' l' l = vec_eqb e l l'.
Proof.
  intros A B e e' H. induction l as [|x l IH]; destruct l' as [|y l']; try reflexivity.
  cbn. rewrite H, IH. reflexivity.
Qed.

Lemma tag_eq_owned_iff : forall a b, tag_eq_owned a b = true <-> b = tag_owned a.
Proof. intros a [b]. cbn. rewrite bytes_eqb_eq. unfold tag_owned. split; congruence. Qed.
Lemma otag_eq_ref_iff : forall a b, otag_eq_ref b a = true <-> b = tag_owned a.
Proof. intros a [b]. cbn. rewrite bytes_eqb_eq. unfold tag_owned. split; congruence. Qed.
Lemma occ_eq_owned_iff : forall a b, occ_eq_owned a b = true <-> b = occ_owned a.
Proof. intros a [b]. cbn. rewrite bytes_eqb_eq. unfold occ_owned. split; congruence. Qed.
Lemma value_eq_owned_iff : forall a b, value_eq_owned a b = true <-> b = value_owned a.
Proof. intros a [b]. cbn. rewrite bytes_eqb_eq. unfold value_owned, value_unchecked. split; congruence. Qed.
Lemma ovalue_eq_ref_iff : forall a b, ovalue_eq_ref b a = true <-> b = value_owned a.
Proof. intros a [b]. cbn. rewrite bytes_eqb_eq. unfold value_owned, value_unchecked. split; congruence. Qed.

Lemma subfield_eq_owned_iff : forall a b, subfield_eq_owned a b = true <-> b = subfield_owned a.
Proof.
  intros [c v] [c' v']. cbn. rewrite Bool.andb_true_iff, value_eq_owned_iff, N.eqb_eq.
  unfold subfield_owned. cbn. split; [intros [-> ->]; reflexivity|intros E; injection E as -> ->; auto].
Qed.

Lemma field_eq_owned_iff : forall a b, field_eq_owned a b = true <-> b = field_owned a.
Proof.
  intros [t o s] [t' o' s']. cbn [field_eq_owned f_tag f_occ f_subfields]. unfold field_owned. cbn [f_tag f_occ f_subfields].
  rewrite !Bool.andb_true_iff, tag_eq_owned_iff, (vec_eqb_map _ _ subfield_eq_owned_iff).
  assert (O : match o, o' with Some lhs, Some rhs => occ_eq_owned lhs rhs | None, None => true | _, _ => false end = true
    <-> o' = option_map occ_owned o).
  { destruct o as [o|], o' as [o'|]; cbn; try (split; congruence). rewrite occ_eq_owned_iff. split; congruence. }
  rewrite O. split; [intros [[-> ->] ->]; reflexivity|intros E; injection E as -> -> ->; auto].
Qed.

Lemma record_eq_owned_iff : forall a b, record_eq_owned a b = true <-> b = record_owned a.
Proof.
  intros a [b]. cbn. rewrite (vec_eqb_map _ _ field_eq_owned_iff). unfold record_owned. split; congruence.
Qed.

Lemma orecord_eq_ref_flip : forall a b, orecord_eq_ref b a = record_eq_owned a b.
Proof. intros a [b]. cbn. apply vec_eqb_flip. reflexivity. Qed.

Lemma comparisons : forall r o,
  (record_eq_owned r o = true <-> o = record_owned r) /\ orecord_eq_ref o r = record_eq_owned r o.
Proof. intros. split; [apply record_eq_owned_iff|apply orecord_eq_ref_flip]. Qed.

Lemma field_comparisons : forall f o,
  (field_eq_owned f o = true <-> o = field_owned f) /\ ofield_eq_ref o f = field_eq_owned f o.
Proof. intros. split; [apply field_eq_owned_iff|reflexivity]. Qed.

Lemma part_comparisons :
  (forall t o, (tag_eq_owned t o = true <-> o = OTag t) /\ (otag_eq_ref o t = true <-> o = OTag t))
  /\ (forall x o, occ_eq_owned x o = true <-> o = OOcc x)
  /\ (forall v o, (value_eq_owned v o = true <-> o = OValue v) /\ (ovalue_eq_ref o v = true <-> o = OValue v))
  /\ (forall s o, subfield_eq_owned s o = true <-> o = OSubfield (sf_code s) (OValue (sf_value s))).
Proof.
  split; [intros; split; [apply tag_eq_owned_iff|apply otag_eq_ref_iff]|].
  split; [intros; apply occ_eq_owned_iff|].
  split; [intros; split; [apply value_eq_owned_iff|apply ovalue_eq_ref_iff]|].
  intros. apply subfield_eq_owned_iff.
Qed.

(** ** Writers *)

Lemma write_osubfield_owned : forall s, write_osubfield (subfield_owned s) = write_subfield s.
Proof. reflexivity. Qed.

Lemma flat_map_map : forall {A B C} (f : A -> B) (g : B -> list C) l,
  flat_map g (map f l) = flat_map (fun x => g (f x)) l.
Proof. induction l as [|x l IH]; [reflexivity|]. cbn. rewrite IH. reflexivity. Qed.

Lemma write_ofield_owned : forall f, write_ofield (field_owned f) = write_field f.
Proof.
  intros [t o s]. unfold field_owned, write_ofield, write_field. cbn [f_tag f_occ f_subfields tag_owned write_otag].
  rewrite flat_map_map. destruct o; reflexivity.
Qed.

Lemma write_orecord_owned : forall r, write_orecord (record_owned r) = write_record r.
Proof.
  intros r. unfold record_owned, write_orecord, write_record. rewrite flat_map_map.
  rewrite (flat_map_ext _ _ write_ofield_owned). destruct r; reflexivity.
Qed.

Lemma owned_read_write : forall b r, record_from_bytes b = Some r -> write_orecord (record_owned r) = b.
Proof. intros b r H. rewrite write_orecord_owned. apply record_parse_write. exact H. Qed.

Lemma owned_write_read : forall o r, record_eq_owned r o = true -> r <> [] -> Forall valid_field r ->
  exists r', record_from_bytes (write_orecord o) = Some r' /\ record_eq_owned r' o = true.
Proof.
  intros o r E N F. exists r. split; [|exact E]. apply record_eq_owned_iff in E. subst o.
  rewrite write_orecord_owned. apply record_write_parse; assumption.
Qed.

(** ** Constructors *)

Lemma collect_map : forall {A B C} (f : A -> option B) (g : B -> C) l,
  collect (fun x => do y <- f x; Some (g y)) l = (do ys <- collect f l; Some (map g ys)).
Proof.
  induction l as [|x l IH]; [reflexivity|]. cbn. destruct (f x); [|reflexivity]. cbn. rewrite IH.
  destruct (collect f l); reflexivity.
Qed.

Lemma ofield_new_owned : forall t o sfs, ofield_new t o sfs = option_map field_owned (field_new t o sfs).
Proof.
  intros t o sfs. unfold ofield_new, field_new, otag_new.
  destruct (tag_from_bytes t) as [t'|]; [|reflexivity].
  change (collect (fun cv => osubfield_new (fst cv) (snd cv)) sfs)
    with (collect (fun cv => do y <- subfield_new (fst cv) (snd cv); Some (subfield_owned y)) sfs).
  rewrite (collect_map (fun cv => subfield_new (fst cv) (snd cv)) subfield_owned).
  destruct o as [o|].
  - unfold oocc_new. destruct (occ_from_bytes o) as [o'|]; [|reflexivity].
    destruct (collect (fun cv => subfield_new (fst cv) (snd cv)) sfs); reflexivity.
  - destruct (collect (fun cv => subfield_new (fst cv) (snd cv)) sfs); reflexivity.
Qed.

Lemma ofield_new_iff : forall t o sfs f, ofield_new t o sfs = Some f <->
  f = OField (OTag t) (option_map OOcc o) (map (fun cv => OSubfield (fst cv) (OValue (snd cv))) sfs)
  /\ valid_tag t /\ (forall x, o = Some x -> valid_occ x)
  /\ Forall (fun cv => valid_code (fst cv) /\ valid_value (snd cv)) sfs.
Proof.
  intros t o sfs f. rewrite ofield_new_owned.
  assert (E : forall g, field_new t o sfs = Some g <-> _) by (intros g; apply field_new_iff).
  set (f0 := mkField t o (map (fun cv => mkSubfield (fst cv) (snd cv)) sfs)) in *.
  assert (V : valid_field f0 <-> valid_tag t /\ (forall x, o = Some x -> valid_occ x)
    /\ Forall (fun cv => valid_code (fst cv) /\ valid_value (snd cv)) sfs).
  { unfold valid_field, f0. cbn [f_tag f_occ f_subfields].
    assert (S : Forall valid_subfield (map (fun cv => mkSubfield (fst cv) (snd cv)) sfs)
      <-> Forall (fun cv : byte * bytes => valid_code (fst cv) /\ valid_value (snd cv)) sfs).
    { rewrite Forall_map. reflexivity. }
    rewrite S. reflexivity. }
  assert (F : field_owned f0 = OField (OTag t) (option_map OOcc o) (map (fun cv => OSubfield (fst cv) (OValue (snd cv))) sfs)).
  { unfold field_owned, f0. cbn [f_tag f_occ f_subfields]. rewrite map_map. reflexivity. }
  rewrite <- F, <- V. split.
  - destruct (field_new t o sfs) as [g|] eqn:G; [|discriminate]. intros X. injection X as <-.
    destruct (proj1 (E g) eq_refl) as [-> W]. auto.
  - intros [-> W]. rewrite (proj2 (E f0) (conj eq_refl W)). reflexivity.
Qed.

Lemma part_news :
  (forall t o, otag_new t = Some o <-> o = OTag t /\ valid_tag t)
  /\ (forall x o, oocc_new x = Some o <-> o = OOcc x /\ valid_occ x)
  /\ (forall v o, ovalue_new v = Some o <-> o = OValue v /\ valid_value v)
  /\ (forall c v o, osubfield_new c v = Some o <-> o = OSubfield c (OValue v) /\ valid_code c /\ valid_value v).
Proof.
  split; [|split; [|split]].
  - intros t o. unfold otag_new. split.
    + destruct (tag_from_bytes t) as [t'|] eqn:E; [|discriminate]. intros X. injection X as <-.
      apply tag_from_bytes_iff in E. destruct E as [-> V]. auto.
    + intros [-> V]. rewrite (proj2 (tag_from_bytes_iff t t) (conj eq_refl V)). reflexivity.
  - intros t o. unfold oocc_new. split.
    + destruct (occ_from_bytes t) as [t'|] eqn:E; [|discriminate]. intros X. injection X as <-.
      apply occ_from_bytes_iff in E. destruct E as [-> V]. auto.
    + intros [-> V]. rewrite (proj2 (occ_from_bytes_iff t t) (conj eq_refl V)). reflexivity.
  - intros t o. unfold ovalue_new. split.
    + destruct (value_new t) as [t'|] eqn:E; [|discriminate]. intros X. injection X as <-.
      apply value_new_iff in E. destruct E as [-> V]. auto.
    + intros [-> V]. rewrite (proj2 (value_new_iff t t) (conj eq_refl V)). reflexivity.
  - intros c v o. unfold osubfield_new. split.
    + destruct (subfield_new c v) as [s|] eqn:E; [|discriminate]. intros X. injection X as <-.
      apply subfield_new_iff in E. destruct E as [-> V]. split; [reflexivity|exact V].
    + intros [-> V]. rewrite (proj2 (subfield_new_iff c v (mkSubfield c v)) (conj eq_refl V)). reflexivity.
Qed.

(** ** Display *)

Lemma shown_tags_read_back : forall t, valid_tag t ->
  tag_from_bytes (show_tag t) = Some t /\ otag_new (show_otag (tag_owned t)) = Some (tag_owned t)
  /\ show_otag (tag_owned t) = show_tag t.
Proof.
  intros t V. split; [apply tag_from_bytes_iff; auto|]. split; [|reflexivity].
  apply (proj1 part_news). auto.
Qed.

Lemma shown_oocc_reads_back : forall o, valid_occ o -> oocc_new (show_oocc (occ_owned o)) = Some (occ_owned o).
Proof. intros o V. apply (proj1 (proj2 part_news)). auto. Qed.

(** a printed borrowed occurrence is never an occurrence *)
Lemma shown_occ_never_reads : forall o, occ_from_bytes (show_occ o) = None /\ oocc_new (show_occ o) = None.
Proof.
  intros o. assert (E : occ_from_bytes (show_occ o) = None).
  { destruct (occ_from_bytes (show_occ o)) as [x|] eqn:E; [|reflexivity].
    apply occ_from_bytes_iff in E. destruct E as [-> [_ V]]. apply Forall_inv in V.
    exfalso. revert V. clear. intros V. repeat (destruct V as [V|V]; [discriminate V|]). exact V. }
  split; [exact E|]. unfold oocc_new. rewrite E. reflexivity.
Qed.

Lemma shown_occ_differs : forall o, show_occ o <> show_oocc (occ_owned o).
Proof. intros o E. apply (f_equal (@length N)) in E. cbn in E. lia. Qed.

Lemma shown_occ_is_written : forall o, show_occ o = write_occ o /\ show_occ o = write_oocc (occ_owned o).
Proof. split; reflexivity. Qed.

(** ** Levels *)

Lemma level_from_str_iff : forall s l, level_from_str s = Some l <->
  (s = lit "main" /\ l = LMain) \/ (s = lit "local" /\ l = LLocal) \/ (s = lit "copy" /\ l = LCopy).
Proof.
  intros s l. unfold level_from_str.
  destruct (bytes_eqb s (lit "main")) eqn:A; [apply bytes_eqb_eq in A; subst s|apply bytes_eqb_neq in A].
  { split; [intros X; injection X as <-; auto|]. intros [[_ ->]|[[X _]|[X _]]]; [reflexivity|discriminate..]. }
  destruct (bytes_eqb s (lit "local")) eqn:B; [apply bytes_eqb_eq in B; subst s|apply bytes_eqb_neq in B].
  { split; [intros X; injection X as <-; auto|]. intros [[X _]|[[_ ->]|[X _]]]; [discriminate|reflexivity|discriminate]. }
  destruct (bytes_eqb s (lit "copy")) eqn:C; [apply bytes_eqb_eq in C; subst s|apply bytes_eqb_neq in C].
  { split; [intros X; injection X as <-; auto|]. intros [[X _]|[[X _]|[_ ->]]]; [discriminate..|reflexivity]. }
  split; [discriminate|]. intros [[X _]|[[X _]|[X _]]]; contradiction.
Qed.

(** * Proofs about serialisation *)

From Coq Require Import String Permutation Lia.
From Verif Require Import Bytes Winnow StateParser RecordModel RecordSpec OwnedModel ByteRecordModel TagOccModel
  StrParserModel MatcherModel MatcherParserModel PathModel QueryModel FmtModel SerdeModel SerdeSpec BaseProofs TagOccProofs QueryExtraProofs QueryParserProofs
  MatcherSpec GrammarSpec DisplaySpec GrammarClaimProofs DisplaySubProofs.

Lemma entries_perm : forall k l l', Permutation l l' -> Permutation (entries k l) (entries k l').
Proof.
  intros k l l' H. unfold entries. apply Permutation_map. induction H; cbn [filter].
  - constructor.
  - destruct (bytes_eqb (fst x) k); [constructor; exact IHPermutation|exact IHPermutation].
  - destruct (bytes_eqb (fst x) k), (bytes_eqb (fst y) k); try reflexivity. constructor.
  - eapply Permutation_trans; eassumption.
Qed.
Lemma entries_app : forall k a b, entries k (a ++ b) = entries k a ++ entries k b.
Proof. intros. unfold entries. rewrite filter_app, map_app. reflexivity. Qed.

Section Handed.
  Variable T U : bytes -> sdv -> Prop.
  Notation handed := (handed T U).

  Definition reads {A} (de : sdv -> option A) (ser : A -> sdv) : Prop :=
    forall x w, handed (ser x) w -> de w = Some x.

  Lemma seq_inv : forall l w, handed (SdSeq l) w -> exists l', w = SdSeq l' /\ Forall2 handed l l'.
  Proof. intros l w H. inversion H; subst; eauto. Qed.

  Lemma entries_pair : forall k kept m,
    Forall2 (fun a b => fst a = fst b /\ handed (snd a) (snd b)) kept m ->
    Forall2 handed (entries k kept) (entries k m).
  Proof.
    intros k kept m H. unfold entries. induction H as [|[a v] [b w] kept m [E H] _ IH]; cbn [filter map fst snd] in *; [constructor|].
    subst b. destruct (bytes_eqb a k); [constructor; assumption|exact IH].
  Qed.

  Lemma map_entry : forall l l' k v,
    (exists kept dropped m extra,
      Permutation l (kept ++ dropped) /\ Forall (fun kv => snd kv = SdNone) dropped /\
      Forall2 (fun a b => fst a = fst b /\ handed (snd a) (snd b)) kept m /\
      Permutation l' (m ++ extra) /\ (forall kv, In kv extra -> ~ In (fst kv) (map fst l))) ->
    entries k l = [v] ->
    (exists w, entries k l' = [w] /\ handed v w) \/ (entries k l' = [] /\ v = SdNone).
  Proof.
    intros l l' k v (kept & dropped & m & extra & P & D & F & P' & X) E.
    assert (Hx : entries k extra = []).
    { assert (In k (map fst l)).
      { unfold entries in E. assert (H : In v (map snd (filter (fun kv => bytes_eqb (fst kv) k) l))) by (rewrite E; left; reflexivity).
        apply in_map_iff in H as ([a x] & <- & H). apply filter_In in H as [H H']. cbn in H'.
        apply bytes_eqb_eq in H'. subst a. apply in_map_iff. exists (k, x). auto. }
      unfold entries. destruct (filter (fun kv => bytes_eqb (fst kv) k) extra) as [|kv ?] eqn:Q; [reflexivity|].
      exfalso. assert (In kv (filter (fun kv => bytes_eqb (fst kv) k) extra)) by (rewrite Q; left; reflexivity).
      apply filter_In in H0 as [H0 H1]. apply bytes_eqb_eq in H1. apply (X kv H0). rewrite H1. exact H. }
    pose proof (entries_perm k _ _ P) as Q. rewrite E, entries_app in Q.
    pose proof (entries_perm k _ _ P') as Q'. rewrite entries_app, Hx, app_nil_r in Q'.
    pose proof (entries_pair k _ _ F) as G.
    apply Permutation_length_1_inv in Q. destruct (entries k kept) as [|a [|b ?]] eqn:K; cbn in Q.
    - right. destruct (entries k m); [|inversion G]. apply Permutation_sym in Q'. apply Permutation_nil in Q'. split; [exact Q'|].
      assert (I : In v (entries k dropped)) by (rewrite Q; left; reflexivity). unfold entries in I.
      apply in_map_iff in I as (kv & <- & I). apply filter_In in I as [I _]. rewrite Forall_forall in D. apply D, I.
    - injection Q as -> Q. left. destruct (entries k m) as [|w [|w' ?]]; [inversion G| |inversion G; match goal with X : Forall2 _ [] (_ :: _) |- _ => inversion X end].
      exists w. split; [|inversion G; assumption]. apply Permutation_sym, Permutation_length_1_inv in Q'. exact Q'.
    - discriminate.
  Qed.

  Lemma de_newtype_reads : forall A (de : sdv -> option A) (ser : A -> sdv), reads de ser ->
    reads (de_newtype de) (fun x => SdNewtype (ser x)).
  Proof.
    intros A de ser H x w Hw. inversion Hw as [| | | | | | |v v' Hv|v v' Hv N| | |]; subst; cbn.
    - apply H, Hv.
    - destruct w; try (apply H, Hv). exfalso. eapply N. reflexivity.
  Qed.
  Lemma de_option_reads : forall A (de : sdv -> option A) (ser : A -> sdv), reads de ser ->
    reads (de_option de) (ser_option ser).
  Proof.
    intros A de ser H [x|] w Hw; cbn [ser_option] in Hw;
      inversion Hw as [| | | | |v v' Hv|v v' Hv N1 N2| | | | |]; subst; cbn.
    - rewrite (H x _ Hv). reflexivity.
    - destruct w; try (cbn; rewrite (H x _ Hv); reflexivity); [congruence|]. exfalso. eapply N2. reflexivity.
    - reflexivity.
  Qed.
  Lemma de_option_bare : forall A (de : sdv -> option A) w, w <> SdNone -> (forall x, w <> SdSome x) ->
    de_option de w = (do y <- de w; Some (Some y)).
  Proof. intros A de w N1 N2. destruct w; try reflexivity; [congruence|]. exfalso. eapply N2. reflexivity. Qed.
  Lemma collect_reads : forall A (de : sdv -> option A) (ser : A -> sdv), reads de ser ->
    forall xs l, Forall2 handed (map ser xs) l -> collect de l = Some xs.
  Proof.
    intros A de ser H xs. induction xs as [|x xs IH]; intros l F; inversion F as [|? y ? l' Hy Hl]; subst; [reflexivity|].
    cbn. rewrite (H x _ Hy), (IH _ Hl). reflexivity.
  Qed.
  Lemma de_vec_reads : forall A (de : sdv -> option A) (ser : A -> sdv), reads de ser ->
    reads (de_vec de) (fun xs => SdSeq (map ser xs)).
  Proof. intros A de ser H xs w Hw. apply seq_inv in Hw as (l & -> & F). cbn. eapply collect_reads; eassumption. Qed.

  Lemma de_char_reads : reads de_char SdChar.
  Proof.
    intros c w H. inversion H as [|? l Hc| | | | | | | | | |]; subst; [reflexivity|]. cbn. apply N.ltb_lt in Hc. rewrite Hc. reflexivity.
  Qed.
  Lemma de_code_reads : reads de_code ser_code.
  Proof. apply de_newtype_reads, de_char_reads. Qed.

  Lemma map_inv : forall l w, handed (SdMap l) w ->
    (exists l', w = SdMap l' /\ forall k v, entries k l = [v] ->
       (exists w, entries k l' = [w] /\ handed v w) \/ (entries k l' = [] /\ v = SdNone))
    \/ exists l', w = SdSeq l' /\ Forall2 (fun a b => handed (snd a) b) l l'.
  Proof.
    intros l w H. inversion H; subst.
    - left. eexists. split; [reflexivity|]. intros k v E. apply (map_entry l); [|exact E]. exists kept, dropped, m, extra. auto.
    - right. eauto.
  Qed.

  Lemma de_entry_reads : forall A (de : sdv -> option A) (ser : A -> sdv) k x l l',
    reads de ser -> ser x <> SdNone ->
    (forall k v, entries k l = [v] ->
       (exists w, entries k l' = [w] /\ handed v w) \/ (entries k l' = [] /\ v = SdNone)) ->
    entries k l = [ser x] -> de_entry de k l' = Some x.
  Proof.
    intros A de ser k x l l' H N M E. unfold de_entry. destruct (M _ _ E) as [(w & -> & Hw)|[_ Q]]; [apply H, Hw|contradiction].
  Qed.
  Lemma de_opt_entry_reads : forall A (de : sdv -> option A) (ser : A -> sdv) k x l l',
    reads de ser ->
    (forall k v, entries k l = [v] ->
       (exists w, entries k l' = [w] /\ handed v w) \/ (entries k l' = [] /\ v = SdNone)) ->
    entries k l = [ser_option ser x] -> de_opt_entry de k l' = Some x.
  Proof.
    intros A de ser k x l l' H M E. unfold de_opt_entry. destruct (M _ _ E) as [(w & -> & Hw)|[-> Q]].
    - eapply de_option_reads; eassumption.
    - destruct x; [discriminate|reflexivity].
  Qed.

  Section Text.
    Variable de : sdv -> option bytes.
    Hypothesis Hde : forall b w, T b w -> de w = Some b.
    Lemma text_reads : reads (de_newtype de) ser_text.
    Proof.
      apply (de_newtype_reads _ de (SdBytes false)). intros b w H. inversion H; subst. apply Hde. assumption.
    Qed.
  End Text.

  Section Owned.
    Hypothesis HT : forall b w, T b w -> de_bstring w = Some b.
    Lemma otext_reads : reads de_otext ser_text. Proof. apply text_reads, HT. Qed.
    Lemma osubfield_reads : reads de_osubfield ser_osubfield.
    Proof.
      intros [c [v]] w H. apply seq_inv in H as (l & -> & F). inversion F as [|? a ? r Ha Fr]; subst.
      inversion Fr as [|? b ? r' Hb Fr']; subst. inversion Fr'; subst. cbn [de_osubfield].
      rewrite (de_code_reads _ _ Ha), (otext_reads _ _ Hb). reflexivity.
    Qed.
    Lemma ooption_reads : forall (o : option oocc) w, handed (ser_option (fun o => ser_text (show_oocc o)) o) w ->
      handed (ser_option ser_text (option_map show_oocc o)) w.
    Proof. intros [o|] w H; exact H. Qed.
    Lemma ofield_reads : reads de_ofield ser_ofield.
    Proof.
      intros [[t] o s] w H. unfold ser_ofield in H. cbn [write_otag] in H.
      assert (Eo : option_map OOcc (option_map show_oocc o) = o) by (destruct o as [[x]|]; reflexivity).
      apply map_inv in H as [(l' & -> & M)|(l' & -> & F)].
      - cbn [de_ofield].
        rewrite (de_entry_reads _ de_otext ser_text (lit "tag") t _ _ otext_reads ltac:(discriminate) M eq_refl).
        rewrite (de_opt_entry_reads _ de_otext ser_text (lit "occurrence") (option_map show_oocc o) _ _ otext_reads M);
          [|destruct o; reflexivity].
        rewrite (de_entry_reads _ (de_vec de_osubfield) (fun xs => SdSeq (map ser_osubfield xs)) (lit "subfields") s _ _
                  (de_vec_reads _ _ _ osubfield_reads) ltac:(discriminate) M eq_refl).
        rewrite Eo. reflexivity.
      - inversion F as [|? a ? r Ha Fr]; subst. inversion Fr as [|? b ? r' Hb Fr']; subst.
        inversion Fr' as [|? c ? r'' Hc Fr'']; subst. inversion Fr''; subst. cbn [snd] in *. cbn [de_ofield].
        rewrite (otext_reads _ _ Ha). rewrite (de_option_reads _ _ _ otext_reads (option_map show_oocc o) b (ooption_reads _ _ Hb)).
        rewrite (de_vec_reads _ _ _ osubfield_reads s c Hc), Eo. reflexivity.
    Qed.
    Lemma orecord_reads : reads de_orecord ser_orecord.
    Proof.
      intros [fs] w H. unfold de_orecord.
      rewrite (de_newtype_reads _ _ _ (de_vec_reads _ _ _ ofield_reads) fs w H). reflexivity.
    Qed.
  End Owned.

  Section Borrowed.
    Hypothesis HT : forall b w, T b w -> de_bstr w = Some b.
    Lemma btext_reads : reads de_text ser_text. Proof. apply text_reads, HT. Qed.
    Lemma subfield_reads : reads de_subfield ser_subfield.
    Proof.
      intros [c v] w H. apply seq_inv in H as (l & -> & F). inversion F as [|? a ? r Ha Fr]; subst.
      inversion Fr as [|? b ? r' Hb Fr']; subst. inversion Fr'; subst. cbn [de_subfield].
      rewrite (de_code_reads _ _ Ha), (btext_reads _ _ Hb). reflexivity.
    Qed.
    Lemma field_reads : reads de_field ser_field.
    Proof.
      intros [t o s] w H. unfold ser_field in H. cbn [f_tag f_occ f_subfields] in H.
      apply map_inv in H as [(l' & -> & M)|(l' & -> & F)].
      - cbn [de_field].
        rewrite (de_entry_reads _ de_text ser_text (lit "tag") t _ _ btext_reads ltac:(discriminate) M eq_refl).
        rewrite (de_opt_entry_reads _ de_text ser_text (lit "occurrence") o _ _ btext_reads M eq_refl).
        rewrite (de_entry_reads _ (de_vec de_subfield) (fun xs => SdSeq (map ser_subfield xs)) (lit "subfields") s _ _
                  (de_vec_reads _ _ _ subfield_reads) ltac:(discriminate) M eq_refl). reflexivity.
      - inversion F as [|? a ? r Ha Fr]; subst. inversion Fr as [|? b ? r' Hb Fr']; subst.
        inversion Fr' as [|? c ? r'' Hc Fr'']; subst. inversion Fr''; subst. cbn [snd] in *. cbn [de_field].
        rewrite (btext_reads _ _ Ha), (de_option_reads _ _ _ btext_reads o b Hb).
        rewrite (de_vec_reads _ _ _ subfield_reads s c Hc). reflexivity.
    Qed.
    Lemma record_reads : reads de_record ser_record.
    Proof. apply (de_newtype_reads _ _ _ (de_vec_reads _ _ _ field_reads)). Qed.

    Lemma byte_record_reads : forall r w,
      (br_raw r = None \/ forall b w, U b w -> de_slice w = Some b) ->
      handed (ser_byte_record r) w -> de_byte_record w = Some r.
    Proof.
      intros [d r] w HU H. unfold ser_byte_record in H. cbn [br_raw br_record] in *.
      assert (R : forall x, x = d \/ (forall b w, U b w -> de_slice w = Some b) ->
                  forall w, handed (ser_option SdU8s d) w -> de_option de_slice w = Some d).
      { intros x Hx v Hv. destruct d as [d|].
        - destruct HU as [HU|HU]; [discriminate|]. eapply (de_option_reads _ de_slice SdU8s); [|exact Hv].
          intros b y Hy. inversion Hy; subst. apply HU. assumption.
        - inversion Hv; subst. reflexivity. }
      assert (R' : forall w, handed (ser_option SdU8s d) w -> de_option de_slice w = Some d) by (apply (R d); auto).
      apply map_inv in H as [(l' & -> & M)|(l' & -> & F)].
      - cbn [de_byte_record].
        assert (E : de_opt_entry de_slice (lit "raw_data") l' = Some d).
        { unfold de_opt_entry. destruct (M (lit "raw_data") _ eq_refl) as [(w & -> & Hw)|[-> Q]]; [apply R', Hw|].
          destruct d; [discriminate|reflexivity]. }
        rewrite E.
        rewrite (de_entry_reads _ de_record ser_record (lit "record") r _ _ record_reads ltac:(discriminate) M eq_refl).
        reflexivity.
      - inversion F as [|? a ? q Ha Fr]; subst. inversion Fr as [|? b ? r' Hb Fr']; subst. inversion Fr'; subst.
        cbn [snd] in *. cbn [de_byte_record]. rewrite (R' _ Ha), (record_reads _ _ Hb). reflexivity.
    Qed.
  End Borrowed.

  (** ** What cannot be read back *)
  Section Numbers.
    Hypothesis HU : forall b w, U b w -> de_slice w = None /\ w <> SdNone /\ forall x, w <> SdSome x.
    Lemma raw_unread : forall b r w, handed (ser_byte_record (mkBR (Some b) r)) w -> de_byte_record w = None.
    Proof.
      intros b r w H. unfold ser_byte_record in H. cbn [br_raw br_record ser_option] in H.
      assert (R : forall w, handed (SdSome (SdU8s b)) w -> de_option de_slice w = None).
      { intros v Hv. inversion Hv as [| | | | |y y' Hy|y y' Hy M1 M2| | | | |]; subst; inversion Hy as [| | |? ? Hb| | | | | | | |]; subst;
          destruct (HU _ _ Hb) as (E & N1 & N2); cbn.
        - rewrite E. reflexivity.
        - rewrite de_option_bare by assumption. rewrite E. reflexivity. }
      apply map_inv in H as [(l' & -> & M)|(l' & -> & F)].
      - cbn [de_byte_record]. unfold de_opt_entry.
        destruct (M (lit "raw_data") _ eq_refl) as [(w & -> & Hw)|[_ Q]]; [|discriminate]. rewrite (R _ Hw). reflexivity.
      - inversion F as [|? a ? q Ha Fr]; subst. inversion Fr as [|? c ? r' Hb Fr']; subst. inversion Fr'; subst.
        cbn [snd] in *. cbn [de_byte_record]. rewrite (R _ Ha). reflexivity.
    Qed.
  End Numbers.
  Section Unlent.
    Hypothesis HT : forall b w, T b w -> de_bstr w = None /\ forall x, w <> SdNewtype x.
    Lemma text_unread : forall b w, handed (ser_text b) w -> de_text w = None.
    Proof.
      intros b w H. unfold de_text. inversion H as [| | | | | | |y y' Hy|y y' Hy M| | |]; subst; cbn;
        inversion Hy as [| |? ? ? Hb| | | | | | | | |]; subst.
      - apply (HT _ _ Hb).
      - destruct (HT _ _ Hb) as [E N]. destruct w; cbn; try exact E. exfalso. eapply N. reflexivity.
    Qed.
    Lemma field_unread : forall f w, handed (ser_field f) w -> de_field w = None.
    Proof.
      intros [t o s] w H. unfold ser_field in H. cbn [f_tag f_occ f_subfields] in H.
      apply map_inv in H as [(l' & -> & M)|(l' & -> & F)].
      - cbn [de_field]. unfold de_entry at 1.
        destruct (M (lit "tag") _ eq_refl) as [(w & -> & Hw)|[_ Q]]; [|discriminate]. rewrite (text_unread _ _ Hw). reflexivity.
      - inversion F as [|? a ? r Ha Fr]; subst. inversion Fr as [|? b ? r' Hb Fr']; subst.
        inversion Fr' as [|? c ? r'' Hc Fr'']; subst. inversion Fr''; subst. cbn [snd] in *. cbn [de_field].
        rewrite (text_unread _ _ Ha). reflexivity.
    Qed.
    Lemma record_unread : forall f r w, handed (ser_record (f :: r)) w -> de_record w = None.
    Proof.
      intros f r w H. unfold de_record. unfold ser_record in H. cbn [map] in H.
      inversion H as [| | | | | | |y y' Hy|y y' Hy M| | |]; subst; cbn;
        apply seq_inv in Hy as (l & -> & F); inversion F as [|? z ? l' Hz Hl]; subst; cbn; rewrite (field_unread _ _ Hz); reflexivity.
    Qed.
  End Unlent.
End Handed.

Lemma collect_u8 : forall b, Forall (fun c => c < 256) b -> collect de_u8 (map SdNum b) = Some b.
Proof.
  induction 1 as [|c b Hc _ IH]; [reflexivity|]. cbn. apply N.ltb_lt in Hc. rewrite Hc. cbn in IH. rewrite IH. reflexivity.
Qed.
Lemma any_bstring : forall b w, as_any b w -> de_bstring w = Some b.
Proof.
  intros b w [[B [->| ->]]|(l & [->| ->])]; try reflexivity. cbn. apply collect_u8, B.
Qed.
Lemma lent_bstr : forall b w, as_lent b w -> de_bstr w = Some b.
Proof. intros b w [->| ->]; reflexivity. Qed.
Lemma numbers_unlent : forall b w, as_numbers b w -> de_bstr w = None /\ forall x, w <> SdNewtype x.
Proof. intros b w [_ [->| ->]]; split; try reflexivity; discriminate. Qed.
Lemma numbers_slice : forall b w, as_numbers b w -> de_slice w = None /\ w <> SdNone /\ forall x, w <> SdSome x.
Proof. intros b w [_ [->| ->]]; repeat split; try reflexivity; discriminate. Qed.

Lemma owned_back : forall U r w, handed as_any U (ser_orecord r) w -> de_orecord w = Some r.
Proof. intros U r w. apply orecord_reads, any_bstring. Qed.
Lemma borrowed_back : forall U r w, handed as_lent U (ser_record r) w -> de_record w = Some r.
Proof. intros U r w. apply record_reads, lent_bstr. Qed.
Lemma byte_record_back : forall U r w, handed as_lent U (ser_byte_record r) w ->
  br_raw r = None \/ (forall b w, U b w -> as_lent b w) ->
  de_byte_record w = Some r /\ de_string_record w = Some r.
Proof.
  intros U r w H HU.
  assert (E : de_byte_record w = Some r).
  { eapply byte_record_reads; [exact lent_bstr| |exact H]. destruct HU as [HU|HU]; [left; exact HU|right].
    intros b v Hv. apply lent_bstr, HU, Hv. }
  split; [exact E|]. unfold de_string_record, de_newtype. destruct w; try exact E. inversion H.
Qed.
Lemma string_record_back : forall U r w, handed as_lent U (ser_string_record r) w ->
  br_raw r = None \/ (forall b w, U b w -> as_lent b w) -> de_string_record w = Some r.
Proof.
  intros U r w H HU. inversion H as [| | | | | | |y y' Hy|y y' Hy M| | |]; subst; apply (byte_record_back U r _ Hy HU).
Qed.
Lemma raw_lost : forall T b r w, handed T as_numbers (ser_byte_record (mkBR (Some b) r)) w -> de_byte_record w = None.
Proof. intros T b r w. apply raw_unread, numbers_slice. Qed.
Lemma parsed_lost : forall T b r w, br_from_bytes b = Some r ->
  handed T as_numbers (ser_byte_record r) w -> de_byte_record w = None.
Proof.
  intros T b r w E. unfold br_from_bytes in E. destruct (record_from_bytes b) as [x|]; [|discriminate].
  injection E as <-. apply raw_lost.
Qed.
Lemma unlent_lost : forall U f r w, handed as_numbers U (ser_record (f :: r)) w -> de_record w = None.
Proof. intros U f r w. apply record_unread, numbers_unlent. Qed.

Lemma any_byte_record : forall r, exists v, de_byte_record v = Some r /\ de_string_record v = Some r.
Proof.
  intros r.
  assert (H : handed as_lent as_lent
    (ser_byte_record r) (SdMap [(lit "raw_data", ser_option (SdBytes true) (br_raw r)); 
       (lit "record", SdSeq (map (fun f => SdMap [(lit "tag", SdBytes true (f_tag f));
          (lit "occurrence", ser_option (SdBytes true) (f_occ f));
          (lit "subfields", SdSeq (map (fun s => SdSeq [SdChar (sf_code s); SdBytes true (sf_value s)]) (f_subfields f)))])
          (br_record r)))])).
  { assert (Tx : forall b, handed as_lent as_lent (ser_text b) (SdBytes true b))
      by (intros b; apply h_newtype_bare; [apply h_bytes; left; reflexivity|discriminate]).
    unfold ser_byte_record. eapply (h_map _ _ _ _ [] _ []); [rewrite app_nil_r; reflexivity|constructor| |rewrite app_nil_r; reflexivity|intros ? []].
    constructor; [split; [reflexivity|]; cbn [snd]|constructor; [split; [reflexivity|]; cbn [snd]|constructor]].
    - destruct (br_raw r); cbn; [apply h_some, h_u8s; left; reflexivity|apply h_none].
    - apply h_newtype_bare; [|discriminate]. apply h_seq. induction (br_record r) as [|f fs IH]; cbn [map]; constructor; [|exact IH].
      unfold ser_field. eapply (h_map _ _ _ _ [] _ []); [rewrite app_nil_r; reflexivity|constructor| |rewrite app_nil_r; reflexivity|intros ? []].
      constructor; [split; [reflexivity|apply Tx]|constructor; [split; [reflexivity|]|constructor; [split; [reflexivity|]|constructor]]]; cbn [snd].
      + destruct (f_occ f); cbn; [apply h_some, Tx|apply h_none].
      + apply h_seq. induction (f_subfields f) as [|s ss IHs]; cbn [map]; constructor; [|exact IHs].
        apply h_seq. constructor; [|constructor; [apply Tx|constructor]]. apply h_newtype_bare; [apply h_char|discriminate]. }
  eexists. apply (byte_record_back as_lent r _ H). right. auto.
Qed.

Lemma level_back : forall l b, de_level (ser_level l) = Some l /\ (ser_level l = SdVariant b -> forall x, de_level (SdStr x b) = Some l).
Proof. intros l b. split; [destruct l; reflexivity|]. destruct l; intros H; injection H as <-; reflexivity. Qed.

Lemma path_back : forall O s b p s' l, path_new O s b = (Some (Some p), s') ->
  exists t, ser_path p = SdStr false t /\ de_path O s (SdStr l t) = (Some (Some p), s').
Proof. intros O s b p s' l H. exists b. unfold ser_path. rewrite (path_display_text _ _ _ _ _ H). split; [reflexivity|exact H]. Qed.
Lemma query_back : forall O s b q s' l, query_new O s b = (Some (Some q), s') ->
  exists t, ser_query q = SdStr false t /\ de_query O s (SdStr l t) = (Some (Some q), s').
Proof. intros O s b q s' l H. exists b. unfold ser_query. rewrite (query_display_text _ _ _ _ _ H). split; [reflexivity|exact H]. Qed.
Lemma format_back : forall O s b f s' l, trim b = b -> format_new O s b = (Some (Some f), s') ->
  exists t, ser_format f = SdStr false t /\ de_format O s (SdStr l t) = (Some (Some f), s').
Proof.
  intros O s b f s' l Hb H. exists b. unfold ser_format. rewrite (format_display_text _ _ _ _ _ H), Hb. split; [reflexivity|exact H].
Qed.
Lemma tag_matcher_back : forall b m l, tag_matcher_new b = Some m ->
  exists t, ser_tag_matcher m = SdStr false t /\ de_tag_matcher (SdStr l t) = Some m.
Proof. intros b m l H. exists b. unfold ser_tag_matcher. rewrite (tag_matcher_display_text _ _ H). split; [reflexivity|exact H]. Qed.

Lemma matcher_back : forall O m s lent,
  fm_built O (fun a => ~ detached a) m -> fm_tame m -> fm_depth m < 256 ->
  lv_sub s = 0 -> lv_field s = 0 ->
  exists t m', ser_field_matcher m = SdStr false t /\ de_field_matcher O s (SdStr lent t) = (Some (Some m'), s)
    /\ forall ci, (forall re, o_re_ok O false re = true -> o_re_ok O ci re = true) ->
         (forall res, Forall (fun re => o_re_ok O false re = true) res -> o_reset_ok O ci res = true) ->
         forall r, exists b, rm_is_match O ci m r = Some b /\ rm_is_match O ci m' r = Some b.
Proof.
  intros O m s lent H1 H2 H3 H4 H5. destruct (display_evaluates O m s H1 H2 H3 H4 H5) as (m' & E & H).
  exists (fm_display m), m'. split; [reflexivity|]. split; [exact E|exact H].
Qed.

Lemma subfield_matcher_back : forall O m s lent,
  sm_built O m -> sm_tame m -> sm_units m < 32 -> lv_sub s = 0 ->
  exists t m', ser_subfield_matcher m = SdStr false t /\ de_subfield_matcher O s (SdStr lent t) = (Some (Some m'), s)
    /\ forall ci, (forall re, o_re_ok O false re = true -> o_re_ok O ci re = true) ->
         (forall res, Forall (fun re => o_re_ok O false re = true) res -> o_reset_ok O ci res = true) ->
         forall sfs, exists b, sm_is_match O ci m sfs = Some b /\ sm_is_match O ci m' sfs = Some b.
Proof.
  intros O m s lent H1 H2 H3 H4. destruct (sub_display_evaluates O m s H1 H2 H3 H4) as (m' & E & H).
  exists (sm_display m), m'. split; [reflexivity|]. split; [exact E|exact H].
Qed.

Lemma matcher_lost : forall O, exists m,
  field_matcher_new O fresh (lit "ALL 012A.a?") = (Some (Some m), fresh)
  /\ forall t, ser_field_matcher (fm_not m) = SdStr false t ->
       de_field_matcher O fresh (SdStr true t) = (Some None, fresh).
Proof.
  intros O. destruct (print_not_rejected O) as (a & H1 & _ & _ & H2). exists a. split; [exact H1|].
  intros t Ht. assert (E : t = fm_display (fm_not a)) by (unfold ser_field_matcher in Ht; congruence). subst t. exact H2.
Qed.

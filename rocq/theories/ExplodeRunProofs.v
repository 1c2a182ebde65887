(** * Proofs about explode: records of the usual order, runs *)

From Coq Require Import String.
From Verif Require Import Bytes Winnow RecordModel RecordSpec BaseProofs RecordProofs TagOccModel ByteRecordModel
  ByteRecordSpec ByteRecordProofs ReaderModel MatcherModel QuerySpec QueryProofs CliModel CliSpec CliProofs CliCommandProofs
  ExplodeModel ExplodeSpec ExplodeProofs.

(** ** The usual order *)

Lemma lvl_main : forall f, at_level LMain f -> field_level f = Some LMain.
Proof. intros f H. apply field_level_iff. exact H. Qed.
Lemma lvl_local : forall f, at_level LLocal f -> field_level f = Some LLocal.
Proof. intros f H. apply field_level_iff. exact H. Qed.
Lemma lvl_copy : forall f, at_level LCopy f -> field_level f = Some LCopy.
Proof. intros f H. apply field_level_iff. exact H. Qed.

(** the rest is empty or begins with a local field *)
Definition at_boundary (rest : list field) : Prop := rest = [] \/ exists y rest', rest = y :: rest' /\ at_level LLocal y.

Lemma boundary_next : forall rest, at_boundary rest ->
  (rest = [] /\ next_is_local rest = Some false) \/ next_is_local rest = Some true.
Proof.
  intros rest [->|(y & rest' & -> & H)]; [left; auto|right]. cbn. rewrite (lvl_local _ H). reflexivity.
Qed.

Lemma copy_next : forall c cs rest, at_level LCopy c -> next_is_local (c :: cs ++ rest) = Some false.
Proof. intros c cs rest H. cbn. rewrite (lvl_copy _ H). reflexivity. Qed.

Lemma local_loop_mains : forall ms rest main acc records, Forall (at_level LMain) ms ->
  local_loop (ms ++ rest) main acc records = local_loop rest (main ++ ms) acc records.
Proof.
  induction ms as [|m ms IH]; intros rest main acc records H; cbn [app local_loop].
  - rewrite app_nil_r. reflexivity.
  - inversion H; subst. rewrite lvl_main by assumption. rewrite IH by assumption. rewrite <- app_assoc. reflexivity.
Qed.

Lemma local_loop_locals : forall ls rest main acc records, Forall (at_level LLocal) ls ->
  local_loop (ls ++ rest) main acc records = local_loop rest main (acc ++ ls) records.
Proof.
  induction ls as [|m ms IH]; intros rest main acc records H; cbn [app local_loop].
  - rewrite app_nil_r. reflexivity.
  - inversion H; subst. rewrite lvl_local by assumption. rewrite IH by assumption. rewrite <- app_assoc. reflexivity.
Qed.

Lemma local_loop_copies : forall cs rest main acc records, Forall (at_level LCopy) cs -> cs <> [] ->
  at_boundary rest ->
  local_loop (cs ++ rest) main acc records = local_loop rest main [] (push_record records main [] (acc ++ cs)).
Proof.
  induction cs as [|c cs IH]; intros rest main acc records H Hne Hb; [congruence|]. inversion H; subst.
  cbn [app local_loop]. rewrite lvl_copy by assumption. destruct cs as [|c' cs].
  - cbn [app]. destruct (boundary_next _ Hb) as [[-> ->]| ->]; [reflexivity|reflexivity].
  - assert (Hc : at_level LCopy c') by (inversion H3; assumption).
    change ((c' :: cs) ++ rest) with (c' :: cs ++ rest). rewrite (copy_next _ _ _ Hc).
    change (c' :: cs ++ rest) with ((c' :: cs) ++ rest). rewrite IH by (assumption || discriminate).
    rewrite <- app_assoc. reflexivity.
Qed.

Definition is_library (l : list field * list field) : Prop :=
  Forall (at_level LLocal) (fst l) /\ Forall (at_level LCopy) (snd l) /\ fst l ++ snd l <> [].
Definition tellable (a b : list field * list field) : Prop := snd a <> [] /\ fst b <> [].

Lemma libs_boundary : forall l libs, chain tellable (l :: libs) -> Forall is_library libs ->
  at_boundary (concat (map (fun l => fst l ++ snd l) libs)).
Proof.
  intros l [|m libs] C F; [left; reflexivity|]. destruct C as [[_ Hm] _].
  inversion F as [|? ? (Fl & _ & _) _]; subst. right. cbn [map concat].
  destruct (fst m) as [|y q] eqn:E; [congruence|]. inversion Fl; subst. cbn [app]. eauto.
Qed.

Lemma local_loop_libs : forall libs main records, chain tellable libs -> Forall is_library libs ->
  local_loop (concat (map (fun l => fst l ++ snd l) libs)) main [] records
  = Some (records ++ map (fun l => main ++ fst l ++ snd l) libs).
Proof.
  induction libs as [|[ls cs] libs IH]; intros main records C F.
  - cbn. rewrite app_nil_r. reflexivity.
  - inversion F as [|? ? (Fl & Fc & Hne) F']; subst. cbn [fst snd] in *.
    assert (B := libs_boundary _ _ C F'). cbn [map concat fst snd]. rewrite <- app_assoc.
    rewrite local_loop_locals by exact Fl. cbn [app].
    destruct cs as [|c cs].
    + assert (libs = []) as ->.
      { destruct libs as [|m libs]; [reflexivity|]. destruct C as [[X _] _]. cbn in X. congruence. }
      rewrite app_nil_r in *. cbn [app concat map local_loop fst snd]. rewrite push_app.
      destruct ls; [congruence|]. rewrite !app_nil_r. reflexivity.
    + rewrite local_loop_copies by (assumption || discriminate). rewrite IH.
      * rewrite push_app, <- app_assoc. f_equal. f_equal. destruct ls; reflexivity.
      * destruct libs; [exact I|apply C].
      * exact F'.
Qed.

Lemma libraries_chain : forall main libs fields, libraries main libs fields ->
  fields = main ++ concat (map (fun l => fst l ++ snd l) libs) /\ Forall (at_level LMain) main
  /\ Forall is_library libs /\ chain tellable libs.
Proof.
  intros main libs fields (E & M & L & B). split; [exact E|]. split; [exact M|]. split; [exact L|].
  apply chain_iff. exact B.
Qed.

Lemma process_local_usual : forall main libs fields, libraries main libs fields ->
  process_local fields = Some (map (fun l => main ++ fst l ++ snd l) libs).
Proof.
  intros main libs fields H. apply libraries_chain in H as (-> & M & F & C). unfold process_local.
  rewrite local_loop_mains by exact M. apply local_loop_libs; assumption.
Qed.

Lemma copy_loop_mains : forall ms rest main local copy count records, Forall (at_level LMain) ms ->
  copy_loop (ms ++ rest) main local copy count records = copy_loop rest (main ++ ms) local copy count records.
Proof.
  induction ms as [|m ms IH]; intros rest main local copy count records H; cbn [app copy_loop].
  - rewrite app_nil_r. reflexivity.
  - inversion H; subst. rewrite lvl_main by assumption. rewrite IH by assumption. rewrite <- app_assoc. reflexivity.
Qed.

Lemma copy_loop_locals : forall ls rest main local copy count records, Forall (at_level LLocal) ls ->
  copy_loop (ls ++ rest) main local copy count records = copy_loop rest main (local ++ ls) copy count records.
Proof.
  induction ls as [|m ms IH]; intros rest main local copy count records H; cbn [app copy_loop].
  - rewrite app_nil_r. reflexivity.
  - inversion H; subst. rewrite lvl_local by assumption. rewrite IH by assumption. rewrite <- app_assoc. reflexivity.
Qed.

Definition one_occ (g : list field) : Prop := exists f g' o, g = f :: g' /\ Forall (fun x => f_occ x = o) g.
Definition occ_change (a b : list field) : Prop := forall x y, In x a -> In y b -> f_occ x <> f_occ y.

Lemma occ_differ_refl : forall o, occ_differ o o = false.
Proof. intros [o|]; cbn; [rewrite bytes_eqb_refl|]; reflexivity. Qed.

(** fields of the copy that has begun *)
Lemma copy_loop_more : forall g rest main local copy o records,
  Forall (at_level LCopy) g -> Forall (fun x => f_occ x = o) g -> g <> [] ->
  copy_loop (g ++ rest) main local copy o records
  = (do b <- next_is_local rest;
     if b : bool then copy_loop rest main [] [] None (push_record records main local (copy ++ g))
     else copy_loop rest main local (copy ++ g) o records).
Proof.
  induction g as [|c g IH]; intros rest main local copy o records HC HO Hne; [congruence|].
  inversion HC as [|? ? Hc1 HC']; inversion HO as [|? ? Ho1 HO']; subst. cbn [app copy_loop]. rewrite lvl_copy by assumption. rewrite occ_differ_refl.
  destruct g as [|c' g]; [reflexivity|].
  assert (Hc : at_level LCopy c') by (inversion HC'; assumption).
  change ((c' :: g) ++ rest) with (c' :: g ++ rest). rewrite (copy_next _ _ _ Hc).
  change (c' :: g ++ rest) with ((c' :: g) ++ rest). rewrite IH by (assumption || discriminate).
  rewrite <- app_assoc. reflexivity.
Qed.

(** a new copy *)
Lemma copy_loop_group : forall c g rest main local copy count records,
  Forall (at_level LCopy) (c :: g) -> Forall (fun x => f_occ x = f_occ c) (c :: g) ->
  (copy = [] /\ count = None) \/ count <> f_occ c ->
  copy_loop ((c :: g) ++ rest) main local copy count records
  = (do b <- next_is_local rest;
     if b : bool then copy_loop rest main [] [] None
                       (push_record (push_record records main local copy) main local (c :: g))
     else copy_loop rest main local (c :: g) (f_occ c) (push_record records main local copy)).
Proof.
  intros c g rest main local copy count records HC HO Hst.
  assert (E : copy_loop ((c :: g) ++ rest) main local copy count records
              = copy_loop ((c :: g) ++ rest) main local [] (f_occ c) (push_record records main local copy)).
  { cbn [app copy_loop]. rewrite lvl_copy by (inversion HC; assumption). rewrite occ_differ_refl.
    destruct (occ_differ count (f_occ c)) eqn:Ed; [reflexivity|].
    assert (count = f_occ c).
    { destruct count as [a|], (f_occ c) as [b|]; cbn in Ed; try discriminate; [|reflexivity].
      destruct (bytes_eqb a b) eqn:Eb; [|discriminate]. apply bytes_eqb_eq in Eb. congruence. }
    destruct Hst as [[-> ->]|Hn]; [|contradiction]. rewrite <- H. reflexivity. }
  rewrite E, copy_loop_more by (assumption || discriminate). reflexivity.
Qed.

Lemma copy_loop_groups : forall gs rest main local copy count records,
  Forall (Forall (at_level LCopy)) gs -> Forall one_occ gs -> chain occ_change gs -> at_boundary rest -> gs <> [] ->
  (copy = [] /\ count = None) \/ (forall g gs', gs = g :: gs' -> forall c, In c g -> count <> f_occ c) ->
  copy_loop (concat gs ++ rest) main local copy count records
  = copy_loop rest main (match rest with [] => local | _ => [] end) [] None
      (push_record records main local copy ++ map (fun g => main ++ local ++ g) gs).
Proof.
  induction gs as [|g gs IH]; intros rest main local copy count records HC HO HX HB Hne Hst; [congruence|].
  inversion HC as [|? ? HCg HC']; subst. inversion HO as [|? ? (c & g' & o & -> & Ho) HO']; subst.
  assert (Ho' : Forall (fun x => f_occ x = f_occ c) (c :: g')).
  { inversion Ho as [|? ? Ec _]; subst. exact Ho. }
  cbn [concat]. rewrite <- app_assoc. rewrite copy_loop_group; [|exact HCg|exact Ho'|].
  2: { destruct Hst as [Hst|Hst]; [left; exact Hst|right]. apply (Hst _ _ eq_refl). left. reflexivity. }
  destruct gs as [|g2 gs].
  - cbn [concat app map]. destruct (boundary_next _ HB) as [[-> ->]| Eb].
    + reflexivity.
    + rewrite Eb. destruct rest as [|y rest]; [discriminate|]. reflexivity.
  - inversion HO' as [|? ? (d & g2' & o2 & -> & Ho2) _]; subst.
    assert (Hd : at_level LCopy d) by (inversion HC' as [|? ? X _]; inversion X; assumption).
    assert (En : next_is_local (concat ((d :: g2') :: gs) ++ rest) = Some false).
    { cbn. rewrite (lvl_copy _ Hd). reflexivity. }
    rewrite En. rewrite IH; [|exact HC'|exact HO'|apply HX|exact HB|discriminate|].
    + f_equal. cbn [push_record map]. rewrite <- app_assoc. reflexivity.
    + right. intros g gs' E x Hx. injection E as <- <-. destruct HX as [HX _].
      apply (HX c x); [left; reflexivity|exact Hx].
Qed.

(** grouping exists *)
Lemma groups_exist : forall fs, exists gs, copies_of fs gs.
Proof.
  induction fs as [|f fs (gs & E & O & X)].
  - exists []. split; [reflexivity|]. split; [constructor|]. intros [|? ?] a b post x y H; discriminate.
  - destruct gs as [|g gs].
    + exists [[f]]. split; [cbn in E; subst; reflexivity|]. split.
      * constructor; [|constructor]. exists f, [], (f_occ f). split; [reflexivity|]. constructor; [reflexivity|constructor].
      * intros [|? [|? ?]] a b post x y H; discriminate.
    + inversion O as [|? ? (h & g' & o & -> & Ho) O']; subst.
      assert (Eh : f_occ h = o) by (inversion Ho; assumption).
      destruct (occ_differ (f_occ f) o) eqn:Ed.
      * apply occ_differ_iff in Ed. exists ([f] :: (h :: g') :: gs). split; [reflexivity|]. split.
        { constructor; [|exact O]. exists f, [], (f_occ f). split; [reflexivity|]. constructor; [reflexivity|constructor]. }
        intros [|p pre] a b post x y H Hx Hy.
        { injection H; intros; subst. destruct Hx as [<-|[]]. rewrite Forall_forall in Ho. rewrite (Ho y Hy). exact Ed. }
        { injection H; intros; subst. eapply X; eassumption. }
      * assert (f_occ f = o).
        { destruct (f_occ f) as [a|], o as [b|]; cbn in Ed; try discriminate; [|reflexivity].
          destruct (bytes_eqb a b) eqn:Eb; [|discriminate]. apply bytes_eqb_eq in Eb. congruence. }
        assert (Efh : f_occ f = f_occ h) by congruence.
        exists ((f :: h :: g') :: gs). split; [reflexivity|]. split.
        { constructor; [|exact O']. exists f, (h :: g'), o. split; [reflexivity|]. constructor; assumption. }
        intros [|p pre] a b post x y He Hx Hy.
        { injection He; intros; subst. destruct Hx as [<-|Hx].
          - rewrite Efh. eapply (X [] (h :: g') b post h y eq_refl); [left; reflexivity|exact Hy].
          - eapply (X [] (h :: g') b post x y eq_refl); assumption. }
        { injection He; intros; subst. eapply (X ((h :: g') :: pre)); [reflexivity|eassumption|eassumption]. }
Qed.

Lemma copies_of_chain : forall fs gs, copies_of fs gs ->
  concat gs = fs /\ Forall one_occ gs /\ chain occ_change gs.
Proof.
  intros fs gs (E & O & X). split; [exact E|]. split; [exact O|]. apply chain_iff.
  intros pre a b post H x y. eapply X. exact H.
Qed.

Definition copy_result (main : list field) (libs : list (list field * list field)) (groups : list (list (list field))) :=
  concat (map (fun lg => map (fun g => main ++ fst (fst lg) ++ g) (snd lg)) (combine libs groups)).

Lemma copy_loop_libs : forall libs groups main records, chain tellable libs -> Forall is_library libs ->
  Forall2 (fun l gs => copies_of (snd l) gs) libs groups ->
  copy_loop (concat (map (fun l => fst l ++ snd l) libs)) main [] [] None records
  = Some (records ++ copy_result main libs groups).
Proof.
  intros libs groups main records C F G. revert records C F. induction G as [|[ls cs] gs libs groups G1 G IH]; intros records C F.
  - cbn. rewrite app_nil_r. reflexivity.
  - inversion F as [|? ? (Fl & Fc & Hne) F']; subst. cbn [fst snd] in *.
    assert (B := libs_boundary _ _ C F'). cbn [map concat fst snd]. rewrite <- app_assoc.
    rewrite copy_loop_locals by exact Fl. cbn [app].
    apply copies_of_chain in G1 as (Ec & O & X). destruct gs as [|g gs].
    + cbn in Ec. subst cs.
      assert (libs = []) as ->.
      { destruct libs as [|m libs]; [reflexivity|]. destruct C as [[Y _] _]. cbn in Y. congruence. }
      inversion G; subst. cbn. rewrite app_nil_r. reflexivity.
    + assert (Fg : Forall (Forall (at_level LCopy)) (g :: gs)).
      { rewrite Forall_forall in *. intros q Hq. rewrite Forall_forall. intros x Hx. apply Fc.
        rewrite <- Ec. apply in_concat. eauto. }
      rewrite <- Ec. rewrite copy_loop_groups; [|exact Fg|exact O|exact X|exact B|discriminate|left; auto].
      assert (C' : chain tellable libs) by (destruct libs; [exact I|apply C]).
      cbn [push_record].
      assert (R : forall rest recs', copy_loop rest main (match rest with [] => ls | _ => [] end) [] None recs'
                  = copy_loop rest main [] [] None recs') by (intros [|? ?] recs'; reflexivity).
      rewrite R, IH by assumption. unfold copy_result. cbn [combine map concat fst snd].
      rewrite <- app_assoc. reflexivity.
Qed.

Lemma copies_exist : forall libs : list (list field * list field), exists groups, Forall2 (fun l gs => copies_of (snd l) gs) libs groups.
Proof.
  induction libs as [|l libs (groups & IH)]; [exists []; constructor|].
  destruct (groups_exist (snd l)) as [gs H]. exists (gs :: groups). constructor; assumption.
Qed.

Lemma process_copy_usual : forall main libs fields, libraries main libs fields ->
  exists parts, process_copy fields = Some parts /\ usual_parts LCopy main libs parts.
Proof.
  intros main libs fields H. apply libraries_chain in H as (-> & M & F & C).
  destruct (copies_exist libs) as [groups G]. exists (copy_result main libs groups). split; [|exists groups; auto].
  unfold process_copy. rewrite copy_loop_mains by exact M. exact (copy_loop_libs libs groups main [] C F G).
Qed.

Lemma process_exploded : forall l fields, Forall valid_field fields ->
  exists parts, process l fields = Some parts /\ exploded l fields parts.
Proof.
  intros l fields V.
  assert (L : Forall leveled fields) by (eapply Forall_impl; [|exact V]; intros f; apply valid_level).
  destruct l; cbn [process].
  - exists [fields]. split; [reflexivity|]. split; [reflexivity|]. intros main libs (E & _). cbn. rewrite E. reflexivity.
  - destruct (process_local_general _ L) as (parts & E & H). exists parts. split; [exact E|]. split; [exact H|].
    intros main libs HL. cbn. rewrite (process_local_usual _ _ _ HL) in E. congruence.
  - destruct (process_copy_general _ L) as (parts & E & H). exists parts. split; [exact E|]. split; [exact H|].
    intros main libs HL. destruct (process_copy_usual _ _ _ HL) as (parts' & E' & H'). congruence.
Qed.

(** ** No field is lost or invented *)

Lemma filter_all : forall A (p : A -> bool) l, (forall x, In x l -> p x = true) -> filter p l = l.
Proof.
  induction l as [|x l IH]; cbn; intros H; [reflexivity|]. rewrite (H x) by auto. f_equal. apply IH. auto.
Qed.
Lemma filter_none : forall A (p : A -> bool) l, (forall x, In x l -> p x = false) -> filter p l = [].
Proof.
  induction l as [|x l IH]; cbn; intros H; [reflexivity|]. rewrite (H x) by auto. apply IH. auto.
Qed.

Lemma Selected_In : forall A (P : A -> Prop) l l', Selected P l l' -> forall x, In x l' -> In x l /\ P x.
Proof.
  induction 1; cbn; intros y Hy; [contradiction| |].
  - destruct Hy as [<-|Hy]; [auto|]. destruct (IHSelected _ Hy). auto.
  - destruct (IHSelected _ Hy). auto.
Qed.

Lemma Selected_app : forall A (P : A -> Prop) a a' b b', Selected P a a' -> Selected P b b' -> Selected P (a ++ b) (a' ++ b').
Proof. induction 1; cbn; intros Hb; [exact Hb| |]; constructor; auto. Qed.

Lemma Selected_all : forall A (P : A -> Prop) l, Forall P l -> Selected P l l.
Proof. induction 1; constructor; assumption. Qed.
Lemma Selected_none : forall A (P : A -> Prop) l, Forall (fun x => ~ P x) l -> Selected P l [].
Proof. induction 1; constructor; assumption. Qed.

Lemma Selected_left : forall A (P Q : A -> Prop) l l', Selected P l l' -> (forall x, P x -> ~ Q x) -> Selected Q l' [].
Proof.
  intros A P Q l l' H D. apply Selected_none. rewrite Forall_forall. intros x Hx. apply D.
  eapply Selected_In; eassumption.
Qed.
Lemma Selected_again : forall A (P : A -> Prop) l l', Selected P l l' -> Selected P l' l'.
Proof. induction 1; [constructor|constructor; assumption|assumption]. Qed.

Lemma local_parts_others : forall before segs parts, local_parts before segs parts ->
  exists os, Selected (fun f => ~ at_level LMain f) (concat segs) os
    /\ Selected (fun f => ~ at_level LMain f) (concat parts) os.
Proof.
  induction 1 as [|before seg segs ms os parts Hm Ho Hne H (os' & IH1 & IH2)|before seg segs parts Hm H (os' & IH1 & IH2)].
  - exists []. split; constructor.
  - exists (os ++ os'). cbn [concat]. split; [apply Selected_app; assumption|].
    apply Selected_app; [|exact IH2]. change os with ([] ++ os) at 2. apply Selected_app.
    + eapply Selected_left; [exact Hm|]. intros x Hx Hn. exact (Hn Hx).
    + eapply Selected_again. exact Ho.
  - exists os'. cbn [concat]. split; [|exact IH2]. change os' with ([] ++ os'). apply Selected_app; [|exact IH1].
    apply Selected_none. eapply Forall_impl; [|exact Hm]. intros x Hx Hn. exact (Hn Hx).
Qed.

Lemma piece_parts_copies : forall before start ps parts, piece_parts before start ps parts ->
  exists cs, of_level LCopy (concat ps) cs /\ of_level LCopy (concat parts) cs.
Proof.
  induction 1 as [|start p ps ms ls cs parts Hm Hl Hc Hne H (cs' & IH1 & IH2)|start p ps parts Hc H (cs' & IH1 & IH2)].
  - exists []. split; constructor.
  - exists (cs ++ cs'). cbn [concat]. split; [apply Selected_app; assumption|].
    apply Selected_app; [|exact IH2]. change cs with ([] ++ [] ++ cs) at 2. apply Selected_app; [|apply Selected_app].
    + eapply Selected_left; [exact Hm|]. intros x Hx Hn. pose proof (at_level_fun _ _ _ Hx Hn). discriminate.
    + eapply Selected_left; [exact Hl|]. intros x Hx Hn. pose proof (at_level_fun _ _ _ Hx Hn). discriminate.
    + eapply Selected_again. exact Hc.
  - exists cs'. cbn [concat]. split; [|exact IH2]. change cs' with ([] ++ cs'). apply Selected_app; assumption.
Qed.

Lemma copy_parts_copies : forall before segs parts, copy_parts before segs parts ->
  exists cs, of_level LCopy (concat segs) cs /\ of_level LCopy (concat parts) cs.
Proof.
  induction 1 as [|before seg segs ps parts more (E & _) P H (cs' & IH1 & IH2)].
  - exists []. split; constructor.
  - destruct (piece_parts_copies _ _ _ _ P) as (cs & H1 & H2). exists (cs ++ cs'). cbn [concat]. rewrite concat_app.
    rewrite <- E. split; apply Selected_app; assumption.
Qed.

Lemma exploded_keeps : forall l fields parts, exploded l fields parts ->
  exists fs, Selected (fun f => match l with LMain => True | LLocal => ~ at_level LMain f | LCopy => at_level LCopy f end) fields fs
    /\ Selected (fun f => match l with LMain => True | LLocal => ~ at_level LMain f | LCopy => at_level LCopy f end) (concat parts) fs.
Proof.
  intros l fields parts [H _]. destruct l.
  - subst. exists fields. cbn. rewrite app_nil_r.
    assert (S : Selected (fun _ : field => True) fields fields) by (apply Selected_all; apply Forall_true).
    auto.
  - destruct H as (segs & (E & _) & P). destruct (local_parts_others _ _ _ P) as (os & H1 & H2). rewrite E in H1. eauto.
  - destruct H as (segs & (E & _) & P). destruct (copy_parts_copies _ _ _ P) as (os & H1 & H2). rewrite E in H1. eauto.
Qed.

(** every part is a subset of the record *)
Lemma local_parts_In : forall before segs parts, local_parts before segs parts ->
  forall p f, In p parts -> p <> [] /\ (In f p -> In f (before ++ concat segs)).
Proof.
  induction 1 as [|before seg segs ms os parts Hm Ho Hne H IH|before seg segs parts Hm H IH]; intros p f; cbn [In concat].
  - contradiction.
  - intros [<-|Hp].
    + split; [destruct ms; [exact Hne|discriminate]|]. intros Hf. apply in_app_iff in Hf as [Hf|Hf].
      * apply (Selected_In _ _ _ _ Hm) in Hf as [Hf _]. rewrite app_assoc. apply in_app_iff. auto.
      * apply (Selected_In _ _ _ _ Ho) in Hf as [Hf _]. rewrite !in_app_iff. auto.
    + rewrite app_assoc. apply IH. exact Hp.
  - intros Hp. rewrite app_assoc. apply IH. exact Hp.
Qed.

Lemma piece_parts_In : forall before start ps parts, piece_parts before start ps parts ->
  forall p f, In p parts -> p <> [] /\ (In f p -> In f (before ++ start ++ concat ps)).
Proof.
  induction 1 as [|start q ps ms ls cs parts Hm Hl Hc Hne H IH|start q ps parts Hc H IH]; intros p f; cbn [In concat].
  - contradiction.
  - intros [<-|Hp].
    + split; [destruct ms, ls; try discriminate; exact Hne|]. intros Hf. rewrite !in_app_iff in Hf. destruct Hf as [Hf|[Hf|Hf]].
      * apply (Selected_In _ _ _ _ Hm) in Hf as [Hf _]. rewrite !in_app_iff in *. tauto.
      * apply (Selected_In _ _ _ _ Hl) in Hf as [Hf _]. rewrite !in_app_iff in *. tauto.
      * apply (Selected_In _ _ _ _ Hc) in Hf as [Hf _]. rewrite !in_app_iff in *. tauto.
    + rewrite (app_assoc start). apply IH. exact Hp.
  - intros Hp. rewrite (app_assoc start). apply IH. exact Hp.
Qed.

Lemma copy_parts_In : forall before segs parts, copy_parts before segs parts ->
  forall p f, In p parts -> p <> [] /\ (In f p -> In f (before ++ concat segs)).
Proof.
  induction 1 as [|before seg segs ps parts more (E & _) P H IH]; intros p f; cbn [concat]; [contradiction|].
  intros Hp. apply in_app_iff in Hp as [Hp|Hp].
  - destruct (piece_parts_In _ _ _ _ P p f Hp) as [H1 H2]. split; [exact H1|]. intros Hf.
    specialize (H2 Hf). cbn [app] in H2. rewrite E in H2. rewrite !in_app_iff in *. tauto.
  - rewrite app_assoc. apply IH. exact Hp.
Qed.

Lemma exploded_In : forall l fields parts, fields <> [] -> exploded l fields parts ->
  forall p, In p parts -> p <> [] /\ forall f, In f p -> In f fields.
Proof.
  intros l fields parts Hne [H _] p Hp. destruct l.
  - subst. destruct Hp as [<-|[]]. auto.
  - destruct H as (segs & (E & _) & P). split.
    + destruct p as [|f p]; [|discriminate]. destruct (local_parts_In _ _ _ P [] (mkField [] None []) Hp). assumption.
    + intros f Hf. rewrite <- E. apply (local_parts_In _ _ _ P p f Hp). exact Hf.
  - destruct H as (segs & (E & _) & P). split.
    + destruct p as [|f p]; [|discriminate]. destruct (copy_parts_In _ _ _ P [] (mkField [] None []) Hp). assumption.
    + intros f Hf. rewrite <- E. apply (copy_parts_In _ _ _ P p f Hp). exact Hf.
Qed.

(** ** Runs *)

Lemma for_each_fold : forall S A (f : S -> A -> step S) l s, for_each f s l = fold_steps f s l.
Proof. induction l as [|x l IH]; intros s; cbn; [reflexivity|]. destruct (f s x); auto. Qed.

Lemma fold_parts : forall O Od c recs partss, Forall2 (fun r ps => process (ex_level c) (br_record r) = Some ps) recs partss ->
  forall s, fold_steps (explode_body O Od c) s recs = fold_steps (explode_part O Od c) s (concat partss).
Proof.
  intros O Od c recs partss H. induction H as [|r ps recs partss E _ IH]; intros s; [reflexivity|].
  cbn [fold_steps concat]. unfold explode_body at 1. rewrite E, for_each_fold, fold_steps_app.
  destruct (fold_steps (explode_part O Od c) s ps); auto.
Qed.

Definition good_part (p : list field) : Prop := p <> [] /\ Forall valid_field p.

Lemma part_from_bytes : forall p, good_part p -> br_from_bytes (part_data p) = Some (mkBR (Some (part_data p)) p).
Proof.
  intros p [Hne V]. unfold br_from_bytes, part_data. rewrite <- write_record_nonempty by exact Hne.
  rewrite record_write_parse by assumption. reflexivity.
Qed.

Lemma part_text_write : forall c p, good_part p ->
  part_text c p (br_write (br_discard (ex_discard c) (br_keep (ex_keep c) (mkBR (Some (part_data p)) p)))).
Proof.
  intros c p G.
  set (es := [EKeep (ex_keep c); EDiscard (ex_discard c)]). set (r := mkBR (Some (part_data p)) p).
  change (br_discard (ex_discard c) (br_keep (ex_keep c) r)) with (fold_left run_edit es r).
  exists (br_record (fold_left run_edit es r)). split; [apply (run_edits_effect es r)|].
  apply coherent_text. apply coherent_edits. eapply coherent_from_bytes. apply part_from_bytes. exact G.
Qed.

(** the body after parsing *)
Definition explode_parsed (O Od : oracles) (c : explode_cmd) (s : explode_state) (p : list field) : step explode_state :=
  guarded (opts_select O Od (ex_opts c)) (fun s r =>
    let '(count, out) := s in
    let s' := (count + 1, out ++ br_write (br_discard (ex_discard c) (br_keep (ex_keep c) r))) in
    if limit_reached (fo_limit (ex_opts c)) (count + 1) then Halt s' else Next s') s (mkBR (Some (part_data p)) p).

Lemma fold_parsed : forall O Od c ps, Forall good_part ps -> forall s,
  fold_steps (explode_part O Od c) s ps = fold_steps (explode_parsed O Od c) s ps.
Proof.
  induction 1 as [|p ps G _ IH]; intros s; [reflexivity|]. cbn [fold_steps].
  unfold explode_part at 1. rewrite (part_from_bytes _ G). fold (explode_parsed O Od c s p).
  destruct (explode_parsed O Od c s p); auto.
Qed.

Definition explode_act (c : explode_cmd) (s : explode_state) (p : list field) : explode_state :=
  (fst s + 1, snd s ++ br_write (br_discard (ex_discard c) (br_keep (ex_keep c) (mkBR (Some (part_data p)) p)))).

Lemma fold_explode_act : forall c ps n out,
  fold_left (explode_act c) ps (n, out)
  = (n + N.of_nat (length ps),
     out ++ flat_map (fun p => br_write (br_discard (ex_discard c) (br_keep (ex_keep c) (mkBR (Some (part_data p)) p)))) ps).
Proof.
  induction ps as [|p ps IH]; intros n out.
  - cbn. rewrite app_nil_r, N.add_0_r. reflexivity.
  - cbn [fold_left]. unfold explode_act at 2. cbn [fst snd]. rewrite IH. cbn [flat_map length]. rewrite <- app_assoc.
    f_equal. lia.
Qed.

Lemma explode_exact : forall O Od skip c files, opts_wf O Od (ex_opts c) ->
  exists all partss sel parts e0 e texts, reads skip files all e0
    /\ Forall2 (fun r ps => exploded (ex_level c) (br_record r) ps) all partss
    /\ picks (opts_hold O Od (ex_opts c)) (fun p => p) (concat partss) sel
    /\ limited (fo_limit (ex_opts c)) sel e0 parts e
    /\ Forall2 (part_text c) parts texts
    /\ explode_run O Od skip c files = Some (ended (N.of_nat (length parts), concat texts) e).
Proof.
  intros O Od skip c files W. destruct (reads_exists skip files) as (all & e0 & Hr).
  assert (FL := reads_from_line _ _ _ _ Hr).
  assert (HP : exists partss, Forall2 (fun r ps => exploded (ex_level c) (br_record r) ps) all partss
                 /\ Forall2 (fun r ps => process (ex_level c) (br_record r) = Some ps) all partss
                 /\ Forall good_part (concat partss)).
  { clear Hr. induction FL as [|r all (l & _ & Hl) _ (partss & I1 & I2 & I3)].
    - exists []. repeat split; constructor.
    - apply record_text_iff in Hl as (Hne & _ & V).
      destruct (process_exploded (ex_level c) _ V) as (ps & E & X). exists (ps :: partss).
      split; [constructor; assumption|]. split; [constructor; assumption|].
      cbn [concat]. apply Forall_app. split; [|exact I3]. rewrite Forall_forall. intros p Hp.
      destruct (exploded_In _ _ _ Hne X p Hp) as [H1 H2]. split; [exact H1|].
      rewrite Forall_forall in *. intros f Hf. apply V. apply H2. exact Hf. }
  destruct HP as (partss & X & P & G).
  assert (D := opts_decided O Od (ex_opts c) W).
  destruct (filter_p_picks (list field) (opts_hold O Od (ex_opts c)) (opts_select O Od (ex_opts c)) (concat partss))
    as (sel & _ & Hs); [intros x _; apply D|].
  destruct (fold_limited (opts_hold O Od (ex_opts c)) good_part (explode_parsed O Od c) (explode_act c) fst
              (fo_limit (ex_opts c))) with (recs := concat partss) (sel := sel) (e := e0) (s := (0, @nil byte))
    as (parts & e & Hl & He); auto.
  - intros s p Hp. apply (guarded_no _ _ _ _ D). exact Hp.
  - intros [n out] p Hp _. unfold explode_parsed. rewrite (guarded_yes _ _ _ _ D) by exact Hp. reflexivity.
  - exists all, partss, sel, parts, e0, e,
      (map (fun p => br_write (br_discard (ex_discard c) (br_keep (ex_keep c) (mkBR (Some (part_data p)) p)))) parts).
    split; [exact Hr|]. split; [exact X|]. split; [exact Hs|]. split; [exact Hl|]. split.
    + assert (Gp : Forall good_part parts).
      { rewrite Forall_forall in *. intros p Hp. apply G. apply (limited_incl _ _ _ _ _ _ Hl) in Hp.
        apply (picks_id_In _ _ _ _ Hs p) in Hp. tauto. }
      clear -Gp. induction Gp; constructor; auto. apply part_text_write. assumption.
    + unfold explode_run. rewrite (run_loop_reads _ _ _ _ _ _ _ Hr).
      rewrite (fold_parts _ _ _ _ _ P), (fold_parsed _ _ _ _ G), He, fold_explode_act, flat_map_concat_map. reflexivity.
Qed.

(** ** A library without copies *)

Definition bare (t : bytes) (v : bytes) : field := mkField t None [mkSubfield 97 v].

Lemma library_without_copies : exists main libs fields,
  Forall valid_field fields
  /\ fields = main ++ concat (map (fun l => fst l ++ snd l) libs)
  /\ Forall (at_level LMain) main
  /\ Forall (fun l => Forall (at_level LLocal) (fst l) /\ Forall (at_level LCopy) (snd l) /\ fst l <> []) libs
  /\ (forall parts, process_local fields = Some parts -> ~ usual_parts LLocal main libs parts)
  /\ (forall parts, process_copy fields = Some parts -> ~ usual_parts LCopy main libs parts).
Proof.
  set (m := bare (lit "003@") (lit "1")). set (a := bare (lit "101@") (lit "A")).
  set (b := bare (lit "101@") (lit "B")). set (c := bare (lit "203@") (lit "3")).
  exists [m], [([a], []); ([b], [c])], [m; a; b; c].
  split. { assert (E : record_from_bytes (write_record [m; a; b; c]) = Some [m; a; b; c]) by reflexivity.
           apply record_from_bytes_valid in E. apply E. }
  split; [reflexivity|].
  split; [apply Forall_cons; [eexists; reflexivity|apply Forall_nil]|]. split.
  { apply Forall_cons; [|apply Forall_cons; [|apply Forall_nil]]; (split; [|split; [|discriminate]]); cbn [fst snd];
      repeat (apply Forall_cons; [eexists; reflexivity|]); apply Forall_nil. }
  split.
  - intros parts E. vm_compute in E. injection E as <-. cbn. discriminate.
  - intros parts E (groups & G & Hp).
    assert (X : parts = [[m; a; b; c]]) by (cbn in E; congruence). clear E. rewrite X in Hp. clear X parts.
    inversion G as [|? g1 ? gs (E1 & F1 & _) G1 Eq1]; subst groups. inversion G1 as [|? g2 ? gs2 (E2 & F2 & _) G2 Eq2]; subst gs.
    inversion G2; subst gs2. cbn [fst snd] in *.
    destruct g1 as [|z1 g1]; [|apply Forall_inv in F1 as (f & g' & o & -> & _); cbn in E1; discriminate E1].
    cbn [combine map concat fst snd app] in Hp. rewrite app_nil_r in Hp.
    destruct g2 as [|z2 g2]; cbn in Hp; discriminate Hp.
Qed.

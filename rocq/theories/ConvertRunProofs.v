(** * PICA XML, and the runs of convert *)

From Coq Require Import String.
From Verif Require Import Bytes Winnow RecordModel RecordSpec BaseProofs RecordProofs Utf8Model Utf8Spec Utf8Proofs
  ByteRecordModel ByteRecordSpec ByteRecordProofs ReaderModel CliModel CliSpec CliProofs CliCommandProofs
  CliOutputProofs CliChunkProofs ConvertModel ConvertSpec ConvertProofs.

(** ** PICA XML is determined up to occurrences *)

Lemma white_split : forall w w' a b, white w -> white w' -> w ++ 60 :: a = w' ++ 60 :: b -> w = w' /\ a = b.
Proof.
  assert (N : forall w, white w -> ~ In 60 w).
  { intros w H Hin. unfold white in H. rewrite Forall_forall in H. apply H in Hin. lia. }
  intros w w' a b H K E. apply (split_at 60) in E as [-> E]; eauto. injection E as ->. auto.
Qed.

Lemma xml_items_inj : forall A (P : A -> Prop) (R : A -> bytes -> Prop) (same : A -> A -> Prop),
  (forall x t, R x t -> exists w c b, white w /\ t = w ++ 60 :: c :: b /\ c <> 47) ->
  (forall x y t u r r', P x -> P y -> R x t -> R y u -> t ++ r = u ++ r' -> same x y /\ r = r') ->
  forall l ts, Forall2 R l ts -> forall k us w w' a b, Forall2 R k us -> Forall P l -> Forall P k ->
  white w -> white w' -> concat ts ++ w ++ 60 :: 47 :: a = concat us ++ w' ++ 60 :: 47 :: b ->
  Forall2 same l k /\ a = b.
Proof.
  intros A P R same Hd Hi. induction 1 as [|x t l ts Hx H IH]; intros k us w w' a b K Pl Pk W W' E;
    destruct K as [|y u k us Hy K]; cbn [concat] in E.
  - destruct (white_split _ _ _ _ W W' E) as [_ E']. injection E' as ->. split; [constructor|reflexivity].
  - exfalso. destruct (Hd _ _ Hy) as (v & c & b' & V & -> & Hc). rewrite <- !app_assoc in E. cbn [app] in E.
    destruct (white_split _ _ _ _ W V E) as [_ E']. injection E' as E1 _. congruence.
  - exfalso. destruct (Hd _ _ Hx) as (v & c & b' & V & -> & Hc). rewrite <- !app_assoc in E. cbn [app] in E.
    destruct (white_split _ _ _ _ V W' E) as [_ E']. injection E' as E1 _. congruence.
  - inversion Pl as [|? ? P1 Pl']; subst. inversion Pk as [|? ? P2 Pk']; subst.
    rewrite <- !app_assoc in E. destruct (Hi _ _ _ _ _ _ P1 P2 Hx Hy E) as [S E'].
    destruct (IH _ _ _ _ _ _ K Pl' Pk' W W' E') as [S' ->]. split; [constructor; assumption|reflexivity].
Qed.

Section Xml.
  Variable esc : bytes -> bytes.
  Hypothesis Hesc : xml_escaping esc.

  Lemma xml_subfield_inj : forall x y t u r r', xml_subfield_text esc x t -> xml_subfield_text esc y u ->
    t ++ r = u ++ r' -> x = y /\ r = r'.
  Proof.
    intros x y t u r r' (w & W & ->) (w' & W' & ->) E. rewrite <- !app_assoc in E.
    change (lit "<subfield code=""") with (60 :: lit "subfield code=""") in E. cbn [app] in E.
    apply (white_split _ _ _ _ W W') in E as [_ E]. apply app_inv_head in E. injection E as Ec E.
    change (lit "</subfield>") with (60 :: lit "/subfield>") in E. cbn [app] in E.
    destruct Hesc as [H1 H2]. apply (split_at 60) in E as [Ev E]; eauto. apply H2 in Ev.
    cbn in E. injection E as E.
    destruct x, y; cbn in *; subst. auto.
  Qed.

  Lemma xml_field_inj : forall f g t u r r', valid_field f -> valid_field g ->
    xml_field_text esc f t -> xml_field_text esc g u -> t ++ r = u ++ r' -> same_but_occ f g /\ r = r'.
  Proof.
    intros f g t u r r' (Vf & _) (Vg & _) (w & v & ts & W & V & Hs & ->) (w' & v' & us & W' & V' & Ks & ->) E.
    rewrite <- !app_assoc in E. change (lit "<datafield tag=""") with (60 :: lit "datafield tag=""") in E. cbn [app] in E.
    apply (white_split _ _ _ _ W W') in E as [_ E]. apply app_inv_head in E.
    change (lit """>") with (34 :: lit ">") in E. cbn [app] in E.
    apply (split_at 34) in E as [Et E]; eauto.
    - change (lit "</datafield>") with (60 :: 47 :: lit "datafield>") in E.
      change (34 :: lit ">" ++ ?x) with (lit """>" ++ x) in E. apply (app_inv_head (lit """>")) in E.
      destruct (xml_items_inj _ (fun _ => True) (xml_subfield_text esc) eq) with (l := f_subfields f) (ts := ts) (k := f_subfields g) (us := us)
        (w := v) (w' := v') (a := lit "datafield>" ++ r) (b := lit "datafield>" ++ r') as [Es Er]; auto.
      + intros x t (w0 & W0 & ->). exists w0, 115. eexists. split; [exact W0|]. split; [reflexivity|discriminate].
      + intros x y t u a b _ _. apply xml_subfield_inj.
      + apply Forall_forall. auto.
      + apply Forall_forall. auto.
      + apply app_inv_head in Er. split; [|exact Er]. split; [exact Et|].
        clear -Es. induction Es; [reflexivity|]. congruence.
    - intros H. apply (valid_tag_range _ _ Vf) in H. lia.
    - intros H. apply (valid_tag_range _ _ Vg) in H. lia.
  Qed.

  Lemma xml_record_inj : forall x y t u r r', Forall valid_field x -> Forall valid_field y ->
    xml_record_text esc x t -> xml_record_text esc y u -> t ++ r = u ++ r' -> Forall2 same_but_occ x y /\ r = r'.
  Proof.
    intros x y t u r r' Vx Vy (w & v & ts & W & V & Hs & ->) (w' & v' & us & W' & V' & Ks & ->) E.
    rewrite <- !app_assoc in E. change (lit "<record>") with (60 :: lit "record>") in E. cbn [app] in E.
    apply (white_split _ _ _ _ W W') in E as [_ E]. apply app_inv_head in E.
    change (lit "</record>") with (60 :: 47 :: lit "record>") in E.
    destruct (xml_items_inj _ valid_field (xml_field_text esc) same_but_occ) with (l := x) (ts := ts) (k := y) (us := us)
        (w := v) (w' := v') (a := lit "record>" ++ r) (b := lit "record>" ++ r') as [Es Er]; auto.
    - intros f t (w0 & w1 & ts0 & W0 & _ & _ & ->). exists w0, 100. eexists. split; [exact W0|].
      split; [reflexivity|discriminate].
    - intros f g t u a b Vf Vg. apply xml_field_inj; assumption.
    - apply app_inv_head in Er. auto.
  Qed.

  Lemma xml_unambiguous : forall rs ss t, Forall (Forall valid_field) rs -> Forall (Forall valid_field) ss ->
    xml_text esc rs t -> xml_text esc ss t -> Forall2 (Forall2 same_but_occ) rs ss.
  Proof.
    intros rs ss t Vr Vs (w & v & ts & W & V & Hs & ->) (w' & v' & us & W' & V' & Ks & E).
    apply app_inv_head in E.
    change (lit "<collection targetNamespace=""info:srw/schema/5/picaXML-v1.0"" ")
      with (60 :: lit "collection targetNamespace=""info:srw/schema/5/picaXML-v1.0"" ") in E. cbn [app] in E.
    apply (white_split _ _ _ _ W W') in E as [_ E]. do 3 apply app_inv_head in E.
    change (lit "</collection>") with (60 :: 47 :: lit "collection>") in E.
    destruct (xml_items_inj _ (Forall valid_field) (xml_record_text esc) (Forall2 same_but_occ))
      with (l := rs) (ts := ts) (k := ss) (us := us) (w := v) (w' := v') (a := lit "collection>") (b := lit "collection>")
      as [Es _]; auto.
    - intros f t (w0 & w1 & ts0 & W0 & _ & _ & ->). exists w0, 114. eexists. split; [exact W0|].
      split; [reflexivity|discriminate].
    - intros f g t u a b Vf Vg. apply xml_record_inj; assumption.
  Qed.
End Xml.

(** ** The XML written *)

Lemma ascii_utf8 : forall v, Forall (fun c => c < 128) v -> is_utf8 v.
Proof.
  intros v H. apply utf8_valid_iff.
  induction H as [|c v Hc H IH]; [reflexivity|]. cbn. rewrite (proj2 (N.ltb_lt _ _) Hc). exact IH.
Qed.

Lemma tag_kept : forall lossy f, keeps_utf8 lossy -> valid_field f -> lossy (f_tag f) = f_tag f.
Proof.
  intros lossy f L (V & _). apply L. apply ascii_utf8. apply Forall_forall. intros c Hc.
  apply (valid_tag_range _ _ V) in Hc. lia.
Qed.

Lemma occ_kept : forall lossy f o, keeps_utf8 lossy -> valid_field f -> f_occ f = Some o -> lossy o = o.
Proof.
  intros lossy f o L (_ & V & _) E. apply L. apply ascii_utf8. apply Forall_forall. intros c Hc.
  apply (occ_range _ _ (V _ E)) in Hc. lia.
Qed.

Lemma collect_all : forall A B (f : A -> option B) (R : A -> B -> Prop) l,
  (forall x, In x l -> exists y, f x = Some y /\ R x y) -> exists ys, collect f l = Some ys /\ Forall2 R l ys.
Proof.
  intros A B f R. induction l as [|x l IH]; intros H; [exists []; split; [reflexivity|constructor]|].
  destruct (H x (or_introl eq_refl)) as (y & E & Hy). destruct IH as (ys & Es & Hys); [intros z Hz; apply H; right; exact Hz|].
  exists (y :: ys). cbn. rewrite E, Es. split; [reflexivity|constructor; assumption].
Qed.

Lemma collect_none : forall A B (f : A -> option B) l, (exists x, In x l /\ f x = None) -> collect f l = None.
Proof.
  intros A B f. induction l as [|x l IH]; intros (y & Hy & E); [destruct Hy|]. cbn.
  destruct Hy as [<-|Hy]; [rewrite E; reflexivity|]. destruct (f x); [|reflexivity]. rewrite IH by eauto. reflexivity.
Qed.

Ltac white_tac := repeat (apply Forall_cons; [first [left; reflexivity|right; reflexivity]|]); apply Forall_nil.

Lemma xml_record_writes : forall lossy esc r, keeps_utf8 lossy -> Forall valid_field r -> utf8_record r ->
  exists t, xml_record lossy esc r = Some t /\ xml_record_text esc r t.
Proof.
  intros lossy esc r L V U.
  destruct (collect_all _ _ (xml_field lossy esc) (xml_field_text esc) r) as (ts & E & Hs).
  { intros f Hf.
    destruct (collect_all _ _ (xml_subfield esc) (xml_subfield_text esc) (f_subfields f)) as (us & Eu & Hu).
    { intros s Hs. unfold xml_subfield. rewrite (proj2 (utf8_valid_iff _) (U f s Hf Hs)).
      eexists. split; [reflexivity|]. exists (LF :: lit "            "). split; [white_tac|reflexivity]. }
    unfold xml_field. rewrite Eu. eexists. split; [reflexivity|].
    exists (LF :: lit "        "), (LF :: lit "        "), us. split; [white_tac|]. split; [white_tac|]. split; [exact Hu|].
    rewrite Forall_forall in V. rewrite (tag_kept lossy f L (V f Hf)). reflexivity. }
  unfold xml_record. rewrite E. eexists. split; [reflexivity|].
  exists (LF :: lit "    "), (LF :: lit "    "), ts. split; [white_tac|]. split; [white_tac|]. split; [exact Hs|reflexivity].
Qed.

Lemma utf8_record_dec : forall r, utf8_record r \/ exists f s, In f r /\ In s (f_subfields f) /\ ~ is_utf8 (sf_value s).
Proof.
  intros r. destruct (forallb (fun f => forallb (fun s => utf8_valid (sf_value s)) (f_subfields f)) r) eqn:E.
  - left. intros f s Hf Hs. rewrite forallb_forall in E. specialize (E f Hf). rewrite forallb_forall in E.
    apply utf8_valid_iff. auto.
  - right. apply not_true_iff_false in E.
    assert (N : forall A (p : A -> bool) l, forallb p l <> true -> exists x, In x l /\ p x = false).
    { intros A p. induction l as [|x l IH]; intros H; [contradict H; reflexivity|]. cbn in H.
      destruct (p x) eqn:Ep; [destruct IH as (y & H1 & H2); [exact H|]; exists y; cbn; auto|exists x; cbn; auto]. }
    apply N in E as (f & Hf & E). apply not_true_iff_false in E. apply N in E as (s & Hs & E).
    exists f, s. split; [exact Hf|]. split; [exact Hs|]. intros U. apply utf8_valid_iff in U. congruence.
Qed.

Lemma xml_record_panics : forall lossy esc r f s, In f r -> In s (f_subfields f) -> ~ is_utf8 (sf_value s) ->
  xml_record lossy esc r = None.
Proof.
  intros lossy esc r f s Hf Hs U. unfold xml_record. rewrite collect_none; [reflexivity|].
  exists f. split; [exact Hf|]. unfold xml_field. rewrite collect_none; [reflexivity|].
  exists s. split; [exact Hs|]. unfold xml_subfield.
  destruct (utf8_valid (sf_value s)) eqn:E; [|reflexivity]. apply utf8_valid_iff in E. contradiction.
Qed.

(** ** Runs *)

Section Runs.
  Variables lossy esc : bytes -> bytes.
  Hypothesis L : keeps_utf8 lossy.

  Lemma json_field_eq : forall f, valid_field f -> json_field lossy f = field_json lossy f.
  Proof.
    intros f V. unfold json_field, field_json. rewrite (tag_kept lossy f L V).
    destruct (f_occ f) as [o|] eqn:E; [|reflexivity]. rewrite (occ_kept lossy f o L V E). reflexivity.
  Qed.

  Lemma valid_recs : forall recs, Forall from_line recs -> Forall (fun r => Forall valid_field (br_record r)) recs.
  Proof. intros recs F. eapply Forall_impl; [|exact F]. intros r H. apply (from_line_readable r H). Qed.

  Lemma convert_exact : forall t skip files recs e, reads skip files recs e ->
    (t = TXml -> Forall (fun r => utf8_record (br_record r)) recs) ->
    exists out, convert_run lossy esc t skip files
                = Some (match e with None => Done out | Some err => Failed out err end)
      /\ (e = None -> converted lossy esc t recs out).
  Proof.
    intros t skip files recs e H U. assert (F := reads_from_line _ _ _ _ H). assert (V := valid_recs _ F).
    rewrite (convert_eq lossy esc t skip files recs e H).
    assert (M : forall g (R : record -> bytes -> Prop),
              (forall n r, conv_write lossy esc t n r = Some (g (br_record r))) ->
              (forall r, Forall valid_field r -> R r (g r)) -> conv_open t = [] -> conv_close t = [] ->
              exists out, Some (match conv_writes lossy esc t 0 recs with
                | None => Panicked
                | Some ts => match e with
                             | None => Done ((conv_open t ++ concat ts) ++ conv_close t)
                             | Some err => Failed (conv_open t ++ concat ts) err
                             end
                end) = Some (match e with None => Done out | Some err => Failed out err end)
              /\ (e = None -> exists ts, Forall2 R (map br_record recs) ts /\ out = concat ts)).
    { intros g R H1 H2 H3 H4. rewrite (conv_writes_map lossy esc t (fun r => g (br_record r)) H1), H3, H4, app_nil_r.
      eexists. split; [destruct e; reflexivity|]. intros _. eexists. split; [|reflexivity].
      apply (proj1 (Forall2_map_l _ _ _ R br_record recs _)). apply Forall2_map. eapply Forall_impl; [|exact V]. intros r. apply H2. }
    destruct t.
    - apply (M binary_record binary_text); auto using binary_writes.
    - apply (M import_record import_text); auto using import_writes.
    - clear M. destruct recs as [|r recs].
      + exists ([91] ++ match e with None => [93] | Some _ => [] end). split; [destruct e; reflexivity|]. intros ->. cbn. constructor.
      + cbn [conv_writes conv_write]. rewrite conv_writes_json by lia. cbn [N.ltb].
        eexists ([91] ++ json_print (json_record lossy (br_record r))
                 ++ flat_map (fun y => [44] ++ json_print y) (map (fun r => json_record lossy (br_record r)) recs)
                 ++ (match e with None => [93] | Some _ => [] end)). split.
        * destruct e; cbn [conv_open conv_close concat app]; rewrite ?app_nil_r, <- ?app_assoc;
            rewrite !flat_map_concat_map, map_map; reflexivity.
        * intros ->. unfold converted. replace (map _ (r :: recs)) with (map (fun r => json_record lossy (br_record r)) (r :: recs)).
          { rewrite (app_assoc (json_print _)). apply jt_array. apply json_items_print. apply Forall_forall.
            intros v _. apply json_print_text. }
          apply map_ext_Forall. eapply Forall_impl; [|exact V]. intros r' Vr. unfold json_record. f_equal.
          apply map_ext_Forall. eapply Forall_impl; [|exact Vr]. intros f. apply json_field_eq.
    - apply (M plain_record plain_text); auto using plain_writes.
    - clear M. rewrite (conv_writes_map lossy esc TPlus br_write (fun n r => eq_refl)). cbn [conv_open conv_close app].
      rewrite app_nil_r. eexists. split; [destruct e; reflexivity|]. intros _. cbn. rewrite <- flat_map_concat_map.
      apply lines_of_flat. exact F.
    - clear M. specialize (U eq_refl). rewrite conv_writes_xml.
      destruct (collect_all _ _ (fun r => xml_record lossy esc (br_record r)) (fun r => xml_record_text esc (br_record r)) recs)
        as (ts & E & Hs).
      { intros r Hr. rewrite Forall_forall in U, V. apply xml_record_writes; auto. }
      rewrite E. exists ((conv_open TXml ++ concat ts) ++ (match e with None => conv_close TXml | Some _ => [] end)). split.
      + destruct e; [rewrite app_nil_r|]; reflexivity.
      + intros ->. exists [LF], [LF], ts. split; [white_tac|]. split; [white_tac|]. split; [apply (proj1 (Forall2_map_l _ _ _ (xml_record_text esc) br_record recs _)); exact Hs|].
        unfold conv_open, conv_close. rewrite <- !app_assoc. reflexivity.
  Qed.

  Lemma xml_run_panics : forall skip files recs e, reads skip files recs e ->
    convert_run lossy esc TXml skip files = Some Panicked
    <-> exists r f s, In r recs /\ In f (br_record r) /\ In s (f_subfields f) /\ ~ is_utf8 (sf_value s).
  Proof.
    intros skip files recs e H. split.
    - intros E. destruct (forallb (fun r => match xml_record lossy esc (br_record r) with Some _ => true | None => false end) recs) eqn:B.
      + exfalso. rewrite (convert_eq lossy esc TXml skip files recs e H), conv_writes_xml in E.
        rewrite forallb_forall in B.
        destruct (collect_all _ _ (fun r => xml_record lossy esc (br_record r)) (fun _ _ => True) recs) as (ts & Ec & _).
        { intros r Hr. specialize (B r Hr). destruct (xml_record lossy esc (br_record r)) as [y|]; [|discriminate]. eauto. }
        rewrite Ec in E. destruct e; discriminate.
      + assert (N : forall A (p : A -> bool) l, forallb p l = false -> exists x, In x l /\ p x = false).
        { intros A p. induction l as [|x l IH]; intros K; [discriminate|]. cbn in K.
          destruct (p x) eqn:Ep; [destruct IH as (y & H1 & H2); [exact K|]; exists y; cbn; auto|exists x; cbn; auto]. }
        apply N in B as (r & Hr & B). destruct (utf8_record_dec (br_record r)) as [U|(f & s & H1 & H2 & H3)]; [|eauto 10].
        exfalso. assert (V := valid_recs _ (reads_from_line _ _ _ _ H)). rewrite Forall_forall in V.
        destruct (xml_record_writes lossy esc (br_record r) L (V r Hr) U) as (t & E' & _). rewrite E' in B. discriminate.
    - intros (r & f & s & H1 & H2 & H3 & H4). rewrite (convert_eq lossy esc TXml skip files recs e H), conv_writes_xml.
      rewrite collect_none; [reflexivity|]. exists r. split; [exact H1|]. eapply xml_record_panics; eassumption.
  Qed.
End Runs.

(** ** Reversibility of runs *)

Lemma one_line_lf_free : forall r, one_line r -> lf_free (br_record r).
Proof.
  intros r (p & _ & N & H) f s Hf Hs Hin. apply record_text_iff in H as (H1 & H2 & _).
  rewrite (write_record_nonempty _ H1) in H2. apply app_inj_tail in H2 as [-> _]. apply N.
  apply in_flat_map. exists f. split; [exact Hf|]. unfold write_field. rewrite !in_app_iff. right. right. right. left.
  apply in_flat_map. exists s. split; [exact Hs|]. unfold write_subfield. cbn. auto.
Qed.

Lemma field_json_inj : forall lossy f g, keeps_utf8 lossy -> utf8_record [f] -> utf8_record [g] ->
  field_json lossy f = field_json lossy g -> f = g.
Proof.
  intros lossy f g L Uf Ug E. unfold field_json in E. injection E as Et Eo Es.
  assert (Ho : f_occ f = f_occ g).
  { destruct (f_occ f), (f_occ g); try discriminate; [injection Eo as ->|]; reflexivity. }
  assert (Hs : f_subfields f = f_subfields g).
  { assert (Vf : forall s, In s (f_subfields f) -> lossy (sf_value s) = sf_value s).
    { intros s Hs. apply L. apply (Uf f s); [left; reflexivity|exact Hs]. }
    assert (Vg : forall s, In s (f_subfields g) -> lossy (sf_value s) = sf_value s).
    { intros s Hs. apply L. apply (Ug g s); [left; reflexivity|exact Hs]. }
    revert Es Vf Vg. generalize (f_subfields f) as l, (f_subfields g) as k.
    induction l as [|[c v] l IH]; intros [|[d w] k] Es Vf Vg; try discriminate; [reflexivity|].
    cbn in Es. injection Es as -> Ev Es.
    assert (E1 := Vf _ (or_introl eq_refl)). assert (E2 := Vg _ (or_introl eq_refl)). cbn in E1, E2.
    rewrite E1, E2 in Ev. subst w. f_equal. apply IH; auto; intros s Hs; [apply Vf|apply Vg]; right; exact Hs. }
  destruct f, g; cbn in *; subst. reflexivity.
Qed.

Lemma map_inj_In : forall A B (f : A -> B) l k, (forall x y, In x l -> In y k -> f x = f y -> x = y) ->
  map f l = map f k -> l = k.
Proof.
  intros A B f. induction l as [|x l IH]; intros [|y k] H E; try discriminate; [reflexivity|].
  cbn in E. injection E as E1 E2. f_equal; [apply H; cbn; auto|]. apply IH; [|exact E2]. intros a b Ha Hb. apply H; cbn; auto.
Qed.

(** two complete conversions with the same output come from the same records *)
Lemma converted_unambiguous : forall lossy esc t recs recs' out, keeps_utf8 lossy ->
  Forall one_line recs -> Forall one_line recs' ->
  (t = TJson -> Forall (fun r => utf8_record (br_record r)) (recs ++ recs')) -> t <> TXml ->
  converted lossy esc t recs out -> converted lossy esc t recs' out -> t <> TPlain ->
  map br_record recs = map br_record recs'.
Proof.
  intros lossy esc t recs recs' out L O1 O2 U Nx H K Np. destruct t; try congruence.
  - destruct H as (ts & H & ->). destruct K as (us & K & E). eapply binary_unambiguous; eassumption.
  - destruct H as (ts & H & ->). destruct K as (us & K & E). eapply import_unambiguous; try eassumption.
    + apply Forall_map. eapply Forall_impl; [|exact O1]. intros r Hr. apply (from_line_readable r (one_line_from r Hr)).
    + apply Forall_map. eapply Forall_impl; [|exact O2]. intros r Hr. apply (from_line_readable r (one_line_from r Hr)).
    + intros r f s Hr Hf Hs (p & Ev).
      assert (Lr : lf_free r).
      { rewrite Forall_forall in O1, O2. apply in_app_iff in Hr as [Hr|Hr]; apply in_map_iff in Hr as (b & <- & Hb);
          apply one_line_lf_free; auto. }
      apply (Lr f s Hf Hs). rewrite Ev. apply in_app_iff. right. left. reflexivity.
  - cbn in H, K. assert (E := json_text_fun _ _ _ H K). injection E as E. specialize (U eq_refl). rewrite Forall_forall in U.
    assert (E' : map (fun r => JArray (map (field_json lossy) r)) (map br_record recs)
                 = map (fun r => JArray (map (field_json lossy) r)) (map br_record recs')) by (rewrite !map_map; exact E).
    apply (map_inj_In _ _ _ _ _) in E'; [exact E'|].
    intros x y Hx Hy Exy. injection Exy as Exy. apply (map_inj_In _ _ _ _ _) in Exy; [exact Exy|].
    intros f g Hf Hg. apply field_json_inj; [exact L| |].
    + intros f' s [<-|[]] Hs. apply in_map_iff in Hx as (b & <- & Hb). apply (U b) with (f := f); [apply in_app_iff; auto|exact Hf|exact Hs].
    + intros f' s [<-|[]] Hs. apply in_map_iff in Hy as (b & <- & Hb). apply (U b) with (f := g); [apply in_app_iff; auto|exact Hg|exact Hs].
  - f_equal. eapply reads_fun; apply (reads_back true (lit "f")); eassumption.
Qed.

Lemma Done_inj : forall A (a b : A), Some (Done a) = Some (Done b) -> a = b.
Proof. intros A a b E. injection E as ->. reflexivity. Qed.

Lemma run_reversible : forall lossy esc t skip files recs skip' files' recs' out, keeps_utf8 lossy ->
  t = TBinary \/ t = TImport \/ t = TPlus
    \/ (t = TJson /\ Forall (fun r => utf8_record (br_record r)) (recs ++ recs')) ->
  reads skip files recs None -> reads skip' files' recs' None ->
  convert_run lossy esc t skip files = Some (Done out) -> convert_run lossy esc t skip' files' = Some (Done out) ->
  map br_record recs = map br_record recs'.
Proof.
  intros lossy esc t skip files recs skip' files' recs' out L Ht H K R1 R2.
  destruct (convert_exact lossy esc L t skip files recs None H) as (o1 & E1 & C1).
  { intros ->. destruct Ht as [?|[?|[?|[? _]]]]; discriminate. }
  destruct (convert_exact lossy esc L t skip' files' recs' None K) as (o2 & E2 & C2).
  { intros ->. destruct Ht as [?|[?|[?|[? _]]]]; discriminate. }
  rewrite R1 in E1. rewrite R2 in E2. apply Done_inj in E1, E2. subst o1 o2.
  apply (converted_unambiguous lossy esc t recs recs' out L); auto.
  - eapply reads_one_line; exact H.
  - eapply reads_one_line; exact K.
  - intros ->. destruct Ht as [?|[?|[?|[_ U]]]]; try discriminate. exact U.
  - intros ->. destruct Ht as [?|[?|[?|[? _]]]]; discriminate.
  - intros ->. destruct Ht as [?|[?|[?|[? _]]]]; discriminate.
Qed.

(** *** PICA plain: the fields of all records *)

Lemma plain_text_concat : forall rs ts, Forall2 plain_text rs ts -> plain_text (concat rs) (concat ts).
Proof.
  induction 1 as [|r t rs ts (us & H1 & ->) _ (vs & H2 & E)]; [exists []; split; [constructor|reflexivity]|].
  exists (us ++ vs). cbn [concat]. split; [apply Forall2_app; assumption|]. rewrite E, concat_app. reflexivity.
Qed.

Lemma plain_run_reversible : forall lossy esc skip files recs skip' files' recs' out, keeps_utf8 lossy ->
  reads skip files recs None -> reads skip' files' recs' None ->
  convert_run lossy esc TPlain skip files = Some (Done out) ->
  convert_run lossy esc TPlain skip' files' = Some (Done out) ->
  concat (map br_record recs) = concat (map br_record recs').
Proof.
  intros lossy esc skip files recs skip' files' recs' out L H K R1 R2.
  destruct (convert_exact lossy esc L TPlain skip files recs None H) as (o1 & E1 & C1); [discriminate|].
  destruct (convert_exact lossy esc L TPlain skip' files' recs' None K) as (o2 & E2 & C2); [discriminate|].
  rewrite R1 in E1. rewrite R2 in E2. apply Done_inj in E1, E2. subst o1 o2.
  destruct (C1 eq_refl) as (ts & T1 & ->). destruct (C2 eq_refl) as (us & T2 & E).
  apply plain_text_concat in T1, T2. rewrite <- E in T2.
  assert (V : forall rs, Forall one_line rs -> Forall valid_field (concat (map br_record rs)) /\ lf_free (concat (map br_record rs))).
  { intros rs F. rewrite Forall_forall in F. split.
    - apply Forall_forall. intros f Hf. apply in_concat in Hf as (r & Hr & Hf). apply in_map_iff in Hr as (b & <- & Hb).
      destruct (from_line_readable b (one_line_from b (F b Hb))) as [_ V]. rewrite Forall_forall in V. auto.
    - intros f s Hf Hs. apply in_concat in Hf as (r & Hr & Hf). apply in_map_iff in Hr as (b & <- & Hb).
      apply (one_line_lf_free b (F b Hb) f s); assumption. }
  destruct (V _ (reads_one_line _ _ _ _ H)) as [V1 L1]. destruct (V _ (reads_one_line _ _ _ _ K)) as [V2 L2].
  eapply plain_unambiguous; eassumption.
Qed.

(** *** PICA XML *)

Lemma xml_record_occ : forall lossy esc r s, Forall2 same_but_occ r s -> xml_record lossy esc r = xml_record lossy esc s.
Proof.
  intros lossy esc r s H. unfold xml_record.
  replace (collect (xml_field lossy esc) r) with (collect (xml_field lossy esc) s); [reflexivity|].
  induction H as [|f g r s [Et Es] _ IH]; [reflexivity|]. cbn [collect]. rewrite IH. unfold xml_field. rewrite Et, Es. reflexivity.
Qed.

Lemma xml_run_iff : forall lossy esc skip files recs skip' files' recs', keeps_utf8 lossy -> xml_escaping esc ->
  reads skip files recs None -> reads skip' files' recs' None ->
  Forall (fun r => utf8_record (br_record r)) (recs ++ recs') ->
  convert_run lossy esc TXml skip files = convert_run lossy esc TXml skip' files'
  <-> Forall2 (Forall2 same_but_occ) (map br_record recs) (map br_record recs').
Proof.
  intros lossy esc skip files recs skip' files' recs' L Hesc H K U. apply Forall_app in U as [U1 U2]. split.
  - intros E.
    destruct (convert_exact lossy esc L TXml skip files recs None H) as (o1 & E1 & C1); [auto|].
    destruct (convert_exact lossy esc L TXml skip' files' recs' None K) as (o2 & E2 & C2); [auto|].
    rewrite E, E2 in E1. apply Done_inj in E1. subst o2.
    eapply xml_unambiguous; [exact Hesc| | |exact (C1 eq_refl)|exact (C2 eq_refl)].
    + apply Forall_map. apply valid_recs. eapply reads_from_line. exact H.
    + apply Forall_map. apply valid_recs. eapply reads_from_line. exact K.
  - intros S. rewrite (convert_eq lossy esc TXml _ _ _ _ H), (convert_eq lossy esc TXml _ _ _ _ K), !conv_writes_xml.
    assert (E : collect (fun r => xml_record lossy esc (br_record r)) recs
                = collect (fun r => xml_record lossy esc (br_record r)) recs').
    { clear -S. revert recs' S. induction recs as [|r recs IH]; intros [|r' recs'] S; inversion S; subst; [reflexivity|].
      cbn. rewrite (IH recs') by assumption. erewrite xml_record_occ by eassumption. reflexivity. }
    rewrite E. reflexivity.
Qed.

Lemma convert_command lossy esc : keeps_utf8 lossy -> forall from t skip files recs e,
  reads skip files recs e ->
  (t = TXml -> Forall (fun r => utf8_record (br_record r)) recs) ->
  (from = TPlus ->
   exists out, convert_execute lossy esc from t skip files
               = Some (Some (match e with None => Done out | Some err => Failed out err end))
     /\ (e = None -> converted lossy esc t recs out))
  /\ (from <> TPlus -> convert_execute lossy esc from t skip files = None).
Proof.
  intros L from t skip files recs e H U. split; intros F.
  - subst from. destruct (convert_exact lossy esc L t skip files recs e H U) as (out & E & C).
    exists out. unfold convert_execute. rewrite E. auto.
  - destruct from; try reflexivity. contradiction F. reflexivity.
Qed.

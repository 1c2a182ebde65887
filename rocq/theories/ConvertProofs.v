(** * Proofs about convert *)

From Coq Require Import String.
From Verif Require Import Bytes Winnow RecordModel RecordSpec BaseProofs RecordProofs Utf8Model Utf8Spec Utf8Proofs
  ByteRecordModel ByteRecordSpec ByteRecordProofs ReaderModel CliModel CliSpec CliProofs CliCommandProofs
  CliOutputProofs ConvertModel ConvertSpec.

(** ** The loop *)

Section Run.
  Variables lossy esc : bytes -> bytes.

  Fixpoint conv_writes (t : format) (n : N) (recs : list byte_record) : option (list bytes) :=
    match recs with
    | [] => Some []
    | r :: recs' => do b <- conv_write lossy esc t n r; do bs <- conv_writes t (n + 1) recs'; Some (b :: bs)
    end.

  Lemma conv_fold : forall t recs n out,
    fold_steps (convert_body lossy esc t) (n, out) recs
    = match conv_writes t n recs with
      | None => Panic
      | Some ts => Next (n + N.of_nat (length recs), out ++ concat ts)
      end.
  Proof.
    intros t. induction recs as [|r recs IH]; intros n out; cbn [fold_steps conv_writes].
    - cbn. rewrite N.add_0_r, app_nil_r. reflexivity.
    - unfold convert_body at 1. cbn [fst snd]. destruct (conv_write lossy esc t n r) as [b|]; [|reflexivity].
      rewrite IH. destruct (conv_writes t (n + 1) recs) as [bs|]; [|reflexivity].
      cbn [concat length]. rewrite <- app_assoc. f_equal. f_equal. lia.
  Qed.

  Lemma convert_eq : forall t skip files recs e, reads skip files recs e ->
    convert_run lossy esc t skip files
    = Some (match conv_writes t 0 recs with
            | None => Panicked
            | Some ts =>
                match e with
                | None => Done ((conv_open t ++ concat ts) ++ conv_close t)
                | Some err => Failed (conv_open t ++ concat ts) err
                end
            end).
  Proof.
    intros t skip files recs e H. unfold convert_run.
    etransitivity; [exact (f_equal (finish_with _ _) (run_loop_reads _ _ _ _ _ _ _ H))|].
    rewrite conv_fold. destruct (conv_writes t 0 recs) as [ts|]; destruct e; reflexivity.
  Qed.

  Lemma conv_writes_map : forall t (g : byte_record -> bytes), (forall n r, conv_write lossy esc t n r = Some (g r)) ->
    forall recs n, conv_writes t n recs = Some (map g recs).
  Proof.
    intros t g H. induction recs as [|r recs IH]; intros n; cbn; [reflexivity|]. rewrite H, IH. reflexivity.
  Qed.

  Lemma conv_writes_json : forall recs n, 0 < n ->
    conv_writes TJson n recs = Some (map (fun r => [44] ++ json_print (json_record lossy (br_record r))) recs).
  Proof.
    induction recs as [|r recs IH]; intros n Hn; cbn [conv_writes map]; [reflexivity|].
    unfold conv_write. rewrite (proj2 (N.ltb_lt _ _) Hn), (IH (n + 1)) by lia. reflexivity.
  Qed.

  Lemma conv_writes_xml : forall recs n,
    conv_writes TXml n recs = collect (fun r => xml_record lossy esc (br_record r)) recs.
  Proof.
    induction recs as [|r recs IH]; intros n; cbn [conv_writes collect]; [reflexivity|].
    rewrite IH. reflexivity.
  Qed.
End Run.

(** ** The texts written *)

Definition readable (r : record) : Prop := r <> [] /\ Forall valid_field r.

Lemma from_line_readable : forall r, from_line r -> readable (br_record r).
Proof.
  intros r (l & _ & H). apply record_text_iff in H as (H1 & _ & H2). split; assumption.
Qed.

Lemma binary_field_eq : forall f, binary_field f = write_field f.
Proof. intros f. unfold binary_field, conv_start, write_field. rewrite <- !app_assoc. reflexivity. Qed.

Definition field_body (f : field) : bytes := conv_start f ++ flat_map write_subfield (f_subfields f).

Lemma body_write : forall f, write_field f = field_body f ++ [30].
Proof. intros f. unfold field_body. rewrite <- binary_field_eq. unfold binary_field. rewrite <- !app_assoc. reflexivity. Qed.

Lemma framed_iff : forall x y f t, framed x y f t <-> valid_field f /\ t = x ++ field_body f ++ y.
Proof.
  intros x y f t. unfold framed. split.
  - intros (b & H & ->). apply field_text_iff in H as [H V]. rewrite body_write in H.
    apply app_inj_tail in H as [-> _]. auto.
  - intros [V ->]. exists (field_body f). split; [|reflexivity]. apply field_text_iff. rewrite body_write. auto.
Qed.

Lemma Forall2_map : forall A B (R : A -> B -> Prop) (g : A -> B) l, Forall (fun x => R x (g x)) l -> Forall2 R l (map g l).
Proof. intros A B R g l H. induction H; cbn; constructor; assumption. Qed.

Lemma Forall2_map_l : forall A B C (R : B -> C -> Prop) (g : A -> B) l k,
  Forall2 (fun x y => R (g x) y) l k <-> Forall2 R (map g l) k.
Proof.
  intros A B C R g l k. split.
  - intros H. induction H; cbn; constructor; assumption.
  - revert k. induction l as [|x l IH]; intros k H; inversion H; subst; constructor; auto.
Qed.

Lemma binary_writes : forall r, Forall valid_field r -> binary_text r (binary_record r).
Proof.
  intros r H. exists (map binary_field r). split; [|unfold binary_record; rewrite flat_map_concat_map; reflexivity].
  apply Forall2_map. eapply Forall_impl; [|exact H]. intros f V. apply framed_iff. split; [exact V|].
  rewrite binary_field_eq, body_write. reflexivity.
Qed.

Lemma import_writes : forall r, Forall valid_field r -> import_text r (import_record r).
Proof.
  intros r H. exists (map import_field r). split; [|unfold import_record; rewrite flat_map_concat_map; reflexivity].
  apply Forall2_map. eapply Forall_impl; [|exact H]. intros f V. apply framed_iff. split; [exact V|].
  unfold import_field, field_body. rewrite <- !app_assoc. reflexivity.
Qed.

Lemma doubled_value : forall v, doubled v (plain_value v).
Proof.
  induction v as [|c v IH]; cbn; [constructor|]. destruct (N.eqb_spec c 36) as [->|E]; constructor; assumption.
Qed.

Lemma plain_writes : forall r, Forall valid_field r -> plain_text r (plain_record r).
Proof.
  intros r H. exists (map plain_field r). split; [|apply flat_map_concat_map].
  apply Forall2_map. eapply Forall_impl; [|exact H]. intros f (_ & V & _).
  exists (occ_bytes (f_occ f)), (map plain_subfield (f_subfields f)). split; [|split].
  - apply occ_text_iff. auto.
  - apply Forall2_map. apply Forall_forall. intros s _. exists (plain_value (sf_value s)). split; [apply doubled_value|reflexivity].
  - unfold plain_field, conv_start. rewrite <- flat_map_concat_map, <- !app_assoc. reflexivity.
Qed.

(** *** JSON *)

Definition json_rec2 (P : json -> Prop) (H1 : P JNull) (H2 : forall s, P (JString s))
    (H3 : forall l, Forall P l -> P (JArray l)) : forall v, P v :=
  fix go v := match v with
              | JNull => H1
              | JString s => H2 s
              | JArray l => H3 l ((fix items l : Forall P l := match l with
                                                  | [] => Forall_nil P
                                                  | x :: l' => Forall_cons x (go x) (items l')
                                                  end) l)
              end.

Lemma json_escape_char : forall c, json_char (json_escape c) c.
Proof.
  intros c. unfold json_escape.
  repeat match goal with
  | |- context [?a =? ?b] => destruct (N.eqb_spec a b) as [->|?]; [constructor; cbn; auto 10|]
  end.
  destruct (N.ltb_spec c 32) as [H|H]; [|constructor; assumption].
  assert (D : c = 16 * (c / 16) + c mod 16) by (apply N.div_mod; lia).
  assert (B : c / 16 < 2) by (apply N.div_lt_upper_bound; lia).
  assert (M : c mod 16 < 16) by (apply N.mod_lt; lia).
  assert (V : forall v, v < 16 -> hex_value (hex_digit v) v).
  { intros v Hv. unfold hex_digit, hex_value. destruct (N.ltb_spec v 10); lia. }
  rewrite D at 3. constructor; [apply V; lia|apply V; lia|lia].
Qed.

Lemma json_escape_chars : forall s, json_chars (flat_map json_escape s) s.
Proof. induction s as [|c s IH]; cbn; constructor; [apply json_escape_char|exact IH]. Qed.

Lemma json_items_print : forall x l, Forall (fun v => json_text (json_print v) v) (x :: l) ->
  json_items (json_print x ++ flat_map (fun y => [44] ++ json_print y) l) (x :: l).
Proof.
  intros x l. revert x. induction l as [|y l IH]; intros x H; inversion H as [|? ? Hx Hl]; subst; cbn [flat_map].
  - rewrite app_nil_r. constructor. exact Hx.
  - rewrite <- app_assoc. constructor; [exact Hx|]. apply IH. exact Hl.
Qed.

Lemma json_print_text : forall v, json_text (json_print v) v.
Proof.
  induction v using json_rec2.
  - constructor.
  - apply jt_string. apply json_escape_chars.
  - destruct l as [|x l]; [apply jt_empty|]. cbn [json_print]. apply jt_array. apply json_items_print. exact H.
Qed.

(** ** Unambiguity *)

(** *** JSON *)

Lemma hex_value_fun : forall c v v', hex_value c v -> hex_value c v' -> v = v'.
Proof. unfold hex_value. intros c v v' H K. lia. Qed.

Lemma json_short_fun : forall (e c c' : N) L, NoDup (map fst L) -> In (e, c) L -> In (e, c') L -> c = c'.
Proof.
  intros e c c' L N H K. induction L as [|[e0 c0] L IH]; [destruct H|]. cbn in N. inversion N as [|? ? N1 N2]; subst.
  destruct H as [H|H]; destruct K as [K|K]; [congruence| | |auto].
  - injection H as -> ->. apply (in_map fst) in K. contradiction.
  - injection K as -> ->. apply (in_map fst) in H. contradiction.
Qed.

Lemma json_char_fun : forall t c t' c' r r', json_char t c -> json_char t' c' -> t ++ r = t' ++ r' ->
  t = t' /\ c = c' /\ r = r'.
Proof.
  intros t c t' c' r r' H K E.
  destruct H as [c H1 H2 H3|e c H|a b va vb Ha Hb L]; destruct K as [c' K1 K2 K3|e' c' K|a' b' va' vb' Ka Kb L'];
    cbn in E; try (injection E as E1 E2; subst; try (cbn in K; exfalso; lia); try contradiction; auto; fail).
  - injection E as -> ->. split; [reflexivity|]. split; [|reflexivity]. eapply json_short_fun; [|exact H|exact K].
    cbn. repeat constructor; cbn; intros F; repeat (destruct F as [F|F]; [discriminate|]); exact F.
  - injection E as E1 E2. exfalso. subst e. cbn in H.
    repeat match goal with H : _ \/ _ |- _ => destruct H as [H|H] end; try contradiction; discriminate.
  - injection E as E1 E2. exfalso. subst e'. cbn in K.
    repeat match goal with H : _ \/ _ |- _ => destruct H as [H|H] end; try contradiction; discriminate.
  - injection E as -> -> ->. rewrite (hex_value_fun _ _ _ Ha Ka), (hex_value_fun _ _ _ Hb Kb). auto.
Qed.

Lemma json_char_head : forall t c, json_char t c -> exists x t', t = x :: t' /\ x <> 34.
Proof.
  intros t c H. destruct H as [c H1 H2 H3|e c H|a b va vb Ha Hb L].
  - exists c, []. auto.
  - exists 92, [e]. split; [reflexivity|discriminate].
  - eexists 92, _. split; [reflexivity|discriminate].
Qed.

Lemma json_chars_fun : forall t s, json_chars t s -> forall t' s' r r', json_chars t' s' ->
  t ++ 34 :: r = t' ++ 34 :: r' -> t = t' /\ s = s' /\ r = r'.
Proof.
  induction 1 as [|t c ts s Hc H IH]; intros t' s' r r' K E.
  - destruct K as [|t' c' ts' s' Kc K]; [injection E as ->; auto|].
    destruct (json_char_head _ _ Kc) as (x & t'' & -> & Hx). cbn in E. injection E as E1 E2. congruence.
  - destruct K as [|t' c' ts' s' Kc K].
    + destruct (json_char_head _ _ Hc) as (x & t'' & -> & Hx). cbn in E. injection E as E1 E2. congruence.
    + rewrite <- !app_assoc in E. destruct (json_char_fun _ _ _ _ _ _ Hc Kc E) as (<- & <- & E').
      destruct (IH _ _ _ _ K E') as (<- & <- & <-). auto.
Qed.

Lemma json_text_head : forall t v, json_text t v -> exists x t', t = x :: t' /\ x <> 93 /\ x <> 44.
Proof.
  intros t v H. destruct H; eexists; eexists; (split; [reflexivity|split; discriminate]).
Qed.

Lemma json_items_head : forall t l, json_items t l -> exists x t', t = x :: t' /\ x <> 93.
Proof.
  intros t l H. destruct H as [t v H|t v ts l H _]; destruct (json_text_head _ _ H) as (x & t' & -> & N1 & _);
    eexists; eexists; (split; [reflexivity|exact N1]).
Qed.

Lemma json_fun_mut :
  (forall t v, json_text t v -> forall t' v' r r', json_text t' v' -> t ++ r = t' ++ r' -> v = v' /\ r = r')
  /\ (forall t l, json_items t l -> forall t' l' r r', json_items t' l' -> t ++ 93 :: r = t' ++ 93 :: r' ->
        l = l' /\ r = r').
Proof.
  apply json_text_items.
  - intros t' v' r r' K E. destruct K; cbn in E; try discriminate. injection E as ->. auto.
  - intros t s H t' v' r r' K E. destruct K as [|t' s' K| |t' l K]; cbn in E; try discriminate.
    injection E as E. rewrite <- !app_assoc in E. cbn [app] in E.
    destruct (json_chars_fun _ _ H _ _ _ _ K E) as (_ & -> & ->). auto.
  - intros t' v' r r' K E. destruct K as [|t' s' K| |t' l K]; cbn in E; try discriminate.
    + injection E as ->. auto.
    + destruct (json_items_head _ _ K) as (x & t'' & -> & Hx). cbn in E. injection E as E1 E2. congruence.
  - intros t l H IH t' v' r r' K E. destruct K as [|t' s' K| |t' l' K]; cbn in E; try discriminate.
    + destruct (json_items_head _ _ H) as (x & t'' & -> & Hx). cbn in E. injection E as E1 E2. congruence.
    + injection E as E. rewrite <- !app_assoc in E. cbn [app] in E.
      destruct (IH _ _ _ _ K E) as [-> ->]. auto.
  - intros t v H IH t' l' r r' K E. destruct K as [t' v' K|t' v' ts' l' K K2].
    + destruct (IH _ _ _ _ K E) as [-> E']. injection E' as ->. auto.
    + rewrite <- app_assoc in E. destruct (IH _ _ _ _ K E) as [-> E']. discriminate.
  - intros t v ts l H IH H2 IH2 t' l' r r' K E. destruct K as [t' v' K|t' v' ts' l' K K2].
    + rewrite <- app_assoc in E. destruct (IH _ _ _ _ K E) as [-> E']. discriminate.
    + rewrite <- !app_assoc in E. destruct (IH _ _ _ _ K E) as [-> E']. injection E' as E'.
      destruct (IH2 _ _ _ _ K2 E') as [-> ->]. auto.
Qed.

Lemma json_text_fun : forall t v v', json_text t v -> json_text t v' -> v = v'.
Proof.
  intros t v v' H K. apply (proj1 json_fun_mut t v H t v' [] [] K eq_refl).
Qed.

(** *** PICA binary *)

Lemma fields_29 : forall fs gs a b, Forall valid_field fs -> Forall valid_field gs ->
  flat_map write_field fs ++ 29 :: a = flat_map write_field gs ++ 29 :: b -> fs = gs /\ a = b.
Proof.
  induction fs as [|f fs IH]; intros gs a b Hf Hg E; destruct gs as [|g gs].
  - injection E as ->. auto.
  - exfalso. inversion Hg as [|? ? V _]; subst. cbn [flat_map] in E. rewrite <- app_assoc in E.
    assert (P := parse_field_ok g (flat_map write_field gs ++ 29 :: b) V). rewrite <- E in P. discriminate.
  - exfalso. inversion Hf as [|? ? V _]; subst. cbn [flat_map] in E. rewrite <- app_assoc in E.
    assert (P := parse_field_ok f (flat_map write_field fs ++ 29 :: a) V). rewrite E in P. discriminate.
  - inversion Hf as [|? ? Vf Hf']; subst. inversion Hg as [|? ? Vg Hg']; subst.
    cbn [flat_map] in E. rewrite <- !app_assoc in E.
    assert (P := parse_field_ok f (flat_map write_field fs ++ 29 :: a) Vf). rewrite E in P.
    rewrite (parse_field_ok g _ Vg) in P. injection P as <- P.
    destruct (IH gs a b Hf' Hg' (eq_sym P)) as [<- <-]. auto.
Qed.

Lemma binary_text_iff : forall r t, binary_text r t <-> Forall valid_field r /\ t = flat_map write_field r ++ [29].
Proof.
  intros r t. split.
  - intros (ts & H & ->). induction H as [|f ft r ts Hf H [V E]]; [auto|].
    apply framed_iff in Hf as [Vf ->]. apply app_inj_tail in E as [E _]. split; [constructor; assumption|].
    cbn [concat flat_map]. rewrite E, body_write, <- !app_assoc. reflexivity.
  - intros [V ->]. assert (H := binary_writes r V). unfold binary_record in H.
    rewrite (flat_map_ext _ _ binary_field_eq) in H. exact H.
Qed.

Lemma binary_unambiguous : forall rs ts, Forall2 binary_text rs ts ->
  forall ss us, Forall2 binary_text ss us -> concat ts = concat us -> rs = ss.
Proof.
  induction 1 as [|r t rs ts Hr H IH]; intros ss us K E; destruct K as [|s u ss us Hs K]; [reflexivity| | |].
  - exfalso. apply binary_text_iff in Hs as [_ ->]. cbn in E. rewrite <- app_assoc in E.
    destruct (flat_map write_field s); discriminate.
  - exfalso. apply binary_text_iff in Hr as [_ ->]. cbn in E. rewrite <- app_assoc in E.
    destruct (flat_map write_field r); discriminate.
  - apply binary_text_iff in Hr as [Vr ->]. apply binary_text_iff in Hs as [Vs ->].
    cbn [concat] in E. rewrite <- !app_assoc in E. cbn [app] in E.
    destruct (fields_29 _ _ _ _ Vr Vs E) as [<- E']. f_equal. eapply IH; eassumption.
Qed.

(** *** PICA import *)

Lemma split_at : forall (c : N) a b x y, ~ In c a -> ~ In c b -> (x = [] \/ exists x', x = c :: x') ->
  (y = [] \/ exists y', y = c :: y') -> a ++ x = b ++ y -> a = b /\ x = y.
Proof.
  intros c. induction a as [|p a IH]; intros b x y Ha Hb Hx Hy E; destruct b as [|q b]; cbn in E.
  - auto.
  - exfalso. destruct Hx as [->|[x' ->]]; [discriminate|]. injection E as <- _. apply Hb. left. reflexivity.
  - exfalso. destruct Hy as [->|[y' ->]]; [discriminate|]. injection E as -> _. apply Ha. left. reflexivity.
  - injection E as -> E. destruct (IH b x y) as [-> ->]; auto; intros H; [apply Ha|apply Hb]; right; exact H.
Qed.

Lemma in_range : forall a b c l, forallb (fun c => (a <=? c) && (c <=? b)) l = true -> In c l -> a <= c <= b.
Proof.
  intros a b c l H Hin. rewrite forallb_forall in H. apply H in Hin. apply andb_true_iff in Hin as [H1 H2].
  apply N.leb_le in H1, H2. auto.
Qed.

Lemma digit_range : forall c, In c digits -> 48 <= c <= 57.
Proof. intros c. apply in_range. reflexivity. Qed.

Lemma valid_tag_range : forall t c, valid_tag t -> In c t -> 48 <= c <= 90.
Proof.
  intros t c (a & b & c' & d & -> & Ha & Hb & Hc & Hd) H.
  apply (in_range 48 90) in Ha; [|reflexivity]. apply digit_range in Hb, Hc.
  apply (in_range 48 90) in Hd; [|reflexivity].
  destruct H as [<-|[<-|[<-|[<-|[]]]]]; lia.
Qed.

Lemma valid_code_range : forall c, valid_code c -> 48 <= c <= 122.
Proof. intros c. apply in_range. reflexivity. Qed.

Lemma occ_range : forall o c, valid_occ o -> In c o -> 48 <= c <= 57.
Proof. intros o c [_ H] Hin. rewrite Forall_forall in H. apply digit_range. auto. Qed.

Lemma conv_start_range : forall f c, valid_field f -> In c (conv_start f) -> c = 32 \/ 47 <= c <= 90.
Proof.
  intros f c (Vt & Vo & _) H. unfold conv_start in H. rewrite !in_app_iff in H.
  destruct H as [H|[H|H]].
  - apply (valid_tag_range _ _ Vt) in H. lia.
  - destruct (f_occ f) as [o|] eqn:Eo; [|destruct H]. destruct H as [<-|H]; [unfold SLASH; lia|].
    apply (occ_range _ _ (Vo _ eq_refl)) in H. lia.
  - destruct H as [<-|[]]. left. reflexivity.
Qed.

Lemma body_no_30 : forall f, valid_field f -> ~ In 30 (field_body f).
Proof.
  intros f V H. unfold field_body in H. apply in_app_iff in H as [H|H].
  - apply (conv_start_range f 30 V) in H. lia.
  - destruct V as (_ & _ & Vs). apply in_flat_map in H as (s & Hs & H). rewrite Forall_forall in Vs.
    destruct (Vs s Hs) as [Vc [_ Vv]]. unfold write_subfield in H. cbn in H. destruct H as [H|[H|H]].
    + discriminate.
    + apply valid_code_range in Vc. lia.
    + contradiction.
Qed.

Lemma body_ends : forall f x, valid_field f -> field_body f = x ++ [10; 39; 29] ->
  exists s, In s (f_subfields f) /\ header_like (sf_value s).
Proof.
  intros f x V E. assert (V' := V). destruct V as (_ & _ & Vs).
  destruct (f_subfields f) as [|s0 l0] eqn:El using rev_ind.
  - exfalso. unfold field_body in E. rewrite El in E. cbn [flat_map] in E. rewrite app_nil_r in E.
    unfold conv_start in E. rewrite app_assoc in E.
    change (x ++ [10; 39; 29]) with (x ++ [10; 39] ++ [29]) in E. rewrite (app_assoc x) in E.
    apply app_inj_tail in E as [_ E]. discriminate.
  - clear IHl0. exists s0. split; [apply in_app_iff; right; left; reflexivity|].
    unfold field_body in E. rewrite El, flat_map_app in E. cbn [flat_map] in E. rewrite app_nil_r in E.
    unfold write_subfield in E at 2. rewrite !app_assoc in E.
    set (pre := conv_start f ++ flat_map write_subfield l0) in E.
    assert (Vc : 48 <= sf_code s0 <= 122).
    { apply valid_code_range. rewrite Forall_forall in Vs. apply (Vs s0). apply in_app_iff. right. left. reflexivity. }
    change [10; 39; 29] with ([10] ++ [39] ++ [29]) in E. rewrite !app_assoc in E.
    unfold header_like. destruct (sf_value s0) as [|a v] using rev_ind.
    { exfalso. rewrite app_nil_r in E. change [US; sf_code s0] with ([US] ++ [sf_code s0]) in E.
      rewrite app_assoc in E. apply app_inj_tail in E as [_ E]. lia. }
    clear IHv. rewrite app_assoc in E. apply app_inj_tail in E as [E ->].
    destruct v as [|b v] using rev_ind.
    { exfalso. rewrite app_nil_r in E. change [US; sf_code s0] with ([US] ++ [sf_code s0]) in E.
      rewrite app_assoc in E. apply app_inj_tail in E as [_ E]. lia. }
    clear IHv. rewrite app_assoc in E. apply app_inj_tail in E as [E ->].
    destruct v as [|c v] using rev_ind.
    { exfalso. rewrite app_nil_r in E. change [US; sf_code s0] with ([US] ++ [sf_code s0]) in E.
      rewrite app_assoc in E. apply app_inj_tail in E as [_ E]. lia. }
    clear IHv. rewrite app_assoc in E. apply app_inj_tail in E as [E ->].
    exists v. rewrite <- !app_assoc. reflexivity.
Qed.

Lemma body_inj : forall f g, valid_field f -> valid_field g -> field_body f = field_body g -> f = g.
Proof.
  intros f g Vf Vg E. assert (P := parse_field_ok f [] Vf). assert (Q := parse_field_ok g [] Vg).
  rewrite body_write, E, <- body_write in P. congruence.
Qed.

(** what can follow a field *)
Definition import_next (rest : bytes) : Prop :=
  rest = [] \/ (exists x, rest = 30 :: x) \/ (exists x, rest = [39; 29; 10] ++ 30 :: x).

Definition importable (f : field) : Prop :=
  valid_field f /\ forall s, In s (f_subfields f) -> ~ header_like (sf_value s).

Lemma import_field_step : forall f g x y, importable f -> importable g -> import_next x -> import_next y ->
  field_body f ++ 10 :: x = field_body g ++ 10 :: y -> f = g /\ x = y.
Proof.
  intros f g x y [Vf If] [Vg Ig] Hx Hy E.
  assert (N1 := body_no_30 _ Vf). assert (N2 := body_no_30 _ Vg).
  assert (S : forall z, import_next z -> exists u v, z = u ++ v /\ (u = [] \/ u = [39; 29; 10])
                                             /\ (v = [] \/ exists v', v = 30 :: v')).
  { intros z [->|[(z' & ->)|(z' & ->)]].
    - exists [], []. auto.
    - exists [], (30 :: z'). eauto 6.
    - exists [39; 29; 10], (30 :: z'). eauto 6. }
  destruct (S x Hx) as (u1 & v1 & Ex & U1 & W1). destruct (S y Hy) as (u2 & v2 & Ey & U2 & W2). clear S.
  rewrite Ex, Ey in E. change (10 :: u1 ++ v1) with ((10 :: u1) ++ v1) in E. change (10 :: u2 ++ v2) with ((10 :: u2) ++ v2) in E.
  rewrite !app_assoc in E.
  apply (split_at 30) in E as [E1 E2]; auto.
  - destruct U1 as [->| ->]; destruct U2 as [->| ->].
    + apply app_inj_tail in E1 as [E1 _]. rewrite Ex, Ey, E2. split; [apply body_inj; assumption|reflexivity].
    + exfalso. change (10 :: [39; 29; 10]) with ([10; 39; 29] ++ [10]) in E1. rewrite app_assoc in E1.
      apply app_inj_tail in E1 as [E1 _]. destruct (body_ends _ _ Vf E1) as (s & Hs & Hv). exact (If s Hs Hv).
    + exfalso. change (10 :: [39; 29; 10]) with ([10; 39; 29] ++ [10]) in E1. rewrite app_assoc in E1.
      apply app_inj_tail in E1 as [E1 _]. symmetry in E1. destruct (body_ends _ _ Vg E1) as (s & Hs & Hv). exact (Ig s Hs Hv).
    + apply app_inv_tail in E1. rewrite Ex, Ey, E2. split; [apply body_inj; assumption|reflexivity].
  - rewrite in_app_iff. intros [H|[H|H]]; [contradiction|discriminate|].
    destruct U1 as [->| ->]; cbn in H; [contradiction|]. repeat (destruct H as [H|H]; [discriminate|]). contradiction.
  - rewrite in_app_iff. intros [H|[H|H]]; [contradiction|discriminate|].
    destruct U2 as [->| ->]; cbn in H; [contradiction|]. repeat (destruct H as [H|H]; [discriminate|]). contradiction.
Qed.

(** what can follow a record *)
Definition import_more (rest : bytes) : Prop := rest = [] \/ exists x, rest = [39; 29; 10] ++ 30 :: x.

Definition import_line (f : field) : bytes := 30 :: field_body f ++ [10].

Lemma import_lines_next : forall fs x, import_more x -> import_next (flat_map import_line fs ++ x).
Proof.
  intros [|f fs] x [->|(x' & ->)]; cbn [flat_map app].
  - left. reflexivity.
  - right. right. exists x'. reflexivity.
  - right. left. eexists. reflexivity.
  - right. left. eexists. reflexivity.
Qed.

Lemma import_fields_inj : forall fs gs x y, Forall importable fs -> Forall importable gs ->
  import_more x -> import_more y ->
  flat_map import_line fs ++ x = flat_map import_line gs ++ y -> fs = gs /\ x = y.
Proof.
  induction fs as [|f fs IH]; intros gs x y Hf Hg Hx Hy E; destruct gs as [|g gs].
  - auto.
  - exfalso. cbn in E. destruct Hx as [->|(x' & ->)]; discriminate.
  - exfalso. cbn in E. destruct Hy as [->|(y' & ->)]; discriminate.
  - inversion Hf as [|? ? F1 F2]; subst. inversion Hg as [|? ? G1 G2]; subst.
    cbn [flat_map] in E. unfold import_line at 1 3 in E. cbn [app] in E. injection E as E. rewrite <- !app_assoc in E.
    destruct (import_field_step f g _ _ F1 G1 (import_lines_next fs x Hx) (import_lines_next gs y Hy) E) as [<- E'].
    destruct (IH gs x y F2 G2 Hx Hy E') as [<- <-]. auto.
Qed.

Lemma import_text_iff : forall r t, import_text r t <->
  Forall valid_field r /\ t = [39; 29; 10] ++ flat_map import_line r.
Proof.
  intros r t. split.
  - intros (ts & H & ->).
    assert (K : Forall valid_field r /\ concat ts = flat_map import_line r).
    { induction H as [|f ft r ts Hf H [V E]]; [auto|]. apply framed_iff in Hf as [Vf ->].
      split; [constructor; assumption|]. cbn [concat flat_map]. rewrite E. reflexivity. }
    destruct K as [V ->]. auto.
  - intros [V ->]. exists (map import_line r). split; [|rewrite flat_map_concat_map; reflexivity].
    apply Forall2_map. eapply Forall_impl; [|exact V]. intros f Vf. apply framed_iff. auto.
Qed.

Lemma import_records_more : forall rs ts, Forall2 import_text rs ts -> Forall (fun r => r <> []) rs ->
  import_more (concat ts).
Proof.
  intros rs ts H N. destruct H as [|r t rs ts Hr H]; [left; reflexivity|]. right.
  apply import_text_iff in Hr as [_ ->]. inversion N as [|? ? N1 N2]; subst.
  destruct r as [|f r]; [congruence|]. cbn. eexists. reflexivity.
Qed.

Lemma import_unambiguous : forall rs ts, Forall2 import_text rs ts ->
  forall ss us, Forall2 import_text ss us ->
  Forall (fun r => r <> []) rs -> Forall (fun r => r <> []) ss ->
  (forall r f s, In r (rs ++ ss) -> In f r -> In s (f_subfields f) -> ~ header_like (sf_value s)) ->
  concat ts = concat us -> rs = ss.
Proof.
  induction 1 as [|r t rs ts Hr H IH]; intros ss us K Nr Ns I E; destruct K as [|s u ss us Hs K]; [reflexivity| | |].
  - exfalso. apply import_text_iff in Hs as [_ ->]. discriminate.
  - exfalso. apply import_text_iff in Hr as [_ ->]. discriminate.
  - apply import_text_iff in Hr as [Vr ->]. apply import_text_iff in Hs as [Vs ->].
    inversion Nr as [|? ? Nr1 Nr2]; subst. inversion Ns as [|? ? Ns1 Ns2]; subst.
    cbn [concat] in E. rewrite <- !app_assoc in E. apply app_inv_head in E.
    destruct (import_fields_inj r s (concat ts) (concat us)) as [<- E']; auto.
    + rewrite Forall_forall in *. intros f Hf. split; [auto|]. intros x Hx. apply (I r f x); cbn; auto.
    + rewrite Forall_forall in *. intros f Hf. split; [auto|]. intros x Hx. apply (I s f x); cbn; auto.
      right. apply in_app_iff. right. left. reflexivity.
    + eapply import_records_more; eassumption.
    + eapply import_records_more; eassumption.
    + f_equal. eapply IH; try eassumption. intros r' f x Hin. apply I. cbn. right.
      apply in_app_iff in Hin as [Hin|Hin]; apply in_app_iff; [auto|right; right; exact Hin].
Qed.

(** *** PICA plain *)

Definition plain_next (x : bytes) : Prop := x = [] \/ exists c x', x = 36 :: c :: x' /\ c <> 36.

Lemma doubled_inj : forall v t, doubled v t -> forall w u x y, doubled w u -> plain_next x -> plain_next y ->
  t ++ x = u ++ y -> v = w /\ x = y.
Proof.
  induction 1 as [|v t H IH|c v t Hc H IH]; intros w u x y K Hx Hy E;
    destruct K as [|w u K|d w u Hd K]; cbn in E.
  - auto.
  - exfalso. destruct Hx as [->|(c & x' & -> & Hc)]; [discriminate|]. injection E as E1 E2. congruence.
  - exfalso. destruct Hx as [->|(c & x' & -> & Hc)]; [discriminate|]. injection E as E1 E2. congruence.
  - exfalso. destruct Hy as [->|(c & x' & -> & Hc)]; [discriminate|]. injection E as E1 E2. congruence.
  - injection E as E. destruct (IH _ _ _ _ K Hx Hy E) as [-> ->]. auto.
  - injection E as E1 E2. congruence.
  - exfalso. destruct Hy as [->|(d & x' & -> & Hd)]; [discriminate|]. injection E as E1 E2. congruence.
  - injection E as E1 E2. congruence.
  - injection E as <- E. destruct (IH _ _ _ _ K Hx Hy E) as [-> ->]. auto.
Qed.

Lemma plain_subfields_next : forall l ts, Forall2 plain_subfield_text l ts -> Forall valid_subfield l ->
  plain_next (concat ts).
Proof.
  intros l ts H V. destruct H as [|s t l ts (v & _ & ->) H]; [left; reflexivity|]. right.
  exists (sf_code s), (v ++ concat ts). split; [reflexivity|]. inversion V as [|? ? [Vc _] _]; subst.
  apply valid_code_range in Vc. lia.
Qed.

Lemma plain_subfields_inj : forall l ts, Forall2 plain_subfield_text l ts -> forall k us,
  Forall2 plain_subfield_text k us -> Forall valid_subfield l -> Forall valid_subfield k ->
  concat ts = concat us -> l = k.
Proof.
  induction 1 as [|s t l ts (v & Hd & ->) H IH]; intros k us K Vl Vk E; destruct K as [|s' t' k us (v' & Hd' & ->) K];
    try reflexivity; try discriminate.
  inversion Vl as [|? ? _ Vl']; subst. inversion Vk as [|? ? _ Vk']; subst.
  cbn [concat app] in E. injection E as Ec E.
  destruct (doubled_inj _ _ Hd _ _ _ _ Hd' (plain_subfields_next _ _ H Vl') (plain_subfields_next _ _ K Vk') E) as [Ev E'].
  rewrite (IH _ _ K Vl' Vk' E'). destruct s, s'; cbn in *; subst. reflexivity.
Qed.

Lemma occ_inj : forall o t p u x y, occ_text o t -> occ_text p u -> t ++ 32 :: x = u ++ 32 :: y -> o = p /\ x = y.
Proof.
  intros o t p u x y Ho Hp E. destruct Ho as [|o Vo]; destruct Hp as [|p Vp]; cbn in E.
  - injection E as ->. auto.
  - discriminate.
  - discriminate.
  - injection E as E. destruct (split_at 32 o p (32 :: x) (32 :: y)) as [-> E']; eauto.
    + intros H. apply (occ_range _ _ Vo) in H. lia.
    + intros H. apply (occ_range _ _ Vp) in H. lia.
    + injection E' as ->. auto.
Qed.

Lemma plain_field_inj : forall f g t, valid_field f -> valid_field g ->
  plain_field_text f t -> plain_field_text g t -> f = g.
Proof.
  intros f g t (Vt & _ & Vs) (Wt & _ & Ws) (o & ts & Ho & Hs & ->) (p & us & Hp & Ks & E).
  assert (L : forall t, valid_tag t -> length t = 4%nat).
  { intros t' (a & b & c & d & -> & _). reflexivity. }
  assert (Et : f_tag f = f_tag g /\ o ++ [32] ++ concat ts ++ [10] = p ++ [32] ++ concat us ++ [10]).
  { apply L in Vt. apply L in Wt.
    destruct (f_tag f) as [|a1 [|a2 [|a3 [|a4 [|]]]]]; try discriminate.
    destruct (f_tag g) as [|b1 [|b2 [|b3 [|b4 [|]]]]]; try discriminate. cbn in E. injection E as -> -> -> -> E. auto. }
  destruct Et as [Et E']. cbn [app] in E'. destruct (occ_inj _ _ _ _ _ _ Ho Hp E') as [Eo E2].
  apply app_inj_tail in E2 as [E2 _]. assert (Es := plain_subfields_inj _ _ Hs _ _ Ks Vs Ws E2).
  destruct f, g; cbn in *; subst. reflexivity.
Qed.

Lemma doubled_in : forall v t c, doubled v t -> In c t -> In c v.
Proof. induction 1; cbn; intuition. Qed.

Lemma plain_field_line : forall f t, valid_field f -> lf_free [f] -> plain_field_text f t ->
  exists l, t = l ++ [10] /\ ~ In 10 l.
Proof.
  intros f t (Vt & Vo & Vs) L (o & ts & Ho & Hs & ->).
  exists (f_tag f ++ o ++ [32] ++ concat ts). split; [rewrite <- !app_assoc; reflexivity|].
  rewrite !in_app_iff. intros [H|[H|[H|H]]].
  - apply (valid_tag_range _ _ Vt) in H. lia.
  - destruct Ho as [|o V]; [destruct H|]. destruct H as [H|H]; [discriminate|]. apply (occ_range _ _ V) in H. lia.
  - destruct H as [H|[]]. discriminate.
  - apply in_concat in H as (t & Ht & H). specialize (L f).
    assert (L' : forall s, In s (f_subfields f) -> ~ In 10 (sf_value s)) by (intros s; apply L; left; reflexivity).
    clear L. induction Hs as [|s t' l ts (v & Hd & ->) Hs IH]; [destruct Ht|].
    inversion Vs as [|? ? [Vc _] Vs']; subst. destruct Ht as [<-|Ht].
    + cbn in H. destruct H as [H|[H|H]]; [discriminate|apply valid_code_range in Vc; lia|].
      apply (doubled_in _ _ _ Hd) in H. apply (L' s); [left; reflexivity|exact H].
    + apply IH; auto. intros s' Hs'. apply L'. right. exact Hs'.
Qed.

Lemma lf_free_cons : forall f r, lf_free (f :: r) -> lf_free [f] /\ lf_free r.
Proof.
  intros f r H. split; intros f' s Hf Hs; apply (H f' s); cbn in *; auto. destruct Hf as [<-|[]]. auto.
Qed.

Lemma plain_unambiguous : forall r s t, Forall valid_field r -> Forall valid_field s ->
  lf_free r -> lf_free s -> plain_text r t -> plain_text s t -> r = s.
Proof.
  intros r s t Vr Vs Lr Ls (ts & Hr & ->) (us & Hs & E). revert s us Vs Ls Hs E.
  induction Hr as [|f t r ts Hf Hr IH]; intros s us Vs Ls Hs E; destruct Hs as [|g u s us Hg Hs].
  - reflexivity.
  - exfalso. destruct Hg as (o & us' & _ & _ & ->). cbn in E. rewrite <- !app_assoc in E.
    destruct (f_tag g); [destruct o|]; discriminate.
  - exfalso. destruct Hf as (o & us' & _ & _ & ->). cbn in E. rewrite <- !app_assoc in E.
    destruct (f_tag f); [destruct o|]; discriminate.
  - inversion Vr as [|? ? Vf Vr']; subst. inversion Vs as [|? ? Vg Vs']; subst.
    apply lf_free_cons in Lr as [Lf Lr]. apply lf_free_cons in Ls as [Lg Ls].
    destruct (plain_field_line _ _ Vf Lf Hf) as (l & -> & Nl). destruct (plain_field_line _ _ Vg Lg Hg) as (k & -> & Nk).
    cbn [concat] in E. rewrite <- !app_assoc in E. cbn [app] in E.
    apply (split_at 10) in E as [-> E]; eauto. injection E as E.
    rewrite (plain_field_inj _ _ _ Vf Vg Hf Hg). f_equal. eapply IH; eauto.
Qed.

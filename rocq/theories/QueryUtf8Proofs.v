(** * Paths, formats and queries on string records *)

From Coq Require Import String.
From Verif Require Import Bytes Winnow RecordModel TagOccModel Utf8Spec Utf8Model Utf8Proofs MatcherModel
  ByteRecordModel BaseProofs PathModel FmtModel QueryModel QuerySpec QueryProofs.

Definition cells_utf8 (o : outcome) : Prop := Forall (Forall is_utf8) o.

Lemma filter_p_incl : forall A (g : A -> option bool) l out, filter_p g l = Some out -> incl out l.
Proof.
  induction l as [|x l IH]; intros out H; cbn in H; [injection H as <-; apply incl_nil_l|].
  destruct (g x) as [[]|]; [| |discriminate].
  - destruct (filter_p g l) as [o|]; [|discriminate]. injection H as <-.
    apply incl_cons; [left; reflexivity|]. apply incl_tl. apply IH. reflexivity.
  - destruct (filter_p g l) as [o|]; [|discriminate]. injection H as <-.
    apply incl_tl. apply IH. reflexivity.
Qed.

Lemma string_path_same : forall O ci p r, record_utf8 r ->
  string_record_path O ci p r = record_path O ci p r.
Proof.
  intros O ci p r U. unfold string_record_path. destruct (record_path O ci p r) as [vs|] eqn:E; [|reflexivity].
  replace (forallb utf8_valid vs) with true; [reflexivity|]. symmetry. apply forallb_forall. intros v Hv.
  unfold record_path in E. destruct (filter_p (path_field O ci p) r) as [fs|] eqn:F; [|discriminate].
  injection E as <-. apply in_flat_map in Hv as (f & Hf & Hv). unfold path_values in Hv.
  apply in_map_iff in Hv as (s & <- & Hs). apply filter_In in Hs as [Hs _].
  apply utf8_valid_iff. apply (U f); [|exact Hs]. eapply filter_p_incl; eassumption.
Qed.

Lemma strip_app : forall u w, ~ In 64 u -> strip_overread (u ++ w) = u ++ strip_overread w.
Proof.
  induction u as [|c u IH]; intros w H; [reflexivity|]. cbn.
  destruct (N.eqb_spec c 64) as [->|Hc]; [exfalso; apply H; left; reflexivity|].
  f_equal. apply IH. intros G. apply H. right. exact G.
Qed.
Lemma is_utf8_char : forall c, is_scalar c -> is_utf8 (utf8_encode_char c).
Proof.
  intros c H. exists [c]. split; [constructor; [exact H|constructor]|]. unfold utf8_encode. cbn.
  rewrite app_nil_r. reflexivity.
Qed.
Lemma strip_utf8 : forall b, is_utf8 b -> is_utf8 (strip_overread b).
Proof.
  intros b (l & H & ->). unfold utf8_encode. induction H as [|c l Hc Hl IH]; [apply is_utf8_nil|]. cbn.
  destruct (N.eq_dec c 64) as [->|Hne].
  - cbn. exists l. split; [exact Hl|reflexivity].
  - rewrite strip_app; [apply is_utf8_app; [apply is_utf8_char; exact Hc|exact IH]|].
    destruct (N.ltb_spec c 128).
    + unfold utf8_encode_char. destruct (N.ltb_spec c 128); [|lia]. intros [G|[]]. congruence.
    + intros G. apply encode_char_high in H. rewrite Forall_forall in H. apply H in G. lia.
Qed.

Section Fns.
  Variable O : oracles.
  Variable T : text_fns.
  Hypothesis Hlower : forall b, is_utf8 b -> is_utf8 (t_lower T b).
  Hypothesis Hupper : forall b, is_utf8 b -> is_utf8 (t_upper T b).
  Hypothesis Htrim : forall b, is_utf8 b -> is_utf8 (t_trim T b).

  Lemma modify_utf8 : forall m b, is_utf8 b -> is_utf8 (modify T m b).
  Proof.
    intros m b H. unfold modify.
    assert (H1 : is_utf8 (if m_strip m then strip_overread b else b))
      by (destruct (m_strip m); [apply strip_utf8|]; exact H).
    set (b1 := if m_strip m then _ else _) in *.
    assert (H2 : is_utf8 (if m_trim m then t_trim T b1 else b1)) by (destruct (m_trim m); auto).
    set (b2 := if m_trim m then _ else _) in *.
    assert (H3 : is_utf8 (if m_remove_ws m then filter (fun c => negb (c =? 32)) b2 else b2)).
    { destruct (m_remove_ws m); [|exact H2]. apply is_utf8_filter; [|exact H2].
      intros c Hc. destruct (N.eqb_spec c 32); [lia|reflexivity]. }
    set (b3 := if m_remove_ws m then _ else _) in *.
    assert (H4 : is_utf8 (if m_lower m then t_lower T b3 else b3)) by (destruct (m_lower m); auto).
    set (b4 := if m_lower m then _ else _) in *.
    destruct (m_upper m); auto.
  Qed.

  Lemma value_loop_utf8 : forall strip codes pre suf bound sfs cnt acc,
    is_utf8 (opt_text pre) -> is_utf8 (opt_text suf) ->
    (forall s, In s sfs -> is_utf8 (sf_value s)) -> is_utf8 acc ->
    is_utf8 (value_loop strip codes pre suf bound cnt sfs acc).
  Proof.
    induction sfs as [|s sfs IH]; intros cnt acc Hp Hs Hv Ha; cbn; [exact Ha|].
    destruct (negb (cnt <? bound)); [exact Ha|].
    assert (Hv' : forall s, In s sfs -> is_utf8 (sf_value s)) by (intros; apply Hv; right; assumption).
    destruct (negb (code_in codes s)); [apply IH; assumption|]. apply IH; try assumption.
    repeat apply is_utf8_app; try assumption. specialize (Hv s (or_introl eq_refl)).
    destruct strip; [apply strip_utf8|]; exact Hv.
  Qed.

  Lemma frag_utf8_list : forall l,
    (fix all l := match l with [] => True | x :: r => frag_utf8 x /\ all r end) l -> Forall frag_utf8 l.
  Proof. induction l as [|x l IH]; [constructor|]. intros [H1 H2]. constructor; auto. Qed.

  Lemma fmt_frag_utf8 : forall strip fr f v, frag_utf8 fr ->
    (forall s, In s (f_subfields f) -> is_utf8 (sf_value s)) ->
    fmt_frag T strip fr f = Some v -> is_utf8 v.
  Proof.
    intros strip fr f v U Hf. revert v U.
    induction fr as [b n m IH|c p s n m|l IH|l IH] using frag_rect; intros v U H.
    - cbn [fmt_frag] in H.
      assert (G : forall x, fmt_frag T strip b f = Some x -> is_utf8 x) by (intros; apply IH; assumption).
      destruct b; [discriminate|..]; (destruct (fmt_frag T strip _ f) as [x|]; [|discriminate];
        injection H as <-; apply modify_utf8, G; reflexivity).
    - cbn [fmt_frag] in H. injection H as <-. destruct U as [U1 U2]. apply modify_utf8, value_loop_utf8; auto.
      apply is_utf8_nil.
    - cbn [frag_utf8] in U. apply frag_utf8_list in U. rewrite fmt_frag_and_then in H.
      assert (G : forall acc, is_utf8 acc -> forall v, and_then_loop T strip f l acc = Some v -> is_utf8 v).
      { clear v H. induction l as [|x l IHl]; intros acc Ha v H; cbn in H; [injection H as <-; exact Ha|].
        inversion IH; subst. inversion U; subst. destruct (fmt_frag T strip x f) as [w|] eqn:E; [|discriminate].
        destruct w; [injection H as <-; exact Ha|]. eapply IHl; [assumption..| |exact H].
        apply is_utf8_app; auto. }
      eapply G; [apply is_utf8_nil|exact H].
    - cbn [frag_utf8] in U. apply frag_utf8_list in U. rewrite fmt_frag_cons in H.
      assert (G : forall acc, is_utf8 acc -> forall v, cons_loop T strip f l acc = Some v -> is_utf8 v).
      { clear v H. induction l as [|x l IHl]; intros acc Ha v H; cbn in H; [injection H as <-; exact Ha|].
        inversion IH; subst. inversion U; subst. destruct (fmt_frag T strip x f) as [w|] eqn:E; [|discriminate].
        eapply IHl; [assumption..| |exact H]. apply is_utf8_app; auto. }
      eapply G; [apply is_utf8_nil|exact H].
  Qed.

  Lemma record_format_utf8 : forall strip ci fm r outs, frag_utf8 (fmt_fragments fm) -> record_utf8 r ->
    record_format O T strip ci fm r = Some outs -> Forall is_utf8 outs.
  Proof.
    intros strip ci fm r outs U. revert outs. induction r as [|f fs IH]; intros outs R H; cbn in H.
    - injection H as <-. constructor.
    - assert (R' : record_utf8 fs) by (intros g s Hg; apply R; right; exact Hg).
      destruct (tag_occ_sub_match _ _ _ _ _ f) as [[]|]; [| |discriminate]; [|apply IH; assumption].
      unfold fmt_field in H. destruct (fmt_frag T strip (fmt_fragments fm) f) as [v|] eqn:E; [|discriminate].
      destruct (record_format O T strip ci fm fs) as [rest|]; [|discriminate]. injection H as <-.
      assert (is_utf8 v). { eapply fmt_frag_utf8; [exact U| |exact E]. intros s. apply R. left. reflexivity. }
      destruct v; [apply IH; auto|]. constructor; [assumption|]. apply IH; auto.
  Qed.

  Variable qo : query_options.
  Hypothesis Hsep : is_utf8 (qo_separator qo).

  Lemma join_items_utf8 : forall items, Forall is_utf8 items -> is_utf8 (join_items (qo_separator qo) items).
  Proof.
    intros items H. unfold join_items.
    assert (G : forall items b v, Forall is_utf8 items -> is_utf8 v ->
      is_utf8 (snd (fold_left (fun (acc : bool * bytes) item =>
         let '(first, v) := acc in (false, (if first then v else v ++ qo_separator qo) ++ item)) items (b, v)))).
    { clear items H. induction items as [|x items IH]; intros b v H Hv; [exact Hv|]. inversion H; subst. cbn.
      apply IH; [assumption|]. apply is_utf8_app; [|assumption]. destruct b; [|apply is_utf8_app]; assumption. }
    apply G; [exact H|apply is_utf8_nil].
  Qed.

  Lemma o_mul_utf8 : forall xs ys, cells_utf8 xs -> cells_utf8 ys -> cells_utf8 (o_mul xs ys).
  Proof.
    intros xs ys Hx Hy. destruct xs as [|x xs]; [destruct ys; exact Hy|]. destruct ys as [|y ys]; [exact Hx|].
    unfold o_mul, cells_utf8 in *. apply Forall_forall. intros row Hr.
    apply in_flat_map in Hr as (u & Hu & Hr). apply in_map_iff in Hr as (w & <- & Hw).
    rewrite Forall_forall in Hx, Hy. apply Forall_app. auto.
  Qed.
  Lemma fold_mul_utf8 : forall ts acc, Forall cells_utf8 ts -> cells_utf8 acc -> cells_utf8 (fold_left o_mul ts acc).
  Proof. intros ts acc H. revert acc. induction H; intros acc Ha; [exact Ha|]. cbn. apply IHForall, o_mul_utf8; assumption. Qed.

  Lemma singles_utf8 : forall l, Forall is_utf8 l -> cells_utf8 (map (fun v => [v]) l).
  Proof. intros l H. unfold cells_utf8. apply Forall_map. eapply Forall_impl; [|exact H]. repeat constructor; assumption. Qed.

  Lemma path_column_utf8 : forall codes f, (forall s, In s (f_subfields f) -> is_utf8 (sf_value s)) ->
    cells_utf8 (path_column qo codes f).
  Proof.
    intros codes f Hf. unfold path_column.
    set (vs := map sf_value (filter (code_in codes) (f_subfields f))).
    assert (Hvs : Forall is_utf8 vs).
    { apply Forall_map, Forall_forall. intros s Hs. apply filter_In in Hs as [Hs _]. apply Hf. exact Hs. }
    assert (H : exists ws, Forall is_utf8 ws /\ match vs with [] => [[[]]] | _ => map (fun v => [v]) vs end
                = map (fun v : bytes => [v]) ws).
    { destruct vs; [exists [[]]; split; [repeat constructor; apply is_utf8_nil|reflexivity]|]. eauto. }
    destruct H as (ws & H1 & ->). destruct (qo_squash qo); [|apply singles_utf8; exact H1].
    unfold o_squash. rewrite concat_singletons. repeat constructor. apply join_items_utf8. exact H1.
  Qed.

  Lemma fragment_query_utf8 : forall fr r o, qfragment_utf8 fr -> record_utf8 r ->
    fragment_query O T qo fr r = Some o -> cells_utf8 o.
  Proof.
    intros [p|b|fm] r o U R H; cbn in H.
    - destruct (filter_p _ r) as [fs|] eqn:F; [|discriminate]. apply filter_p_incl in F.
      injection H as <-.
      match goal with |- cells_utf8 (match ?c with [] => _ | _ => _ end) =>
        assert (G : cells_utf8 c); [|destruct c; [|exact G]] end.
      + rewrite fold_add. cbn. apply Forall_concat. apply Forall_map, Forall_forall. intros f Hf.
        apply fold_mul_utf8; [|constructor]. apply Forall_map, Forall_forall. intros c _.
        apply path_column_utf8. intros s. apply R. apply F. exact Hf.
      + constructor; [|constructor]. apply Forall_forall. intros x Hx. apply repeat_spec in Hx. subst.
        apply is_utf8_nil.
    - injection H as <-. repeat constructor. exact U.
    - destruct (record_format O T false (qo_case_ignore qo) fm r) as [rows|] eqn:E; [|discriminate].
      injection H as <-. eapply record_format_utf8 in E; [|exact U|exact R].
      destruct rows; [repeat constructor; apply is_utf8_nil|]. apply singles_utf8. exact E.
  Qed.

  Lemma merge_rows_utf8 : forall acc e row, Forall is_utf8 acc -> Forall is_utf8 e ->
    merge_rows (qo_separator qo) acc e = Some row -> Forall is_utf8 row.
  Proof.
    induction acc as [|x acc IH]; intros e row Ha He H; cbn in H; [injection H as <-; constructor|].
    destruct e as [|y e]; [discriminate|]. destruct (merge_rows _ acc e) as [rest|] eqn:E; [|discriminate].
    injection H as <-. inversion Ha; subst. inversion He; subst. constructor; [|eapply IH; eassumption].
    repeat apply is_utf8_app; assumption.
  Qed.
  Lemma o_merge_utf8 : forall o o', cells_utf8 o -> o_merge (qo_separator qo) o = Some o' -> cells_utf8 o'.
  Proof.
    intros [|row rows] o' H E; [discriminate|]. cbn in E. inversion H; subst.
    assert (G : forall rows acc out, cells_utf8 rows -> Forall is_utf8 acc ->
      merge_fold (qo_separator qo) acc rows = Some out -> Forall is_utf8 out).
    { clear -Hsep. induction rows as [|e rows IH]; intros acc out Hr Ha H; cbn in H; [injection H as <-; exact Ha|].
      inversion Hr; subst. destruct (merge_rows _ acc e) as [acc'|] eqn:E; [|discriminate].
      eapply IH; [eassumption| |exact H]. apply (merge_rows_utf8 acc e acc'); assumption. }
    destruct (merge_fold _ row rows) as [m|] eqn:F; [|discriminate]. injection E as <-.
    constructor; [|constructor]. eapply G; eassumption.
  Qed.

  Lemma record_query_utf8 : forall q r o, Forall qfragment_utf8 (q_fragments q) -> record_utf8 r ->
    record_query O T qo q r = Some o -> cells_utf8 o.
  Proof.
    intros q r o U R H. unfold record_query in H.
    assert (Hfr : forall fr o, qfragment_utf8 fr -> fragment_rows O T qo fr r = Some o -> cells_utf8 o).
    { intros fr x Hx E. unfold fragment_rows in E.
      destruct (fragment_query O T qo fr r) as [y|] eqn:F; [|discriminate].
      apply fragment_query_utf8 in F; [|assumption..]. destruct (qo_merge qo).
      - eapply o_merge_utf8; eassumption.
      - injection E as <-. exact F. }
    destruct (q_fragments q) as [|fr frs]; [injection H as <-; constructor|].
    inversion U; subst. destruct (fragment_rows O T qo fr r) as [x|] eqn:E; [|discriminate].
    apply Hfr in E; [|assumption]. clear -H E H3 Hfr. revert x o E H. induction frs as [|g frs IH]; intros x o E H; cbn in H.
    - injection H as <-. exact E.
    - inversion H3; subst. destruct (fragment_rows O T qo g r) as [y|] eqn:F; [|discriminate].
      eapply IH; [assumption| |exact H]. apply o_mul_utf8; [exact E|]. eapply Hfr; eassumption.
  Qed.

  Lemma string_query_same : forall lossy q r,
    (forall b, is_utf8 b -> lossy b = b) ->
    Forall qfragment_utf8 (q_fragments q) -> record_utf8 r ->
    string_record_query O T qo lossy q r = record_query O T qo q r.
  Proof.
    intros lossy q r L U R. unfold string_record_query. destruct (record_query O T qo q r) as [o|] eqn:E; [|reflexivity].
    apply record_query_utf8 in E; [|assumption..]. f_equal.
    induction E as [|row o Hrow Ho IH]; [reflexivity|]. cbn. f_equal; [|exact IH].
    induction Hrow as [|x row Hx Hr IHr]; [reflexivity|]. cbn. f_equal; auto.
  Qed.

  Lemma string_format_same : forall lossy strip ci fm r,
    (forall b, is_utf8 b -> lossy b = b) -> frag_utf8 (fmt_fragments fm) -> record_utf8 r ->
    string_record_format O T lossy strip ci fm r = record_format O T strip ci fm r.
  Proof.
    intros lossy strip ci fm r L U R. unfold string_record_format.
    destruct (record_format O T strip ci fm r) as [vs|] eqn:E; [|reflexivity].
    apply record_format_utf8 in E; [|assumption..]. f_equal.
    induction E as [|x vs Hx Hvs IH]; [reflexivity|]. cbn. f_equal; auto.
  Qed.
End Fns.

(** * Consequences for parsed paths, formats and queries; counterexamples *)

From Coq Require Import String.
From Verif Require Import Bytes Winnow RecordModel TagOccModel StrParserModel MatcherModel
  StateParser MatcherParserModel MatcherSpec BaseProofs TagOccProofs StateParserProofs
  MatcherParserProofs MatcherExtraProofs Utf8Spec Utf8Model Utf8Proofs ByteRecordModel ByteRecordProofs
  PathModel FmtModel QueryModel QuerySpec QueryProofs QueryParserProofs QueryUtf8Proofs.

Lemma sr_utf8 : forall b r, sr_try_from b = Some r -> record_utf8 (br_record r).
Proof.
  intros b r H. assert (G : exists s, sr_try_from b = Some s) by eauto.
  unfold sr_try_from in H. destruct (record_validate (br_record b)); [|discriminate]. injection H as <-.
  exact (proj1 (string_record_iff b) G).
Qed.

Lemma string_path_ok : forall O ci p b r, opt_sm_wf O ci (p_sub p) -> sr_try_from b = Some r ->
  exists vs, string_record_path O ci p (br_record r) = Some vs
    /\ record_path O ci p (br_record b) = Some vs /\ Forall is_utf8 vs.
Proof.
  intros O ci p b r W H. pose proof (sr_utf8 _ _ H) as U.
  assert (b = r) as <- by (unfold sr_try_from in H; destruct (record_validate (br_record b)); congruence).
  destruct (record_path_lists O ci p (br_record b) W) as (vs & H1 & _). exists vs.
  rewrite string_path_same by exact U. split; [exact H1|]. split; [exact H1|].
  pose proof (string_path_same O ci p _ U) as E. unfold string_record_path in E. rewrite H1 in E.
  destruct (forallb utf8_valid vs) eqn:F; [|discriminate]. apply Forall_forall. intros v Hv.
  rewrite forallb_forall in F. apply utf8_valid_iff, F, Hv.
Qed.

Lemma parsed_path : forall O ci s b p s', regexes_compile O ci -> path_new O s b = (Some (Some p), s') ->
  path_wf O ci p.
Proof.
  intros O ci s b p s' [R1 R2] E. apply path_checked_wf; [assumption..|].
  eapply new_checked; [apply path_new_total|exact E].
Qed.
Lemma parsed_format : forall O ci s b f s', regexes_compile O ci -> format_new O s b = (Some (Some f), s') ->
  format_wf O ci f.
Proof.
  intros O ci s b p s' [R1 R2] E. apply format_checked_wf; [assumption..|].
  eapply new_checked; [apply format_new_total|exact E].
Qed.
Lemma parsed_query : forall O qo s b q s', regexes_compile O (qo_case_ignore qo) ->
  query_new O s b = (Some (Some q), s') -> query_wf O qo q.
Proof.
  intros O qo s b p s' [R1 R2] E. apply query_checked_wf; [assumption..|].
  eapply new_checked; [apply query_new_total|exact E].
Qed.

Lemma path_exact : forall O ci s b p s', regexes_compile O ci ->
  path_new O s b = (Some (Some p), s') ->
  forall r, exists vs, record_path O ci p r = Some vs
    /\ record_first O ci p r = Some (hd_error vs)
    /\ forall ws, path_lists O ci p r ws <-> ws = vs.
Proof.
  intros O ci s b p s' R E r. destruct (parsed_path _ _ _ _ _ _ R E) as [W _].
  destruct (record_path_lists O ci p r W) as (vs & H1 & H2). exists vs.
  split; [exact H1|]. split; [apply record_first_head; exact H1|].
  intros ws. split; [intros H; eapply path_lists_fun; eassumption|intros ->; exact H2].
Qed.

Lemma picks_weaken : forall A B (P Q : A -> Prop) (f : A -> B) l out,
  (forall x, P x <-> Q x) -> picks P f l out -> picks Q f l out.
Proof.
  induction 2; constructor; try assumption; [apply H; assumption|]. rewrite <- H. assumption.
Qed.

Lemma Forall2_impl : forall A B (R S : A -> B -> Prop) l k,
  (forall a b, R a b -> S a b) -> Forall2 R l k -> Forall2 S l k.
Proof. induction 2; constructor; auto. Qed.

Lemma ppn_identifiers : forall O r, exists ids, identifiers r ids /\ record_ppn O r = Some (hd_error ids).
Proof.
  intros O r. destruct (record_path_lists O false ppn_path r I) as (vs & H1 & fs & vss & H2 & H3 & ->).
  exists (concat vss). split; [|apply record_first_head; exact H1].
  exists fs, vss. split; [|split; [|reflexivity]].
  - eapply picks_weaken; [|exact H2]. intros f. unfold addressed, tag_occ, id_field.
    change (p_tag ppn_path) with (TMTag (lit "003@")). change (p_occ ppn_path) with OMNone.
    change (p_sub ppn_path) with (@None subfield_matcher).
    unfold tm_is_match, om_is_match, condition_holds.
    rewrite bytes_eqb_eq. destruct (f_occ f) as [o|]; [rewrite bytes_eqb_eq|].
    + split; [intros [[G1 G2] _]; split; [congruence|right; congruence]|].
      intros [G1 [G2|G2]]; [discriminate|]. split; [split; [congruence|congruence]|exact I].
    + split; [intros [[G1 G2] _]; split; [congruence|left; reflexivity]|].
      intros [G1 _]. split; [split; [congruence|reflexivity]|exact I].
  - eapply Forall2_impl; [|exact H3]. intros f w H. eapply picks_weaken; [|exact H]. intros s. cbn.
    split; [intros (c & [<-|[]] & [G|[]]); left; exact G|].
    intros [G|[]]. exists (lit "0"). split; [left; reflexivity|left; exact G].
Qed.

Lemma identifiers_fun : forall r a, identifiers r a -> forall b, identifiers r b -> a = b.
Proof.
  intros r a (fs & vss & H1 & H2 & ->) b (fs' & wss & H1' & H2' & ->).
  assert (fs = fs') by (eapply picks_fun; eassumption). subst fs'.
  f_equal. eapply Forall2_picks_fun; eassumption.
Qed.

Lemma format_exact : forall O T strip ci s b fm s', regexes_compile O ci ->
  format_new O s b = (Some (Some fm), s') ->
  forall r, exists outs, record_format O T strip ci fm r = Some outs
    /\ forall ws, format_lists O ci T strip fm r ws <-> ws = outs.
Proof.
  intros O T strip ci s b fm s' R E r.
  destruct (record_format_lists T strip O ci fm r (parsed_format _ _ _ _ _ _ R E)) as (outs & H1 & H2).
  exists outs. split; [exact H1|]. intros ws. split; [|intros ->; exact H2].
  intros H. eapply format_lists_fun; eassumption.
Qed.

Lemma merge_singles : forall ts : list outcome, Forall (fun t => length t = 1%nat) ts ->
  length (lex_product ts) = 1%nat.
Proof.
  intros ts H. rewrite lex_product_length. induction H as [|t ts H1 H2 IH]; [reflexivity|].
  cbn. rewrite H1, IH. reflexivity.
Qed.
Lemma query_merged_single : forall O T qo s b q s', regexes_compile O (qo_case_ignore qo) ->
  qo_merge qo = true -> query_new O s b = (Some (Some q), s') ->
  forall r, exists row, record_query O T qo q r = Some [row].
Proof.
  intros O T qo s b q s' R M E r.
  destruct (record_query_product O T qo q r (parsed_query _ _ _ _ _ _ R E)) as (ts & H1 & H2 & _).
  assert (L : length (lex_product ts) = 1%nat).
  { apply merge_singles. clear -H1 M. induction H1 as [|fr t frs ts H HH IH]; [constructor|].
    constructor; [|exact IH]. destruct H as (rows0 & _ & H). rewrite M in H.
    destruct H as (row & -> & _). reflexivity. }
  rewrite H2. destruct (lex_product ts) as [|row [|]]; try discriminate. eauto.
Qed.
Lemma query_total : forall O T qo s b q s', regexes_compile O (qo_case_ignore qo) ->
  query_new O s b = (Some (Some q), s') ->
  forall r, exists rows, record_query O T qo q r = Some rows /\ rows <> []
    /\ Forall (fun row => length row = query_columns q) rows.
Proof.
  intros O T qo s b q s' R E r.
  destruct (record_query_product O T qo q r (parsed_query _ _ _ _ _ _ R E)) as (ts & H1 & H2 & H3 & H4).
  eauto.
Qed.
Lemma query_product : forall O T qo s b q s', regexes_compile O (qo_case_ignore qo) ->
  query_new O s b = (Some (Some q), s') ->
  forall r, exists ts, Forall2 (fun fr t => final_rows O T qo fr r t) (q_fragments q) ts
    /\ record_query O T qo q r = Some (lex_product ts).
Proof.
  intros O T qo s b q s' R E r.
  destruct (record_query_product O T qo q r (parsed_query _ _ _ _ _ _ R E)) as (ts & H1 & H2 & H3 & H4).
  eauto.
Qed.

(** [final_rows] is a function *)
Lemma column_entries_fun : forall qo f codes a b,
  column_entries qo f codes a -> column_entries qo f codes b -> a = b.
Proof.
  intros qo f codes a b (vs & H1 & H2) (ws & G1 & G2).
  assert (vs = ws) by (eapply picks_fun; eassumption). subst ws. destruct (qo_squash qo); [|congruence].
  destruct H2 as (e & H2 & ->). destruct G2 as (e' & G2 & ->). f_equal. eapply joined_fun; eassumption.
Qed.
Lemma Forall2_det : forall A B (R : A -> B -> Prop), (forall x a b, R x a -> R x b -> a = b) ->
  forall l a b, Forall2 R l a -> Forall2 R l b -> a = b.
Proof.
  intros A B R D l a b H. revert b. induction H; intros b' H'; inversion H'; subst; [reflexivity|].
  f_equal; eauto.
Qed.
Lemma field_rows_fun : forall qo p f a b, field_rows qo p f a -> field_rows qo p f b -> a = b.
Proof.
  intros qo p f a b (cs & H & ->) (ds & G & ->). do 2 f_equal.
  eapply Forall2_det; [|exact H|exact G]. intros. eapply column_entries_fun; eassumption.
Qed.
Lemma rows_of_fun : forall O T qo fr r a b, rows_of O T qo fr r a -> rows_of O T qo fr r b -> a = b.
Proof.
  intros O T qo [p|l|fm] r a b H G.
  - destruct H as (fs & rss & H1 & H2 & ->). destruct G as (fs' & rss' & G1 & G2 & ->).
    assert (fs = fs') by (eapply picks_fun; eassumption). subst fs'.
    assert (rss = rss') by (eapply Forall2_det; [|exact H2|exact G2]; intros; eapply field_rows_fun; eassumption).
    subst. reflexivity.
  - cbn in *. congruence.
  - destruct H as (o & H1 & ->). destruct G as (o' & G1 & ->). do 2 f_equal. eapply format_lists_fun; eassumption.
Qed.
Lemma merged_fun : forall qo n rows a b, merged qo n rows a -> merged qo n rows b -> a = b.
Proof.
  intros qo n rows a b (x & -> & Lx & Hx) (y & -> & Ly & Hy). f_equal.
  apply nth_ext with (d := []) (d' := []); [congruence|]. intros j Hj. rewrite Lx in Hj.
  eapply joined_fun; [apply Hx|apply Hy]; exact Hj.
Qed.
Lemma final_rows_fun : forall O T qo fr r a b, final_rows O T qo fr r a -> final_rows O T qo fr r b -> a = b.
Proof.
  intros O T qo fr r a b (x & Hx & H) (y & Hy & G).
  assert (x = y) by (eapply rows_of_fun; eassumption). subst y.
  destruct (qo_merge qo); [|congruence]. eapply merged_fun; eassumption.
Qed.

Lemma string_query_exact : forall O T qo lossy s b q s' br r,
  text_fns_utf8 T -> is_utf8 (qo_separator qo) -> (forall b, is_utf8 b -> lossy b = b) ->
  query_new O s b = (Some (Some q), s') -> sr_try_from br = Some r ->
  string_record_query O T qo lossy q (br_record r) = record_query O T qo q (br_record br).
Proof.
  intros O T qo lossy s b q s' br r HT Hsep HL E S. pose proof (sr_utf8 _ _ S) as U.
  assert (br = r) as <- by (unfold sr_try_from in S; destruct (record_validate (br_record br)); congruence).
  apply string_query_same; try assumption; try (intros x Hx; apply HT; exact Hx).
  eapply query_new_utf8; exact E.
Qed.

Lemma string_format_exact : forall O T lossy strip ci s b fm s' br r,
  text_fns_utf8 T -> (forall b, is_utf8 b -> lossy b = b) ->
  format_new O s b = (Some (Some fm), s') -> sr_try_from br = Some r ->
  string_record_format O T lossy strip ci fm (br_record r) = record_format O T strip ci fm (br_record br).
Proof.
  intros O T lossy strip ci s b fm s' br r HT HL E S. pose proof (sr_utf8 _ _ S) as U.
  assert (br = r) as <- by (unfold sr_try_from in S; destruct (record_validate (br_record br)); congruence).
  apply string_format_same; try assumption; try (intros x Hx; apply HT; exact Hx).
  eapply format_new_utf8; exact E.
Qed.

(** ** Formats *)

Lemma group_bound_ignored : forall T strip body n n' m f,
  fmt_frag T strip (FGroup body n m) f = fmt_frag T strip (FGroup body n' m) f.
Proof. reflexivity. Qed.

Lemma group_bound_refuted : forall O T, exists fm,
  fst (format_new O fresh (lit "012A{(a..)..1}")) = Some (Some fm)
  /\ record_format O T false false fm
       [mkField (lit "012A") None [mkSubfield 97 (lit "x"); mkSubfield 97 (lit "y")]]
     = Some [lit "xy"].
Proof. intros O T. eexists. split; vm_compute; reflexivity. Qed.

Lemma history_format_refuted : forall O,
  (exists m, fst (format_new O fresh (lit "012A{(a)}")) = Some (Some m))
  /\ exists history s,
       fold_left (fun s e => snd (format_new O s e)) history fresh = s
       /\ fst (format_new O s (lit "012A{(a)}")) = Some None.
Proof.
  intros O. split; [eexists; vm_compute; reflexivity|].
  exists (repeat (lit "012A{(a") 8). eexists. split; [reflexivity|]. vm_compute. reflexivity.
Qed.

Lemma format_display_text : forall O s b fm s', format_new O s b = (Some (Some fm), s') ->
  format_display fm = trim b.
Proof.
  intros O s b fm s' E. unfold format_new, sparse_all in E.
  destruct (parse_format O s b) as [[x r| |] s1] eqn:F; try discriminate. destruct r; [|discriminate].
  injection E as -> _. unfold parse_format, staken in F.
  match type of F with (match ?p s b with _ => _ end = _) => destruct (p s b) as [[y r0| |] s0] end; try discriminate.
  destruct y as [[[t o] f] m]. injection F as <- -> _. unfold format_display. cbn. rewrite taken_all. reflexivity.
Qed.

Lemma format_field_total : forall O T strip s b fm s', format_new O s b = (Some (Some fm), s') ->
  forall f, exists x, fmt_field T strip fm f = Some x.
Proof.
  intros O T strip s b fm s' E f.
  assert (G : format_checked O fm) by (eapply new_checked; [apply format_new_total|exact E]).
  destruct (fmt_frag_text T strip (fmt_fragments fm) f (proj2 G)) as (v & Hv & _).
  unfold fmt_field. rewrite Hv. eauto.
Qed.
Lemma format_new_wf : forall O s b,
  exists r, fst (format_new O s b) = Some r
    /\ (forall f, r = Some f -> frag_wf (fmt_fragments f)).
Proof.
  intros O s b. destruct (format_new_total O s b) as (r & H1 & H2). exists r. split; [exact H1|].
  intros f Hf. apply (H2 f Hf).
Qed.

(** * Proofs about paths, formats and queries *)

From Coq Require Import String.
From Verif Require Import Bytes Winnow RecordModel TagOccModel MatcherModel MatcherSpec MatcherProofs
  PathModel FmtModel QueryModel QuerySpec BaseProofs.

Lemma picks_fun : forall A B (P : A -> Prop) (f : A -> B) l out,
  picks P f l out -> forall out', picks P f l out' -> out = out'.
Proof.
  induction 1; intros out' H'; inversion H'; subst; try contradiction; f_equal; auto.
Qed.
Lemma picks_filter : forall A B (P : A -> Prop) (f : A -> B) g l,
  (forall x, In x l -> (g x = true <-> P x)) -> picks P f l (map f (filter g l)).
Proof.
  induction l as [|x l IH]; intros H; [constructor|]. cbn.
  assert (IH' : picks P f l (map f (filter g l))) by (apply IH; intros; apply H; right; assumption).
  specialize (H x (or_introl eq_refl)). destruct (g x).
  - cbn. apply picks_yes; [apply H; reflexivity|exact IH'].
  - apply picks_no; [|exact IH']. intros HP. apply H in HP. discriminate.
Qed.
Lemma picks_id_In : forall A (P : A -> Prop) l out, picks P (fun x => x) l out ->
  forall x, In x out <-> In x l /\ P x.
Proof.
  induction 1; intros z; cbn.
  - tauto.
  - rewrite IHpicks. split; [intros [<-|[? ?]]; auto|intros [[<-|?] ?]; auto].
  - rewrite IHpicks. split; [tauto|]. intros [[<-|?] ?]; tauto.
Qed.
Lemma filter_p_picks : forall A (P : A -> Prop) (g : A -> option bool) l,
  (forall x, In x l -> decides (g x) (P x)) ->
  exists out, filter_p g l = Some out /\ picks P (fun x => x) l out.
Proof.
  induction l as [|x l IH]; intros H; [exists []; split; [reflexivity|constructor]|].
  destruct IH as (out & Ho & Hp); [intros; apply H; right; assumption|].
  destruct (H x (or_introl eq_refl)) as (b & Hb & Hiff). cbn. rewrite Hb, Ho. destruct b.
  - exists (x :: out). split; [reflexivity|]. apply (picks_yes P (fun x => x)); [apply Hiff; reflexivity|exact Hp].
  - exists out. split; [reflexivity|]. apply picks_no; [|exact Hp]. intros HP. apply Hiff in HP. discriminate.
Qed.

Lemma code_in_iff : forall codes s, code_in codes s = true <-> In (sf_code s) codes.
Proof. intros. unfold code_in. apply mem_byte_In. Qed.

Lemma values_of_filter : forall codes f,
  values_of codes f (map sf_value (filter (code_in codes) (f_subfields f))).
Proof. intros. apply picks_filter. intros. apply code_in_iff. Qed.

Lemma addressed_decides : forall O ci t o sm f, opt_sm_wf O ci sm ->
  decides (tag_occ_sub_match O ci t o sm f) (addressed O ci t o sm f).
Proof. intros. apply tag_occ_sub_decides. assumption. Qed.

Section Paths.
  Variable O : oracles.
  Variable ci : bool.

  Lemma path_values_picks : forall p f,
    picks (fun s => exists codes, In codes (p_codes p) /\ In (sf_code s) codes) sf_value
      (f_subfields f) (path_values p f).
  Proof.
    intros p f. unfold path_values. apply picks_filter. intros s _.
    rewrite existsb_exists. split; intros (c & H1 & H2); exists c; (split; [exact H1|]);
      apply code_in_iff; exact H2.
  Qed.

  Lemma record_path_lists : forall p r, opt_sm_wf O ci (p_sub p) ->
    exists vs, record_path O ci p r = Some vs /\ path_lists O ci p r vs.
  Proof.
    intros p r W.
    destruct (filter_p_picks _ (addressed O ci (p_tag p) (p_occ p) (p_sub p)) (path_field O ci p) r)
      as (fs & H1 & H2).
    { intros f _. apply addressed_decides. exact W. }
    unfold record_path. rewrite H1. exists (flat_map (path_values p) fs). split; [reflexivity|].
    exists fs, (map (path_values p) fs). split; [exact H2|]. split.
    - clear. induction fs; constructor; auto. apply path_values_picks.
    - apply flat_map_concat_map.
  Qed.

  Lemma Forall2_picks_fun : forall A B C (P : A -> Prop) (f : A -> B) (g : C -> list A) xs ys zs,
    Forall2 (fun x => picks P f (g x)) xs ys -> Forall2 (fun x => picks P f (g x)) xs zs -> ys = zs.
  Proof.
    intros A B C P f g xs ys zs H. revert zs. induction H; intros zs H'; inversion H'; subst; [reflexivity|].
    f_equal; [eapply picks_fun; eassumption|auto].
  Qed.

  Lemma path_lists_fun : forall p r vs, path_lists O ci p r vs -> forall ws, path_lists O ci p r ws -> vs = ws.
  Proof.
    intros p r vs (fs & vss & H1 & H2 & ->) ws (fs' & wss & H1' & H2' & ->).
    assert (fs = fs') by (eapply picks_fun; eassumption). subst fs'.
    f_equal. eapply Forall2_picks_fun; eassumption.
  Qed.

  Lemma record_first_head : forall p r vs, record_path O ci p r = Some vs ->
    record_first O ci p r = Some (hd_error vs).
  Proof.
    intros p. unfold record_path. induction r as [|f fs IH]; intros vs H; cbn in H.
    - injection H as <-. reflexivity.
    - cbn. destruct (path_field O ci p f) as [[]|]; [| |discriminate].
      + destruct (filter_p (path_field O ci p) fs) as [l|]; [|discriminate]. injection H as <-.
        cbn. destruct (path_values p f); [|reflexivity]. cbn. apply IH. reflexivity.
      + destruct (filter_p (path_field O ci p) fs) as [l|]; [|discriminate]. injection H as <-.
        apply IH. reflexivity.
  Qed.
End Paths.

(** ** Formats *)

Section FragInd.
  Variable P : fragments -> Prop.
  Hypothesis HG : forall b n m, P b -> P (FGroup b n m).
  Hypothesis HV : forall c p s n m, P (FValue c p s n m).
  Hypothesis HA : forall l, Forall P l -> P (FAndThen l).
  Hypothesis HC : forall l, Forall P l -> P (FCons l).
  Fixpoint frag_rect (fr : fragments) : P fr :=
    match fr with
    | FGroup b n m => HG b n m (frag_rect b)
    | FValue c p s n m => HV c p s n m
    | FAndThen l => HA l ((fix go l : Forall P l :=
        match l with [] => Forall_nil P | x :: r => Forall_cons x (frag_rect x) (go r) end) l)
    | FCons l => HC l ((fix go l : Forall P l :=
        match l with [] => Forall_nil P | x :: r => Forall_cons x (frag_rect x) (go r) end) l)
    end.
End FragInd.

Lemma stripped_strip : forall b, stripped b (strip_overread b).
Proof.
  assert (G : forall b u, ~ In 64 u -> stripped (u ++ b) (u ++ strip_overread b)).
  { induction b as [|c b IH]; intros u Hu; cbn.
    - rewrite app_nil_r. apply strip_none. exact Hu.
    - destruct (N.eqb_spec c 64) as [->|Hc]; [apply strip_first; exact Hu|].
      specialize (IH (u ++ [c])). rewrite <- !app_assoc in IH. cbn in IH. apply IH.
      rewrite in_app_iff. intros [?|[?|[]]]; [contradiction|]. congruence. }
  intros b. apply (G b []). intros [].
Qed.

Lemma stripped_fun : forall a b, stripped a b -> forall c, stripped a c -> b = c.
Proof.
  assert (G : forall u w u' w', ~ In 64 u -> ~ In 64 u' -> u ++ 64 :: w = u' ++ 64 :: w' -> u = u' /\ w = w').
  { induction u as [|x u IH]; intros w [|y u'] w' H1 H2 E; cbn in E.
    - injection E as ->. auto.
    - injection E as <- E. exfalso. apply H2. left. reflexivity.
    - injection E as -> E. exfalso. apply H1. left. reflexivity.
    - injection E as <- E. destruct (IH w u' w') as [-> ->]; auto.
      + intros H. apply H1. right. exact H.
      + intros H. apply H2. right. exact H. }
  intros a b H. destruct H as [b Hb|u w Hu]; intros c H; inversion H; subst.
  - reflexivity.
  - exfalso. apply Hb. apply in_or_app. right. left. reflexivity.
  - exfalso. apply H0. apply in_or_app. right. left. reflexivity.
  - destruct (G _ _ _ _ H1 Hu H0) as [-> ->]. reflexivity.
Qed.

Section Formats.
  Variable T : text_fns.
  Variable strip : bool.

  Lemma when_intro : forall (b : bool) (R : bytes -> bytes -> Prop) x y, R x y -> when b R x (if b then y else x).
  Proof. intros [] R x y H; [exact H|reflexivity]. Qed.

  Lemma modified_modify : forall m v, modified T m v (modify T m v).
  Proof.
    intros m v. unfold modified, modify. do 4 eexists.
    repeat split; apply when_intro; try reflexivity; [apply stripped_strip|].
    match goal with |- picks _ _ ?x _ => rewrite <- (map_id (filter _ x)) end.
    apply picks_filter. intros c _. destruct (N.eqb_spec c 32); cbn; split; congruence.
  Qed.

  Lemma when_fun : forall (b : bool) (R : bytes -> bytes -> Prop) x y z,
    (forall x y z, R x y -> R x z -> y = z) -> when b R x y -> when b R x z -> y = z.
  Proof. intros [] R x y z H; cbn; [apply H|congruence]. Qed.

  Lemma modified_fun : forall m v a b, modified T m v a -> modified T m v b -> a = b.
  Proof.
    intros m v a b (x1 & x2 & x3 & x4 & H1 & H2 & H3 & H4 & H5)
      (y1 & y2 & y3 & y4 & G1 & G2 & G3 & G4 & G5).
    assert (x1 = y1) by (eapply when_fun; [|eassumption|eassumption]; intros; eapply stripped_fun; eassumption).
    subst y1.
    assert (x2 = y2) by (eapply when_fun; [|exact H2|exact G2]; cbn; congruence). subst y2.
    assert (x3 = y3) by (eapply when_fun; [|exact H3|exact G3]; intros; eapply picks_fun; eassumption). subst y3.
    assert (x4 = y4) by (eapply when_fun; [|exact H4|exact G4]; cbn; congruence). subst y4.
    eapply when_fun; [|exact H5|exact G5]; cbn; congruence.
  Qed.

  Definition maybe_strip (v : bytes) : bytes := if strip then strip_overread v else v.

  Lemma value_loop_spec : forall codes pre suf bound sfs cnt acc, cnt <= bound ->
    value_loop strip codes pre suf bound cnt sfs acc
    = acc ++ concat (map (fun v => opt_text pre ++ v ++ opt_text suf)
        (firstn (N.to_nat (bound - cnt)) (map maybe_strip (map sf_value (filter (code_in codes) sfs))))).
  Proof.
    induction sfs as [|s sfs IH]; intros cnt acc H; cbn [value_loop filter].
    - cbn. rewrite firstn_nil. cbn. rewrite app_nil_r. reflexivity.
    - destruct (N.ltb_spec cnt bound); cbn [negb].
      + destruct (code_in codes s); cbn [negb].
        * rewrite IH by lia. cbn [map].
          replace (N.to_nat (bound - cnt)) with (S (N.to_nat (bound - (cnt + 1)))) by lia.
          cbn [firstn map concat]. rewrite <- !app_assoc. reflexivity.
        * apply IH. lia.
      + replace (N.to_nat (bound - cnt)) with 0%nat by lia. cbn. rewrite app_nil_r. reflexivity.
  Qed.

  (** the loops over lists *)
  Fixpoint cons_loop (f : field) (l : list fragments) (acc : bytes) : option bytes :=
    match l with
    | [] => Some acc
    | x :: rest => do v <- fmt_frag T strip x f; cons_loop f rest (acc ++ v)
    end.
  Fixpoint and_then_loop (f : field) (l : list fragments) (acc : bytes) : option bytes :=
    match l with
    | [] => Some acc
    | x :: rest =>
        do v <- fmt_frag T strip x f;
        match v with [] => Some acc | _ => and_then_loop f rest (acc ++ v) end
    end.
  Lemma fmt_frag_cons : forall l f, fmt_frag T strip (FCons l) f = cons_loop f l [].
  Proof.
    intros l f. cbn [fmt_frag]. generalize (@nil byte) as acc. induction l as [|x l IH]; intros acc; [reflexivity|].
    cbn [cons_loop]. destruct (fmt_frag T strip x f); [apply IH|reflexivity].
  Qed.
  Lemma fmt_frag_and_then : forall l f, fmt_frag T strip (FAndThen l) f = and_then_loop f l [].
  Proof.
    intros l f. cbn [fmt_frag]. generalize (@nil byte) as acc. induction l as [|x l IH]; intros acc; [reflexivity|].
    cbn [and_then_loop]. destruct (fmt_frag T strip x f) as [[|]|]; [reflexivity|apply IH|reflexivity].
  Qed.

  Lemma until_empty_total : forall l, exists out, until_empty l out.
  Proof.
    induction l as [|x l (out & H)]; [exists []; constructor|].
    destruct x; [exists []; constructor|]. eexists. constructor; [discriminate|exact H].
  Qed.

  Definition frag_all_wf (l : list fragments) : Prop := Forall frag_wf l.
  Lemma frag_wf_list : forall l,
    (fix all l := match l with [] => True | x :: r => frag_wf x /\ all r end) l <-> Forall frag_wf l.
  Proof.
    induction l as [|x l IH]; [split; auto|]. rewrite Forall_cons_iff, <- IH. reflexivity.
  Qed.

  Lemma fmt_frag_text : forall fr f, frag_wf fr ->
    exists v, fmt_frag T strip fr f = Some v /\ frag_text T strip f fr v.
  Proof.
    intros fr f. induction fr as [b n m IH|c p s n m|l IH|l IH] using frag_rect; intros W.
    - destruct W as [W1 W2]. destruct (IH W2) as (v & Hv & Ht).
      exists (modify T m v). split.
      + cbn [fmt_frag]. rewrite Hv. destruct b; [contradiction|reflexivity..].
      + econstructor; [exact Ht|apply modified_modify].
    - eexists. split; [reflexivity|].
      rewrite value_loop_spec by lia. rewrite N.sub_0_r. cbn [app].
      eapply ft_value; [apply values_of_filter| |apply modified_modify].
      induction (map sf_value _) as [|v vs IHv]; constructor; [|exact IHv].
      apply when_intro. apply stripped_strip.
    - cbn [frag_wf] in W. rewrite frag_wf_list in W.
      assert (H : exists outs, Forall2 (frag_text T strip f) l outs
                   /\ Forall2 (fun x v => fmt_frag T strip x f = Some v) l outs).
      { clear -IH W. induction l as [|x l IHl]; [exists []; split; constructor|].
        inversion IH; subst. inversion W; subst. destruct (H1 H3) as (v & Hv & Ht).
        destruct (IHl H2 H4) as (outs & G1 & G2). exists (v :: outs). split; constructor; assumption. }
      destruct H as (outs & H1 & H2). destruct (until_empty_total outs) as (out & Hout).
      exists out. split; [|eapply ft_and_then; eassumption].
      rewrite fmt_frag_and_then. clear -H2 Hout.
      assert (G : forall l outs out acc, Forall2 (fun x v => fmt_frag T strip x f = Some v) l outs ->
                  until_empty outs out -> and_then_loop f l acc = Some (acc ++ out)).
      { induction l0 as [|x l0 IH]; intros outs0 out0 acc H Ho; inversion H; subst; cbn.
        - inversion Ho; subst. rewrite app_nil_r. reflexivity.
        - rewrite H3. inversion Ho; subst; [rewrite app_nil_r; reflexivity|].
          destruct y; [congruence|]. erewrite IH by eassumption. rewrite <- app_assoc. reflexivity. }
      apply (G l outs out [] H2 Hout).
    - cbn [frag_wf] in W. rewrite frag_wf_list in W.
      assert (H : exists outs, Forall2 (frag_text T strip f) l outs
                   /\ forall acc, cons_loop f l acc = Some (acc ++ concat outs)).
      { clear -IH W. induction l as [|x l IHl].
        - exists []. split; [constructor|]. intros acc. cbn. rewrite app_nil_r. reflexivity.
        - inversion IH; subst. inversion W; subst. destruct (H1 H3) as (v & Hv & Ht).
          destruct (IHl H2 H4) as (outs & G1 & G2). exists (v :: outs).
          split; [constructor; assumption|]. intros acc. cbn. rewrite Hv, G2, <- app_assoc. reflexivity. }
      destruct H as (outs & H1 & H2). exists (concat outs).
      split; [rewrite fmt_frag_cons; apply H2|]. constructor. exact H1.
  Qed.

  Lemma until_empty_fun : forall l a, until_empty l a -> forall b, until_empty l b -> a = b.
  Proof.
    induction 1; intros b H'; inversion H'; subst; try congruence. f_equal. auto.
  Qed.

  Lemma Forall2_fun : forall A B (R : A -> B -> Prop) l,
    Forall (fun x => forall a b, R x a -> R x b -> a = b) l ->
    forall a b, Forall2 R l a -> Forall2 R l b -> a = b.
  Proof.
    induction 1; intros a b Ha Hb; inversion Ha; subst; inversion Hb; subst; [reflexivity|].
    f_equal; [eapply H; eassumption|eapply IHForall; eassumption].
  Qed.

  Lemma frag_text_fun : forall fr f a b, frag_text T strip f fr a -> frag_text T strip f fr b -> a = b.
  Proof.
    intros fr f. induction fr as [b n m IH|c p s n m|l IH|l IH] using frag_rect; intros u w Hu Hw.
    - inversion Hu; subst. inversion Hw; subst.
      assert (v = v0) by (eapply IH; eassumption). subst. eapply modified_fun; eassumption.
    - inversion Hu; subst. inversion Hw; subst.
      assert (vs = vs0) by (eapply picks_fun; eassumption). subst vs0.
      assert (vs' = vs'0).
      { eapply Forall2_fun; [|eassumption|eassumption]. apply Forall_forall. intros x _ a b.
        apply when_fun. intros; eapply stripped_fun; eassumption. }
      subst. eapply modified_fun; eassumption.
    - inversion Hu; subst. inversion Hw; subst.
      assert (outs = outs0) by (eapply Forall2_fun; [|eassumption|eassumption]; exact IH). subst.
      eapply until_empty_fun; eassumption.
    - inversion Hu; subst. inversion Hw; subst.
      assert (outs = outs0) by (eapply Forall2_fun; [|eassumption|eassumption]; exact IH). subst.
      reflexivity.
  Qed.

  Variable O : oracles.
  Variable ci : bool.

  Lemma record_format_lists : forall fm r, format_wf O ci fm ->
    exists outs, record_format O T strip ci fm r = Some outs /\ format_lists O ci T strip fm r outs.
  Proof.
    intros fm r [W1 W2]. induction r as [|f fs (outs & H1 & fs' & texts & H2 & H3 & H4)].
    - exists []. split; [reflexivity|]. exists [], []. repeat split; constructor.
    - destruct (addressed_decides O ci (fmt_tag fm) (fmt_occ fm) (fmt_sub fm) f W1) as (b & Hb & Hiff).
      cbn. rewrite Hb. destruct b.
      + destruct (fmt_frag_text (fmt_fragments fm) f W2) as (v & Hv & Ht).
        unfold fmt_field. rewrite Hv, H1. eexists. split; [reflexivity|].
        exists (f :: fs'), (v :: texts). split; [|split].
        * apply (picks_yes _ (fun f => f)); [apply Hiff; reflexivity|exact H2].
        * constructor; assumption.
        * destruct v; [apply picks_no; [congruence|exact H4]|].
          apply (picks_yes (fun t : bytes => t <> []) (fun t => t)); [discriminate|exact H4].
      + exists outs. split; [exact H1|]. exists fs', texts. split; [|split; assumption].
        apply picks_no; [|exact H2]. intros H. apply Hiff in H. discriminate.
  Qed.

  Lemma format_lists_fun : forall fm r a b,
    format_lists O ci T strip fm r a -> format_lists O ci T strip fm r b -> a = b.
  Proof.
    intros fm r a b (fs & ts & H1 & H2 & H3) (fs' & ts' & G1 & G2 & G3).
    assert (fs = fs') by (eapply picks_fun; eassumption). subst fs'.
    assert (ts = ts').
    { eapply (Forall2_fun _ _ (fun f t => frag_text T strip f (fmt_fragments fm) t)); [|eassumption|eassumption].
      apply Forall_forall. intros x _ u w. apply frag_text_fun. }
    subst. eapply picks_fun; eassumption.
  Qed.
End Formats.

(** ** Queries *)

Lemma flat_map_flat_map : forall A B C (f : A -> list B) (g : B -> list C) l,
  flat_map g (flat_map f l) = flat_map (fun x => flat_map g (f x)) l.
Proof.
  induction l as [|x l IH]; [reflexivity|]. cbn. rewrite flat_map_app, IH. reflexivity.
Qed.
Lemma flat_map_map : forall A B C (f : A -> B) (g : B -> list C) l,
  flat_map g (map f l) = flat_map (fun x => g (f x)) l.
Proof. induction l as [|x l IH]; [reflexivity|]. cbn. rewrite IH. reflexivity. Qed.
Lemma map_flat_map : forall A B C (f : A -> list B) (g : B -> C) l,
  map g (flat_map f l) = flat_map (fun x => map g (f x)) l.
Proof. induction l as [|x l IH]; [reflexivity|]. cbn. rewrite map_app, IH. reflexivity. Qed.
Lemma flat_map_nonempty : forall A B (f : A -> list B) l,
  l <> [] -> (forall x, In x l -> f x <> []) -> flat_map f l <> [].
Proof.
  intros A B f [|x l] H1 H2; [congruence|]. cbn. intros E. apply app_eq_nil in E as [E _].
  apply (H2 x (or_introl eq_refl) E).
Qed.
Lemma map_nonempty : forall A B (f : A -> B) l, l <> [] -> map f l <> [].
Proof. intros A B f [|x l] H; [congruence|discriminate]. Qed.

Lemma lex_nonempty : forall ts, Forall (fun t => t <> []) ts -> lex_product ts <> [].
Proof.
  induction 1 as [|t ts H H0 IH]; [discriminate|]. cbn. apply flat_map_nonempty; [exact H|].
  intros x _. apply map_nonempty. exact IH.
Qed.

Lemma o_mul_nonempty : forall xs ys, xs <> [] -> ys <> [] ->
  o_mul xs ys = flat_map (fun x => map (fun y => x ++ y) ys) xs.
Proof. intros [|x xs] [|y ys] H1 H2; try congruence. reflexivity. Qed.

Lemma fold_mul_acc : forall ts xs, xs <> [] -> Forall (fun t => t <> []) ts ->
  fold_left o_mul ts xs = flat_map (fun x => map (fun y => x ++ y) (lex_product ts)) xs.
Proof.
  induction ts as [|t ts IH]; intros xs Hx Ht.
  - cbn. clear. induction xs as [|x xs IH]; [reflexivity|]. cbn. rewrite app_nil_r. f_equal. exact IH.
  - inversion Ht; subst. cbn [fold_left lex_product].
    rewrite (o_mul_nonempty xs t) by assumption.
    rewrite IH; [|apply flat_map_nonempty; [exact Hx|intros; apply map_nonempty; assumption]|assumption].
    rewrite flat_map_flat_map. apply flat_map_ext. intros x. rewrite flat_map_map, map_flat_map.
    apply flat_map_ext. intros y. rewrite map_map. apply map_ext. intros z. symmetry. apply app_assoc.
Qed.

Lemma fold_mul : forall ts, ts <> [] -> Forall (fun t => t <> []) ts ->
  fold_left o_mul ts [] = lex_product ts.
Proof.
  intros [|t ts] H Ht; [congruence|]. inversion Ht; subst. cbn [fold_left lex_product].
  replace (o_mul [] t) with t by (destruct t; reflexivity).
  rewrite fold_mul_acc by assumption. reflexivity.
Qed.

(** rows of equal width *)
Definition width (n : nat) (t : outcome) : Prop := Forall (fun row => length row = n) t.

Lemma lex_width : forall ns ts, Forall2 width ns ts -> width (list_sum ns) (lex_product ts).
Proof.
  induction 1 as [|n t ns ts H H0 IH]; cbn [lex_product].
  - constructor; [reflexivity|constructor].
  - unfold width in *. apply Forall_forall. intros row Hr. apply in_flat_map in Hr as (x & Hx & Hr).
    apply in_map_iff in Hr as (y & <- & Hy). rewrite Forall_forall in H, IH.
    rewrite app_length, (H x Hx), (IH y Hy). reflexivity.
Qed.

(** ** Joining *)
Lemma joined_snoc : forall sep l t x, joined sep l t -> joined sep (l ++ [x]) (t ++ sep ++ x).
Proof.
  induction 1 as [y|y z l t H IH]; cbn.
  - constructor. constructor.
  - rewrite <- !app_assoc. constructor. exact IH.
Qed.
Lemma joined_fun : forall sep l a, joined sep l a -> forall b, joined sep l b -> a = b.
Proof.
  induction 1; intros b H'; inversion H'; subst; [reflexivity|]. do 2 f_equal. auto.
Qed.

Lemma join_items_joined : forall sep l, l <> [] -> joined sep l (join_items sep l).
Proof.
  intros sep l Hl. destruct l as [|x l]; [congruence|]. unfold join_items. cbn [fold_left].
  assert (G : forall l pre v, joined sep pre v ->
    joined sep (pre ++ l) (snd (fold_left (fun (acc : bool * bytes) item =>
         let '(first, v) := acc in (false, (if first then v else v ++ sep) ++ item)) l (false, v)))).
  { induction l0 as [|y l0 IH]; intros pre v H; cbn [fold_left].
    - rewrite app_nil_r. exact H.
    - replace (pre ++ y :: l0) with ((pre ++ [y]) ++ l0) by (rewrite <- app_assoc; reflexivity).
      apply IH. rewrite <- app_assoc. apply joined_snoc. exact H. }
  apply (G l [x] x). constructor.
Qed.

Lemma merge_rows_spec : forall sep acc e, length acc = length e ->
  exists row, merge_rows sep acc e = Some row /\ length row = length acc
    /\ forall j, (j < length acc)%nat -> nth j row [] = nth j acc [] ++ sep ++ nth j e [].
Proof.
  induction acc as [|x acc IH]; intros [|y e] H; try discriminate.
  - exists []. split; [reflexivity|]. split; [reflexivity|]. cbn. lia.
  - injection H as H. destruct (IH e H) as (row & H1 & H2 & H3). cbn. rewrite H1.
    eexists. split; [reflexivity|]. split; [cbn; congruence|]. intros [|j] Hj; [reflexivity|].
    cbn. apply H3. cbn in Hj. lia.
Qed.

Lemma merge_fold_spec : forall sep n rows pre acc,
  length acc = n -> width n rows ->
  (forall j, (j < n)%nat -> joined sep (map (fun x => nth j x []) pre) (nth j acc [])) ->
  exists row, merge_fold sep acc rows = Some row /\ length row = n
    /\ forall j, (j < n)%nat -> joined sep (map (fun x => nth j x []) (pre ++ rows)) (nth j row []).
Proof.
  induction rows as [|e rows IH]; intros pre acc Ha Hw Hj.
  - exists acc. cbn. rewrite app_nil_r. auto.
  - inversion Hw; subst. destruct (merge_rows_spec sep acc e) as (row & H3 & H4 & H5); [lia|].
    cbn. rewrite H3.
    destruct (IH (pre ++ [e]) row) as (row' & G1 & G2 & G3).
    + lia.
    + assumption.
    + intros j Hlt. rewrite H5 by lia. rewrite map_app. apply joined_snoc. apply Hj. exact Hlt.
    + exists row'. split; [exact G1|]. split; [exact G2|]. intros j Hlt.
      specialize (G3 j Hlt). rewrite <- app_assoc in G3. exact G3.
Qed.

Lemma o_merge_spec : forall qo n rows, rows <> [] -> width n rows ->
  exists out, o_merge (qo_separator qo) rows = Some out /\ merged qo n rows out.
Proof.
  intros qo n [|row rows] H Hw; [congruence|]. inversion Hw; subst. cbn.
  destruct (merge_fold_spec (qo_separator qo) (length row) rows [row] row) as (out & H1 & H2' & H4).
  - reflexivity.
  - assumption.
  - intros j _. constructor.
  - rewrite H1. exists [out]. split; [reflexivity|]. exists out. auto.
Qed.

Section Queries.
  Variable O : oracles.
  Variable T : text_fns.
  Variable qo : query_options.

  Lemma or_empty_nonempty : forall vs, or_empty vs <> [].
  Proof. intros [|]; discriminate. Qed.

  Lemma concat_singletons : forall (l : list bytes), concat (map (fun v => [v]) l) = l.
  Proof. induction l as [|x l IH]; [reflexivity|]. cbn. f_equal. exact IH. Qed.

  Lemma path_column_entries : forall f codes, exists es,
    column_entries qo f codes es /\ es <> [] /\ path_column qo codes f = map (fun v => [v]) es.
  Proof.
    intros f codes. unfold column_entries, path_column.
    set (vs := map sf_value (filter (code_in codes) (f_subfields f))).
    assert (Hvs : values_of codes f vs) by apply values_of_filter.
    replace (match vs with [] => [[[]]] | _ => map (fun v => [v]) vs end)
      with (map (fun v : bytes => [v]) (or_empty vs)) by (destruct vs; reflexivity).
    destruct (qo_squash qo).
    - exists [join_items (qo_separator qo) (or_empty vs)]. split; [|split; [discriminate|]].
      + exists vs. split; [exact Hvs|]. eexists. split; [apply join_items_joined, or_empty_nonempty|reflexivity].
      + unfold o_squash. rewrite concat_singletons. reflexivity.
    - exists (or_empty vs). split; [|split; [apply or_empty_nonempty|reflexivity]].
      exists vs. auto.
  Qed.

  Lemma field_rows_spec : forall p f, p_codes p <> [] -> exists rows,
    field_rows qo p f rows /\ rows <> [] /\ width (length (p_codes p)) rows
    /\ fold_left o_mul (map (fun codes => path_column qo codes f) (p_codes p)) [] = rows.
  Proof.
    intros p f Hc.
    assert (H : exists cols, Forall2 (column_entries qo f) (p_codes p) cols
       /\ Forall (fun c => c <> []) cols
       /\ map (fun codes => path_column qo codes f) (p_codes p) = map (map (fun v => [v])) cols).
    { clear Hc. induction (p_codes p) as [|c cs (cols & H1 & H2 & H3)].
      - exists []. repeat split; constructor.
      - destruct (path_column_entries f c) as (es & G1 & G2 & G3). exists (es :: cols).
        split; [constructor; assumption|]. split; [constructor; assumption|]. cbn [map]. rewrite G3, H3. reflexivity. }
    destruct H as (cols & H1 & H2 & H3).
    assert (Hne : Forall (fun t => t <> []) (map (map (fun v : bytes => [v])) cols)).
    { apply Forall_map. eapply Forall_impl; [|exact H2]. intros a Ha. apply map_nonempty. exact Ha. }
    exists (lex_product (map (map (fun v => [v])) cols)). repeat split.
    - exists cols. auto.
    - apply lex_nonempty. exact Hne.
    - replace (length (p_codes p)) with (list_sum (map (fun _ => 1%nat) (p_codes p))).
      2:{ clear. induction (p_codes p) as [|c cs IH]; [reflexivity|]. cbn. f_equal. exact IH. }
      apply lex_width. clear -H1. induction H1; constructor; [|assumption].
      unfold width. apply Forall_map. apply Forall_forall. reflexivity.
    - rewrite H3. apply fold_mul; [|exact Hne].
      rewrite <- H3. apply map_nonempty. exact Hc.
  Qed.

  Lemma fold_add : forall ts acc, fold_left o_add ts acc = acc ++ concat ts.
  Proof.
    induction ts as [|t ts IH]; intros acc; cbn; [rewrite app_nil_r; reflexivity|].
    rewrite IH. unfold o_add. rewrite <- app_assoc. reflexivity.
  Qed.

  Lemma fragment_query_rows : forall fr r, qfragment_wf O qo fr -> exists rows,
    fragment_query O T qo fr r = Some rows /\ rows_of O T qo fr r rows
    /\ rows <> [] /\ width (columns fr) rows.
  Proof.
    intros [p|b|fm] r W.
    - destruct W as [W1 W2].
      destruct (filter_p_picks _ (addressed O (qo_case_ignore qo) (p_tag p) (p_occ p) (p_sub p))
        (tag_occ_sub_match O (qo_case_ignore qo) (p_tag p) (p_occ p) (p_sub p)) r) as (fs & H1 & H2).
      { intros f _. apply addressed_decides. exact W1. }
      assert (H : exists rss, Forall2 (field_rows qo p) fs rss
        /\ map (fun f => fold_left o_mul (map (fun codes => path_column qo codes f) (p_codes p)) []) fs = rss
        /\ Forall (fun rs => rs <> [] /\ width (length (p_codes p)) rs) rss).
      { clear -W2. induction fs as [|f fs (rss & G1 & G2 & G3)].
        - exists []. repeat split; constructor.
        - destruct (field_rows_spec p f W2) as (rows & F1 & F2 & F3 & F4).
          exists (rows :: rss). split; [constructor; assumption|]. split; [cbn [map]; rewrite F4, G2; reflexivity|].
          constructor; auto. }
      destruct H as (rss & G1 & G2 & G3). cbn [fragment_query]. rewrite H1, G2, fold_add. cbn [app].
      exists (match fs with [] => [repeat [] (length (p_codes p))] | _ => concat rss end).
      split; [|split; [|split]].
      + f_equal. destruct fs as [|f fs]; [inversion G1; reflexivity|].
        clear G2; inversion G1; subst; apply Forall_inv in G3 as [G3 _].
        match goal with |- match ?c with [] => _ | _ :: _ => _ end = _ => destruct c eqn:E; [|reflexivity] end.
        cbn in E. apply app_eq_nil in E as [E _]. contradiction.
      + exists fs, rss. auto.
      + destruct fs as [|f fs]; [discriminate|]. clear G2; inversion G1; subst; apply Forall_inv in G3 as [G3 _].
        cbn. intros E. apply app_eq_nil in E as [E _]. contradiction.
      + cbn [columns]. destruct fs as [|f fs].
        * constructor; [apply repeat_length|constructor].
        * unfold width. apply Forall_concat. eapply Forall_impl; [|exact G3]. intros a [_ Ha]. exact Ha.
    - exists [[b]]. split; [reflexivity|]. split; [reflexivity|]. split; [discriminate|].
      constructor; [reflexivity|constructor].
    - destruct (record_format_lists T false O (qo_case_ignore qo) fm r W) as (outs & H1 & H2).
      exists (map (fun t => [t]) (or_empty outs)). cbn [fragment_query]. rewrite H1.
      split; [destruct outs; reflexivity|]. split; [exists outs; auto|].
      split; [apply map_nonempty, or_empty_nonempty|].
      unfold width. apply Forall_map, Forall_forall. reflexivity.
  Qed.

  Lemma fragment_rows_final : forall fr r, qfragment_wf O qo fr -> exists rows,
    fragment_rows O T qo fr r = Some rows /\ final_rows O T qo fr r rows
    /\ rows <> [] /\ width (columns fr) rows.
  Proof.
    intros fr r W. destruct (fragment_query_rows fr r W) as (rows & H1 & H2 & H3 & H4).
    unfold fragment_rows, final_rows. rewrite H1. destruct (qo_merge qo).
    - destruct (o_merge_spec qo (columns fr) rows H3 H4) as (out & G1 & G2). exists out.
      split; [exact G1|]. split; [eauto|]. destruct G2 as (row & -> & Hl & _).
      split; [discriminate|]. constructor; [exact Hl|constructor].
    - exists rows. eauto 6.
  Qed.

  Lemma query_fold_mul : forall frs r ts acc,
    Forall2 (fun fr t => fragment_rows O T qo fr r = Some t) frs ts ->
    query_fold O T qo acc frs r = Some (fold_left o_mul ts acc).
  Proof.
    intros frs r ts acc H. revert acc. induction H; intros acc; [reflexivity|].
    cbn. rewrite H. apply IHForall2.
  Qed.

  Lemma record_query_product : forall q r, query_wf O qo q ->
    exists ts, Forall2 (fun fr t => final_rows O T qo fr r t) (q_fragments q) ts
      /\ record_query O T qo q r = Some (lex_product ts)
      /\ lex_product ts <> []
      /\ Forall (fun row => length row = query_columns q) (lex_product ts).
  Proof.
    intros q r [W1 W2].
    assert (H : exists ts, Forall2 (fun fr t => final_rows O T qo fr r t) (q_fragments q) ts
      /\ Forall2 (fun fr t => fragment_rows O T qo fr r = Some t) (q_fragments q) ts
      /\ Forall (fun t => t <> []) ts /\ Forall2 width (map columns (q_fragments q)) ts).
    { clear W1. induction W2 as [|fr frs W W2 (ts & H1 & H2 & H3 & H4)].
      - exists []. repeat split; constructor.
      - destruct (fragment_rows_final fr r W) as (rows & G1 & G2 & G3 & G4). exists (rows :: ts).
        repeat split; constructor; assumption. }
    destruct H as (ts & H1 & H2 & H3 & H4). exists ts. split; [exact H1|].
    split; [|split; [apply lex_nonempty; exact H3|apply lex_width; exact H4]].
    unfold record_query. destruct H2 as [|fr t frs ts H2 H5]; [congruence|].
    rewrite H2, (query_fold_mul _ _ ts) by exact H5. f_equal. inversion H3; subst.
    rewrite fold_mul_acc by assumption. reflexivity.
  Qed.
End Queries.

(** the members of a product *)
Lemma lex_product_In : forall ts row,
  In row (lex_product ts) <-> exists xs, Forall2 (fun x t => In x t) xs ts /\ row = concat xs.
Proof.
  induction ts as [|t ts IH]; intros row; cbn.
  - split.
    + intros [<-|[]]. exists []. split; [constructor|reflexivity].
    + intros (xs & H & ->). inversion H; subst. left. reflexivity.
  - rewrite in_flat_map. split.
    + intros (x & Hx & Hr). apply in_map_iff in Hr as (y & <- & Hy). apply IH in Hy as (xs & H & ->).
      exists (x :: xs). split; [constructor; assumption|reflexivity].
    + intros (xs & H & ->). inversion H; subst. exists x. split; [assumption|]. cbn.
      apply in_map_iff. exists (concat l). split; [reflexivity|]. apply IH. exists l. auto.
Qed.
Lemma lex_product_length : forall ts,
  length (lex_product ts) = fold_right (fun t n => (length t * n)%nat) 1%nat ts.
Proof.
  induction ts as [|t ts IH]; [reflexivity|]. cbn. rewrite <- IH. generalize (lex_product ts) as p.
  intros p. clear. induction t as [|x t IH]; [reflexivity|]. cbn. rewrite app_length, map_length, IH. reflexivity.
Qed.

(** joining with a byte that no value contains can be undone *)
Lemma joined_injective : forall c l t, joined [c] l t ->
  forall l', joined [c] l' t ->
  Forall (fun v => ~ In c v) l -> Forall (fun v => ~ In c v) l' -> l = l'.
Proof.
  assert (G : forall (c : byte) (u w u' w' : bytes), ~ In c u -> ~ In c u' -> u ++ c :: w = u' ++ c :: w' -> u = u' /\ w = w').
  { induction u as [|x u IH]; intros w [|y u'] w' H1 H2 E; cbn in E.
    - injection E as ->. auto.
    - injection E as <- E. exfalso. apply H2. left. reflexivity.
    - injection E as -> E. exfalso. apply H1. left. reflexivity.
    - injection E as <- E. destruct (IH w u' w') as [-> ->]; auto.
      + intros H. apply H1. right. exact H.
      + intros H. apply H2. right. exact H. }
  induction 1 as [x|x y l t H IH]; intros l' H' F F'.
  - inversion H'; subst; [reflexivity|]. exfalso. apply (Forall_inv F).
    apply in_or_app. right. left. reflexivity.
  - remember (x ++ [c] ++ t) as t0 eqn:E. destruct H' as [x'|x' y' l' t' H'].
    + exfalso. subst x'. apply (Forall_inv F'). apply in_or_app. right. left. reflexivity.
    + cbn in E. destruct (G _ _ _ _ _ (Forall_inv F') (Forall_inv F) E) as [-> ->].
      f_equal. apply IH; [assumption| |]; eapply Forall_inv_tail; eassumption.
Qed.

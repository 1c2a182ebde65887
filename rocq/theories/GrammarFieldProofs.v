(** * Grammar: the texts accepted by the field matcher parser *)

From Coq Require Import String.
From Verif Require Import Bytes Winnow RecordModel RecordSpec BaseProofs Utf8Model Utf8Spec
  TagOccModel TagOccSpec TagOccProofs StrParserModel StrSpec StrProofs MatcherModel StateParser
  MatcherParserModel MatcherSpec GrammarSpec GrammarExprProofs GrammarLeafProofs GrammarSingletonProofs
  GrammarCondProofs GrammarSubProofs GrammarFieldLeafProofs.

Section Field.
  Variable O : oracles.

  Definition field_ok (n : N) (s : levels) : Prop := lv_sub s = 0 /\ lv_field s + n < 256.
  Definition field_step (n : N) (s s' : levels) : Prop := s' = s.

  Let ex := field_expr O true.
  Let leaf := field_leaf O true.
  Let stps {C} := @steps field_ok field_step C.
  Let ylds := yields (field_holds O).

  Lemma holds_f_group_or_xor : forall m ci fs, fm_holds O ci (fm_group_or_xor m) fs <-> fm_holds O ci m fs.
  Proof. intros m ci fs. destruct m as [| | | |l op r]; try reflexivity. destruct op; reflexivity. Qed.
  Lemma holds_f_group_or : forall m ci fs, fm_holds O ci (fm_group_or m) fs <-> fm_holds O ci m fs.
  Proof. intros m ci fs. destruct m as [| | | |l op r]; try reflexivity. destruct op; reflexivity. Qed.

  Lemma field_and_means : forall a b P Q, means (field_holds O) a P -> means (field_holds O) b Q ->
    means (field_holds O) (fm_and a b) (mand P Q).
  Proof.
    intros a b P Q Ha Hb ci fs. unfold field_holds, fm_and, mand. cbn [fm_holds connective].
    rewrite !holds_f_group_or_xor. rewrite <- (Ha ci fs), <- (Hb ci fs). reflexivity.
  Qed.
  Lemma field_xor_means : forall a b P Q, means (field_holds O) a P -> means (field_holds O) b Q ->
    means (field_holds O) (fm_xor a b) (mxor P Q).
  Proof.
    intros a b P Q Ha Hb ci fs. unfold field_holds, fm_xor, mxor. cbn [fm_holds connective].
    rewrite !holds_f_group_or. rewrite <- (Ha ci fs), <- (Hb ci fs). reflexivity.
  Qed.
  Lemma field_or_means : forall a b P Q, means (field_holds O) a P -> means (field_holds O) b Q ->
    means (field_holds O) (fm_or a b) (mor P Q).
  Proof.
    intros a b P Q Ha Hb ci fs. unfold field_holds, fm_or, mor. cbn [fm_holds connective].
    rewrite <- (Ha ci fs), <- (Hb ci fs). reflexivity.
  Qed.

  (** ** what the parsers of single conditions do with the leaves *)
  Lemma alt_l_ok : forall A (p q : sparser A) s i a r s',
    p s i = (POk a r, s') -> salt p q s i = (POk a r, s').
  Proof. intros A p q s i a r s' E. unfold salt. rewrite E. reflexivity. Qed.
  Lemma alt_r : forall A (p q : sparser A) s i, p s i = (PErr, s) -> salt p q s i = q s i.
  Proof. intros A p q s i E. unfold salt. rewrite E. reflexivity. Qed.

  (** the five kinds of leaves *)
  Definition reads_with (p : sparser field_matcher) (i : bytes) (P : meaning field) (r : bytes) : Prop :=
    forall s, lv_sub s = 0 -> exists a r', p s i = (POk a r', s)
      /\ means (field_holds O) a P /\ skip_ws r' = skip_ws r.
  Definition stops_on {C} (p : sparser C) (i : bytes) : Prop := forall s, p s i = (PErr, s).

  Definition bracket : sparser field_matcher := smap FMSingleton (parse_f_bracket O).

  Definition plain_start (i : bytes) : Prop :=
    exists c i', i = c :: i' /\ ~ blank c /\ c <> 33 /\ c <> 40 /\ c <> 35.

  Lemma tag_plain : forall tq q tt T r, quant_text false tq q -> tag_matcher_text tt T ->
    plain_start (tq ++ tt ++ r).
  Proof.
    intros tq q tt T r Hq HT. destruct Hq as [|w _ _|w _ _].
    - destruct (tag_start tt T HT) as (c & t' & -> & Hc). exists c, (t' ++ r). split; [reflexivity|].
      cbn in Hc. repeat (destruct Hc as [<-|Hc]; [split; [notblank|repeat split; discriminate]|]). contradiction.
    - eexists 65, _. split; [reflexivity|]. split; [notblank|repeat split; discriminate].
    - eexists 65, _. split; [reflexivity|]. split; [notblank|repeat split; discriminate].
  Qed.

  Lemma exists_singleton : forall tt T to S w r,
    tag_matcher_text tt T -> occ_matcher_text to S -> blanks w ->
    let i := (tt ++ to ++ w ++ lit "?") ++ r in
    let P := fun (_ : bool) fs => exists f, In f fs /\ tagged T S f in
    reads_with (f_singleton O) i P r /\ stops_on bracket i /\ reads_with (slift f_exists) i P r.
  Proof.
    intros tt T to S w r HT HS W i P.
    destruct (f_exists_ok O tt T to S w r HT HS W) as (m & E & Hm). unfold i. split; [|split].
    - intros s Hs. exists (FMSingleton m), r. split; [|split; [exact Hm|reflexivity]].
      unfold f_singleton, smap, parse_f_singleton, salt, slift. rewrite E. reflexivity.
    - intros s. rewrite <- !app_assoc. change (lit "?" ++ r) with (63 :: r).
      unfold bracket, smap. rew0 (f_bracket_fails O [] QAny tt T to S w 63 r s (quant_none _) HT HS W);
        [reflexivity|cbn; tauto].
    - intros s Hs. exists (FMSingleton m), r. split; [|split; [exact Hm|reflexivity]].
      unfold slift, f_exists, alt, pmap. rewrite E. reflexivity.
  Qed.

  Lemma dot_singleton : forall b tq q tt T to S i P r, quant_text false tq q ->
    tag_matcher_text tt T -> occ_matcher_text to S -> accepts O b i P r ->
    reads_with (f_singleton O) (tq ++ tt ++ to ++ lit "." ++ i)
      (fun ci fs => quantified q (fun f => P ci (f_subfields f)) (fun f => In f fs /\ tagged T S f)) r.
  Proof.
    intros b tq q tt T to S i P r Hq HT HS HA s Hs.
    destruct (f_dot_ok O b tq q tt T to S i P r Hq HT HS HA) as (m & r' & E & Hm & Hr).
    exists (FMSingleton m), r'. split; [|split; [exact Hm|exact Hr]].
    unfold f_singleton, smap, parse_f_singleton, salt, slift.
    pose proof (f_exists_none tq q tt T to S [] 46 i Hq HT HS (Forall_nil _) ltac:(cbn; tauto)) as F.
    cbn [app] in F. change (lit "." ++ i) with (46 :: i) in *. rewrite F, E. reflexivity.
  Qed.

  Lemma loose_singleton : forall tq q tt T to S w1 w2 t P r, tight_quant tq q ->
    tag_matcher_text tt T -> occ_matcher_text to S -> blanks w1 -> blanks w2 -> exists_text t P ->
    let i := (tq ++ tt ++ to ++ w1 ++ lit "." ++ w2 ++ t) ++ r in
    let Q := fun ci fs => quantified q (fun f => P ci (f_subfields f)) (fun f => In f fs /\ tagged T S f) in
    (reads_with (f_singleton O) i Q r \/ stops_on (f_singleton O) i)
    /\ stops_on bracket i /\ reads_with (slift f_exists) i Q r.
  Proof.
    intros tq q tt T to S w1 w2 t P r Hq HT HS W1 W2 Ht i Q. unfold i.
    pose proof (tight_quant_text tq q Hq) as Hq'.
    destruct (f_loose_ok O tq q tt T to S w1 w2 t P r Hq HT HS W1 W2 Ht) as (m & E & Hm).
    assert (B : forall s x, parse_f_bracket O s (tq ++ tt ++ to ++ w1 ++ 46 :: x) = (PErr, s)).
    { intros s x. apply (f_bracket_fails O tq q tt T to S); try assumption. cbn. tauto. }
    split; [|split].
    - assert (D : (w1 = [] /\ w2 = []) \/ w1 <> [] \/ w2 <> []).
      { destruct w1; [|right; left; discriminate]. destruct w2; [left; auto|right; right; discriminate]. }
      destruct D as [[-> ->]|D].
      + left. cbn [app]. rewrite <- !app_assoc. apply (dot_singleton true); try assumption.
        apply exists_accepts. exact Ht.
      + right. intros s. rewrite <- !app_assoc. change (lit "." ++ ?x) with (46 :: x).
        unfold f_singleton, smap, parse_f_singleton, salt, slift.
        rewrite (f_exists_none tq q tt T to S w1 46); [|assumption..|cbn; tauto].
        rewrite (f_dot_none O tq q tt T to S w1 46); [|assumption..|cbn; tauto|].
        * rewrite B. reflexivity.
        * intros E1 _. apply (exists_text_blanks O w2 t P); [exact W2| |exact Ht].
          destruct D as [D|D]; [contradiction|exact D].
    - intros s. rewrite <- !app_assoc. change (lit "." ++ ?x) with (46 :: x).
      unfold bracket, smap. rewrite B. reflexivity.
    - intros s Hs. exists m, r. split; [|split; [exact Hm|reflexivity]]. unfold slift. rewrite E. reflexivity.
  Qed.

  Lemma braced_singleton : forall tq q tt T to S w t P r, quant_text false tq q ->
    tag_matcher_text tt T -> occ_matcher_text to S -> blanks w -> braced_text O true t P ->
    let i := (tq ++ tt ++ to ++ w ++ t) ++ r in
    let Q := fun ci fs => quantified q (fun f => P ci (f_subfields f)) (fun f => In f fs /\ tagged T S f) in
    reads_with (f_singleton O) i Q r /\ reads_with bracket i Q r.
  Proof.
    intros tq q tt T to S w t P r Hq HT HS W Ht i Q. unfold i. split.
    - intros s Hs. destruct (f_bracket_ok O tq q tt T to S w t P r s Hq HT HS W Ht Hs) as (m & E & Hm).
      exists (FMSingleton m), (skip_ws r). split; [|split; [exact Hm|apply skip_ws_idem]].
      unfold f_singleton, smap, parse_f_singleton, salt, slift. rewrite E.
      destruct (braced_start O t P Ht) as (t' & ->). rewrite <- !app_assoc. cbn [app].
      rewrite (f_exists_none tq q tt T to S w 123); [|assumption..|cbn; tauto].
      rewrite (f_dot_none O tq q tt T to S w 123); [|assumption..|cbn; tauto|discriminate]. reflexivity.
    - intros s Hs. destruct (f_bracket_ok O tq q tt T to S w t P r s Hq HT HS W Ht Hs) as (m & E & Hm).
      exists (FMSingleton m), (skip_ws r). split; [|split; [exact Hm|apply skip_ws_idem]].
      unfold bracket, smap. rewrite E. reflexivity.
  Qed.

  (** Every leaf: read as a count, as a single condition, or as a loose form *)
  Lemma leaf_reads : forall k t P n r, leaf k t P n -> follow r ->
    (k = KPlain /\ (exists i', t ++ r = 35 :: i') /\ reads_with (parse_f_card O) (t ++ r) P r)
    \/ (alone k = true /\ plain_start (t ++ r) /\ reads_with (f_singleton O) (t ++ r) P r
        /\ (k = KPlain \/ (k = KNeg /\ (reads_with bracket (t ++ r) P r
              \/ (stops_on bracket (t ++ r) /\ reads_with (slift f_exists) (t ++ r) P r)))))
    \/ (k = KLoose /\ plain_start (t ++ r)
        /\ (reads_with (f_singleton O) (t ++ r) P r \/ stops_on (f_singleton O) (t ++ r))
        /\ stops_on bracket (t ++ r) /\ reads_with (slift f_exists) (t ++ r) P r).
  Proof.
    intros k t P n r H Fr.
    destruct H as [tt T to S w HT HS W|tq q tt T to S t P Hq HT HS Ht|tq q tt T to S w t P Hq HT HS W Ht
                  |tq q tt T to S w1 w2 t P Hq HT HS W1 W2 Ht|tq q tt T to S w t P Hq HT HS W Ht
                  |w1 tt T w2 to S w3 top op w4 tn n W1 HT W2 HS W3 Hop W4 Hn
                  |w1 tt T w2 to S w3 t P w5 top op w4 tn n W1 HT W2 HS W3 Ht W5 Hop W4 Hn].
    - right. left. destruct (exists_singleton tt T to S w r HT HS W) as (H1 & H2 & H3).
      split; [reflexivity|]. split; [|split; [exact H1|right; auto]].
      rewrite <- !app_assoc. apply (tag_plain [] QAny tt T); [apply quant_none|exact HT].
    - right. left. split; [reflexivity|]. rewrite <- !app_assoc.
      split; [apply (tag_plain tq q tt T); assumption|]. split; [|left; reflexivity].
      apply (dot_singleton true); try assumption. apply exists_accepts. exact Ht.
    - right. left. split; [reflexivity|]. rewrite <- !app_assoc.
      split; [apply (tag_plain tq q tt T); assumption|]. split; [|left; reflexivity].
      apply (dot_singleton false); try assumption. apply condition_blanks; [exact W|].
      apply condition_accepts; assumption.
    - right. right. split; [reflexivity|].
      destruct (loose_singleton tq q tt T to S w1 w2 t P r Hq HT HS W1 W2 Ht) as (H1 & H2 & H3).
      split; [|auto]. rewrite <- !app_assoc. apply (tag_plain tq q tt T); [apply tight_quant_text|]; assumption.
    - right. left. destruct (braced_singleton tq q tt T to S w t P r Hq HT HS W Ht) as (H1 & H2).
      split; [reflexivity|]. split; [|split; [exact H1|right; auto]].
      rewrite <- !app_assoc. apply (tag_plain tq q tt T); assumption.
    - left. split; [reflexivity|]. split; [eexists; reflexivity|]. intros s Hs.
      destruct (f_card_ok O w1 tt T w2 to S w3 top op w4 tn n r s) as (m & E & Hm); try assumption.
      exists m, r. split; [exact E|]. split; [exact Hm|reflexivity].
    - left. split; [reflexivity|]. split; [eexists; reflexivity|]. intros s Hs.
      destruct (f_card_braced_ok O w1 tt T w2 to S w3 t P w5 top op w4 tn n r s) as (m & E & Hm); try assumption.
      exists m, r. split; [exact E|]. split; [exact Hm|reflexivity].
  Qed.

  Lemma leaf_start_f : forall k t P n, leaf k t P n ->
    t <> [] /\ nonblank t /\ exists c t', t = c :: t' /\ c <> 33 /\ c <> 40.
  Proof.
    intros k t P n H.
    assert (G : forall tq q tt T x, quant_text false tq q -> tag_matcher_text tt T ->
      (tq ++ tt ++ x) <> [] /\ nonblank (tq ++ tt ++ x)
      /\ exists c t', tq ++ tt ++ x = c :: t' /\ c <> 33 /\ c <> 40).
    { intros tq q tt T x Hq HT. destruct (tag_plain tq q tt T x Hq HT) as (c & i' & E & N1 & N2 & N3 & _).
      rewrite E. split; [discriminate|]. split; [apply nonblank_cons; exact N1|]. exists c, i'. auto. }
    destruct H as [tt T to S w HT HS W|tq q tt T to S t P Hq HT HS Ht|tq q tt T to S w t P Hq HT HS W Ht
                  |tq q tt T to S w1 w2 t P Hq HT HS W1 W2 Ht|tq q tt T to S w t P Hq HT HS W Ht
                  |w1 tt T w2 to S w3 top op w4 tn n W1 HT W2 HS W3 Hop W4 Hn
                  |w1 tt T w2 to S w3 t P w5 top op w4 tn n W1 HT W2 HS W3 Ht W5 Hop W4 Hn].
    - apply (G [] QAny tt T); [apply quant_none|exact HT].
    - apply (G tq q tt T); assumption.
    - apply (G tq q tt T); assumption.
    - apply (G tq q tt T); [apply tight_quant_text|]; assumption.
    - apply (G tq q tt T); assumption.
    - split; [discriminate|]. split; [apply nonblank_cons; notblank|].
      exists 35. eexists. split; [reflexivity|]. split; discriminate.
    - split; [discriminate|]. split; [apply nonblank_cons; notblank|].
      exists 35. eexists. split; [reflexivity|]. split; discriminate.
  Qed.

  Lemma leaf_start_f' : forall k t P n, leaf k t P n -> t <> [] /\ nonblank t.
  Proof. intros k t P n H. destruct (leaf_start_f _ _ _ _ H) as (H1 & H2 & _). auto. Qed.

  (** ** steps *)
  Lemma reads_steps : forall p i P r n, reads_with p i P r -> stps n p i (ylds P r).
  Proof.
    intros p i P r n H s [Hs _]. destruct (H s Hs) as (a & r' & E & Hm & Hr).
    exists (POk a r'), s. split; [exact E|]. split; [|reflexivity]. exists a, r'. auto.
  Qed.

  Lemma fstps_alt_r : forall C k (p q : sparser C) i Q,
    stops_on p i -> stps k q i Q -> stps k (salt p q) i Q.
  Proof. intros C k p q i Q Hp Hq s Hs. rewrite alt_r by apply Hp. apply Hq. exact Hs. Qed.
  Lemma fstps_alt_l : forall k (p q : sparser field_matcher) i P r,
    stps k p i (ylds P r) -> stps k (salt p q) i (ylds P r).
  Proof. intros k p q i P r H. apply (steps_alt_l (field_holds O) field_ok field_step). exact H. Qed.

  Lemma f_group_fails : forall g t s i, (forall i', skip_ws i <> 40 :: i') -> f_group_body O g t s i = (PErr, s).
  Proof.
    intros g t s i H. unfold f_group_body, smap, sdelim. unfold sbind at 1. unfold sbind at 1, slift.
    rewrite ws_ch_none by exact H. reflexivity.
  Qed.
  Lemma f_not_fails : forall g t s i, (forall i', skip_ws i <> 33 :: i') -> f_not_body O g t s i = (PErr, s).
  Proof.
    intros g t s i H. unfold f_not_body, smap, spreceded. unfold sbind at 1, slift.
    rewrite ws_ch_none by exact H. reflexivity.
  Qed.

  Lemma fgn_S : forall f, field_gn O (S f)
    = (f_group_body O (fst (field_gn O f)) (snd (field_gn O f)), f_not_body O (fst (field_gn O f)) (snd (field_gn O f))).
  Proof. intros f. cbn [field_gn]. destruct (field_gn O f). reflexivity. Qed.

  Lemma fgroup_fails_gn : forall f c i, (0 < f)%nat -> ~ blank c -> c <> 40 ->
    stops_on (fst (field_gn O f)) (c :: i).
  Proof. intros [|f] c i Hf Hb Hc s; [lia|]. rewrite fgn_S. apply f_group_fails. apply not_start; assumption. Qed.
  Lemma fnot_fails_gn : forall f c i, (0 < f)%nat -> ~ blank c -> c <> 33 ->
    stops_on (snd (field_gn O f)) (c :: i).
  Proof. intros [|f] c i Hf Hb Hc s; [lia|]. rewrite fgn_S. apply f_not_fails. apply not_start; assumption. Qed.

  Definition fclaim (f : nat) : Prop := forall k t P n r, is_atom k = true -> ex k t P n ->
    (length t < f)%nat -> follow r ->
    match k with
    | KGroup => stps n (fst (field_gn O f)) (t ++ r) (ylds P r)
    | KNot => stps n (snd (field_gn O f)) (t ++ r) (ylds P r)
    | _ => leaf k t P n
    end.

  Lemma fatom_cases : forall f k t P n r, fclaim f -> is_atom k = true -> ex k t P n ->
    (length t < f)%nat -> follow r ->
    leaf k t P n
    \/ (exists i', t ++ r = 40 :: i' /\ k = KGroup /\ stps n (fst (field_gn O f)) (t ++ r) (ylds P r))
    \/ (exists i', t ++ r = 33 :: i' /\ k = KNot /\ stps n (snd (field_gn O f)) (t ++ r) (ylds P r)).
  Proof.
    intros f k t P n r Hc Hk H Hl Fr. specialize (Hc k t P n r Hk H Hl Fr).
    apply atom_inv in H as [H|[(-> & k' & w1 & e & w2 & n' & _ & _ & _ & _ & -> & _)
                               |(-> & k' & w & e & P' & _ & _ & _ & -> & _)]]; [| | |exact Hk].
    - left. exact H.
    - right. left. eexists. split; [reflexivity|]. split; [reflexivity|exact Hc].
    - right. right. eexists. split; [reflexivity|]. split; [reflexivity|exact Hc].
  Qed.

  Let atoms (f : nat) := f_atoms O (fst (field_gn O f)) (snd (field_gn O f)).

  Lemma odd_card : forall c i, In c (lit "(!") -> stops_on (parse_f_card O) (c :: i).
  Proof.
    intros c i Hc s. apply f_card_fails; cbn in Hc; destruct Hc as [<-|[<-|[]]]; first [notblank|discriminate].
  Qed.

  Lemma fatoms_steps : forall f k t P n r, fclaim f -> is_atom k = true -> ex k t P n ->
    (length t < f)%nat -> follow r -> stps n (atoms f) (t ++ r) (ylds P r).
  Proof.
    intros f k t P n r Hc Hk H Hl Fr. assert (Hf : (0 < f)%nat) by lia. unfold atoms, f_atoms.
    destruct (fatom_cases f k t P n r Hc Hk H Hl Fr)
      as [HL|[(i' & E & -> & HS)|(i' & E & -> & HS)]].
    - destruct (leaf_reads k t P n r HL Fr) as [(_ & (i' & E) & HR)|[(_ & (c & i' & E & B & N1 & N2 & N3) & HR & _)
        |(_ & (c & i' & E & B & N1 & N2 & N3) & HR & HB & HE)]].
      + rewrite E in *. apply fstps_alt_r; [apply fgroup_fails_gn; [exact Hf|notblank|discriminate]|].
        apply fstps_alt_l. apply reads_steps. exact HR.
      + rewrite E in *. apply fstps_alt_r; [apply fgroup_fails_gn; assumption|].
        apply fstps_alt_r; [intros s; apply f_card_fails; assumption|].
        apply fstps_alt_l. apply reads_steps. exact HR.
      + rewrite E in *. apply fstps_alt_r; [apply fgroup_fails_gn; assumption|].
        apply fstps_alt_r; [intros s; apply f_card_fails; assumption|].
        destruct HR as [HR|HR]; [apply fstps_alt_l; apply reads_steps; exact HR|].
        apply fstps_alt_r; [exact HR|]. apply fstps_alt_r; [apply fnot_fails_gn; assumption|].
        apply reads_steps. exact HE.
    - apply fstps_alt_l. exact HS.
    - rewrite E in *. apply fstps_alt_r; [apply fgroup_fails_gn; [exact Hf|notblank|discriminate]|].
      apply fstps_alt_r; [apply odd_card; cbn; tauto|].
      apply fstps_alt_r; [intros s; apply odd_singleton; unfold odd_start; cbn; tauto|].
      apply fstps_alt_l. exact HS.
  Qed.

  Lemma frest_steps : forall f k t P n r, fclaim f -> is_atom k = true -> alone k = true -> ex k t P n ->
    (length t < f)%nat -> follow r ->
    stps n (salt (f_singleton O) (salt (snd (field_gn O f)) (salt (parse_f_card O) (fst (field_gn O f)))))
      (t ++ r) (ylds P r)
    /\ stps n (salt (fst (field_gn O f)) (salt (snd (field_gn O f)) (salt (f_singleton O) (parse_f_card O))))
      (t ++ r) (ylds P r).
  Proof.
    intros f k t P n r Hc Hk Ha H Hl Fr. assert (Hf : (0 < f)%nat) by lia.
    destruct (fatom_cases f k t P n r Hc Hk H Hl Fr)
      as [HL|[(i' & E & -> & HS)|(i' & E & -> & HS)]].
    - destruct (leaf_reads k t P n r HL Fr) as [(_ & (i' & E) & HR)|[(_ & (c & i' & E & B & N1 & N2 & N3) & HR & _)
        |(-> & _)]]; [| |discriminate].
      + rewrite E in *. assert (N1 : stops_on (snd (field_gn O f)) (35 :: i')).
        { apply fnot_fails_gn; [exact Hf|notblank|discriminate]. }
        assert (N2 : stops_on (fst (field_gn O f)) (35 :: i')).
        { apply fgroup_fails_gn; [exact Hf|notblank|discriminate]. }
        assert (N3 : stops_on (f_singleton O) (35 :: i')).
        { intros s. apply odd_singleton. unfold odd_start. cbn. tauto. }
        split.
        * apply fstps_alt_r; [exact N3|]. apply fstps_alt_r; [exact N1|].
          apply fstps_alt_l. apply reads_steps. exact HR.
        * apply fstps_alt_r; [exact N2|]. apply fstps_alt_r; [exact N1|]. apply fstps_alt_r; [exact N3|].
          apply reads_steps. exact HR.
      + rewrite E in *. split.
        * apply fstps_alt_l. apply reads_steps. exact HR.
        * apply fstps_alt_r; [apply fgroup_fails_gn; assumption|].
          apply fstps_alt_r; [apply fnot_fails_gn; assumption|].
          apply fstps_alt_l. apply reads_steps. exact HR.
    - split; [|apply fstps_alt_l; exact HS]. rewrite E in *.
      apply fstps_alt_r; [intros s; apply odd_singleton; unfold odd_start; cbn; tauto|].
      apply fstps_alt_r; [apply fnot_fails_gn; [exact Hf|notblank|discriminate]|].
      apply fstps_alt_r; [apply odd_card; cbn; tauto|]. exact HS.
    - rewrite E in *. split.
      + apply fstps_alt_r; [intros s; apply odd_singleton; unfold odd_start; cbn; tauto|].
        apply fstps_alt_l. exact HS.
      + apply fstps_alt_r; [apply fgroup_fails_gn; [exact Hf|notblank|discriminate]|].
        apply fstps_alt_l. exact HS.
  Qed.

  Lemma fwhole_steps : forall f k t P n r rest, fclaim f -> alone k = true -> ex k t P n ->
    (length t < f)%nat -> follow r -> no_op r ->
    (is_atom k = true -> stps n rest (t ++ r) (ylds P r)) ->
    stps n (salt (f_composite O (fst (field_gn O f)) (snd (field_gn O f))) rest) (t ++ r) (ylds P r).
  Proof.
    intros f k t P n r rest Hc Hk H Hl Fr Sr Hr.
    apply (whole_ok (field_holds O) leaf N.succ N.max (fun _ n => n) field_ok field_step)
      with (L := length t) (k := k) (atoms := atoms f) (tok_and := slift (ws (tok (lit "&&"))))
           (tok_xor := slift (alt (tok (lit "^")) (tok (lit "XOR")))) (tok_or := slift (ws (tok (lit "||"))))
           (op_and := fm_and) (op_xor := fm_xor) (op_or := fm_or); try assumption.
    - intros; lia.
    - intros; lia.
    - intros; lia.
    - intros; lia.
    - intros; lia.
    - intros; lia.
    - intros; lia.
    - unfold field_ok. intros; lia.
    - unfold field_step. intros; assumption.
    - unfold field_step, field_ok. intros; subst; lia.
    - unfold field_step. intros; congruence.
    - apply leaf_start_f'.
    - apply field_and_means.
    - apply field_xor_means.
    - apply field_or_means.
    - apply and_tok_reads.
    - apply xor_tok_reads.
    - apply or_tok_reads.
    - intros k' t' P' n' r' K' H' L' F'. apply (fatoms_steps f k'); try assumption. lia.
    - lia.
  Qed.

  Lemma fclaim_all : forall f, fclaim f.
  Proof.
    induction f as [|f IH]; intros k t P n r Hk H Hl Fr; [lia|]. rewrite fgn_S. cbn [fst snd].
    apply atom_inv in H as [H|[(-> & k' & w1 & e & w2 & n' & Ha & He & W1 & W2 & -> & ->)
                               |(-> & k' & w & e & P' & Hn & He & W & -> & ->)]]; [| | |exact Hk].
    - destruct k; try discriminate; try exact H; inversion H.
    - (* group *)
      rewrite !app_length in Hl. cbn in Hl.
      assert (Le : (length e < f)%nat) by lia.
      rewrite <- !app_assoc. change (lit ")" ++ r) with (41 :: r).
      destruct (close_follow w2 41 r W2 ltac:(cbn; tauto)) as [F1 F2].
      intros s [Hs0 Hs]. 
      pose (s1 := mkLevels (lv_sub s) (lv_field s + 1) (lv_fmt s)).
      assert (Hw : stps n' (salt (f_composite O (fst (field_gn O f)) (snd (field_gn O f)))
                 (salt (f_singleton O) (salt (snd (field_gn O f)) (salt (parse_f_card O) (fst (field_gn O f))))))
                 (e ++ w2 ++ 41 :: r) (ylds P (w2 ++ 41 :: r))).
      { apply (fwhole_steps f k'); try assumption. intros Ka. apply (frest_steps f k'); assumption. }
      destruct (Hw s1) as (x & s' & E & (a & r' & -> & Hm & Hr) & HS).
      { unfold field_ok, s1; cbn [lv_sub lv_field]; lia. }
      unfold field_step in HS. subst s'.
      exists (POk (FMGroup a) (skip_ws r)), s.
      assert (Ne : e <> [] /\ nonblank e).
      { apply (expr_start leaf N.succ N.max leaf_start_f' _ _ _ _ He). }
      split; [|split].
      + unfold f_group_body, smap, sdelim. unfold sbind at 1. unfold sbind at 1, slift at 1.
        change (lit "(" ++ w1 ++ e ++ w2 ++ 41 :: r) with ([] ++ 40 :: w1 ++ e ++ w2 ++ 41 :: r).
        rewrite ws_ch_ok; [|constructor|notblank].
        rewrite skip_ws_blanks_nonblank; [|exact W1|apply nonblank_app; apply Ne].
        unfold field_inc. rewrite (proj2 (N.leb_gt 256 (lv_field s + 1))) by lia.
        change (mkLevels (lv_sub s) (lv_field s + 1) (lv_fmt s)) with s1.
        unfold sbind at 1. rewrite E. unfold sbind, f_close, ws. rewrite Hr.
        rewrite skip_to_token; [|exact W2|notblank]. rewrite ch_ok. unfold sret, field_dec, s1.
        cbn [lv_sub lv_field lv_fmt]. rewrite N.add_sub. destruct s; reflexivity.
      + exists (FMGroup a), (skip_ws r). split; [reflexivity|]. split; [exact Hm|apply skip_ws_idem].
      + reflexivity.
    - (* not *)
      rewrite !app_length in Hl. cbn in Hl.
      assert (Le : (length e < f)%nat) by lia. assert (Hf : (0 < f)%nat) by lia.
      assert (Ke : is_atom k' = true) by (destruct k'; try discriminate; reflexivity).
      assert (Hw : stps n (salt (fst (field_gn O f)) (salt bracket (salt (slift f_exists) (snd (field_gn O f)))))
                     (e ++ r) (ylds P' r)).
      { destruct (fatom_cases f k' e P' n r IH Ke He Le Fr)
          as [HL|[(i' & E & -> & HS)|(i' & E & -> & HS)]].
        - destruct (leaf_reads k' e P' n r HL Fr) as [(-> & _)|[(_ & (c & i' & E & B & N1 & N2 & N3) & _ & HR)
            |(-> & (c & i' & E & B & N1 & N2 & N3) & _ & HB & HE)]]; [discriminate|..]; rewrite E in *.
          + destruct HR as [->|(-> & HR)]; [discriminate|].
            apply fstps_alt_r; [apply fgroup_fails_gn; assumption|].
            destruct HR as [HR|[HB HR]].
            * apply fstps_alt_l. apply reads_steps. exact HR.
            * apply fstps_alt_r; [exact HB|]. apply fstps_alt_l. apply reads_steps. exact HR.
          + apply fstps_alt_r; [apply fgroup_fails_gn; assumption|].
            apply fstps_alt_r; [exact HB|]. apply fstps_alt_l. apply reads_steps. exact HE.
        - apply fstps_alt_l. exact HS.
        - rewrite E in *. apply fstps_alt_r; [apply fgroup_fails_gn; [exact Hf|notblank|discriminate]|].
          apply fstps_alt_r.
          { intros s. unfold bracket, smap. rewrite odd_bracket; [reflexivity|]. unfold odd_start. cbn. tauto. }
          apply fstps_alt_r; [|exact HS]. intros s. apply odd_exists. unfold odd_start. cbn. tauto. }
      intros s Hs. destruct (Hw s Hs) as (x & s' & E & (a & r' & -> & Hm & Hr) & HS).
      exists (POk (FMNot a) r'), s'.
      assert (Ne : e <> [] /\ nonblank e).
      { apply (expr_start leaf N.succ N.max leaf_start_f' _ _ _ _ He). }
      split; [|split; [|exact HS]].
      + unfold f_not_body, smap at 1, spreceded. unfold sbind at 1, slift at 1. rewrite <- !app_assoc.
        change (lit "!" ++ w ++ e ++ r) with ([] ++ 33 :: w ++ e ++ r).
        rewrite ws_ch_ok; [|constructor|notblank].
        rewrite skip_ws_blanks_nonblank; [|exact W|apply nonblank_app; apply Ne].
        unfold bracket in E. rewrite E. reflexivity.
      + exists (FMNot a), r'. split; [reflexivity|]. split; [|exact Hr].
        intros ci fs. unfold field_holds. cbn [fm_holds]. specialize (Hm ci fs). unfold field_holds in Hm.
        rewrite Hm. reflexivity.
  Qed.

  (** ** the whole parser *)
  Lemma field_accepts : forall t P n s, record_matcher_text O true t P n -> lv_sub s = 0 ->
    lv_field s = 0 -> n < 256 ->
    exists m, field_matcher_new O s t = (Some (Some m), s) /\ means (field_holds O) m P.
  Proof.
    intros t P n s H Hs0 Hs1 Hn. destruct H as [k w1 e w2 P n Hk He W1 W2].
    unfold field_matcher_new, sparse_all, parse_field_matcher.
    set (f := S (length (w1 ++ e ++ w2))).
    assert (Hl : (length e < f)%nat) by (unfold f; rewrite !app_length; lia).
    assert (Ne : e <> [] /\ nonblank e).
    { apply (expr_start leaf N.succ N.max leaf_start_f' _ _ _ _ He). }
    assert (Ew : skip_ws w2 = []).
    { rewrite <- (app_nil_r w2). apply skip_ws_blanks_nonblank; [exact W2|]. intros c r'. discriminate. }
    assert (Fr : follow w2).
    { intros c r' ->. left. inversion W2; assumption. }
    assert (Sr : no_op w2).
    { unfold no_op, no_and, no_xor, no_or. rewrite Ew. repeat split; reflexivity. }
    destruct (field_gn O f) as [g nt] eqn:Eg.
    assert (Hw : stps n (salt (f_composite O g nt) (salt g (salt nt (salt (f_singleton O) (parse_f_card O)))))
                   (e ++ w2) (ylds P w2)).
    { assert (E1 : g = fst (field_gn O f)) by (rewrite Eg; reflexivity).
      assert (E2 : nt = snd (field_gn O f)) by (rewrite Eg; reflexivity). rewrite E1, E2.
      apply (fwhole_steps f k); try assumption; [apply fclaim_all|].
      intros Ka. apply (frest_steps f k); try assumption. apply fclaim_all. }
    destruct (Hw s) as (x & s' & E & (a & r' & -> & Hm & Hr) & HS); [unfold field_ok; lia|].
    unfold field_step in HS. subst s'. unfold sws.
    rewrite skip_ws_blanks_nonblank; [|exact W1|apply nonblank_app; apply Ne].
    rewrite E, Hr, Ew. exists a. split; [|exact Hm]. unfold field_reset.
    destruct s as [x y z]. cbn in *. subst. reflexivity.
  Qed.
End Field.

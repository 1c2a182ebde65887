(** * Grammar: the texts accepted by the subfield matcher parser *)

From Coq Require Import String.
From Verif Require Import Bytes Winnow RecordModel RecordSpec BaseProofs Utf8Model Utf8Spec
  TagOccModel TagOccSpec TagOccProofs StrParserModel StrSpec StrProofs MatcherModel StateParser
  MatcherParserModel MatcherSpec GrammarSpec GrammarExprProofs GrammarLeafProofs GrammarSingletonProofs
  GrammarCondProofs.

(** ** tokens *)
Lemma reads_slift : forall x (tokt : bytes -> Prop) (stop : bytes -> Prop), x <> [] -> nonblank x ->
  (forall y, tokt y <-> y = x) -> (forall r, stop r <-> starts_with (skip_ws r) x = false) ->
  reads_token tokt stop (slift (tok x)) /\ reads_token tokt stop (slift (ws (tok x))).
Proof.
  intros x tokt stop N1 N2 Ht Hs. split; split.
  - intros y r s Hy. apply Ht in Hy. subst y. exists r. unfold slift. rewrite tok_ok. auto.
  - intros r s Hr. apply Hs in Hr. unfold slift. rewrite tok_starts by exact Hr. reflexivity.
  - intros y r s Hy. apply Ht in Hy. subst y. exists (skip_ws r). unfold slift.
    rew0 (ws_tok_ok x [] r (Forall_nil _) N1 N2). split; [reflexivity|apply skip_ws_idem].
  - intros r s Hr. apply Hs in Hr. unfold slift. rewrite ws_tok_none; [reflexivity|].
    rewrite skip_ws_idem. exact Hr.
Qed.

Lemma and_tok_reads : reads_token and_token no_and (slift (tok (lit "&&")))
  /\ reads_token and_token no_and (slift (ws (tok (lit "&&")))).
Proof.
  apply reads_slift; [discriminate|apply nonblank_cons; notblank|reflexivity|reflexivity].
Qed.

Lemma or_tok_reads : reads_token or_token no_or (slift (tok (lit "||")))
  /\ reads_token or_token no_or (slift (ws (tok (lit "||")))).
Proof.
  apply reads_slift; [discriminate|apply nonblank_cons; notblank|reflexivity|reflexivity].
Qed.

Lemma xor_tok_reads : reads_token xor_token no_xor (slift (alt (tok (lit "^")) (tok (lit "XOR")))).
Proof.
  split.
  - intros x r s Hx. exists r. destruct Hx; split; reflexivity.
  - intros r s [H1 H2]. unfold slift, alt. rewrite !tok_starts by assumption. reflexivity.
Qed.

(** ** texts of atoms *)
Lemma atom_inv : forall B (leaf : kind -> bytes -> meaning B -> N -> Prop) up join strict k t P n,
  expr leaf up join strict k t P n -> is_atom k = true ->
  leaf k t P n
  \/ (k = KGroup /\ exists k' w1 e w2 n', alone k' = true /\ expr leaf up join strict k' e P n'
        /\ blanks w1 /\ blanks w2 /\ t = lit "(" ++ w1 ++ e ++ w2 ++ lit ")" /\ n = up n')
  \/ (k = KNot /\ exists k' w e P', negatable k' = true /\ expr leaf up join strict k' e P' n
        /\ blanks w /\ t = lit "!" ++ w ++ e /\ P = fun ci l => ~ P' ci l).
Proof.
  intros B leaf up join strict k t P n H Hk.
  destruct H as [k t P n _ H|k w1 e w2 P n Ha H W1 W2|k w e P n Hn H W
                |k1 k2 t1 w1 w2 t2 P1 P2 n1 n2 K1 K2 H1 H2 W1 W2
                |k1 k2 t1 w1 x w2 t2 P1 P2 n1 n2 K1 K2 H1 H2 W1 W2 X
                |k1 k2 t1 w1 w2 t2 P1 P2 n1 n2 K1 K2 H1 H2 W1 W2]; try discriminate.
  - left. exact H.
  - right. left. split; [reflexivity|]. exists k, w1, e, w2, n. auto 10.
  - right. right. split; [reflexivity|]. exists k, w, e, P. auto 10.
  - destruct k1; discriminate.
Qed.

Lemma close_follow : forall w c r, blanks w -> In c (lit ")}") -> follow (w ++ c :: r) /\ no_op (w ++ c :: r).
Proof.
  intros w c r W Hc. assert (Hb : ~ blank c).
  { cbn in Hc. destruct Hc as [<-|[<-|[]]]; notblank. }
  split.
  - apply follow_token; [exact W|]. cbn in *. tauto.
  - unfold no_op, no_and, no_xor, no_or. rewrite skip_to_token by assumption.
    cbn in Hc. destruct Hc as [<-|[<-|[]]]; repeat split; reflexivity.
Qed.

Section Sub.
  Variable O : oracles.

  Definition sub_holds (m : subfield_matcher) : meaning subfield := fun ci sfs => sm_holds O ci m sfs.
  Definition sub_join_ok (n : N) (s : levels) : Prop := lv_sub s + n < 256.
  Definition sub_step (n : N) (s s' : levels) : Prop :=
    lv_sub s <= lv_sub s' /\ lv_sub s' <= lv_sub s + n /\ lv_field s' = lv_field s /\ lv_fmt s' = lv_fmt s.

  Let ex := sub_text O true.
  Let stps {C} := @steps sub_join_ok sub_step C.
  Let ylds := yields sub_holds.

  Lemma holds_group_or_xor : forall m ci sfs, sm_holds O ci (sm_group_or_xor m) sfs <-> sm_holds O ci m sfs.
  Proof. intros m ci sfs. destruct m as [| | |l op r]; try reflexivity. destruct op; reflexivity. Qed.
  Lemma holds_group_or : forall m ci sfs, sm_holds O ci (sm_group_or m) sfs <-> sm_holds O ci m sfs.
  Proof. intros m ci sfs. destruct m as [| | |l op r]; try reflexivity. destruct op; reflexivity. Qed.

  Lemma sub_and_means : forall a b P Q, means sub_holds a P -> means sub_holds b Q ->
    means sub_holds (sm_and a b) (mand P Q).
  Proof.
    intros a b P Q Ha Hb ci sfs. unfold sub_holds, sm_and, mand. cbn [sm_holds connective].
    rewrite !holds_group_or_xor. rewrite <- (Ha ci sfs), <- (Hb ci sfs). reflexivity.
  Qed.
  Lemma sub_xor_means : forall a b P Q, means sub_holds a P -> means sub_holds b Q ->
    means sub_holds (sm_xor a b) (mxor P Q).
  Proof.
    intros a b P Q Ha Hb ci sfs. unfold sub_holds, sm_xor, mxor. cbn [sm_holds connective].
    rewrite !holds_group_or. rewrite <- (Ha ci sfs), <- (Hb ci sfs). reflexivity.
  Qed.
  Lemma sub_or_means : forall a b P Q, means sub_holds a P -> means sub_holds b Q ->
    means sub_holds (sm_or a b) (mor P Q).
  Proof.
    intros a b P Q Ha Hb ci sfs. unfold sub_holds, sm_or, mor. cbn [sm_holds connective].
    rewrite <- (Ha ci sfs), <- (Hb ci sfs). reflexivity.
  Qed.

  (** first bytes *)
  Lemma condition_start : forall t P, condition_text O t P ->
    t <> [] /\ nonblank t /\ forall r, exists c r', t ++ r = c :: r' /\ c <> 33 /\ c <> 40.
  Proof.
    intros t P H.
    assert (G : forall sep tq q tc C x, quant_text sep tq q -> codes_text tc C ->
              (tq ++ tc ++ x) <> [] /\ nonblank (tq ++ tc ++ x)
              /\ forall r, exists c r', (tq ++ tc ++ x) ++ r = c :: r' /\ c <> 33 /\ c <> 40).
    { intros sep tq q tc C x Hq Hc. destruct (head_nonblank sep tq q tc C x Hq Hc) as [N1 (c & r' & E & _ & N2 & N3)].
      split; [rewrite E; discriminate|]. split; [exact N1|]. intros r. rewrite E. exists c, (r' ++ r). auto. }
    destruct H as [k H]. destruct H; try (eapply G; eassumption).
    split; [discriminate|]. split; [apply nonblank_cons; notblank|]. intros r. exists 35. eexists.
    split; [reflexivity|]. split; discriminate.
  Qed.

  Lemma exists_start : forall t P, exists_text t P ->
    t <> [] /\ nonblank t /\ forall r, exists c r', t ++ r = c :: r' /\ c <> 33 /\ c <> 40.
  Proof.
    intros t P [tc C Hc].
    destruct (head_nonblank true [] QAny tc C (lit "?") (quant_none _) Hc) as [N1 (c & r' & E & _ & N2 & N3)].
    cbn [app] in *. split; [rewrite E; discriminate|]. split; [exact N1|]. intros r. rewrite E.
    exists c, (r' ++ r). auto.
  Qed.

  Lemma sub_leaf_start : forall k t P n, sub_leaf O k t P n ->
    t <> [] /\ nonblank t /\ forall r, exists c r', t ++ r = c :: r' /\ c <> 33 /\ c <> 40.
  Proof.
    intros k t P n [t' P' H|t' P' H]; [apply (exists_start _ _ H)|apply (condition_start _ _ H)].
  Qed.

  Lemma sub_leaf_start' : forall k t P n, sub_leaf O k t P n -> t <> [] /\ nonblank t.
  Proof. intros k t P n H. destruct (sub_leaf_start _ _ _ _ H) as (H1 & H2 & _). auto. Qed.

  (** failures recognised by the first byte *)
  Lemma group_fails : forall g t s i, (forall i', skip_ws i <> 40 :: i') -> sub_group_body O g t s i = (PErr, s).
  Proof.
    intros g t s i H. unfold sub_group_body, smap, sdelim. unfold sbind at 1. unfold sbind at 1, slift.
    rewrite ws_ch_none by exact H. reflexivity.
  Qed.
  Lemma not_fails : forall g t s i, (forall i', skip_ws i <> 33 :: i') -> sub_not_body g t s i = (PErr, s).
  Proof.
    intros g t s i H. unfold sub_not_body, smap, spreceded. unfold sbind at 1, slift.
    rewrite ws_ch_none by exact H. reflexivity.
  Qed.

  Lemma head_fails : forall sep c i, ~ In c alnums -> ~ blank c -> c <> 91 -> c <> 42 ->
    head sep (c :: i) = None.
  Proof.
    intros sep c i Ha Hb H1 H2.
    assert (E : skip_ws (c :: i) = c :: i) by (apply skip_ws_nonblank, nonblank_cons; exact Hb).
    unfold head. rewrite quant_none_eq.
    - unfold ws. rewrite E. destruct (parse_codes (c :: i)) as [[l r]|] eqn:F; [|reflexivity].
      apply codes_inv in F as (t & C & F & Ht & _). apply codes_start in Ht as (d & t' & -> & _ & Hd).
      injection F as <- _. destruct Hd as [Hd|[Hd|Hd]]; contradiction.
    - rewrite E. destruct (parse_quantifier (c :: i)) as [[q r]|] eqn:F; [|reflexivity].
      exfalso. apply Ha. apply quantifier_inv in F as [[F _]|[F _]]; injection F as -> _; apply alnums_iff; reflexivity.
  Qed.

  Lemma codes_fails : forall c i, ~ In c alnums -> c <> 91 -> c <> 42 -> parse_codes (c :: i) = None.
  Proof.
    intros c i Ha H1 H2. destruct (parse_codes (c :: i)) as [[l r]|] eqn:F; [|reflexivity].
    apply codes_inv in F as (t & C & F & Ht & _). apply codes_start in Ht as (d & t' & -> & _ & Hd).
    injection F as <- _. destruct Hd as [Hd|[Hd|Hd]]; contradiction.
  Qed.

  Lemma singleton_fails : forall c i, ~ In c alnums -> ~ blank c -> c <> 91 -> c <> 42 -> c <> 35 ->
    parse_singleton O (c :: i) = None.
  Proof.
    intros c i Ha Hb H1 H2 H3. unfold parse_singleton, alt.
    rewrite relation_eq, contains_eq, in_eq, regex_eq, regex_set_eq.
    rewrite !head_fails by assumption. unfold parse_exists, terminated. rewrite codes_fails by assumption.
    unfold parse_card. rewrite ws_ch_none; [reflexivity|].
    rewrite skip_ws_nonblank by (apply nonblank_cons; exact Hb). intros r E. injection E as -> _. contradiction.
  Qed.

  Lemma exists_fails : forall c i, ~ In c alnums -> c <> 91 -> c <> 42 -> parse_exists (c :: i) = None.
  Proof.
    intros c i Ha H1 H2. unfold parse_exists, terminated. rewrite codes_fails by assumption. reflexivity.
  Qed.

  (** ** single operands *)
  Lemma singleton_steps : forall k t P n r, sub_leaf O k t P n -> follow r ->
    stps n (sub_singleton O) (t ++ r) (ylds P r).
  Proof.
    intros k t P n r H Fr s Hs.
    assert (A : exists b, accepts O b (t ++ r) P r).
    { destruct H; [exists true; apply exists_accepts|exists false; apply condition_accepts]; assumption. }
    destruct A as (b & m & r' & E & _ & Hm & Hr). exists (POk (SMSingleton m) r'), s.
    unfold sub_singleton, slift, pmap. rewrite E. split; [reflexivity|]. split.
    - exists (SMSingleton m), r'. split; [reflexivity|]. split; [exact Hm|exact Hr].
    - unfold sub_step. lia.
  Qed.

  Lemma exists_steps : forall t P n r, exists_text t P ->
    stps n (slift (pmap SMSingleton parse_exists)) (t ++ r) (ylds P r).
  Proof.
    intros t P n r H s Hs. destruct (exists_ok O t P r H) as (m & E & Hm & _).
    exists (POk (SMSingleton m) r), s. unfold slift, pmap. rewrite E. split; [reflexivity|]. split.
    - exists (SMSingleton m), r. split; [reflexivity|]. split; [exact Hm|reflexivity].
    - unfold sub_step. lia.
  Qed.

  Lemma alt_fail_l : forall C (p q : sparser C) s i, p s i = (PErr, s) -> salt p q s i = q s i.
  Proof. intros C p q s i H. unfold salt. rewrite H. reflexivity. Qed.

  Lemma stps_alt_r : forall C k (p q : sparser C) i Q,
    (forall s, p s i = (PErr, s)) -> stps k q i Q -> stps k (salt p q) i Q.
  Proof.
    intros C k p q i Q Hp Hq s Hs. rewrite alt_fail_l by apply Hp. apply Hq. exact Hs.
  Qed.

  Lemma stps_alt_l : forall k (p q : sparser subfield_matcher) i P r,
    stps k p i (ylds P r) -> stps k (salt p q) i (ylds P r).
  Proof. intros k p q i P r H. apply (steps_alt_l sub_holds sub_join_ok sub_step). exact H. Qed.

  Lemma singleton_none : forall s c i, In c (lit "(!") -> sub_singleton O s (c :: i) = (PErr, s).
  Proof.
    intros s c i Hc. unfold sub_singleton, slift, pmap. rewrite singleton_fails; [reflexivity|..];
      cbn in Hc; destruct Hc as [<-|[<-|[]]]; first [alnot|notblank|discriminate].
  Qed.
  Lemma exists_none_c : forall s c i, In c (lit "(!") ->
    slift (pmap SMSingleton parse_exists) s (c :: i) = (PErr, s).
  Proof.
    intros s c i Hc. unfold slift, pmap. rewrite exists_fails; [reflexivity|..];
      cbn in Hc; destruct Hc as [<-|[<-|[]]]; first [alnot|discriminate].
  Qed.

  Lemma not_start : forall c i d, c <> d -> ~ blank c -> forall i', skip_ws (c :: i) <> d :: i'.
  Proof.
    intros c i d Hd Hb i' E. rewrite skip_ws_nonblank in E by (apply nonblank_cons; exact Hb).
    injection E as E _. contradiction.
  Qed.

  Definition claim (f : nat) : Prop := forall k t P n r, is_atom k = true -> ex k t P n ->
    (length t < f)%nat -> follow r ->
    match k with
    | KGroup => stps n (fst (sub_gn O f)) (t ++ r) (ylds P r)
    | KNot => stps n (snd (sub_gn O f)) (t ++ r) (ylds P r)
    | _ => sub_leaf O k t P n
    end.

  Lemma gn_S : forall f, sub_gn O (S f)
    = (sub_group_body O (fst (sub_gn O f)) (snd (sub_gn O f)), sub_not_body (fst (sub_gn O f)) (snd (sub_gn O f))).
  Proof. intros f. cbn [sub_gn]. destruct (sub_gn O f). reflexivity. Qed.

  Lemma group_fails_gn : forall f s i, (0 < f)%nat -> (forall i', skip_ws i <> 40 :: i') ->
    fst (sub_gn O f) s i = (PErr, s).
  Proof. intros [|f] s i Hf H; [lia|]. rewrite gn_S. apply group_fails. exact H. Qed.
  Lemma not_fails_gn : forall f s i, (0 < f)%nat -> (forall i', skip_ws i <> 33 :: i') ->
    snd (sub_gn O f) s i = (PErr, s).
  Proof. intros [|f] s i Hf H; [lia|]. rewrite gn_S. apply not_fails. exact H. Qed.

  (** the kinds of atoms, with first bytes *)
  Lemma atom_cases : forall f k t P n r, claim f -> is_atom k = true -> ex k t P n ->
    (length t < f)%nat -> follow r ->
    (exists c i', t ++ r = c :: i' /\ ~ blank c /\ c <> 33 /\ c <> 40 /\ sub_leaf O k t P n)
    \/ (exists i', t ++ r = 40 :: i' /\ k = KGroup /\ stps n (fst (sub_gn O f)) (t ++ r) (ylds P r))
    \/ (exists i', t ++ r = 33 :: i' /\ k = KNot /\ stps n (snd (sub_gn O f)) (t ++ r) (ylds P r)).
  Proof.
    intros f k t P n r Hc Hk H Hl Fr. specialize (Hc k t P n r Hk H Hl Fr).
    apply atom_inv in H as [H|[(-> & k' & w1 & e & w2 & n' & _ & _ & _ & _ & -> & _)
                               |(-> & k' & w & e & P' & _ & _ & _ & -> & _)]]; [| | |exact Hk].
    - left. destruct (sub_leaf_start _ _ _ _ H) as (_ & HB & HS). destruct (HS r) as (c & i' & E & N1 & N2).
      exists c, i'. split; [exact E|]. split; [|split; [exact N1|split; [exact N2|exact H]]].
      destruct t as [|d t]; [destruct (sub_leaf_start' _ _ _ _ H); contradiction|].
      injection E as -> _. apply (HB c t eq_refl).
    - right. left. eexists. split; [reflexivity|]. split; [reflexivity|exact Hc].
    - right. right. eexists. split; [reflexivity|]. split; [reflexivity|exact Hc].
  Qed.

  Let atoms (f : nat) := salt (fst (sub_gn O f)) (salt (sub_singleton O) (snd (sub_gn O f))).

  Lemma atoms_steps : forall f k t P n r, claim f -> is_atom k = true -> ex k t P n ->
    (length t < f)%nat -> follow r -> stps n (atoms f) (t ++ r) (ylds P r).
  Proof.
    intros f k t P n r Hc Hk H Hl Fr. assert (Hf : (0 < f)%nat) by lia.
    destruct (atom_cases f k t P n r Hc Hk H Hl Fr)
      as [(c & i' & E & HB & N1 & N2 & HL)|[(i' & E & -> & HS)|(i' & E & -> & HS)]]; unfold atoms.
    - apply stps_alt_r.
      + intros s. apply group_fails_gn; [exact Hf|]. rewrite E. apply not_start; assumption.
      + apply stps_alt_l. apply (singleton_steps k); assumption.
    - apply stps_alt_l. exact HS.
    - apply stps_alt_r.
      + intros s. apply group_fails_gn; [exact Hf|]. rewrite E. apply not_start; [discriminate|notblank].
      + apply stps_alt_r; [|exact HS].
        intros s. rewrite E. apply singleton_none. cbn. tauto.
  Qed.

  Lemma rest_steps : forall f k t P n r, claim f -> is_atom k = true -> ex k t P n ->
    (length t < f)%nat -> follow r ->
    stps n (salt (sub_singleton O) (salt (snd (sub_gn O f)) (fst (sub_gn O f)))) (t ++ r) (ylds P r)
    /\ stps n (salt (sub_singleton O) (salt (fst (sub_gn O f)) (snd (sub_gn O f)))) (t ++ r) (ylds P r).
  Proof.
    intros f k t P n r Hc Hk H Hl Fr. assert (Hf : (0 < f)%nat) by lia.
    destruct (atom_cases f k t P n r Hc Hk H Hl Fr)
      as [(c & i' & E & HB & N1 & N2 & HL)|[(i' & E & -> & HS)|(i' & E & -> & HS)]].
    - split; apply stps_alt_l; apply (singleton_steps k); assumption.
    - split; (apply stps_alt_r; [intros s; rewrite E; apply singleton_none; cbn; tauto|]).
      + apply stps_alt_r; [|exact HS]. intros s. apply not_fails_gn; [exact Hf|]. rewrite E.
        apply not_start; [discriminate|notblank].
      + apply stps_alt_l. exact HS.
    - split; (apply stps_alt_r; [intros s; rewrite E; apply singleton_none; cbn; tauto|]).
      + apply stps_alt_l. exact HS.
      + apply stps_alt_r; [|exact HS]. intros s. apply group_fails_gn; [exact Hf|]. rewrite E.
        apply not_start; [discriminate|notblank].
  Qed.

  Lemma whole_steps : forall f k t P n r rest, claim f -> alone k = true -> ex k t P n ->
    (length t < f)%nat -> follow r -> no_op r ->
    (is_atom k = true -> stps n rest (t ++ r) (ylds P r)) ->
    stps (8 * n) (salt (sub_composite O (fst (sub_gn O f)) (snd (sub_gn O f))) rest) (t ++ r) (ylds P r).
  Proof.
    intros f k t P n r rest Hc Hk H Hl Fr Sr Hr.
    apply (whole_ok sub_holds (sub_leaf O) (fun n => 1 + 8 * n) N.add N.mul sub_join_ok sub_step)
      with (L := length t) (k := k) (atoms := atoms f) (tok_and := slift (tok (lit "&&")))
           (tok_xor := slift (alt (tok (lit "^")) (tok (lit "XOR")))) (tok_or := slift (tok (lit "||")))
           (op_and := sm_and) (op_xor := sm_xor) (op_or := sm_or); try assumption.
    - intros; lia.
    - intros; lia.
    - intros; lia.
    - intros; lia.
    - intros. apply N.mul_add_distr_l.
    - intros i j n0. rewrite N.mul_add_distr_r. lia.
    - intros. apply N.mul_le_mono; assumption.
    - unfold sub_join_ok. intros; lia.
    - unfold sub_step. intros; lia.
    - unfold sub_step, sub_join_ok. intros; lia.
    - unfold sub_step. intros; lia.
    - apply sub_leaf_start'.
    - apply sub_and_means.
    - apply sub_xor_means.
    - apply sub_or_means.
    - apply and_tok_reads.
    - apply xor_tok_reads.
    - apply or_tok_reads.
    - intros k' t' P' n' r' K' H' L' F'. apply (atoms_steps f k'); try assumption. lia.
    - lia.
  Qed.

  Lemma claim_all : forall f, claim f.
  Proof.
    induction f as [|f IH]; intros k t P n r Hk H Hl Fr; [lia|]. rewrite gn_S. cbn [fst snd].
    apply atom_inv in H as [H|[(-> & k' & w1 & e & w2 & n' & Ha & He & W1 & W2 & -> & ->)
                               |(-> & k' & w & e & P' & Hn & He & W & -> & ->)]]; [| | |exact Hk].
    - destruct H; [apply sub_leaf_exists|apply sub_leaf_cond]; assumption.
    - (* group *)
      rewrite !app_length in Hl. cbn in Hl.
      assert (Le : (length e < f)%nat) by lia.
      rewrite <- !app_assoc. change (lit ")" ++ r) with (41 :: r).
      destruct (close_follow w2 41 r W2 ltac:(cbn; tauto)) as [F1 F2].
      intros s Hs. unfold sub_join_ok in Hs. cbn beta in Hs.
      pose (s1 := mkLevels (lv_sub s + 1) (lv_field s) (lv_fmt s)).
      assert (Hw : stps (8 * n') (salt (sub_composite O (fst (sub_gn O f)) (snd (sub_gn O f)))
                 (salt (sub_singleton O) (salt (snd (sub_gn O f)) (fst (sub_gn O f)))))
                 (e ++ w2 ++ 41 :: r) (ylds P (w2 ++ 41 :: r))).
      { apply (whole_steps f k'); try assumption. intros Ka. apply (rest_steps f k'); assumption. }
      destruct (Hw s1) as (x & s' & E & (a & r' & -> & Hm & Hr) & HS); [unfold sub_join_ok, s1; cbn [lv_sub]; lia|].
      exists (POk (SMGroup a) (skip_ws r)), s'.
      assert (Ne : e <> [] /\ nonblank e).
      { apply (expr_start (sub_leaf O) (fun n => 1 + 8 * n) N.add sub_leaf_start' _ _ _ _ He). }
      split; [|split].
      + unfold sub_group_body, smap, sdelim. unfold sbind at 1. unfold sbind at 1, slift at 1.
        change (lit "(" ++ w1 ++ e ++ w2 ++ 41 :: r) with ([] ++ 40 :: w1 ++ e ++ w2 ++ 41 :: r).
        rewrite ws_ch_ok; [|constructor|notblank].
        rewrite skip_ws_blanks_nonblank; [|exact W1|apply nonblank_app; apply Ne].
        unfold sub_inc. rewrite (proj2 (N.leb_gt 256 (lv_sub s + 1))) by lia.
        change (mkLevels (lv_sub s + 1) (lv_field s) (lv_fmt s)) with s1.
        unfold sbind at 1. rewrite E. unfold sbind, slift, ws. rewrite Hr.
        rewrite skip_to_token; [|exact W2|notblank]. rewrite ch_ok. reflexivity.
      + exists (SMGroup a), (skip_ws r). split; [reflexivity|]. split; [exact Hm|apply skip_ws_idem].
      + unfold sub_step in *. unfold s1 in HS. cbn [lv_sub lv_field lv_fmt] in HS.
        cbn beta. lia.
    - (* not *)
      rewrite !app_length in Hl. cbn in Hl.
      assert (Le : (length e < f)%nat) by lia. assert (Hf : (0 < f)%nat) by lia.
      assert (Ke : is_atom k' = true) by (destruct k'; try discriminate; reflexivity).
      assert (Hw : stps n (salt (fst (sub_gn O f)) (salt (slift (pmap SMSingleton parse_exists)) (snd (sub_gn O f))))
                     (e ++ r) (ylds P' r)).
      { destruct (atom_cases f k' e P' n r IH Ke He Le Fr)
          as [(c & i' & E & HB & N1 & N2 & HL)|[(i' & E & -> & HS)|(i' & E & -> & HS)]].
        - apply stps_alt_r.
          + intros s. apply group_fails_gn; [exact Hf|]. rewrite E. apply not_start; assumption.
          + apply stps_alt_l. destruct HL as [t P HL|t P HL]; [|discriminate].
            apply exists_steps. exact HL.
        - apply stps_alt_l. exact HS.
        - apply stps_alt_r.
          + intros s. apply group_fails_gn; [exact Hf|]. rewrite E. apply not_start; [discriminate|notblank].
          + apply stps_alt_r; [|exact HS]. intros s. rewrite E. apply exists_none_c. cbn. tauto. }
      intros s Hs. destruct (Hw s Hs) as (x & s' & E & (a & r' & -> & Hm & Hr) & HS).
      exists (POk (SMNot a) r'), s'.
      assert (Ne : e <> [] /\ nonblank e).
      { apply (expr_start (sub_leaf O) (fun n => 1 + 8 * n) N.add sub_leaf_start' _ _ _ _ He). }
      split; [|split; [|exact HS]].
      + unfold sub_not_body, smap, spreceded. unfold sbind at 1, slift at 1. rewrite <- !app_assoc.
        change (lit "!" ++ w ++ e ++ r) with ([] ++ 33 :: w ++ e ++ r).
        rewrite ws_ch_ok; [|constructor|notblank].
        rewrite skip_ws_blanks_nonblank; [|exact W|apply nonblank_app; apply Ne].
        rewrite E. reflexivity.
      + exists (SMNot a), r'. split; [reflexivity|]. split; [|exact Hr].
        intros ci sfs. unfold sub_holds. cbn [sm_holds]. specialize (Hm ci sfs). unfold sub_holds in Hm.
        rewrite Hm. reflexivity.
  Qed.

  (** ** the whole parser *)
  Lemma subfield_accepts : forall k t P n r s, alone k = true -> ex k t P n -> follow r -> no_op r ->
    lv_sub s + 8 * n < 256 ->
    exists m r', parse_subfield_matcher O s (t ++ r) = (POk m r', sub_reset s)
      /\ means sub_holds m P /\ skip_ws r' = skip_ws r.
  Proof.
    intros k t P n r s Hk H Fr Sr Hs. unfold parse_subfield_matcher.
    set (f := S (length (t ++ r))). assert (Hl : (length t < f)%nat) by (unfold f; rewrite app_length; lia).
    destruct (sub_gn O f) as [g nt] eqn:Eg.
    assert (Hw : stps (8 * n) (salt (sub_composite O g nt) (salt (sub_singleton O) (salt g nt)))
                   (t ++ r) (ylds P r)).
    { assert (E1 : g = fst (sub_gn O f)) by (rewrite Eg; reflexivity).
      assert (E2 : nt = snd (sub_gn O f)) by (rewrite Eg; reflexivity). rewrite E1, E2.
      apply (whole_steps f k); try assumption; [apply claim_all|].
      intros Ka. apply (rest_steps f k); try assumption. apply claim_all. }
    destruct (Hw s Hs) as (x & s' & E & (a & r' & -> & Hm & Hr) & HS). rewrite E. exists a, r'.
    split; [|split; [exact Hm|exact Hr]].
    destruct HS as (_ & _ & E1 & E2). unfold sub_reset. rewrite E1, E2. reflexivity.
  Qed.
End Sub.

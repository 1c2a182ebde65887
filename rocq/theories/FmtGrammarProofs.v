(** * Grammar of formats: every text of the language is read *)

From Coq Require Import String.
From Verif Require Import Bytes Winnow RecordModel RecordSpec BaseProofs Utf8Model Utf8Spec
  TagOccModel TagOccSpec TagOccProofs StrParserModel StrSpec StrProofs MatcherModel StateParser
  MatcherParserModel MatcherSpec GrammarSpec GrammarExprProofs GrammarLeafProofs GrammarSingletonProofs
  GrammarCondProofs GrammarSubProofs GrammarFieldLeafProofs GrammarFieldProofs GrammarSoundProofs
  PathModel FmtModel QueryModel QuerySpec QueryProofs QueryGrammarSpec PathGrammarProofs.

(** ** modifiers *)
Definition letter : parser byte := alt (ch 108) (alt (ch 117) (alt (ch 116) (alt (ch 119) (ch 111)))).

Lemma letter_ok : forall c r, In c modifier_letters -> letter (c :: r) = Some (c, r).
Proof.
  intros c r H. cbn in H. repeat (destruct H as [<-|H]; [reflexivity|]). contradiction.
Qed.

Lemma letter_inv : forall i c r, letter i = Some (c, r) -> i = c :: r /\ In c modifier_letters.
Proof.
  intros i c r H. unfold letter, alt in H.
  repeat match type of H with
  | match ch ?d i with _ => _ end = _ =>
      destruct (ch d i) as [[x r']|] eqn:E;
        [injection H as -> ->; apply ch_inv in E as [-> ->]; split; [reflexivity|cbn; tauto]|clear E]
  end.
  apply ch_inv in H as [-> ->]. split; [reflexivity|cbn; tauto].
Qed.

Lemma letter_none : forall i, ~ begins modifier_letters i -> letter i = None.
Proof.
  intros i H. destruct (letter i) as [[c r]|] eqn:E; [|reflexivity].
  exfalso. apply H. apply letter_inv in E as [-> Hc]. exists c, r. auto.
Qed.

Lemma letters_rest : forall l n r, Forall (fun c => In c modifier_letters) l -> ~ begins modifier_letters r ->
  (length (l ++ r) < n)%nat -> repeat0_fuel n letter (l ++ r) = Some (l, r).
Proof.
  induction l as [|c l IH]; intros n r Hl Hr Hn; (destruct n as [|n]; [lia|]); cbn [repeat0_fuel app].
  - rewrite letter_none by exact Hr. reflexivity.
  - inversion Hl as [|? ? Hc Hl']; subst. rewrite letter_ok by exact Hc.
    destruct (Nat.eqb_spec (length (l ++ r)) (length (c :: l ++ r))) as [Hb|Hb]; [cbn in Hb; lia|].
    rewrite (IH n r Hl' Hr); [reflexivity|]. cbn [app length] in Hn. lia.
Qed.

Lemma letters_inv : forall n i l r, repeat0_fuel n letter i = Some (l, r) ->
  i = l ++ r /\ Forall (fun c => In c modifier_letters) l /\ ~ begins modifier_letters r.
Proof.
  induction n as [|n IH]; intros i l r H; [discriminate|]. cbn [repeat0_fuel] in H.
  destruct (letter i) as [[c r1]|] eqn:E.
  - destruct (Nat.eqb (length r1) (length i)); [discriminate|].
    destruct (repeat0_fuel n letter r1) as [[l' r2]|] eqn:E2; [|discriminate]. injection H as <- <-.
    apply letter_inv in E as [-> Hc]. apply IH in E2 as (-> & Hl & Hr). repeat split; auto.
  - injection H as <- <-. split; [reflexivity|]. split; [constructor|].
    intros (c & t' & -> & Hc). rewrite letter_ok in E by exact Hc. discriminate.
Qed.

Lemma modifier_of_means : forall l, letters_mean l (modifier_of l).
Proof. intros l. unfold letters_mean, modifier_of. cbn. rewrite !mem_byte_In. tauto. Qed.

Lemma letters_mean_fun : forall l m m', letters_mean l m -> letters_mean l m' -> m = m'.
Proof.
  intros l [a b c d e] [a' b' c' d' e'] H H'. unfold letters_mean in *. cbn in *.
  destruct H as (H1 & H2 & H3 & H4 & H5). destruct H' as (G1 & G2 & G3 & G4 & G5).
  assert (B : forall (x y : bool) P, (x = true <-> P) -> (y = true <-> P) -> x = y).
  { intros [] [] P X Y; try reflexivity; [symmetry; apply Y, X; reflexivity|apply X, Y; reflexivity]. }
  f_equal; eapply B; eassumption.
Qed.

Lemma modifier_ok : forall tm m r, modifier_text tm m -> (tm = [] -> ~ begins (lit "?") r) ->
  (tm <> [] -> ~ begins modifier_letters r) ->
  exists m', parse_modifier (tm ++ r) = Some (m', r) /\ modifier_default m' = m.
Proof.
  intros tm m r H H1 H2. unfold parse_modifier, opt, preceded, pmap. fold letter.
  destruct H as [|l m Hne Hl Hm].
  - specialize (H1 eq_refl). cbn [app]. destruct (ch 63 r) as [[x r']|] eqn:E.
    + exfalso. apply H1. apply ch_inv in E as [-> _]. exists 63, r'. split; [reflexivity|cbn; tauto].
    + exists None. auto.
  - specialize (H2 ltac:(discriminate)). rewrite <- app_assoc. change (lit "?" ++ ?x) with (63 :: x).
    rewrite ch_ok. unfold repeat1. destruct l as [|c l]; [contradiction|]. inversion Hl as [|? ? Hc Hl']; subst.
    cbn [app]. rewrite letter_ok by exact Hc. unfold repeat0. rewrite letters_rest; [|exact Hl'|exact H2|lia].
    eexists. split; [reflexivity|]. cbn [modifier_default]. eapply letters_mean_fun; [apply modifier_of_means|exact Hm].
Qed.

Lemma modifier_inv : forall i m r, parse_modifier i = Some (m, r) ->
  exists tm, i = tm ++ r /\ modifier_text tm (modifier_default m)
    /\ (tm <> [] -> ~ begins modifier_letters r)
    /\ (tm = [] -> forall c r', r = 63 :: c :: r' -> ~ In c modifier_letters).
Proof.
  intros i m r H. unfold parse_modifier, opt, preceded, pmap in H. fold letter in H.
  destruct (ch 63 i) as [[x r1]|] eqn:E1.
  - destruct (repeat1 letter r1) as [[l r2]|] eqn:E2.
    + injection H as <- <-. apply ch_inv in E1 as [-> _]. unfold repeat1 in E2.
      destruct (letter r1) as [[c r3]|] eqn:E3; [|discriminate].
      destruct (repeat0 letter r3) as [[l' r4]|] eqn:E4; [|discriminate]. injection E2 as <- <-.
      apply letter_inv in E3 as [-> Hc]. apply letters_inv in E4 as (-> & Hl & Hr).
      exists (lit "?" ++ c :: l'). split; [reflexivity|]. split; [|split; [auto|discriminate]].
      apply modifier_some; [discriminate|constructor; assumption|apply modifier_of_means].
    + injection H as <- <-. apply ch_inv in E1 as [-> _]. exists []. split; [reflexivity|].
      split; [apply modifier_none|]. split; [contradiction|]. intros _ c r' E. injection E as ->.
      intros Hc. unfold repeat1 in E2. rewrite letter_ok in E2 by exact Hc.
      destruct (repeat0 letter r') as [[l r]|] eqn:E3; [discriminate|].
      unfold repeat0 in E3.
      assert (G : forall n j, (length j < n)%nat -> exists l r, repeat0_fuel n letter j = Some (l, r)).
      { induction n as [|n IH]; intros j Hj; [lia|]. cbn [repeat0_fuel]. destruct (letter j) as [[d j']|] eqn:F; [|eauto].
        apply letter_inv in F as [-> _]. destruct (Nat.eqb_spec (length j') (length (d :: j'))) as [Hb|Hb]; [cbn in Hb; lia|].
        destruct (IH j') as (l & r & ->); [cbn in Hj; lia|]. eauto. }
      destruct (G (S (length r')) r') as (l & r & F); [lia|]. rewrite F in E3. discriminate.
  - injection H as <- <-. exists []. split; [reflexivity|]. split; [apply modifier_none|]. split; [contradiction|].
    intros _ c r' ->. rewrite ch_ok in E1. discriminate.
Qed.

(** ** bounds *)
Definition starts (l : bytes) (r : bytes) : Prop := match r with [] => False | c :: _ => In c l end.

Lemma bound_ok : forall d tb n r, bound_text d tb n ->
  match r with [] => True | c :: _ => is_digit c = false /\ c <> 46 end ->
  parse_bound d (tb ++ r) = Some (n, r).
Proof.
  intros d tb n r H Hr. unfold parse_bound, alt, preceded, pvalue, pmap.
  destruct H as [| |t n Hn].
  - cbn [app]. assert (E : tok (lit "..") r = None).
    { destruct r as [|c r]; [reflexivity|]. destruct Hr as [_ Hc].
      change (tok (lit "..") (c :: r)) with (if 46 =? c then tok (lit ".") r else None).
      replace (46 =? c) with false by (symmetry; apply N.eqb_neq; congruence). reflexivity. }
    rewrite E. reflexivity.
  - change (tok (lit "..") (lit ".." ++ r)) with (Some (Datatypes.tt, r)). cbv iota beta.
    assert (E : parse_usize r = None).
    { unfold parse_usize, take_while1. destruct r as [|c r]; [reflexivity|]. cbn [span]. destruct Hr as [-> _]. reflexivity. }
    rewrite E. reflexivity.
  - rewrite <- app_assoc. change (tok (lit "..") (lit ".." ++ t ++ r)) with (Some (Datatypes.tt, t ++ r)). cbv iota beta.
    rewrite (usize_ok t n r Hn); [reflexivity|]. destruct r; [exact I|apply Hr].
Qed.

Lemma bound_inv : forall d i n r, parse_bound d i = Some (n, r) -> exists tb, i = tb ++ r /\ bound_text d tb n.
Proof.
  intros d i n r H. unfold parse_bound, alt, preceded, pvalue, pmap in H.
  destruct (tok (lit "..") i) as [[u r1]|] eqn:E.
  - apply tok_inv in E. subst i. destruct (parse_usize r1) as [[n' r2]|] eqn:E2.
    + injection H as <- <-. apply usize_inv in E2 as (t & -> & Hn & _). exists (lit ".." ++ t).
      split; [rewrite <- app_assoc; reflexivity|]. apply bound_some. exact Hn.
    + injection H as <- <-. exists (lit ".."). split; [reflexivity|apply bound_all].
  - injection H as <- <-. exists []. split; [reflexivity|apply bound_none].
Qed.

Lemma skip_ws_length : forall r, (length (skip_ws r) <= length r)%nat.
Proof. intros r. destruct (skip_ws_split r) as (w & _ & E). rewrite E at 2. lens. Qed.

(** ** what follows a fragment *)
Definition fstop (r : bytes) : Prop := exists c r', skip_ws r = c :: r' /\ In c (lit "<)|}").

Definition quiet (r : bytes) : Prop := match r with [] => True | c :: _ => is_digit c = false /\ c <> 46 end.

Lemma quiet_blank : forall w r, blanks w -> quiet r -> quiet (w ++ r).
Proof.
  intros [|c w] r W H; [exact H|]. inversion W as [|x y HB _]; subst. cbn. unfold blank in HB. cbn in HB.
  repeat (destruct HB as [<-|HB]; [split; [reflexivity|discriminate]|]). contradiction.
Qed.

Lemma fstop_quiet : forall r, fstop r -> quiet r /\ parse_string (skip_ws r) = None.
Proof.
  intros r (c & r' & E & Hc). destruct (skip_ws_split r) as (w & W & Er). rewrite E in Er. split.
  - rewrite Er. apply quiet_blank; [exact W|]. cbn in Hc. cbn.
    repeat (destruct Hc as [<-|Hc]; [split; [reflexivity|discriminate]|]). contradiction.
  - rewrite E. cbn in Hc.
    repeat (destruct Hc as [<-|Hc]; [apply string_none; discriminate|]). contradiction.
Qed.

Lemma fstop_skip : forall r, fstop (skip_ws r) <-> fstop r.
Proof. intros r. unfold fstop. rewrite skip_ws_idem. reflexivity. Qed.

Lemma fstop_token : forall w c r, blanks w -> In c (lit "<)|}") -> fstop (w ++ c :: r).
Proof.
  intros w c r W Hc. exists c, r. split; [|exact Hc]. apply skip_to_token; [exact W|].
  cbn in Hc. repeat (destruct Hc as [<-|Hc]; [notblank|]). contradiction.
Qed.

Section Values.
  Variable T : text_fns.

  Definition is_fgroup (fr : fragments) : bool := match fr with FGroup _ _ _ => true | _ => false end.
  Definition frag_means (k : fkind) (fr : fragments) (R : fmeaning) : Prop :=
    frag_wf fr /\ is_fgroup fr = is_group k
    /\ forall strip f out, frag_text T strip f fr out <-> R strip f out.

  Lemma picks_iff : forall A B (P Q : A -> Prop) (g : A -> B) l out, (forall x, P x <-> Q x) ->
    picks P g l out <-> picks Q g l out.
  Proof.
    assert (G : forall A B (P Q : A -> Prop) (g : A -> B) l out, (forall x, P x <-> Q x) ->
      picks P g l out -> picks Q g l out).
    { induction 2; constructor; try assumption; [apply H; assumption|]. rewrite <- H. assumption. }
    intros A B P Q g l out H. split; apply G; [exact H|intros x; symmetry; apply H].
  Qed.

  Lemma value_means : forall k l C pre suf p s bound m, is_group k = false -> same_set l C ->
    opt_text p = pre -> opt_text s = suf ->
    frag_means k (FValue l p s bound m) (values_meaning T C pre suf bound m).
  Proof.
    intros k l C pre suf p s bound m Hk Hl <- <-. split; [exact I|]. split; [symmetry; exact Hk|].
    intros strip f out. unfold values_meaning.
    assert (E : forall vs, picks (fun s => C (sf_code s)) sf_value (f_subfields f) vs <-> values_of l f vs).
    { intros vs. apply picks_iff. intros x. symmetry. apply Hl. }
    split.
    - intros H. inversion H; subst. eexists _, _. split; [apply E; eassumption|]. split; eassumption.
    - intros (vs & vs' & H1 & H2 & H3). eapply ft_value; [apply E; exact H1|exact H2|exact H3].
  Qed.

  Lemma begins_app : forall l t r, t <> [] -> ~ begins l t -> ~ begins l (t ++ r).
  Proof.
    intros l [|c t] r Ht H (d & t' & E & Hd); [contradiction|]. cbn in E. injection E as -> _.
    apply H. exists d, t. auto.
  Qed.

  Lemma prefix_start : forall tp pre tc C, prefix_text tp pre -> codes_text tc C ->
    exists c t', tp ++ tc = c :: t' /\ ~ blank c /\ c <> 40 /\ c <> 63.
  Proof.
    intros tp pre tc C Hp Hc. destruct Hp as [|t v w Ht W].
    - destruct (codes_start tc C Hc) as (c & t' & -> & _ & H). exists c, t'. split; [reflexivity|].
      destruct H as [H|[->| ->]].
      + split; [apply alnum_nonblank; exact H|]. apply alnums_iff in H. split; intros ->; discriminate.
      + split; [notblank|split; discriminate].
      + split; [notblank|split; discriminate].
    - destruct (string_start t v Ht) as (q & t' & -> & Hq). eexists q, _. split; [reflexivity|].
      destruct Hq as [-> | ->]; (split; [notblank|split; discriminate]).
  Qed.

  Lemma modifier_start : forall tm m, modifier_text tm m -> tm = [] \/ exists t', tm = 63 :: t'.
  Proof. intros tm m [|l m' _ _ _]; [left; reflexivity|right; eexists; reflexivity]. Qed.

  Lemma value_ok : forall tm m w1 tp pre tc C tb bound ts suf r,
    modifier_text tm m -> blanks w1 -> (tm = [] -> w1 = []) -> prefix_text tp pre -> codes_text tc C ->
    bound_text 1 tb bound -> suffix_text ts suf -> after tm w1 (tp ++ tc) -> fstop r ->
    exists fr r', parse_value ((tm ++ w1 ++ tp ++ tc ++ tb ++ ts) ++ r) = Some (fr, r')
      /\ skip_ws r' = skip_ws r /\ (length r' <= length r)%nat
      /\ forall k, is_group k = false -> frag_means k fr (values_meaning T C pre suf bound m).
  Proof.
    intros tm m w1 tp pre tc C tb bound ts suf r Hm W1 Hw Hp Hc Hb Hs [A1 A2] Hr.
    destruct (prefix_start tp pre tc C Hp Hc) as (c0 & t0 & E0 & B0 & N40 & N63).
    assert (Nb : nonblank ((tp ++ tc) ++ (tb ++ ts) ++ r)) by (rewrite E0; apply nonblank_cons; exact B0).
    unfold parse_value. rewrite <- !app_assoc.
    set (rest := tb ++ ts ++ r).
    assert (EX : tp ++ tc ++ rest = c0 :: t0 ++ rest) by (rewrite app_assoc, E0; reflexivity).
    (* modifier *)
    assert (Em : exists m', ws parse_modifier (tm ++ w1 ++ tp ++ tc ++ rest) = Some (m', tp ++ tc ++ rest)
                   /\ modifier_default m' = m).
    { unfold ws. assert (Ns : nonblank (tm ++ w1 ++ tp ++ tc ++ rest)).
      { destruct (modifier_start tm m Hm) as [->|(t' & ->)].
        - rewrite (Hw eq_refl). cbn [app]. rewrite EX. apply nonblank_cons. exact B0.
        - apply nonblank_cons. notblank. }
      rewrite skip_ws_nonblank by exact Ns.
      destruct (modifier_ok tm m (w1 ++ tp ++ tc ++ rest) Hm) as (m' & E & Em).
      - intros ->. rewrite (Hw eq_refl). cbn [app]. rewrite EX. intros (d & t' & E & Hd). injection E as <- _.
        cbn in Hd. destruct Hd as [Hd|[]]. apply N63. symmetry. exact Hd.
      - intros Hne. destruct w1 as [|d w1].
        + cbn [app]. rewrite app_assoc. apply begins_app; [rewrite E0; discriminate|]. apply A2; auto.
        + intros (e & t' & E & He). cbn in E. injection E as <- _. inversion W1 as [|x y HB _]; subst.
          unfold blank in HB. cbn in HB, He.
          repeat (destruct HB as [<-|HB]; [repeat (destruct He as [He|He]; [discriminate|]); contradiction|]).
          contradiction.
      - exists m'. rewrite E, skip_ws_blanks_nonblank; [auto|exact W1|]. rewrite EX. apply nonblank_cons. exact B0. }
    destruct Em as (m' & Em & Hm'). rewrite Em.
    (* prefix *)
    destruct (codes_nonblank tc C Hc) as [Nc1 Nc2].
    assert (Ep : exists p, opt (ws parse_string) (tp ++ tc ++ rest) = Some (p, tc ++ rest) /\ opt_text p = pre).
    { unfold opt, ws. rewrite skip_ws_nonblank by (rewrite EX; apply nonblank_cons; exact B0).
      destruct Hp as [|t v w Ht W].
      - cbn [app] in *. exists None. destruct (codes_start tc C Hc) as (c & t' & -> & _ & H). cbn [app].
        rewrite string_none; [auto|..]; destruct H as [H|[->| ->]]; try discriminate;
          apply alnums_iff in H; intros ->; discriminate.
      - exists (Some v). rewrite <- app_assoc. rewrite (proj2 (string_iff _ v (w ++ tc ++ rest))); [|eauto].
        rewrite skip_ws_blanks_nonblank; [auto|exact W|apply nonblank_app; assumption]. }
    destruct Ep as (p & Ep & Hpre). rewrite Ep.
    destruct (codes_ok tc C rest Hc) as (l & El & Hl). rewrite El.
    destruct (fstop_quiet r Hr) as [Q1 Q2].
    unfold rest. rewrite (bound_ok 1 tb bound (ts ++ r) Hb).
    2:{ change (quiet (ts ++ r)). destruct Hs as [|w t v W Ht]; [exact Q1|]. rewrite <- app_assoc.
        apply quiet_blank; [exact W|]. destruct (string_start t v Ht) as (q & t' & -> & Hq). cbn.
        destruct Hq as [-> | ->]; (split; [reflexivity|discriminate]). }
    assert (Es : exists s r', opt (ws parse_string) (ts ++ r) = Some (s, r') /\ opt_text s = suf
                   /\ skip_ws r' = skip_ws r /\ (length r' <= length r)%nat).
    { unfold opt, ws. destruct Hs as [|w t v W Ht].
      - cbn [app]. rewrite Q2. exists None, r. auto.
      - rewrite <- app_assoc. destruct (string_nonblank t v Ht) as [Ns1 Ns2].
        rewrite skip_ws_blanks_nonblank; [|exact W|apply nonblank_app; assumption].
        rewrite (proj2 (string_iff _ v r)); [|eauto]. exists (Some v), (skip_ws r).
        rewrite skip_ws_idem. auto using skip_ws_length. }
    destruct Es as (s & r' & Es & Hsuf & Hr' & Hlen). rewrite Es.
    eexists _, r'. split; [reflexivity|]. split; [exact Hr'|]. split; [exact Hlen|]. intros k Hk. rewrite Hm'.
    apply value_means; assumption.
  Qed.
End Values.

Section Fragments.
  Variable T : text_fns.
  Notation ex := (frag_expr T).
  Notation fmeans := (frag_means T).

  Lemma frag_start : forall k t R n, ex k t R n ->
    t <> [] /\ nonblank t /\ (is_item k = true -> is_group k = false -> forall r i, t ++ r <> 40 :: i)
    /\ (is_group k = true -> exists t', t = 40 :: t').
  Proof.
    intros k t R n H.
    induction H as [tm m w1 tp pre tc C tb bound ts suf Hm W1 Hw Hp Hc Hb Hs HA
                   |k w1 tm m w2 e R n w3 w4 tb bound Hk H IH Hm W1 W2 Hw HA W3 W4 Hb Hw4
                   |k1 k2 t1 w1 w2 t2 R1 R2 n1 n2 K1 K2 H1 IH1 H2 IH2 W1 W2
                   |k1 k2 t1 w1 w2 t2 R1 R2 n1 n2 K1 H1 IH1 H2 IH2 W1 W2].
    - destruct (prefix_start tp pre tc C Hp Hc) as (c0 & t0 & E0 & B0 & N40 & N63).
      assert (Hcase : (tm = [] /\ w1 = []) \/ exists t', tm = 63 :: t').
      { destruct (modifier_start tm m Hm) as [->|(t' & ->)]; [left; auto|right; eauto]. }
      rewrite (app_assoc tp). rewrite E0.
      destruct Hcase as [[-> ->]|(t' & ->)]; cbn [app].
      + split; [discriminate|]. split; [apply nonblank_cons; exact B0|].
        split; [intros _ _ r i E; injection E as E _; contradiction|].
        destruct tp, tb, ts; discriminate.
      + split; [discriminate|]. split; [apply nonblank_cons; notblank|]. split; [discriminate|discriminate].
    - split; [discriminate|]. split; [apply nonblank_cons; notblank|].
      split; [|intros _; eexists; reflexivity]. intros _ F. exfalso. destruct k, tm, tb; discriminate.
    - destruct IH1 as (N & B & _). split; [destruct t1; [contradiction|discriminate]|].
      split; [apply nonblank_app; assumption|]. split; discriminate.
    - destruct IH1 as (N & B & _). split; [destruct t1; [contradiction|discriminate]|].
      split; [apply nonblank_app; assumption|]. split; discriminate.
  Qed.

  (** [p] reads [t], or fails *)
  Definition accepts {A} (p : sparser A) (n : N) (t r : bytes) (Q : A -> Prop) : Prop :=
    forall s, lv_fmt s + n < 32 -> exists a r',
      p s (t ++ r) = (POk a r', s) /\ Q a /\ skip_ws r' = skip_ws r /\ (length r' <= length r)%nat.
  Definition rejects {A} (p : sparser A) (n : N) (i : bytes) : Prop :=
    forall s, lv_fmt s + n < 32 -> p s i = (PErr, s).

  Lemma accepts_mono : forall A (p : sparser A) n n' t r Q, n <= n' -> accepts p n t r Q -> accepts p n' t r Q.
  Proof. intros A p n n' t r Q Hn H s Hs. apply H. lia. Qed.
  Lemma accepts_weaken : forall A (p : sparser A) n t r (Q Q' : A -> Prop), (forall a, Q a -> Q' a) ->
    accepts p n t r Q -> accepts p n t r Q'.
  Proof.
    intros A p n t r Q Q' HQ H s Hs. destruct (H s Hs) as (a & r' & E & Ha & Hr). exists a, r'. auto.
  Qed.
  Lemma accepts_alt_l : forall A (p q : sparser A) n t r Q, accepts p n t r Q -> accepts (salt p q) n t r Q.
  Proof.
    intros A p q n t r Q H s Hs. destruct (H s Hs) as (a & r' & E & HQ). exists a, r'.
    unfold salt. rewrite E. auto.
  Qed.
  Lemma accepts_alt_r : forall A (p q : sparser A) n t r Q, rejects p n (t ++ r) -> accepts q n t r Q ->
    accepts (salt p q) n t r Q.
  Proof.
    intros A p q n t r Q Hp Hq s Hs. unfold salt. rewrite (Hp s Hs). apply Hq. exact Hs.
  Qed.
  Lemma rejects_alt : forall A (p q : sparser A) n i, rejects p n i -> rejects q n i -> rejects (salt p q) n i.
  Proof. intros A p q n i Hp Hq s Hs. unfold salt. rewrite (Hp s Hs). apply Hq. exact Hs. Qed.

  (** a fragment with a meaning *)
  Definition fm (fr : fragments) (R : fmeaning) : Prop :=
    frag_wf fr /\ forall strip f out, frag_text T strip f fr out <-> R strip f out.

  (** *** chains *)
  Section Chain.
    Variable p : sparser fragments.
    Variable x : bytes.
    Hypothesis x_start : exists x', x = 60 :: x'.
    Variable L : nat.
    Variable itm : bytes -> fmeaning -> N -> Prop.
    Variable fol : bytes -> Prop.
    Hypothesis itm_start : forall t R n, itm t R n -> t <> [] /\ nonblank t.
    Hypothesis itm_ok : forall t R n r, itm t R n -> (length t <= L)%nat -> fol r ->
      accepts p n t r (fun fr => fm fr R).
    Hypothesis fol_x : forall w r, blanks w -> fol (w ++ x ++ r).

    Definition stop (r : bytes) : Prop := starts_with (skip_ws r) x = false.

    Inductive chn : bytes -> list fmeaning -> N -> Prop :=
    | chn_one : forall t R n, itm t R n -> chn t [R] n
    | chn_more : forall t R n w1 w2 ts Rs m, itm t R n -> blanks w1 -> blanks w2 -> chn ts Rs m ->
        chn (t ++ w1 ++ x ++ w2 ++ ts) (R :: Rs) (N.max n m).

    Lemma chn_start : forall t Rs n, chn t Rs n -> t <> [] /\ nonblank t.
    Proof.
      intros t Rs n H. destruct H as [t R n H|t R n w1 w2 ts Rs m H W1 W2 Hs].
      - apply (itm_start _ _ _ H).
      - destruct (itm_start _ _ _ H) as [N1 N2]. split; [destruct t; [contradiction|discriminate]|].
        apply nonblank_app; assumption.
    Qed.

    Lemma sep_ok : forall i w r, skip_ws i = x ++ w ++ r -> blanks w -> nonblank r ->
      exists u, ws (tok x) i = Some (u, r) /\ Nat.eqb (length r) (length i) = false.
    Proof.
      intros i w r E W Hr. unfold ws. rewrite E.
      assert (Et : tok x (x ++ w ++ r) = Some (Datatypes.tt, w ++ r)).
      { clear. induction x as [|c y IH]; [reflexivity|]. cbn. rewrite N.eqb_refl. exact IH. }
      rewrite Et, skip_ws_blanks_nonblank by assumption. eexists. split; [reflexivity|].
      destruct (skip_ws_split i) as (v & V & Ei). rewrite E in Ei. rewrite Ei.
      apply Nat.eqb_neq. destruct x_start as (x' & ->). lens.
    Qed.

    Lemma sep_none : forall i, stop i -> ws (tok x) i = None.
    Proof. intros i H. unfold ws. rewrite tok_starts by exact H. reflexivity. Qed.

    Lemma chn_rest : forall ts Rs m, chn ts Rs m -> (length ts <= L)%nat -> forall r w i fuel s,
      fol r -> stop r -> blanks w -> skip_ws i = x ++ w ++ ts ++ r -> (length i < fuel)%nat -> lv_fmt s + m < 32 ->
      exists l r', ssep_rest_fuel fuel p (ws (tok x)) s i = (POk l r', s) /\ Forall2 fm l Rs
        /\ skip_ws r' = skip_ws r /\ (length r' <= length r)%nat.
    Proof.
      intros ts Rs m H. induction H as [t R n H|t R n w1 w2 ts Rs m H W1 W2 Hs IH];
        intros HL r w i fuel s Fr Sr W Ei Hf Hs'.
      - destruct fuel as [|fuel]; [lia|]. cbn [ssep_rest_fuel].
        destruct (itm_start _ _ _ H) as [N1 N2].
        destruct (sep_ok i w (t ++ r) Ei W) as (u & -> & Hb); [apply nonblank_app; assumption|]. rewrite Hb.
        destruct (itm_ok _ _ _ _ H HL Fr s Hs') as (a & r' & -> & Ha & Hr' & Hlen).
        destruct fuel as [|fuel].
        { exfalso. destruct (skip_ws_split i) as (v & V & Ev). rewrite Ei in Ev. rewrite Ev in Hf.
          destruct x_start as (x' & ->). lens. }
        cbn [ssep_rest_fuel]. rewrite sep_none by (unfold stop; rewrite Hr'; exact Sr).
        exists [a], r'. auto.
      - destruct fuel as [|fuel]; [lia|]. cbn [ssep_rest_fuel].
        destruct (itm_start _ _ _ H) as [N1 N2].
        rewrite <- !app_assoc in Ei.
        destruct (sep_ok i w (t ++ w1 ++ x ++ w2 ++ ts ++ r) Ei W) as (u & -> & Hb); [apply nonblank_app; assumption|].
        rewrite Hb.
        assert (Ht : (length t <= L)%nat) by lens.
        destruct (itm_ok _ _ _ (w1 ++ x ++ w2 ++ ts ++ r) H Ht (fol_x w1 _ W1) s ltac:(lia)) as (a & r' & -> & Ha & Hr' & Hlen).
        destruct (IH ltac:(lens) r w2 r' fuel s Fr Sr W2) as (l & r'' & -> & Hl & Hr'' & Hlen').
        { rewrite Hr', skip_ws_blanks by exact W1. destruct x_start as (x' & ->).
          apply skip_ws_nonblank, nonblank_cons. notblank. }
        { destruct (skip_ws_split i) as (v & V & Ev). rewrite Ei in Ev. rewrite Ev in Hf.
          destruct x_start as (x' & ->). lens. }
        { lia. }
        exists (a :: l), r''. auto.
    Qed.

    Lemma chn_ok : forall t Rs n r, chn t Rs n -> (2 <= length Rs)%nat -> (length t <= L)%nat -> fol r -> stop r ->
      accepts (sseparated2 p (ws (tok x))) n t r (fun l => Forall2 fm l Rs).
    Proof.
      intros t Rs n r H H2 HL Fr Sr s Hs. destruct H as [t R n H|t R n w1 w2 ts Rs m H W1 W2 Hc]; [cbn in H2; lia|].
      unfold sseparated2, sseparated1. unfold sbind. rewrite <- !app_assoc.
      destruct (itm_ok _ _ _ (w1 ++ x ++ w2 ++ ts ++ r) H ltac:(lens) (fol_x w1 _ W1) s ltac:(lia))
        as (a & r' & -> & Ha & Hr' & Hlen).
      unfold smap.
      destruct (chn_rest ts Rs m Hc ltac:(lens) r w2 r' (S (length r')) s Fr Sr W2) as (l & r'' & -> & Hl & Hr'' & Hlen').
      { rewrite Hr', skip_ws_blanks by exact W1. destruct x_start as (x' & ->).
        apply skip_ws_nonblank, nonblank_cons. notblank. }
      { lia. } { lia. }
      destruct l as [|b l]; [apply Forall2_len in Hl; destruct Hc; discriminate|].
      exists (a :: b :: l), r''. auto.
    Qed.

    Lemma chn_rejects : forall t R n r, itm t R n -> (length t <= L)%nat -> fol r -> stop r ->
      rejects (sseparated2 p (ws (tok x))) n (t ++ r).
    Proof.
      intros t R n r H HL Fr Sr s Hs. unfold sseparated2, sseparated1, sbind.
      destruct (itm_ok _ _ _ r H HL Fr s Hs) as (a & r' & -> & Ha & Hr' & Hlen).
      unfold smap. cbn [ssep_rest_fuel]. rewrite sep_none; [reflexivity|]. unfold stop. rewrite Hr'. exact Sr.
    Qed.
  End Chain.

  (** *** meanings of chains *)
  Fixpoint fold_meaning (op : fmeaning -> fmeaning -> fmeaning) (Rs : list fmeaning) : fmeaning :=
    match Rs with
    | [] => fun _ _ out => out = []
    | [R] => R
    | R :: Rs' => op R (fold_meaning op Rs')
    end.

  Lemma wf_list : forall l Rs, Forall2 fm l Rs -> Forall frag_wf l.
  Proof. induction 1 as [|a R l Rs [H _] _ IH]; constructor; assumption. Qed.

  Lemma fm_total : forall strip f l, Forall frag_wf l -> exists outs, Forall2 (frag_text T strip f) l outs.
  Proof.
    induction 1 as [|a l Ha _ (outs & IH)]; [exists []; constructor|].
    destruct (fmt_frag_text T strip a f Ha) as (v & _ & Hv). exists (v :: outs). constructor; assumption.
  Qed.

  Lemma both_fold : forall strip f l Rs, Forall2 fm l Rs -> Rs <> [] -> forall out,
    (exists outs, Forall2 (frag_text T strip f) l outs /\ out = concat outs)
    <-> fold_meaning both_meaning Rs strip f out.
  Proof.
    intros strip f l Rs H. induction H as [|a R l Rs [_ Ha] H IH]; intros Hne out; [contradiction|].
    destruct Rs as [|R' Rs].
    - inversion H; subst. cbn [fold_meaning]. rewrite <- (Ha strip f out). split.
      + intros (outs & H' & ->). inversion H' as [|? ? ? ? E1 E2]; subst. inversion E2; subst. cbn.
        rewrite app_nil_r. exact E1.
      + intros E. exists [out]. split; [constructor; [exact E|constructor]|]. cbn. rewrite app_nil_r. reflexivity.
    - specialize (IH ltac:(discriminate)).
      change (fold_meaning both_meaning (R :: R' :: Rs)) with (both_meaning R (fold_meaning both_meaning (R' :: Rs))).
      unfold both_meaning at 1. split.
      + intros (outs & H' & ->). inversion H' as [|? o ? os E1 E2]; subst. exists o, (concat os).
        split; [apply Ha; exact E1|]. split; [|reflexivity]. apply IH. eauto.
      + intros (u & v & E1 & E2 & ->). apply IH in E2 as (os & E2 & ->). apply Ha in E1.
        exists (u :: os). split; [constructor; assumption|reflexivity].
  Qed.

  Lemma then_fold : forall strip f l Rs, Forall2 fm l Rs -> Rs <> [] -> forall out,
    (exists outs, Forall2 (frag_text T strip f) l outs /\ until_empty outs out)
    <-> fold_meaning then_meaning Rs strip f out.
  Proof.
    intros strip f l Rs H. induction H as [|a R l Rs [Wa Ha] H IH]; intros Hne out; [contradiction|].
    destruct Rs as [|R' Rs].
    - inversion H; subst. cbn [fold_meaning]. rewrite <- (Ha strip f out). split.
      + intros (outs & H' & U). inversion H' as [|? o ? os E1 E2]; subst. inversion E2; subst.
        inversion U as [|?|o' l' out' No U']; subst; [exact E1|]. inversion U'; subst. rewrite app_nil_r. exact E1.
      + intros E. exists [out]. split; [constructor; [exact E|constructor]|]. destruct out as [|c out]; [constructor|].
        replace (c :: out) with ((c :: out) ++ []) at 2 by apply app_nil_r. constructor; [discriminate|constructor].
    - specialize (IH ltac:(discriminate)).
      change (fold_meaning then_meaning (R :: R' :: Rs)) with (then_meaning R (fold_meaning then_meaning (R' :: Rs))).
      unfold then_meaning at 1. split.
      + intros (outs & H' & U). inversion H' as [|? o ? os E1 E2]; subst. exists o. split; [apply Ha; exact E1|].
        inversion U as [|?|o' l' out' No U']; subst; [left; auto|right]. split; [exact No|].
        exists out'. split; [|reflexivity]. apply IH. eauto.
      + intros (u & E1 & HC). apply Ha in E1. destruct HC as [[-> ->]|(Nu & v & E2 & ->)].
        * destruct (fm_total strip f l) as (os & Hos); [eapply wf_list; exact H|].
          exists ([] :: os). split; [constructor; assumption|constructor].
        * apply IH in E2 as (os & E2 & U). exists (u :: os). split; [constructor; assumption|].
          constructor; assumption.
  Qed.

  Lemma both_means : forall l Rs k, Forall2 fm l Rs -> Rs <> [] -> is_group k = false ->
    fmeans k (FCons l) (fold_meaning both_meaning Rs).
  Proof.
    intros l Rs k H Hne Hk. split; [|split; [symmetry; exact Hk|]].
    - cbn [frag_wf]. apply frag_wf_list. eapply wf_list. exact H.
    - intros strip f out. rewrite <- (both_fold strip f l Rs H Hne out). split.
      + intros F. inversion F; subst. eauto.
      + intros (outs & H' & ->). apply ft_cons. exact H'.
  Qed.

  Lemma then_means : forall l Rs k, Forall2 fm l Rs -> Rs <> [] -> is_group k = false ->
    fmeans k (FAndThen l) (fold_meaning then_meaning Rs).
  Proof.
    intros l Rs k H Hne Hk. split; [|split; [symmetry; exact Hk|]].
    - cbn [frag_wf]. apply frag_wf_list. eapply wf_list. exact H.
    - intros strip f out. rewrite <- (then_fold strip f l Rs H Hne out). split.
      + intros F. inversion F; subst. eauto.
      + intros (outs & H' & U). eapply ft_and_then; eassumption.
  Qed.

  (** *** decomposition of chains *)
  Definition item (t : bytes) (R : fmeaning) (n : N) : Prop := exists k, is_item k = true /\ ex k t R n.
  Definition operand (t : bytes) (R : fmeaning) (n : N) : Prop := exists k, k <> FkBoth /\ ex k t R n.

  Lemma then_chain : forall k t R n, ex k t R n -> k <> FkBoth ->
    exists Rs, chn (lit "<$>") item t Rs n /\ R = fold_meaning then_meaning Rs
      /\ (k = FkThen -> (2 <= length Rs)%nat) /\ (is_item k = true -> Rs = [R]).
  Proof.
    intros k t R n H. remember (fold_meaning then_meaning) as F.
    induction H as [tm m w1 tp pre tc C tb bound ts suf Hm W1 Hw Hp Hc Hb Hs HA
                   |k w1 tm m w2 e R n w3 w4 tb bound Hk H IH Hm W1 W2 Hw HA W3 W4 Hb Hw4
                   |k1 k2 t1 w1 w2 t2 R1 R2 n1 n2 K1 K2 H1 IH1 H2 IH2 W1 W2
                   |k1 k2 t1 w1 w2 t2 R1 R2 n1 n2 K1 H1 IH1 H2 IH2 W1 W2]; intros Hk'.
    - exists [values_meaning T C pre suf bound m]. split; [|split; [subst F; reflexivity|split; [|reflexivity]]].
      + apply chn_one. eexists. split; [|eapply frag_value; eassumption]. destruct tm, tp, tb, ts; reflexivity.
      + destruct tm, tp, tb, ts; discriminate.
    - exists [group_meaning T m R]. split; [|split; [subst F; reflexivity|split; [|reflexivity]]].
      + apply chn_one. eexists. split; [|eapply frag_group; eassumption]. destruct k, tm, tb; reflexivity.
      + destruct k, tm, tb; discriminate.
    - destruct (IH2 K2) as (Rs & HC & ER & _). exists (R1 :: Rs). split; [|split; [|split]].
      + apply chn_more; try assumption. exists k1. auto.
      + rewrite ER. subst F. destruct HC; reflexivity.
      + intros _. destruct HC; cbn; lia.
      + discriminate.
    - contradiction.
  Qed.

  Lemma both_chain : forall k t R n, ex k t R n ->
    exists Rs, chn (lit "<*>") operand t Rs n /\ R = fold_meaning both_meaning Rs
      /\ (k = FkBoth -> (2 <= length Rs)%nat) /\ (k <> FkBoth -> Rs = [R]).
  Proof.
    intros k t R n H. destruct k.
    1-5: (exists [R]; split; [apply chn_one; eexists; split; [|exact H]; discriminate|];
          split; [reflexivity|]; split; [discriminate|reflexivity]).
    remember FkBoth as k eqn:Ek. remember (fold_meaning both_meaning) as F.
    assert (G : exists Rs, chn (lit "<*>") operand t Rs n /\ R = F Rs /\ (k = FkBoth -> (2 <= length Rs)%nat)).
    { clear Ek. induction H as [tm m w1 tp pre tc C tb bound ts suf Hm W1 Hw Hp Hc Hb Hs HA
                   |k w1 tm m w2 e R n w3 w4 tb bound Hk H IH Hm W1 W2 Hw HA W3 W4 Hb Hw4
                   |k1 k2 t1 w1 w2 t2 R1 R2 n1 n2 K1 K2 H1 IH1 H2 IH2 W1 W2
                   |k1 k2 t1 w1 w2 t2 R1 R2 n1 n2 K1 H1 IH1 H2 IH2 W1 W2].
      - exists [values_meaning T C pre suf bound m]. split; [|split; [subst F; reflexivity|]].
        + apply chn_one. eexists. split; [|eapply frag_value; eassumption]. destruct tm, tp, tb, ts; discriminate.
        + destruct tm, tp, tb, ts; discriminate.
      - exists [group_meaning T m R]. split; [|split; [subst F; reflexivity|]].
        + apply chn_one. eexists. split; [|eapply frag_group; eassumption]. destruct k, tm, tb; discriminate.
        + destruct k, tm, tb; discriminate.
      - exists [then_meaning R1 R2]. split; [|split; [subst F; reflexivity|discriminate]].
        apply chn_one. eexists. split; [|apply (frag_then T k1 k2); eassumption]. discriminate.
      - destruct IH2 as (Rs & HC & ER & _). exists (R1 :: Rs). split; [|split].
        + apply chn_more; try assumption. exists k1. auto.
        + rewrite ER. subst F. destruct HC; reflexivity.
        + intros _. destruct HC; cbn; lia. }
    destruct G as (Rs & HC & ER & H2). exists Rs. split; [exact HC|]. split; [exact ER|].
    split; [intros _; exact (H2 Ek)|]. intros Hn. contradiction.
  Qed.

  Lemma fmeans_fm : forall k fr R, fmeans k fr R -> fm fr R.
  Proof. intros k fr R (H1 & _ & H2). split; assumption. Qed.

  Definition no_then (r : bytes) : Prop := stop (lit "<$>") r.
  Definition no_both (r : bytes) : Prop := stop (lit "<*>") r.

  (** *** the parsers over a group parser *)
  Section Knot.
    Variable grp : sparser fragments.
    Variable L : nat.
    Hypothesis grp_ok : forall k t R n r, is_group k = true -> ex k t R n -> (length t <= L)%nat -> fstop r ->
      accepts grp n t r (fun fr => fmeans k fr R).
    Hypothesis grp_no : forall s i, (forall i', skip_ws i <> 40 :: i') -> grp s i = (PErr, s).

    Lemma value_text : forall k t R n r, is_item k = true -> is_group k = false -> ex k t R n -> fstop r ->
      accepts (slift parse_value) n t r (fun fr => fmeans k fr R).
    Proof.
      intros k t R n r Hi Hk H Hr. destruct H as [tm m w1 tp pre tc C tb bound ts suf Hm W1 Hw Hp Hc Hb Hs HA
                   |k w1 tm m w2 e R n w3 w4 tb bound Hk' H Hm W1 W2 Hw HA W3 W4 Hb Hw4| |]; try discriminate.
      - intros s _. destruct (value_ok T tm m w1 tp pre tc C tb bound ts suf r Hm W1 Hw Hp Hc Hb Hs HA Hr)
          as (fr & r' & E & Hr' & Hlen & Hm').
        exists fr, r'. unfold slift. rewrite E. split; [reflexivity|]. split; [apply Hm'; exact Hk|auto].
      - exfalso. destruct k, tm, tb; discriminate.
    Qed.

    Definition item_p : sparser fragments := salt grp (slift parse_value).
    Definition operand_p : sparser fragments := salt (fmt_and_then grp) (salt grp (slift parse_value)).

    Lemma value_no_group : forall k t R n r, is_item k = true -> is_group k = false -> ex k t R n ->
      rejects grp n (t ++ r).
    Proof.
      intros k t R n r Hi Hk H s _. apply grp_no. destruct (frag_start k t R n H) as (N1 & N2 & N3 & _).
      rewrite skip_ws_nonblank by (apply nonblank_app; assumption). intros i'. apply N3; assumption.
    Qed.

    Lemma item_ok : forall k t R n r, is_item k = true -> ex k t R n -> (length t <= L)%nat -> fstop r ->
      accepts item_p n t r (fun fr => fmeans k fr R).
    Proof.
      intros k t R n r Hi H HL Hr. destruct (is_group k) eqn:Hk.
      - apply accepts_alt_l. apply grp_ok; assumption.
      - apply accepts_alt_r; [apply (value_no_group k t R); assumption|]. apply value_text; assumption.
    Qed.

    Lemma item_ok' : forall t R n r, item t R n -> (length t <= L)%nat -> fstop r ->
      accepts item_p n t r (fun fr => fm fr R).
    Proof.
      intros t R n r (k & Hi & H) HL Hr. eapply accepts_weaken; [|apply (item_ok k); eassumption].
      intros a. apply fmeans_fm.
    Qed.
    Lemma item_start : forall t R n, item t R n -> t <> [] /\ nonblank t.
    Proof. intros t R n (k & _ & H). destruct (frag_start k t R n H) as (N1 & N2 & _). auto. Qed.
    Lemma operand_start : forall t R n, operand t R n -> t <> [] /\ nonblank t.
    Proof. intros t R n (k & _ & H). destruct (frag_start k t R n H) as (N1 & N2 & _). auto. Qed.

    Lemma lt_then : exists x', lit "<$>" = 60 :: x'.
    Proof. eexists. reflexivity. Qed.
    Lemma lt_both : exists x', lit "<*>" = 60 :: x'.
    Proof. eexists. reflexivity. Qed.
    Lemma fstop_then : forall w r, blanks w -> fstop (w ++ lit "<$>" ++ r).
    Proof. intros w r W. apply fstop_token; [exact W|cbn; tauto]. Qed.
    Lemma fstop_both : forall w r, blanks w -> fstop (w ++ lit "<*>" ++ r) /\ no_then (w ++ lit "<*>" ++ r).
    Proof.
      intros w r W. split; [apply fstop_token; [exact W|cbn; tauto]|]. unfold no_then, stop.
      change (lit "<*>" ++ r) with (60 :: 42 :: 62 :: r). rewrite skip_to_token; [reflexivity|exact W|notblank].
    Qed.

    Lemma then_ok : forall t R n r, ex FkThen t R n -> (length t <= L)%nat -> fstop r -> no_then r ->
      accepts (fmt_and_then grp) n t r (fun fr => fmeans FkThen fr R).
    Proof.
      intros t R n r H HL Hr Hn. destruct (then_chain _ _ _ _ H ltac:(discriminate)) as (Rs & HC & -> & H2 & _).
      pose proof (chn_ok item_p (lit "<$>") lt_then L item fstop item_start item_ok' fstop_then t Rs n r HC (H2 eq_refl) HL Hr Hn)
        as HA.
      intros s Hs. destruct (HA s Hs) as (l & r' & E & Hl & HR). exists (FAndThen l), r'.
      unfold fmt_and_then, smap. fold item_p. rewrite E. split; [reflexivity|]. split; [|exact HR].
      apply then_means; [exact Hl| |reflexivity]. destruct HC; discriminate.
    Qed.

    Lemma then_no : forall k t R n r, is_item k = true -> ex k t R n -> (length t <= L)%nat -> fstop r -> no_then r ->
      rejects (fmt_and_then grp) n (t ++ r).
    Proof.
      intros k t R n r Hi H HL Hr Hn s Hs. unfold fmt_and_then, smap. fold item_p.
      rewrite (chn_rejects item_p (lit "<$>") L item fstop item_ok' t R n r); auto. exists k. auto.
    Qed.

    Lemma operand_ok : forall k t R n r, k <> FkBoth -> ex k t R n -> (length t <= L)%nat -> fstop r -> no_then r ->
      accepts operand_p n t r (fun fr => fmeans k fr R).
    Proof.
      intros k t R n r Hk H HL Hr Hn. destruct (is_item k) eqn:Hi.
      - apply accepts_alt_r; [apply (then_no k t R); assumption|]. apply item_ok; assumption.
      - apply accepts_alt_l. destruct k; try discriminate; [|contradiction]. apply then_ok; assumption.
    Qed.

    Lemma operand_ok' : forall t R n r, operand t R n -> (length t <= L)%nat -> fstop r /\ no_then r ->
      accepts operand_p n t r (fun fr => fm fr R).
    Proof.
      intros t R n r (k & Hi & H) HL [Hr Hn]. eapply accepts_weaken; [|apply (operand_ok k); eassumption].
      intros a. apply fmeans_fm.
    Qed.

    Lemma both_ok : forall t R n r, ex FkBoth t R n -> (length t <= L)%nat -> fstop r -> no_then r -> no_both r ->
      accepts (fmt_list_cons grp) n t r (fun fr => fmeans FkBoth fr R).
    Proof.
      intros t R n r H HL Hr Hn Hb. destruct (both_chain _ _ _ _ H) as (Rs & HC & -> & H2 & _).
      pose proof (chn_ok operand_p (lit "<*>") lt_both L operand (fun r => fstop r /\ no_then r) operand_start
                    operand_ok' fstop_both t Rs n r HC (H2 eq_refl) HL (conj Hr Hn) Hb) as HA.
      intros s Hs. destruct (HA s Hs) as (l & r' & E & Hl & HR). exists (FCons l), r'.
      unfold fmt_list_cons, smap. fold operand_p. rewrite E. split; [reflexivity|]. split; [|exact HR].
      apply both_means; [exact Hl| |reflexivity]. destruct HC; discriminate.
    Qed.

    Lemma both_no : forall k t R n r, k <> FkBoth -> ex k t R n -> (length t <= L)%nat -> fstop r -> no_then r ->
      no_both r -> rejects (fmt_list_cons grp) n (t ++ r).
    Proof.
      intros k t R n r Hi H HL Hr Hn Hb s Hs. unfold fmt_list_cons, smap. fold operand_p.
      rewrite (chn_rejects operand_p (lit "<*>") L operand (fun r => fstop r /\ no_then r) operand_ok' t R n r); auto.
      exists k. auto.
    Qed.

    Lemma list_ok : forall k t R n r, is_item k = false -> ex k t R n -> (length t <= L)%nat ->
      fstop r -> no_then r -> no_both r -> accepts (fmt_list grp) n t r (fun fr => fmeans k fr R).
    Proof.
      intros k t R n r Hk H HL Hr Hn Hb. destruct k; try discriminate.
      - apply accepts_alt_r; [apply (both_no FkThen t R); auto; discriminate|]. apply then_ok; assumption.
      - apply accepts_alt_l. apply both_ok; assumption.
    Qed.

    Lemma list_no : forall k t R n r, is_item k = true -> ex k t R n -> (length t <= L)%nat ->
      fstop r -> no_then r -> no_both r -> rejects (fmt_list grp) n (t ++ r).
    Proof.
      intros k t R n r Hk H HL Hr Hn Hb. apply rejects_alt.
      - apply (both_no k t R); auto. intros ->. discriminate.
      - apply (then_no k t R); auto.
    Qed.

    Lemma accepts_sws : forall (p : sparser fragments) n t r Q, t <> [] -> nonblank t -> accepts p n t r Q ->
      forall w, blanks w -> forall s, lv_fmt s + n < 32 ->
      exists a, sws p s (w ++ t ++ r) = (POk a (skip_ws r), s) /\ Q a.
    Proof.
      intros p n t r Q N1 N2 H w W s Hs. destruct (H s Hs) as (a & r' & E & HQ & Hr & _).
      exists a. unfold sws. rewrite skip_ws_blanks_nonblank; [|exact W|apply nonblank_app; assumption].
      rewrite E, Hr. auto.
    Qed.
    Lemma rejects_sws : forall A (p : sparser A) n t r, t <> [] -> nonblank t -> rejects p n (t ++ r) ->
      forall w, blanks w -> rejects (sws p) n (w ++ t ++ r).
    Proof.
      intros A p n t r N1 N2 H w W s Hs. unfold sws.
      rewrite skip_ws_blanks_nonblank; [|exact W|apply nonblank_app; assumption]. rewrite (H s Hs). reflexivity.
    Qed.

    (** the body of a group *)
    Lemma body_ok : forall k t R n w r s, is_group k = false -> ex k t R n -> (length t <= L)%nat ->
      fstop r -> no_then r -> no_both r -> blanks w -> lv_fmt s + n < 32 ->
      exists fr, salt (sws (fmt_list grp)) (sws (slift parse_value)) s (w ++ t ++ r) = (POk fr (skip_ws r), s)
        /\ fmeans k fr R.
    Proof.
      intros k t R n w r s Hk H HL Hr Hn Hb W Hs. destruct (frag_start k t R n H) as (N1 & N2 & _).
      unfold salt. destruct (is_item k) eqn:Hi.
      - rewrite (rejects_sws _ (fmt_list grp) n t r N1 N2) by (try (apply (list_no k t R)); assumption).
        destruct (accepts_sws (slift parse_value) n t r _ N1 N2 (value_text k t R n r Hi Hk H Hr) w W s Hs)
          as (a & E & Ha). rewrite E. eauto.
      - destruct (accepts_sws (fmt_list grp) n t r _ N1 N2 (list_ok k t R n r Hi H HL Hr Hn Hb) w W s Hs)
          as (a & E & Ha). rewrite E. eauto.
    Qed.

    Lemma group_body_ok : forall k t R n r, is_group k = true -> ex k t R n -> (length t <= S L)%nat -> fstop r ->
      accepts (fmt_group_body grp) n t r (fun fr => fmeans k fr R).
    Proof.
      intros k t R n r Hk H HL Hr s Hs. destruct H as [tm m w1 tp pre tc C tb bound ts suf Hm W1 Hw Hp Hc Hb Hs' HA
                   |k w1 tm m w2 e R n w3 w4 tb bound Hk' H Hm W1 W2 Hw HA W3 W4 Hb Hw4| |]; try discriminate.
      { destruct tm, tp, tb, ts; discriminate. }
      destruct (frag_start k e R n H) as (N1 & N2 & _).
      unfold fmt_group_body. rewrite <- !app_assoc. change (lit "(" ++ ?x) with (40 :: x).
      change (lit ")" ++ ?x) with (41 :: x).
      unfold sbind at 1, slift at 1. rewrite ws_ch_here by notblank.
      set (rest := w3 ++ 41 :: w4 ++ tb ++ r).
      assert (Nb : nonblank (tm ++ w2 ++ e ++ rest)).
      { destruct (modifier_start tm m Hm) as [->|(t' & ->)]; [|apply nonblank_cons; notblank].
        rewrite (Hw eq_refl). cbn [app]. apply nonblank_app; assumption. }
      rewrite skip_ws_blanks_nonblank; [|exact W1|exact Nb].
      unfold sbind at 1, fmt_inc. destruct (N.leb_spec 32 (lv_fmt s + 1)) as [Hb32|Hb32]; [lia|].
      set (s1 := mkLevels (lv_sub s) (lv_field s) (lv_fmt s + 1)).
      unfold sbind at 1, slift at 1.
      destruct (modifier_ok tm m (w2 ++ e ++ rest) Hm) as (m' & Em & Hm').
      { intros ->. rewrite (Hw eq_refl). cbn [app]. apply begins_app; [exact N1|]. apply HA. reflexivity. }
      { intros Hne. destruct w2 as [|d w2].
        - cbn [app]. apply begins_app; [exact N1|]. apply HA; auto.
        - intros (x & t' & E & He). cbn in E. injection E as <- _. inversion W2 as [|? y HB _]; subst.
          unfold blank in HB. cbn in HB, He.
          repeat (destruct HB as [<-|HB]; [repeat (destruct He as [He|He]; [discriminate|]); contradiction|]).
          contradiction. }
      rewrite Em. unfold sbind at 1.
      assert (Fr : fstop rest /\ no_then rest /\ no_both rest).
      { unfold rest. split; [apply fstop_token; [exact W3|cbn; tauto]|]. unfold no_then, no_both, stop.
        rewrite skip_to_token; [auto|exact W3|notblank]. }
      destruct Fr as (F1 & F2 & F3).
      destruct (body_ok k e R n w2 rest s1 Hk' H ltac:(lens) F1 F2 F3 W2) as (fr & Ef & Hf).
      { unfold s1. cbn. lia. }
      rewrite Ef. unfold sbind, fmt_close. unfold ws. rewrite skip_ws_idem. unfold rest.
      rewrite skip_to_token; [|exact W3|notblank]. rewrite ch_ok. unfold smap, slift.
      assert (Ed : mkLevels (lv_sub s1) (lv_field s1) (lv_fmt s1 - 1) = s).
      { unfold s1. cbn. destruct s. cbn. f_equal. lia. }
      rewrite Ed. destruct (fstop_quiet r Hr) as [Q1 _].
      assert (Hcase : exists r', parse_bound usize_max (skip_ws (w4 ++ tb ++ r)) = Some (bound, r') /\ skip_ws r' = skip_ws r
                        /\ (length r' <= length r)%nat).
      { rewrite skip_ws_blanks by exact W4. destruct Hb as [| |tn nb Hn].
        - exists (skip_ws r). cbn [app].
          assert (Q3 : quiet (skip_ws r)) by (apply fstop_quiet; apply fstop_skip; exact Hr).
          pose proof (bound_ok usize_max [] usize_max (skip_ws r) (bound_none _) Q3) as E0. cbn [app] in E0.
          rewrite E0, skip_ws_idem. auto using skip_ws_length.
        - exists r. rewrite skip_ws_nonblank by (apply nonblank_cons; notblank).
          rewrite (bound_ok usize_max (lit "..") usize_max r (bound_all _)); [auto|exact Q1].
        - exists r. rewrite skip_ws_nonblank by (apply nonblank_cons; notblank).
          rewrite (bound_ok usize_max (lit ".." ++ tn) nb r (bound_some _ _ _ Hn)); [auto|exact Q1]. }
      destruct Hcase as (r' & Eb & Hr' & Hlen). rewrite Eb. eexists _, r'. split; [reflexivity|]. split; [|auto].
      destruct Hf as (Wf & Sf & If). split; [|split; [symmetry; exact Hk|]].
      - cbn [frag_wf]. split; [|exact Wf]. destruct fr; try exact I. cbn in Sf. congruence.
      - intros strip f out. rewrite Hm'. unfold group_meaning. split.
        + intros F. clear - If F. inversion F; subst. eexists. split; [apply If; eassumption|assumption].
        + intros (v & Hv & Hmod). eapply ft_group; [apply If; exact Hv|exact Hmod].
    Qed.

    Lemma group_body_no : forall s i, (forall i', skip_ws i <> 40 :: i') -> fmt_group_body grp s i = (PErr, s).
    Proof. intros s i H. unfold fmt_group_body, sbind, slift. rewrite ws_ch_none by exact H. reflexivity. Qed.

    (** the fragments of a format *)
    Lemma fragments_ok : forall k t R n w r s, ex k t R n -> (length t <= L)%nat ->
      fstop r -> no_then r -> no_both r -> blanks w -> lv_fmt s + n < 32 ->
      exists fr, fmt_fragments_body grp s (w ++ t ++ r) = (POk fr (skip_ws r), s) /\ fmeans k fr R.
    Proof.
      intros k t R n w r s H HL Hr Hn Hb W Hs. destruct (frag_start k t R n H) as (N1 & N2 & _).
      unfold fmt_fragments_body. unfold salt at 1. destruct (is_item k) eqn:Hi.
      - rewrite (rejects_sws _ (fmt_list grp) n t r N1 N2) by (try (apply (list_no k t R)); assumption).
        unfold salt. destruct (is_group k) eqn:Hk.
        + destruct (accepts_sws grp n t r _ N1 N2 (grp_ok k t R n r Hk H HL Hr) w W s Hs) as (a & E & Ha).
          rewrite E. eauto.
        + rewrite (rejects_sws _ grp n t r N1 N2) by (try (apply (value_no_group k t R)); assumption).
          destruct (accepts_sws (slift parse_value) n t r _ N1 N2 (value_text k t R n r Hi Hk H Hr) w W s Hs)
            as (a & E & Ha). rewrite E. eauto.
      - destruct (accepts_sws (fmt_list grp) n t r _ N1 N2 (list_ok k t R n r Hi H HL Hr Hn Hb) w W s Hs)
          as (a & E & Ha). rewrite E. eauto.
    Qed.
  End Knot.

  Lemma group_ok : forall f k t R n r, is_group k = true -> ex k t R n -> (length t <= S f)%nat -> fstop r ->
    accepts (fmt_group (S f)) n t r (fun fr => fmeans k fr R).
  Proof.
    assert (No : forall f s i, (forall i', skip_ws i <> 40 :: i') -> fmt_group (S f) s i = (PErr, s))
      by (intros f s i H; apply group_body_no; exact H).
    induction f as [|f IH]; intros k t R n r Hk H HL Hr.
    - exfalso. destruct H as [tm m w1 tp pre tc C tb bound ts suf Hm W1 Hw Hp Hc Hb Hs' HA
                   |k w1 tm m w2 e R n w3 w4 tb bound Hk' H Hm W1 W2 Hw HA W3 W4 Hb Hw4| |]; try discriminate.
      + destruct tm, tp, tb, ts; discriminate.
      + lens.
    - change (fmt_group (S (S f))) with (fmt_group_body (fmt_group (S f))).
      apply (group_body_ok (fmt_group (S f)) (S f)); try assumption. apply No.
  Qed.

  Lemma parse_fragments_ok : forall k t R n w r s, ex k t R n ->
    fstop r -> no_then r -> no_both r -> blanks w -> lv_fmt s + n < 32 ->
    exists fr, parse_fragments s (w ++ t ++ r) = (POk fr (skip_ws r), s) /\ fmeans k fr R.
  Proof.
    intros k t R n w r s H Hr Hn Hb W Hs. unfold parse_fragments.
    apply (fragments_ok (fmt_group (S (length (w ++ t ++ r)))) (S (length (w ++ t ++ r)))) with (n := n); try assumption.
    - intros k' t' R' n' r' Hk' H' HL' Hr'. apply group_ok; assumption.
    - intros s' i Hi. apply group_body_no. exact Hi.
    - lens.
  Qed.
End Fragments.

(** * Expressions: what the chain parsers accept

    Generic over the operands, so that it serves subfield and field matchers. *)

From Coq Require Import String.
From Verif Require Import Bytes Winnow RecordModel RecordSpec BaseProofs StrParserModel MatcherModel
  StateParser MatcherParserModel MatcherSpec StrSpec StrProofs StateParserProofs GrammarSpec.

(** ** blanks *)
Lemma skip_ws_blanks : forall w r, blanks w -> skip_ws (w ++ r) = skip_ws r.
Proof.
  induction w as [|c w IH]; intros r H; [reflexivity|].
  inversion H as [|c' w' Hc Hw]; subst c' w'. unfold skip_ws in *. cbn [app span].
  rewrite (proj2 (is_mspace_blank c) Hc).
  specialize (IH r Hw). destruct (span is_mspace (w ++ r)); cbn in *. exact IH.
Qed.

(** the next byte is not blank (or there is none) *)
Definition nonblank (r : bytes) : Prop := forall c r', r = c :: r' -> ~ blank c.

Lemma skip_ws_nonblank : forall r, nonblank r -> skip_ws r = r.
Proof.
  intros [|c r] H; [reflexivity|]. unfold skip_ws. cbn [span].
  destruct (is_mspace c) eqn:E; [|reflexivity].
  exfalso. apply (H c r eq_refl). apply is_mspace_blank. exact E.
Qed.

Lemma nonblank_skip : forall r, nonblank (skip_ws r).
Proof.
  induction r as [|c r IH]; intros d r' H; [discriminate|]. unfold skip_ws in *. cbn [span] in H.
  destruct (is_mspace c) eqn:E.
  - destruct (span is_mspace r) eqn:F. cbn in H. apply (IH d r'). exact H.
  - cbn in H. injection H as -> _. intros Hb. apply is_mspace_blank in Hb. congruence.
Qed.

Lemma skip_ws_idem : forall r, skip_ws (skip_ws r) = skip_ws r.
Proof. intros r. apply skip_ws_nonblank, nonblank_skip. Qed.

Lemma skip_ws_split : forall i, exists w, blanks w /\ i = w ++ skip_ws i.
Proof.
  induction i as [|c i (w & Hw & E)]; [exists []; split; [constructor|reflexivity]|].
  unfold skip_ws. cbn [span]. destruct (is_mspace c) eqn:F.
  - exists (c :: w). split; [constructor; [apply is_mspace_blank; exact F|exact Hw]|].
    unfold skip_ws in E. destruct (span is_mspace i). cbn in *. congruence.
  - exists []. split; [constructor|reflexivity].
Qed.

Lemma nonblank_cons : forall c r, ~ blank c -> nonblank (c :: r).
Proof. intros c r H d r' E. injection E as <- _. exact H. Qed.

Lemma nonblank_app : forall t r, t <> [] -> nonblank t -> nonblank (t ++ r).
Proof.
  intros [|c t] r Ht H d r' E; [contradiction|]. injection E as <- _. apply (H c t eq_refl).
Qed.

Lemma blanks_app : forall a b, blanks a -> blanks b -> blanks (a ++ b).
Proof. intros a b Ha Hb. apply Forall_app. auto. Qed.

Lemma skip_ws_blanks_nonblank : forall w r, blanks w -> nonblank r -> skip_ws (w ++ r) = r.
Proof. intros w r Hw Hr. rewrite skip_ws_blanks by exact Hw. apply skip_ws_nonblank. exact Hr. Qed.

Ltac notblank := unfold blank; cbn; intros HB; repeat (destruct HB as [HB|HB]; [discriminate HB|]); exact HB.

(** ** what may follow an operand *)
Definition follow (r : bytes) : Prop :=
  forall c r', r = c :: r' -> blank c \/ In c (lit ")}&|^X").

Definition no_and (r : bytes) : Prop := starts_with (skip_ws r) (lit "&&") = false.
Definition no_xor (r : bytes) : Prop :=
  starts_with (skip_ws r) (lit "^") = false /\ starts_with (skip_ws r) (lit "XOR") = false.
Definition no_or (r : bytes) : Prop := starts_with (skip_ws r) (lit "||") = false.
Definition no_op (r : bytes) : Prop := no_and r /\ no_xor r /\ no_or r.

Lemma tok_starts : forall x i, starts_with i x = false -> tok x i = None.
Proof.
  induction x as [|c x IH]; intros [|d i] H; cbn in *; try discriminate; try reflexivity.
  rewrite N.eqb_sym. destruct (d =? c); [|reflexivity]. apply IH. exact H.
Qed.

Lemma starts_with_app : forall x r, starts_with (x ++ r) x = true.
Proof.
  induction x as [|c x IH]; intros r; [destruct r; reflexivity|]. cbn. rewrite N.eqb_refl. apply IH.
Qed.

Section Chains.
  Context {A B : Type}.
  Variable holds : A -> meaning B.

  Definition means (a : A) (P : meaning B) : Prop := forall ci l, holds a ci l <-> P ci l.

  Variable leaf : kind -> bytes -> meaning B -> N -> Prop.
  Variable up : N -> N.
  Variable join : N -> N -> N.
  Variable times : N -> N -> N.
  Variable Ok : N -> levels -> Prop.
  Variable St : N -> levels -> levels -> Prop.

  Hypothesis join_assoc : forall a b c, join a (join b c) = join (join a b) c.
  Hypothesis join_mono : forall a a' b b', a <= a' -> b <= b' -> join a b <= join a' b'.
  Hypothesis join_l : forall a b, a <= join a b.
  Hypothesis times_one : forall n, times 1 n = n.
  Hypothesis times_join : forall j a b, times j (join a b) = join (times j a) (times j b).
  Hypothesis times_add : forall i j n, join (times i n) (times j n) <= times (i + j) n.
  Hypothesis times_mono : forall i j n m, i <= j -> n <= m -> times i n <= times j m.
  Hypothesis Ok_mono : forall n m s, n <= m -> Ok m s -> Ok n s.
  Hypothesis St_mono : forall n m s s', n <= m -> St n s s' -> St m s s'.
  Hypothesis St_refl : forall n s, St n s s.
  Hypothesis Ok_join : forall n m s s', Ok (join n m) s -> St n s s' -> Ok m s'.
  Hypothesis St_join : forall n m s s' s'', St n s s' -> St m s' s'' -> St (join n m) s s''.

  Hypothesis leaf_start : forall k t P n, leaf k t P n -> t <> [] /\ nonblank t.

  Let ex := expr leaf up join true.

  Lemma expr_start : forall k t P n, ex k t P n -> t <> [] /\ nonblank t.
  Proof.
    induction 1 as [k t P n Hk H|k w1 e w2 P n Hk H IH W1 W2|k w e P n Hk H IH W
                   |k1 k2 t1 w1 w2 t2 P1 P2 n1 n2 K1 K2 H1 [N1 B1] H2 IH2 W1 W2
                   |k1 k2 t1 w1 x w2 t2 P1 P2 n1 n2 K1 K2 H1 [N1 B1] H2 IH2 W1 W2 X
                   |k1 k2 t1 w1 w2 t2 P1 P2 n1 n2 K1 K2 H1 [N1 B1] H2 IH2 W1 W2].
    - apply (leaf_start _ _ _ _ H).
    - split; [discriminate|]. apply nonblank_cons. notblank.
    - split; [discriminate|]. apply nonblank_cons. notblank.
    - split; [destruct t1; [contradiction|discriminate]|apply nonblank_app; assumption].
    - split; [destruct t1; [contradiction|discriminate]|apply nonblank_app; assumption].
    - split; [destruct t1; [contradiction|discriminate]|apply nonblank_app; assumption].
  Qed.

  (** runs of a parser that need a budget [k] of group levels *)
  Definition steps {C} (k : N) (p : sparser C) (i : bytes) (Q : pres C -> Prop) : Prop :=
    forall s, Ok k s -> exists x s', p s i = (x, s') /\ Q x /\ St k s s'.

  Definition yields (P : meaning B) (r : bytes) (x : pres A) : Prop :=
    exists a r', x = POk a r' /\ means a P /\ skip_ws r' = skip_ws r.
  Definition fails {C} (x : pres C) : Prop := x = PErr.

  Lemma steps_weaken : forall C k k' (p : sparser C) i Q, k <= k' -> steps k p i Q -> steps k' p i Q.
  Proof.
    intros C k k' p i Q Hk H s Hs.
    destruct (H s (Ok_mono _ _ _ Hk Hs)) as (x & s' & E & Hx & HS).
    exists x, s'. split; [exact E|]. split; [exact Hx|]. apply (St_mono k); assumption.
  Qed.

  Lemma steps_conseq : forall C k (p : sparser C) i (Q R : pres C -> Prop),
    steps k p i Q -> (forall x, Q x -> R x) -> steps k p i R.
  Proof.
    intros C k p i Q R H HQ s Hs. destruct (H s Hs) as (x & s' & E & Hx & HS).
    exists x, s'. auto.
  Qed.

  Lemma steps_alt_l : forall k (p q : sparser A) i P r,
    steps k p i (yields P r) -> steps k (salt p q) i (yields P r).
  Proof.
    intros k p q i P r H s Hs. destruct (H s Hs) as (x & s' & E & Hx & HS).
    destruct Hx as (a & r' & -> & Ha). exists (POk a r'), s'. unfold salt. rewrite E.
    split; [reflexivity|]. split; [exists a, r'; auto|exact HS].
  Qed.

  Lemma steps_alt_r : forall C k m (p q : sparser C) i Q,
    steps k p i fails -> steps m q i Q -> steps (join k m) (salt p q) i Q.
  Proof.
    intros C k m p q i Q Hp Hq s Hs.
    destruct (Hp s (Ok_mono _ _ _ (join_l k m) Hs)) as (x & s' & E & Hx & HS).
    destruct (Hq s' (Ok_join _ _ _ _ Hs HS)) as (y & s'' & F & Hy & HS').
    exists y, s''. unfold salt. rewrite E, Hx, F. split; [reflexivity|]. split; [exact Hy|].
    apply (St_join k m s s'); assumption.
  Qed.

  Lemma steps_sws : forall k (p : sparser A) i P r,
    steps k p (skip_ws i) (yields P r) ->
    steps k (sws p) i (fun x => exists a, x = POk a (skip_ws r) /\ means a P).
  Proof.
    intros k p i P r H s Hs. destruct (H s Hs) as (x & s' & E & Hx & HS).
    destruct Hx as (a & r' & -> & Ha & Hr). exists (POk a (skip_ws r)), s'. unfold sws. rewrite E, Hr.
    split; [reflexivity|]. split; [exists a; auto|exact HS].
  Qed.

  (** ** chains as a first operand and a tail *)
  Section Tail.
    Variable operand : kind -> bool.
    Variable tokt : bytes -> Prop.
    Inductive tail : bytes -> list (meaning B) -> N -> Prop :=
    | tail_one : forall k w1 x w2 t P n,
        operand k = true -> tokt x -> blanks w1 -> blanks w2 -> ex k t P n ->
        tail (w1 ++ x ++ w2 ++ t) [P] n
    | tail_more : forall k w1 x w2 t P n ts Ps m,
        operand k = true -> tokt x -> blanks w1 -> blanks w2 -> ex k t P n -> tail ts Ps m ->
        tail (w1 ++ x ++ w2 ++ t ++ ts) (P :: Ps) (join n m).

    Lemma tail_snoc : forall ts Ps m, tail ts Ps m ->
      forall k w1 x w2 t P n,
        operand k = true -> tokt x -> blanks w1 -> blanks w2 -> ex k t P n ->
        tail (ts ++ w1 ++ x ++ w2 ++ t) (Ps ++ [P]) (join m n).
    Proof.
      induction 1 as [k0 w1 x w2 t P n K0 X W1 W2 H0|k0 w1 x w2 t P n ts Ps m K0 X W1 W2 H0 H IH];
        intros k' w1' x' w2' t' P' n' K' X' W1' W2' H'.
      - rewrite <- !app_assoc. cbn [app].
        apply (tail_more k0); try assumption. apply (tail_one k'); assumption.
      - rewrite <- !app_assoc, <- join_assoc. cbn [app].
        apply (tail_more k0); try assumption. apply (IH k'); assumption.
    Qed.
  End Tail.

  Definition mand (P Q : meaning B) : meaning B := fun ci l => P ci l /\ Q ci l.
  Definition mxor (P Q : meaning B) : meaning B :=
    fun ci l => (P ci l /\ ~ Q ci l) \/ (~ P ci l /\ Q ci l).
  Definition mor (P Q : meaning B) : meaning B := fun ci l => P ci l \/ Q ci l.

  Definition and_token (x : bytes) : Prop := x = lit "&&".
  Definition or_token (x : bytes) : Prop := x = lit "||".
  Definition atom_or_and (k : kind) : bool := is_atom k || is_and k.

  Lemma and_split : forall k t P n, ex k t P n -> k = KAnd ->
    exists k0 t0 P0 n0 tl Ps m,
      is_atom k0 = true /\ ex k0 t0 P0 n0 /\ tail is_atom and_token tl Ps m
      /\ t = t0 ++ tl /\ n = join n0 m /\ P = fold_left mand Ps P0.
  Proof.
    induction 1 as [k t P n Hk H|k w1 e w2 P n Hk H IH W1 W2|k w e P n Hk H IH W
                   |k1 k2 t1 w1 w2 t2 P1 P2 n1 n2 K1 K2 H1 IH1 H2 IH2 W1 W2
                   |k1 k2 t1 w1 x w2 t2 P1 P2 n1 n2 K1 K2 H1 IH1 H2 IH2 W1 W2 X
                   |k1 k2 t1 w1 w2 t2 P1 P2 n1 n2 K1 K2 H1 IH1 H2 IH2 W1 W2]; intros E; try discriminate.
    - subst k. discriminate.
    - apply orb_true_iff in K1 as [K1|K1].
      + exists k1, t1, P1, n1, (w1 ++ lit "&&" ++ w2 ++ t2), [P2], n2.
        split; [exact K1|]. split; [exact H1|].
        split; [apply (tail_one _ _ k2); try assumption; reflexivity|]. auto.
      + destruct k1; try discriminate.
        destruct (IH1 eq_refl) as (k0 & t0 & P0 & n0 & tl & Ps & m & K0 & H0 & HT & -> & -> & ->).
        exists k0, t0, P0, n0, (tl ++ w1 ++ lit "&&" ++ w2 ++ t2), (Ps ++ [P2]), (join m n2).
        split; [exact K0|]. split; [exact H0|].
        split; [apply (tail_snoc _ _ _ _ _ HT k2); try assumption; reflexivity|].
        split; [rewrite <- !app_assoc; reflexivity|].
        split; [symmetry; apply join_assoc|]. rewrite fold_left_app. reflexivity.
    - destruct k1; discriminate.
  Qed.

  Lemma xor_split : forall k t P n, ex k t P n -> is_xor k = true ->
    exists k0 t0 P0 n0 tl Ps m,
      atom_or_and k0 = true /\ (k = KXorA -> is_atom k0 = true) /\ (k = KXorN -> k0 = KAnd)
      /\ ex k0 t0 P0 n0 /\ tail atom_or_and xor_token tl Ps m
      /\ t = t0 ++ tl /\ n = join n0 m /\ P = fold_left mxor Ps P0.
  Proof.
    induction 1 as [k t P n Hk H|k w1 e w2 P n Hk H IH W1 W2|k w e P n Hk H IH W
                   |k1 k2 t1 w1 w2 t2 P1 P2 n1 n2 K1 K2 H1 IH1 H2 IH2 W1 W2
                   |k1 k2 t1 w1 x w2 t2 P1 P2 n1 n2 K1 K2 H1 IH1 H2 IH2 W1 W2 X
                   |k1 k2 t1 w1 w2 t2 P1 P2 n1 n2 K1 K2 H1 IH1 H2 IH2 W1 W2]; intros E; try discriminate.
    - destruct k; discriminate.
    - destruct (is_xor k1) eqn:X1.
      + destruct (IH1 eq_refl) as (k0 & t0 & P0 & n0 & tl & Ps & m & K0 & KA & KN & H0 & HT & -> & -> & ->).
        exists k0, t0, P0, n0, (tl ++ w1 ++ x ++ w2 ++ t2), (Ps ++ [P2]), (join m n2).
        split; [exact K0|].
        split; [intros F; apply KA; destruct k1; try discriminate; reflexivity|].
        split; [intros F; apply KN; destruct k1; try discriminate; reflexivity|].
        split; [exact H0|].
        split; [apply (tail_snoc _ _ _ _ _ HT k2); try assumption; reflexivity|].
        split; [rewrite <- !app_assoc; reflexivity|].
        split; [symmetry; apply join_assoc|]. rewrite fold_left_app. reflexivity.
      + rewrite orb_false_r in K1.
        exists k1, t1, P1, n1, (w1 ++ x ++ w2 ++ t2), [P2], n2.
        split; [exact K1|].
        split; [intros F; destruct k1; try discriminate; reflexivity|].
        split; [intros F; destruct k1; try discriminate; reflexivity|].
        split; [exact H1|].
        split; [apply (tail_one _ _ k2); try assumption; reflexivity|]. auto.
  Qed.

  Lemma or_split : forall k t P n, ex k t P n -> k = KOr ->
    exists k0 t0 P0 n0 tl Ps m,
      or_operand true k0 = true /\ ex k0 t0 P0 n0 /\ tail (or_operand true) or_token tl Ps m
      /\ t = t0 ++ tl /\ n = join n0 m /\ P = fold_left mor Ps P0.
  Proof.
    induction 1 as [k t P n Hk H|k w1 e w2 P n Hk H IH W1 W2|k w e P n Hk H IH W
                   |k1 k2 t1 w1 w2 t2 P1 P2 n1 n2 K1 K2 H1 IH1 H2 IH2 W1 W2
                   |k1 k2 t1 w1 x w2 t2 P1 P2 n1 n2 K1 K2 H1 IH1 H2 IH2 W1 W2 X
                   |k1 k2 t1 w1 w2 t2 P1 P2 n1 n2 K1 K2 H1 IH1 H2 IH2 W1 W2]; intros E; try discriminate.
    - subst k. discriminate.
    - destruct k1; discriminate.
    - destruct (is_or k1) eqn:O1.
      + destruct k1; try discriminate.
        destruct (IH1 eq_refl) as (k0 & t0 & P0 & n0 & tl & Ps & m & K0 & H0 & HT & -> & -> & ->).
        exists k0, t0, P0, n0, (tl ++ w1 ++ lit "||" ++ w2 ++ t2), (Ps ++ [P2]), (join m n2).
        split; [exact K0|]. split; [exact H0|].
        split; [apply (tail_snoc _ _ _ _ _ HT k2); try assumption; reflexivity|].
        split; [rewrite <- !app_assoc; reflexivity|].
        split; [symmetry; apply join_assoc|]. rewrite fold_left_app. reflexivity.
      + rewrite orb_false_r in K1.
        exists k1, t1, P1, n1, (w1 ++ lit "||" ++ w2 ++ t2), [P2], n2.
        split; [exact K1|]. split; [exact H1|].
        split; [apply (tail_one _ _ k2); try assumption; reflexivity|]. auto.
  Qed.

  (** ** repeated operands *)
  Variable L : nat. (* bound on the length of the texts considered *)

  Section Repeat.
    Variable tokp : sparser unit.
    Variable tokt : bytes -> Prop.
    Variable opd : sparser A.
    Variable operand : kind -> bool.
    Variable fol stop : bytes -> Prop.
    Variable j : N.
    Variable op : A -> A -> A.
    Variable mop : meaning B -> meaning B -> meaning B.
    Hypothesis Htok : forall x r s, tokt x ->
      exists r', tokp s (x ++ r) = (POk tt r', s) /\ skip_ws r' = skip_ws r.
    Hypothesis Hstart : forall x, tokt x -> x <> [] /\ nonblank x.
    Hypothesis Hstop : forall r s, stop r -> tokp s (skip_ws r) = (PErr, s).
    Hypothesis Hopd : forall k t P n r, operand k = true -> ex k t P n -> (length t <= L)%nat ->
      fol r -> steps (times j n) opd (t ++ r) (yields P r).
    Hypothesis Hfol : forall w x r, blanks w -> tokt x -> fol (w ++ x ++ r).
    Hypothesis Hop : forall a b P Q, means a P -> means b Q -> means (op a b) (mop P Q).

    Let item := spreceded tokp (sws opd).

    Lemma item_ok : forall x w k t P n r, tokt x -> blanks w -> operand k = true -> ex k t P n ->
      (length t <= L)%nat -> fol r ->
      steps (times j n) item (x ++ w ++ t ++ r) (fun y => exists a, y = POk a (skip_ws r) /\ means a P).
    Proof.
      intros x w k t P n r X W K H Hl F s Hs.
      destruct (Htok x (w ++ t ++ r) s X) as (r' & E & Hr').
      destruct (expr_start k t P n H) as [Nt Bt].
      assert (E' : skip_ws r' = t ++ r).
      { rewrite Hr'. apply skip_ws_blanks_nonblank; [exact W|apply nonblank_app; assumption]. }
      assert (Hsw : steps (times j n) (sws opd) r' (fun y => exists a, y = POk a (skip_ws r) /\ means a P)).
      { apply steps_sws. rewrite E'. apply (Hopd k); assumption. }
      destruct (Hsw s Hs) as (y & s' & Ey & Hy & HS).
      exists y, s'. unfold item, spreceded, sbind. rewrite E. auto.
    Qed.

    Lemma item_stop : forall r, stop r -> forall s, item s (skip_ws r) = (PErr, s).
    Proof.
      intros r Hr s. unfold item, spreceded, sbind. rewrite Hstop by exact Hr. reflexivity.
    Qed.

    Lemma tail_start : forall tl Ps m, tail operand tokt tl Ps m ->
      forall r, fol (tl ++ r).
    Proof.
      intros tl Ps m H r. destruct H as [k w1 x w2 t P n K X W1 W2 H|k w1 x w2 t P n ts Ps m K X W1 W2 H _];
        rewrite <- !app_assoc; apply Hfol; assumption.
    Qed.

    Lemma repeat_ok : forall tl Ps m, tail operand tokt tl Ps m -> (length tl <= L)%nat ->
      forall r fuel, fol r -> stop r -> (length (skip_ws (tl ++ r)) < fuel)%nat ->
      steps (times j m) (fun s i => srepeat0_fuel fuel item s i) (skip_ws (tl ++ r))
        (fun y => exists l, y = POk l (skip_ws r) /\ Forall2 means l Ps).
    Proof.
      induction 1 as [k w1 x w2 t P n K X W1 W2 H|k w1 x w2 t P n ts Ps m K X W1 W2 H HT IH];
        intros Hl r fuel Fr Sr Hf; destruct (Hstart x X) as [Nx Bx].
      - assert (E : skip_ws ((w1 ++ x ++ w2 ++ t) ++ r) = x ++ w2 ++ t ++ r).
        { rewrite <- !app_assoc. apply skip_ws_blanks_nonblank; [exact W1|apply nonblank_app; assumption]. }
        rewrite E in *. destruct fuel as [|fuel]; [lia|]. intros s Hs.
        assert (Hlt : (length t <= L)%nat) by (rewrite !app_length in Hl; lia).
        destruct (item_ok x w2 k t P n r X W2 K H Hlt Fr s Hs) as (y & s' & Ey & (a & -> & Ha) & HS).
        cbn [srepeat0_fuel]. rewrite Ey.
        assert (Hlen : (length (skip_ws r) < length (x ++ w2 ++ t ++ r))%nat).
        { pose proof (skip_ws_length r). rewrite !app_length.
          destruct x; [contradiction|cbn [length]; lia]. }
        rewrite (proj2 (Nat.eqb_neq _ _)) by lia.
        destruct fuel as [|fuel]; [cbn in *; lia|]. cbn [srepeat0_fuel]. rewrite item_stop by exact Sr.
        exists (POk [a] (skip_ws r)), s'. split; [reflexivity|]. split; [|exact HS].
        exists [a]. split; [reflexivity|]. constructor; [exact Ha|constructor].
      - assert (E : skip_ws ((w1 ++ x ++ w2 ++ t ++ ts) ++ r) = x ++ w2 ++ t ++ ts ++ r).
        { rewrite <- !app_assoc. apply skip_ws_blanks_nonblank; [exact W1|apply nonblank_app; assumption]. }
        rewrite E in *. destruct fuel as [|fuel]; [lia|]. intros s Hs.
        assert (Hlt : (length t <= L)%nat) by (rewrite !app_length in Hl; lia).
        assert (Hlts : (length ts <= L)%nat) by (rewrite !app_length in Hl; lia).
        rewrite times_join in *.
        destruct (item_ok x w2 k t P n (ts ++ r) X W2 K H Hlt (tail_start _ _ _ HT r) s)
          as (y & s' & Ey & (a & -> & Ha) & HS).
        { apply (Ok_mono _ _ _ (join_l _ _) Hs). }
        cbn [srepeat0_fuel]. rewrite Ey.
        assert (Hlen : (length (skip_ws (ts ++ r)) < length (x ++ w2 ++ t ++ ts ++ r))%nat).
        { pose proof (skip_ws_length (ts ++ r)) as Hsk. rewrite !app_length in *.
          destruct x; [contradiction|cbn [length]; lia]. }
        rewrite (proj2 (Nat.eqb_neq _ _)) by lia.
        destruct (IH Hlts r fuel Fr Sr ltac:(lia) s' (Ok_join _ _ _ _ Hs HS))
          as (z & s'' & Ez & (l & -> & Hl2) & HS').
        rewrite Ez. exists (POk (a :: l) (skip_ws r)), s''. split; [reflexivity|]. split.
        + exists (a :: l). split; [reflexivity|]. constructor; assumption.
        + apply (St_join _ _ s s'); assumption.
    Qed.

    Lemma fold_means : forall l Ps, Forall2 means l Ps -> forall a P, means a P ->
      means (fold_left op l a) (fold_left mop Ps P).
    Proof.
      induction 1 as [|b Q l Ps Hb H IH]; intros a P Ha; [exact Ha|]. cbn [fold_left].
      apply IH. apply Hop; assumption.
    Qed.

    Lemma repeat1_ok : forall tl Ps m, tail operand tokt tl Ps m -> (length tl <= L)%nat ->
      forall r, fol r -> stop r ->
      steps (times j m) (srepeat1 item) (skip_ws (tl ++ r))
        (fun y => exists l, y = POk l (skip_ws r) /\ Forall2 means l Ps).
    Proof.
      intros tl Ps m HT Hl r Fr Sr s Hs.
      destruct HT as [k w1 x w2 t P n K X W1 W2 H|k w1 x w2 t P n ts Ps m K X W1 W2 H HT];
        destruct (Hstart x X) as [Nx Bx].
      - replace (skip_ws ((w1 ++ x ++ w2 ++ t) ++ r)) with (x ++ w2 ++ t ++ r).
        2:{ rewrite <- !app_assoc. symmetry.
            apply skip_ws_blanks_nonblank; [exact W1|apply nonblank_app; assumption]. }
        assert (Hlt : (length t <= L)%nat) by (rewrite !app_length in Hl; lia).
        destruct (item_ok x w2 k t P n r X W2 K H Hlt Fr s Hs) as (y & s' & Ey & (a & -> & Ha) & HS).
        unfold srepeat1, smap. unfold sbind at 1. rewrite Ey. cbn [srepeat0_fuel].
        rewrite item_stop by exact Sr.
        exists (POk [a] (skip_ws r)), s'. split; [reflexivity|]. split; [|exact HS].
        exists [a]. split; [reflexivity|]. constructor; [exact Ha|constructor].
      - replace (skip_ws ((w1 ++ x ++ w2 ++ t ++ ts) ++ r)) with (x ++ w2 ++ t ++ ts ++ r).
        2:{ rewrite <- !app_assoc. symmetry.
            apply skip_ws_blanks_nonblank; [exact W1|apply nonblank_app; assumption]. }
        assert (Hlt : (length t <= L)%nat) by (rewrite !app_length in Hl; lia).
        assert (Hlts : (length ts <= L)%nat) by (rewrite !app_length in Hl; lia).
        rewrite times_join in *.
        destruct (item_ok x w2 k t P n (ts ++ r) X W2 K H Hlt (tail_start _ _ _ HT r) s)
          as (y & s' & Ey & (a & -> & Ha) & HS).
        { apply (Ok_mono _ _ _ (join_l _ _) Hs). }
        destruct (repeat_ok ts Ps m HT Hlts r (S (length (skip_ws (ts ++ r)))) Fr Sr ltac:(lia) s'
                    (Ok_join _ _ _ _ Hs HS)) as (z & s'' & Ez & (l & -> & Hl2) & HS').
        unfold srepeat1, smap. unfold sbind at 1. rewrite Ey, Ez.
        exists (POk (a :: l) (skip_ws r)), s''. split; [reflexivity|]. split.
        + exists (a :: l). split; [reflexivity|]. constructor; assumption.
        + apply (St_join _ _ s s'); assumption.
    Qed.

    Lemma first_ok : forall k0 t0 P0 n0 r, operand k0 = true -> ex k0 t0 P0 n0 ->
      (length t0 <= L)%nat -> fol r ->
      steps (times j n0) (sws opd) (t0 ++ r) (fun y => exists a, y = POk a (skip_ws r) /\ means a P0).
    Proof.
      intros k0 t0 P0 n0 r K0 H0 Hl Fr. destruct (expr_start _ _ _ _ H0) as [N0 B0].
      apply steps_sws. rewrite skip_ws_nonblank by (apply nonblank_app; assumption).
      apply (Hopd k0); assumption.
    Qed.

    Let chain := smap (fold_ops op) (s_operands (sws opd) tokp).

    Lemma chain_ok : forall k0 t0 P0 n0 tl Ps m r,
      operand k0 = true -> ex k0 t0 P0 n0 -> tail operand tokt tl Ps m ->
      (length (t0 ++ tl) <= L)%nat -> fol r -> stop r ->
      steps (times j (join n0 m)) chain ((t0 ++ tl) ++ r) (yields (fold_left mop Ps P0) r).
    Proof.
      intros k0 t0 P0 n0 tl Ps m r K0 H0 HT Hl Fr Sr s Hs.
      rewrite times_join in Hs |- *. rewrite app_length in Hl. rewrite <- app_assoc.
      destruct (first_ok k0 t0 P0 n0 (tl ++ r) K0 H0 ltac:(lia) (tail_start _ _ _ HT r) s)
        as (y & s' & Ey & (a & -> & Ha) & HS).
      { apply (Ok_mono _ _ _ (join_l _ _) Hs). }
      destruct (repeat1_ok tl Ps m HT ltac:(lia) r Fr Sr s' (Ok_join _ _ _ _ Hs HS))
        as (z & s'' & Ez & (l & -> & Hl2) & HS').
      unfold chain, smap, s_operands. unfold sbind at 1. rewrite Ey. fold item.
      unfold smap. rewrite Ez.
      exists (POk (fold_ops op (a, l)) (skip_ws r)), s''. split; [reflexivity|]. split.
      - exists (fold_ops op (a, l)), (skip_ws r). split; [reflexivity|].
        split; [apply fold_means; assumption|apply skip_ws_idem].
      - apply (St_join _ _ s s'); assumption.
    Qed.

    (** an operand that is not followed by the operator *)
    Lemma chain_stop : forall k0 t0 P0 n0 r, operand k0 = true -> ex k0 t0 P0 n0 ->
      (length t0 <= L)%nat -> fol r -> stop r -> steps (times j n0) chain (t0 ++ r) fails.
    Proof.
      intros k0 t0 P0 n0 r K0 H0 Hl Fr Sr s Hs.
      destruct (first_ok k0 t0 P0 n0 r K0 H0 Hl Fr s Hs) as (y & s' & Ey & (a & -> & Ha) & HS).
      unfold chain, smap, s_operands. unfold sbind at 1. rewrite Ey. fold item.
      unfold smap, srepeat1. unfold sbind at 1. rewrite item_stop by exact Sr.
      exists PErr, s'. split; [reflexivity|]. split; [reflexivity|exact HS].
    Qed.
  End Repeat.

  (** ** the three chains and the composite *)
  Variable atoms : sparser A.
  Variable tok_and tok_xor tok_or : sparser unit.
  Variable op_and op_xor op_or : A -> A -> A.

  Hypothesis and_means : forall a b P Q, means a P -> means b Q -> means (op_and a b) (mand P Q).
  Hypothesis xor_means : forall a b P Q, means a P -> means b Q -> means (op_xor a b) (mxor P Q).
  Hypothesis or_means : forall a b P Q, means a P -> means b Q -> means (op_or a b) (mor P Q).

  Definition reads_token (tokt : bytes -> Prop) (stop : bytes -> Prop) (tokp : sparser unit) : Prop :=
    (forall x r s, tokt x -> exists r', tokp s (x ++ r) = (POk tt r', s) /\ skip_ws r' = skip_ws r)
    /\ (forall r s, stop r -> tokp s (skip_ws r) = (PErr, s)).
  Hypothesis and_tok : reads_token and_token no_and tok_and.
  Hypothesis xor_tok : reads_token xor_token no_xor tok_xor.
  Hypothesis or_tok : reads_token or_token no_or tok_or.

  Hypothesis atoms_ok : forall k t P n r, is_atom k = true -> ex k t P n -> (length t <= L)%nat ->
    follow r -> steps n atoms (t ++ r) (yields P r).

  Definition and_p : sparser A := smap (fold_ops op_and) (s_operands (sws atoms) tok_and).
  Definition xor_p : sparser A := smap (fold_ops op_xor) (s_operands (sws (salt and_p atoms)) tok_xor).
  Definition or_p : sparser A :=
    smap (fold_ops op_or) (s_operands (sws (salt and_p (salt xor_p atoms))) tok_or).
  Definition composite : sparser A := salt or_p (salt xor_p and_p).

  Definition fol_x (r : bytes) : Prop := follow r /\ no_and r.
  Definition fol_o (r : bytes) : Prop := follow r /\ no_and r /\ no_xor r.

  Lemma and_token_start : forall x, and_token x -> x <> [] /\ nonblank x.
  Proof. intros x ->. split; [discriminate|]. apply nonblank_cons. notblank. Qed.
  Lemma xor_token_start : forall x, xor_token x -> x <> [] /\ nonblank x.
  Proof. intros x []; (split; [discriminate|]; apply nonblank_cons; notblank). Qed.
  Lemma or_token_start : forall x, or_token x -> x <> [] /\ nonblank x.
  Proof. intros x ->. split; [discriminate|]. apply nonblank_cons. notblank. Qed.

  Lemma follow_token : forall w c r, blanks w -> In c (lit ")}&|^X") -> follow (w ++ c :: r).
  Proof.
    intros [|d w] c r Hw Hc e r' E; cbn in E.
    - injection E as <- _. right. exact Hc.
    - injection E as <- _. inversion Hw; subst. left. assumption.
  Qed.

  Lemma skip_to_token : forall w c r, blanks w -> ~ blank c -> skip_ws (w ++ c :: r) = c :: r.
  Proof. intros w c r Hw Hc. apply skip_ws_blanks_nonblank; [exact Hw|apply nonblank_cons; exact Hc]. Qed.

  Lemma fol_and : forall w x r, blanks w -> and_token x -> follow (w ++ x ++ r).
  Proof. intros w x r Hw ->. apply follow_token; [exact Hw|cbn; tauto]. Qed.

  Lemma fol_xor : forall w x r, blanks w -> xor_token x -> fol_x (w ++ x ++ r).
  Proof.
    intros w x r Hw Hx. split.
    - destruct Hx; apply follow_token; try exact Hw; cbn; tauto.
    - unfold no_and. destruct Hx; cbn [lit app]; rewrite skip_to_token;
        first [exact Hw|notblank|reflexivity].
  Qed.

  Lemma fol_or : forall w x r, blanks w -> or_token x -> fol_o (w ++ x ++ r).
  Proof.
    intros w x r Hw ->. split; [apply follow_token; [exact Hw|cbn; tauto]|].
    unfold no_and, no_xor. cbn [lit app]. rewrite skip_to_token; [|exact Hw|notblank].
    repeat split; reflexivity.
  Qed.

  Lemma atoms_ok1 : forall k t P n r, is_atom k = true -> ex k t P n -> (length t <= L)%nat ->
    follow r -> steps (times 1 n) atoms (t ++ r) (yields P r).
  Proof. intros. rewrite times_one. apply (atoms_ok k); assumption. Qed.

  Lemma and_ok : forall t P n r, ex KAnd t P n -> (length t <= L)%nat -> follow r -> no_and r ->
    steps n and_p (t ++ r) (yields P r).
  Proof.
    intros t P n r H Hl Fr Sr.
    destruct (and_split _ _ _ _ H eq_refl) as (k0 & t0 & P0 & n0 & tl & Ps & m & K0 & H0 & HT & -> & -> & ->).
    rewrite <- (times_one (join n0 m)).
    apply (chain_ok tok_and and_token atoms is_atom follow no_and 1 op_and mand) with (k0 := k0);
      try assumption; try apply and_tok.
    - apply and_token_start.
    - apply atoms_ok1.
    - apply fol_and.
  Qed.

  (** no "&&" after an atom *)
  Lemma and_stop : forall k t P n r, is_atom k = true -> ex k t P n -> (length t <= L)%nat ->
    follow r -> no_and r -> steps n and_p (t ++ r) fails.
  Proof.
    intros k t P n r K H Hl Fr Sr. rewrite <- (times_one n).
    apply (chain_stop tok_and atoms is_atom follow no_and 1 op_and) with (k0 := k) (P0 := P);
      try assumption; try apply and_tok.
    - apply atoms_ok1.
  Qed.

  Lemma xor_opd_ok : forall k t P n r, atom_or_and k = true -> ex k t P n -> (length t <= L)%nat ->
    fol_x r -> steps (times 2 n) (salt and_p atoms) (t ++ r) (yields P r).
  Proof.
    intros k t P n r K H Hl [Fr Sr]. unfold atom_or_and in K. apply orb_true_iff in K as [K|K].
    - apply (steps_weaken _ (join (times 1 n) (times 1 n))); [apply (times_add 1 1)|].
      rewrite times_one. apply steps_alt_r; [apply (and_stop k _ P)|apply (atoms_ok k)]; assumption.
    - destruct k; try discriminate.
      apply (steps_weaken _ n); [rewrite <- (times_one n) at 1; apply times_mono; lia|].
      apply steps_alt_l. apply and_ok; assumption.
  Qed.

  Lemma xor_ok : forall k t P n r, is_xor k = true -> ex k t P n -> (length t <= L)%nat ->
    fol_x r -> no_xor r -> steps (times 2 n) xor_p (t ++ r) (yields P r).
  Proof.
    intros k t P n r K H Hl Fr Sr.
    destruct (xor_split _ _ _ _ H K) as (k0 & t0 & P0 & n0 & tl & Ps & m & K0 & _ & _ & H0 & HT & -> & -> & ->).
    apply (chain_ok tok_xor xor_token (salt and_p atoms) atom_or_and fol_x no_xor 2 op_xor mxor) with (k0 := k0);
      try assumption; try apply xor_tok.
    - apply xor_token_start.
    - apply xor_opd_ok.
    - apply fol_xor.
  Qed.

  Lemma xor_stop : forall k t P n r, atom_or_and k = true -> ex k t P n -> (length t <= L)%nat ->
    fol_x r -> no_xor r -> steps (times 2 n) xor_p (t ++ r) fails.
  Proof.
    intros k t P n r K H Hl Fr Sr.
    apply (chain_stop tok_xor (salt and_p atoms) atom_or_and fol_x no_xor 2 op_xor) with (k0 := k) (P0 := P);
      try assumption; try apply xor_tok.
    apply xor_opd_ok.
  Qed.

  (** a "^" chain that does not begin with an "&&" chain is not an "&&" chain *)
  Lemma and_stop_xor : forall t P n r, ex KXorA t P n -> (length t <= L)%nat ->
    steps n and_p (t ++ r) fails.
  Proof.
    intros t P n r H Hl.
    destruct (xor_split _ _ _ _ H eq_refl) as (k0 & t0 & P0 & n0 & tl & Ps & m & _ & KA & _ & H0 & HT & -> & -> & _).
    rewrite app_length in Hl. rewrite <- app_assoc.
    destruct (tail_start xor_token atom_or_and fol_x fol_xor _ _ _ HT r) as [F1 F2].
    apply (steps_weaken _ n0); [apply join_l|].
    apply (and_stop k0 _ P0); try assumption; [apply KA; reflexivity|lia].
  Qed.

  Lemma or_opd_ok : forall k t P n r, or_operand true k = true -> ex k t P n -> (length t <= L)%nat ->
    fol_o r -> steps (times 4 n) (salt and_p (salt xor_p atoms)) (t ++ r) (yields P r).
  Proof.
    intros k t P n r K H Hl (Fr & Sa & Sx). destruct (is_atom k) eqn:KA.
    - apply (steps_weaken _ (join (times 1 n) (times 3 n))); [apply (times_add 1 3)|].
      apply steps_alt_r.
      + rewrite times_one. apply (and_stop k _ P); assumption.
      + apply (steps_weaken _ (join (times 2 n) (times 1 n))); [apply (times_add 2 1)|].
        apply steps_alt_r.
        * apply (xor_stop k _ P); [unfold atom_or_and; rewrite KA; reflexivity|assumption..|split; assumption|assumption].
        * rewrite times_one. apply (atoms_ok k); assumption.
    - destruct k; try discriminate.
      + apply (steps_weaken _ n); [rewrite <- (times_one n) at 1; apply times_mono; lia|].
        apply steps_alt_l. apply and_ok; assumption.
      + apply (steps_weaken _ (join (times 1 n) (times 2 n))).
        { apply (N.le_trans _ (times (1 + 2) n)); [apply times_add|apply times_mono; lia]. }
        apply steps_alt_r.
        * rewrite times_one. apply (and_stop_xor t P); assumption.
        * apply steps_alt_l. apply (xor_ok KXorA); try assumption; try reflexivity; split; assumption.
  Qed.

  Lemma or_ok : forall t P n r, ex KOr t P n -> (length t <= L)%nat ->
    fol_o r -> no_or r -> steps (times 4 n) or_p (t ++ r) (yields P r).
  Proof.
    intros t P n r H Hl Fr Sr.
    destruct (or_split _ _ _ _ H eq_refl) as (k0 & t0 & P0 & n0 & tl & Ps & m & K0 & H0 & HT & -> & -> & ->).
    apply (chain_ok tok_or or_token (salt and_p (salt xor_p atoms)) (or_operand true) fol_o no_or 4 op_or mor)
      with (k0 := k0); try assumption; try apply or_tok.
    - apply or_token_start.
    - apply or_opd_ok.
    - apply fol_or.
  Qed.

  Lemma or_stop : forall k t P n r, or_operand true k = true -> ex k t P n -> (length t <= L)%nat ->
    fol_o r -> no_or r -> steps (times 4 n) or_p (t ++ r) fails.
  Proof.
    intros k t P n r K H Hl Fr Sr.
    apply (chain_stop tok_or (salt and_p (salt xor_p atoms)) (or_operand true) fol_o no_or 4 op_or)
      with (k0 := k) (P0 := P); try assumption; try apply or_tok.
    apply or_opd_ok.
  Qed.

  (** a "^" chain that begins with an "&&" chain: the "||" parser reads the
      "&&" chain and gives up at the "^" *)
  Lemma or_stop_xorn : forall t P n r, ex KXorN t P n -> (length t <= L)%nat ->
    steps n or_p (t ++ r) fails.
  Proof.
    intros t P n r H Hl.
    destruct (xor_split _ _ _ _ H eq_refl) as (k0 & t0 & P0 & n0 & tl & Ps & m & _ & _ & KN & H0 & HT & -> & -> & _).
    rewrite app_length in Hl. rewrite <- app_assoc. rewrite (KN eq_refl) in H0.
    destruct (tail_start xor_token atom_or_and fol_x fol_xor _ _ _ HT r) as [F1 F2].
    apply (steps_weaken _ n0); [apply join_l|]. intros s Hs.
    destruct (expr_start _ _ _ _ H0) as [N0 B0].
    assert (Hsw : steps n0 (sws (salt and_p (salt xor_p atoms))) (t0 ++ tl ++ r)
                    (fun y => exists a, y = POk a (skip_ws (tl ++ r)) /\ means a P0)).
    { apply steps_sws. rewrite skip_ws_nonblank by (apply nonblank_app; assumption).
      apply steps_alt_l. apply and_ok; try assumption. lia. }
    destruct (Hsw s Hs) as (y & s' & Ey & (a & -> & Ha) & HS).
    unfold or_p, smap, s_operands. unfold sbind at 1. rewrite Ey.
    unfold smap, srepeat1. unfold sbind at 1. unfold spreceded, sbind at 1.
    assert (Sr : no_or (tl ++ r)).
    { unfold no_or. destruct HT as [k w1 x w2 t P1 n1 K X W1 W2 HX|k w1 x w2 t P1 n1 ts Ps m K X W1 W2 HX HT];
        rewrite <- !app_assoc; destruct X; cbn [lit app]; rewrite skip_to_token;
        first [assumption|notblank|reflexivity]. }
    rewrite (proj2 or_tok) by exact Sr.
    exists PErr, s'. split; [reflexivity|]. split; [reflexivity|exact HS].
  Qed.

  Lemma composite_ok : forall k t P n r, is_atom k = false -> ex k t P n -> (length t <= L)%nat ->
    follow r -> no_op r -> steps (times 7 n) composite (t ++ r) (yields P r).
  Proof.
    intros k t P n r K H Hl Fr (Sa & Sx & So). unfold composite. destruct k; try discriminate.
    - (* && *)
      apply (steps_weaken _ (join (times 4 n) (join (times 2 n) (times 1 n)))).
      { apply (N.le_trans _ (join (times 4 n) (times 3 n))).
        - apply join_mono; [lia|apply (times_add 2 1)].
        - apply (times_add 4 3). }
      apply steps_alt_r; [apply (or_stop KAnd _ P); try assumption; try reflexivity; split; auto|].
      apply steps_alt_r; [apply (xor_stop KAnd _ P); try assumption; try reflexivity; split; auto|].
      rewrite times_one. apply and_ok; assumption.
    - (* ^ *)
      apply (steps_weaken _ (join (times 4 n) (times 2 n))).
      { apply (N.le_trans _ (times 6 n)); [apply (times_add 4 2)|apply times_mono; lia]. }
      apply steps_alt_r; [apply (or_stop KXorA _ P); try assumption; try reflexivity; split; auto|].
      apply steps_alt_l. apply (xor_ok KXorA); try assumption; try reflexivity; split; auto.
    - (* ^ beginning with && *)
      apply (steps_weaken _ (join (times 1 n) (times 2 n))).
      { apply (N.le_trans _ (times 3 n)); [apply (times_add 1 2)|apply times_mono; lia]. }
      apply steps_alt_r; [rewrite times_one; apply (or_stop_xorn t P); assumption|].
      apply steps_alt_l. apply (xor_ok KXorN); try assumption; try reflexivity; split; auto.
    - (* || *)
      apply (steps_weaken _ (times 4 n)); [apply times_mono; lia|].
      apply steps_alt_l. apply or_ok; try assumption. split; auto.
  Qed.

  Lemma composite_stop : forall k t P n r, is_atom k = true -> ex k t P n -> (length t <= L)%nat ->
    follow r -> no_op r -> steps (times 7 n) composite (t ++ r) fails.
  Proof.
    intros k t P n r K H Hl Fr (Sa & Sx & So). unfold composite.
    assert (Ko : or_operand true k = true) by (destruct k; try discriminate; reflexivity).
    assert (Kx : atom_or_and k = true) by (unfold atom_or_and; rewrite K; reflexivity).
    apply (steps_weaken _ (join (times 4 n) (join (times 2 n) (times 1 n)))).
    { apply (N.le_trans _ (join (times 4 n) (times 3 n))).
      - apply join_mono; [lia|apply (times_add 2 1)].
      - apply (times_add 4 3). }
    apply steps_alt_r; [apply (or_stop k _ P); try assumption; split; auto|].
    apply steps_alt_r; [apply (xor_stop k _ P); try assumption; split; auto|].
    rewrite times_one. apply (and_stop k _ P); assumption.
  Qed.

  (** composite, then the operands one by one *)
  Lemma whole_ok : forall k t P n r rest, alone k = true -> ex k t P n -> (length t <= L)%nat ->
    follow r -> no_op r ->
    (is_atom k = true -> steps n rest (t ++ r) (yields P r)) ->
    steps (times 8 n) (salt composite rest) (t ++ r) (yields P r).
  Proof.
    intros k t P n r rest K H Hl Fr Sr Hrest. destruct (is_atom k) eqn:KA.
    - apply (steps_weaken _ (join (times 7 n) (times 1 n))); [apply (times_add 7 1)|].
      apply steps_alt_r; [apply (composite_stop k _ P); assumption|].
      rewrite times_one. apply Hrest. reflexivity.
    - apply (steps_weaken _ (times 7 n)); [apply times_mono; lia|].
      apply steps_alt_l. apply (composite_ok k); assumption.
  Qed.
End Chains.

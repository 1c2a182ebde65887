(** * Proofs about predicate lists and the config command *)

From Coq Require Import String.
From Verif Require Import Bytes Winnow RecordModel RecordSpec BaseProofs Utf8Spec TagOccModel TagOccSpec TagOccProofs
  MatcherSpec QuerySpec QueryProofs CliSpec CheckModel CheckSpec CheckRunProofs OptionsModel OptionsSpec.

(** ** White space *)

Definition white_points : list N :=
  [9; 10; 11; 12; 13; 32; 133; 160; 5760; 8192; 8193; 8194; 8195; 8196; 8197; 8198; 8199; 8200; 8201; 8202;
   8232; 8233; 8239; 8287; 12288].

Lemma white_space_iff : forall c, white_space c <-> In c white_points.
Proof.
  intros c. unfold white_space. split.
  - intros H. cbn. lia.
  - intros H. cbn in H. repeat (destruct H as [<-|H]; [lia|]). destruct H.
Qed.

Lemma white_chars_points : white_chars = map utf8_encode_char white_points.
Proof. reflexivity. Qed.

Lemma white_chars_iff : forall w, In w white_chars <-> exists c, white_space c /\ w = utf8_encode_char c.
Proof.
  intros w. rewrite white_chars_points, in_map_iff. split.
  - intros (c & <- & H). exists c. rewrite white_space_iff. auto.
  - intros (c & H & ->). exists c. rewrite <- white_space_iff. auto.
Qed.

Lemma tok_iff : forall w b r, (exists u, tok w b = Some (u, r)) <-> b = w ++ r.
Proof.
  induction w as [|c w IH]; intros b r; cbn [tok app].
  - split; [intros [u E]; congruence|intros ->; eexists; reflexivity].
  - destruct b as [|d b]; [split; [intros [u E]; discriminate|discriminate]|].
    destruct (c =? d) eqn:E.
    + apply N.eqb_eq in E. subst d. rewrite IH. split; [intros ->; reflexivity|intros X; injection X as ->; reflexivity].
    + apply N.eqb_neq in E. split; [intros [u X]; discriminate|intros X; injection X as -> _; congruence].
Qed.

Section Strip.
  Variable ws : list bytes.
  Hypothesis ws_nonempty : forall w, In w ws -> w <> [].

  Lemma strip_one_some : forall b r, strip_one ws b = Some r -> exists w, In w ws /\ b = w ++ r.
  Proof.
    intros b r. clear ws_nonempty. induction ws as [|w l IH]; cbn [strip_one]; [discriminate|].
    destruct (tok w b) as [[u r']|] eqn:E.
    - intros X. injection X as <-. exists w. split; [left; reflexivity|]. apply tok_iff. exists u. exact E.
    - intros H. destruct (IH H) as (w' & H1 & H2). exists w'. cbn. auto.
  Qed.

  Lemma strip_one_none : forall b, strip_one ws b = None -> forall w r, In w ws -> b <> w ++ r.
  Proof.
    intros b. clear ws_nonempty. induction ws as [|w l IH]; cbn [strip_one]; [intros _ w r []|].
    destruct (tok w b) as [[u r']|] eqn:E; [discriminate|]. intros H w' r [<-|Hin]; [|apply IH; assumption].
    intros X. apply tok_iff in X as [u X]. congruence.
  Qed.

  Lemma strip_all_spec : forall n b, (length b <= n)%nat ->
    exists l, Forall (fun w => In w ws) l /\ b = concat l ++ strip_all ws n b
      /\ forall w r, In w ws -> strip_all ws n b <> w ++ r.
  Proof.
    induction n as [|n IH]; intros b L; cbn [strip_all].
    - destruct b; [|cbn in L; lia]. exists []. split; [constructor|]. split; [reflexivity|].
      intros w r Hw E. symmetry in E. apply app_eq_nil in E as [E _]. exact (ws_nonempty w Hw E).
    - destruct (strip_one ws b) as [r|] eqn:E.
      + apply strip_one_some in E as (w & Hw & ->).
        destruct (IH r) as (l & H1 & H2 & H3).
        { rewrite app_length in L. pose proof (ws_nonempty w Hw). destruct w; [congruence|]. cbn in L. lia. }
        exists (w :: l). split; [constructor; assumption|]. split; [|exact H3]. cbn [concat]. rewrite <- app_assoc. congruence.
      + exists []. split; [constructor|]. split; [reflexivity|]. apply strip_one_none. exact E.
  Qed.
End Strip.

Lemma spaces_concat : forall l, Forall (fun w => In w white_chars) l -> spaces (concat l).
Proof.
  induction 1 as [|w l Hw H IH]; [exists []; split; [constructor|reflexivity]|].
  apply white_chars_iff in Hw as (c & Hc & ->). destruct IH as (l' & H1 & H2). exists (c :: l').
  split; [constructor; assumption|]. cbn. rewrite H2. reflexivity.
Qed.

Lemma white_nonempty : forall w, In w white_chars -> w <> [].
Proof. intros w H. cbn in H. repeat (destruct H as [<-|H]; [discriminate|]). destruct H. Qed.

Lemma concat_rev : forall (l : list bytes), concat (rev (map (@rev byte) l)) = rev (concat l).
Proof.
  induction l as [|x l IH]; [reflexivity|]. cbn [map rev concat]. rewrite concat_app, IH. cbn [concat].
  rewrite app_nil_r, rev_app_distr. reflexivity.
Qed.

(** [str_trim] trims *)
Lemma str_trim_trimmed : forall b, trimmed b (str_trim b).
Proof.
  intros b. unfold str_trim.
  destruct (strip_all_spec white_chars white_nonempty (length b) b (le_n _)) as (l & H1 & H2 & H3).
  set (b1 := strip_all white_chars (length b) b) in *. clearbody b1.
  destruct (strip_all_spec (map (@rev byte) white_chars)) with (n := length b1) (b := rev b1) as (l' & K1 & K2 & K3).
  { intros w Hw E. apply in_map_iff in Hw as (w' & <- & Hw). apply (white_nonempty w' Hw).
    rewrite <- (rev_involutive w'), E. reflexivity. }
  { rewrite rev_length. lia. }
  set (b2 := strip_all _ _ (rev b1)) in *. clearbody b2.
  assert (E1 : b1 = rev b2 ++ concat (rev (map (@rev byte) l'))).
  { rewrite concat_rev. rewrite <- rev_app_distr, <- K2, rev_involutive. reflexivity. }
  exists (concat l), (concat (rev (map (@rev byte) l'))). split; [apply spaces_concat; exact H1|]. split.
  { apply spaces_concat. apply Forall_rev. rewrite Forall_map. eapply Forall_impl; [|exact K1].
    intros w Hw. cbn beta in Hw. apply in_map_iff in Hw as (w' & <- & Hw). rewrite rev_involutive. exact Hw. }
  split; [rewrite <- E1; exact H2|]. intros c rest Hc.
  assert (Hw : In (utf8_encode_char c) white_chars) by (apply white_chars_iff; exists c; auto). split.
  - intros E. rewrite E in E1. rewrite <- app_assoc in E1. exact (H3 _ _ Hw E1).
  - intros E. apply (K3 (rev (utf8_encode_char c)) (rev rest)); [apply in_map; exact Hw|].
    rewrite <- rev_app_distr, <- E, rev_involutive. reflexivity.
Qed.

(** *** The result is determined *)

(** first bytes of white space characters never continue one *)
Definition lead (c : byte) : bool := existsb (fun w => match w with x :: _ => x =? c | [] => false end) white_chars.

Lemma white_tail_lead : forall w x t d r, In w white_chars -> w = x :: t ++ d :: r -> lead d = false.
Proof.
  assert (C : forallb (fun w => forallb (fun d => negb (lead d)) (tl w)) white_chars = true) by reflexivity.
  intros w x t d r Hw ->. rewrite forallb_forall in C. specialize (C _ Hw). cbn [tl] in C.
  rewrite forallb_forall in C. specialize (C d). rewrite in_app_iff in C. cbn in C.
  apply Bool.negb_true_iff. apply C. auto.
Qed.

Lemma white_head_lead : forall d r, In (d :: r) white_chars -> lead d = true.
Proof.
  intros d r H. unfold lead. apply existsb_exists. exists (d :: r). split; [exact H|]. apply N.eqb_refl.
Qed.

(** a prefix code, and a suffix code *)
Lemma prefix_code : forall w w' r r', In w white_chars -> In w' white_chars -> w ++ r = w' ++ r' -> w = w' /\ r = r'.
Proof.
  assert (C : forallb (fun w => forallb (fun w' => bytes_eqb w w' || match tok w w' with Some _ => false | None => true end) white_chars) white_chars = true)
    by reflexivity.
  assert (D : forall w w' s, In w white_chars -> In w' white_chars -> w' = w ++ s -> w = w').
  { intros w w' s Hw Hw' E. rewrite forallb_forall in C. specialize (C w Hw). rewrite forallb_forall in C. specialize (C w' Hw').
    apply Bool.orb_true_iff in C as [C|C]; [apply bytes_eqb_eq; exact C|].
    destruct (proj2 (tok_iff w w' s) E) as [u X]. rewrite X in C. discriminate C. }
  intros w w' r r' Hw Hw' E. assert (w = w').
  { destruct (app_eq_app _ _ _ _ E) as (s & [[-> _]|[-> _]]); [symmetry|]; eapply D; try eassumption; reflexivity. }
  subst w'. split; [reflexivity|]. eapply app_inv_head. exact E.
Qed.

Lemma suffix_code : forall w w' r r', In w white_chars -> In w' white_chars -> r ++ w = r' ++ w' -> w = w' /\ r = r'.
Proof.
  assert (C : forallb (fun w => forallb (fun w' => bytes_eqb w w' || match tok (rev w) (rev w') with Some _ => false | None => true end) white_chars) white_chars = true)
    by reflexivity.
  assert (D : forall w w' s, In w white_chars -> In w' white_chars -> w' = s ++ w -> w = w').
  { intros w w' s Hw Hw' E. rewrite forallb_forall in C. specialize (C w Hw). rewrite forallb_forall in C. specialize (C w' Hw').
    apply Bool.orb_true_iff in C as [C|C]; [apply bytes_eqb_eq; exact C|].
    destruct (proj2 (tok_iff (rev w) (rev w') (rev s))) as [u X]; [rewrite E, rev_app_distr; reflexivity|]. rewrite X in C. discriminate C. }
  intros w w' r r' Hw Hw' E. assert (w = w').
  { destruct (app_eq_app _ _ _ _ E) as (s & [[_ ->]|[_ ->]]); [|symmetry]; eapply D; try eassumption; reflexivity. }
  subst w'. split; [reflexivity|]. eapply app_inv_tail. exact E.
Qed.

Definition no_start (b : bytes) : Prop := forall w r, In w white_chars -> b <> w ++ r.
Definition no_end (b : bytes) : Prop := forall w r, In w white_chars -> b <> r ++ w.

Lemma no_start_app : forall t l, t <> [] -> no_start t -> Forall (fun w => In w white_chars) l -> no_start (t ++ concat l).
Proof.
  intros t l Nt Ns F w r Hw E.
  destruct (app_eq_app _ _ _ _ E) as (s & [[-> _]|[-> E2]]); [exact (Ns w s Hw eq_refl)|].
  destruct s as [|d s].
  { rewrite app_nil_r in Hw. apply (Ns t []); [exact Hw|]. rewrite app_nil_r. reflexivity. }
  destruct t as [|x t]; [congruence|]. pose proof (white_tail_lead _ _ t d s Hw eq_refl) as L.
  destruct F as [|w0 l Hw0 F]; [discriminate E2|]. cbn [concat] in E2.
  pose proof (white_nonempty w0 Hw0). destruct w0 as [|y w0]; [congruence|]. injection E2 as -> _.
  rewrite (white_head_lead d w0 Hw0) in L. discriminate L.
Qed.

Lemma strip_front : forall l l' x x', Forall (fun w => In w white_chars) l -> Forall (fun w => In w white_chars) l' ->
  concat l ++ x = concat l' ++ x' -> no_start x -> no_start x' -> x = x'.
Proof.
  intros l l' x x' F. revert l'. induction F as [|w l Hw F IH]; intros l' F' E N1 N2.
  - destruct F' as [|w' l' Hw' F']; [exact E|]. cbn [concat app] in E. rewrite <- app_assoc in E. exfalso. exact (N1 _ _ Hw' E).
  - destruct F' as [|w' l' Hw' F'].
    + cbn [concat app] in E. rewrite <- app_assoc in E. exfalso. symmetry in E. exact (N2 _ _ Hw E).
    + cbn [concat] in E. rewrite <- !app_assoc in E. apply prefix_code in E as [_ E]; [|assumption..]. eapply IH; eassumption.
Qed.

Lemma strip_back : forall l l' x x', Forall (fun w => In w white_chars) l -> Forall (fun w => In w white_chars) l' ->
  x ++ concat (rev l) = x' ++ concat (rev l') -> no_end x -> no_end x' -> x = x'.
Proof.
  intros l l' x x' F. revert l'. induction F as [|w l Hw F IH]; intros l' F' E N1 N2.
  - destruct F' as [|w' l' Hw' F']; [cbn in E; rewrite !app_nil_r in E; exact E|].
    cbn [concat rev] in E. rewrite concat_app in E. cbn [concat] in E. rewrite !app_nil_r, app_assoc in E.
    exfalso. exact (N1 _ _ Hw' E).
  - destruct F' as [|w' l' Hw' F'].
    + cbn [concat rev] in E. rewrite concat_app in E. cbn [concat] in E. rewrite !app_nil_r, app_assoc in E.
      exfalso. symmetry in E. exact (N2 _ _ Hw E).
    + cbn [concat rev] in E. rewrite !concat_app in E. cbn [concat] in E. rewrite !app_nil_r, !app_assoc in E.
      apply suffix_code in E as [_ E]; [|assumption..]. eapply IH; eassumption.
Qed.

(** white space followed by a text: the text is empty or starts with white space *)
Lemma white_rest : forall l l' x, Forall (fun w => In w white_chars) l -> Forall (fun w => In w white_chars) l' ->
  concat l = concat l' ++ x -> x = [] \/ ~ no_start x.
Proof.
  intros l l' x F. revert l'. induction F as [|w l Hw F IH]; intros l' F' E.
  - left. cbn in E. symmetry in E. apply app_eq_nil in E as [_ E]. exact E.
  - destruct F' as [|w' l' Hw' F'].
    + right. intros N1. cbn [concat app] in E. symmetry in E. exact (N1 _ _ Hw E).
    + cbn [concat] in E. rewrite <- app_assoc in E. apply prefix_code in E as [_ E]; [|assumption..]. eapply IH; eassumption.
Qed.

Lemma spaces_inv : forall b, spaces b -> exists l, Forall (fun w => In w white_chars) l /\ b = concat l.
Proof.
  intros b (l & F & ->). exists (map utf8_encode_char l). split.
  - rewrite Forall_map. eapply Forall_impl; [|exact F]. intros c Hc. apply white_chars_iff. exists c. auto.
  - unfold utf8_encode. rewrite flat_map_concat_map. reflexivity.
Qed.

Lemma trimmed_fun : forall b t t', trimmed b t -> trimmed b t' -> t = t'.
Proof.
  assert (P : forall t, (forall c rest, white_space c -> t <> utf8_encode_char c ++ rest /\ t <> rest ++ utf8_encode_char c) ->
    no_start t /\ no_end t).
  { intros t H. split; intros w r Hw; apply white_chars_iff in Hw as (c & Hc & ->); apply (H c r Hc). }
  assert (Z : forall l1 l2 l1' l2' t', Forall (fun w => In w white_chars) l1 -> Forall (fun w => In w white_chars) l2 ->
    Forall (fun w => In w white_chars) l1' -> Forall (fun w => In w white_chars) l2' -> no_start t' ->
    concat l1 ++ [] ++ concat l2 = concat l1' ++ t' ++ concat l2' -> t' = []).
  { intros l1 l2 l1' l2' t' F1 F2 F1' F2' N1 E. cbn [app] in E. rewrite <- concat_app in E.
    destruct (white_rest (l1 ++ l2) l1' (t' ++ concat l2')) as [X|X]; [apply Forall_app; auto|assumption|exact E| |].
    - apply app_eq_nil in X as [X _]. exact X.
    - destruct t' as [|x t']; [reflexivity|]. exfalso. apply X. apply no_start_app; [discriminate|assumption..]. }
  intros b t t' (w1 & w2 & S1 & S2 & E & N0) (w1' & w2' & S1' & S2' & E' & N0').
  apply P in N0 as [Ns Ne]. apply P in N0' as [Ns' Ne'].
  apply spaces_inv in S1 as (l1 & F1 & ->). apply spaces_inv in S2 as (l2 & F2 & ->).
  apply spaces_inv in S1' as (l1' & F1' & ->). apply spaces_inv in S2' as (l2' & F2' & ->).
  rewrite E in E'. clear E. destruct t as [|x t]; [|destruct t' as [|x' t']].
  - symmetry. exact (Z _ _ _ _ _ F1 F2 F1' F2' Ns' E').
  - symmetry in E'. exact (Z _ _ _ _ _ F1' F2' F1 F2 Ns E').
  - apply strip_front in E'; [|assumption|assumption|apply no_start_app; [discriminate|assumption..]|apply no_start_app; [discriminate|assumption..]].
    rewrite <- (rev_involutive l2), <- (rev_involutive l2') in E'.
    eapply strip_back; [| |exact E'|assumption..]; apply Forall_rev; assumption.
Qed.

(** ** Predicate lists *)

Lemma slash_split : forall b x y, split_last_slash b = Some (x, y) -> b = x ++ y.
Proof.
  induction b as [|c b IH]; intros x y; cbn [split_last_slash]; [discriminate|].
  destruct (split_last_slash b) as [[x' y']|] eqn:E.
  - intros H. injection H as <- <-. cbn. f_equal. apply IH. reflexivity.
  - destruct (c =? SLASH); [|discriminate]. intros H. injection H as <- <-. reflexivity.
Qed.

Lemma slash_none : forall b, ~ In SLASH b -> split_last_slash b = None.
Proof.
  induction b as [|c b IH]; intros H; [reflexivity|]. cbn [split_last_slash]. rewrite IH by (intros X; apply H; right; exact X).
  destruct (c =? SLASH) eqn:E; [|reflexivity]. apply N.eqb_eq in E. exfalso. apply H. left. exact E.
Qed.

Lemma slash_app : forall t x, ~ In SLASH x -> split_last_slash (t ++ SLASH :: x) = Some (t, SLASH :: x).
Proof.
  intros t x H. induction t as [|c t IH]; cbn [app split_last_slash].
  - rewrite slash_none by exact H. reflexivity.
  - rewrite IH. reflexivity.
Qed.

Lemma pos_no_slash : forall allowed t P, ~ In SLASH allowed -> pos_text allowed t P -> ~ In SLASH t.
Proof.
  intros allowed t P Na H. assert (A : forall c, In c allowed -> SLASH <> c) by (intros c Hc <-; contradiction).
  assert (I : forall t P, item_text allowed t P -> ~ In SLASH t).
  { intros t0 P0 [c Hc|a b Ha Hb _]; cbn.
    - intros [E|[]]. exact (A c Hc (eq_sym E)).
    - intros [E|[E|[E|[]]]]; [exact (A a Ha (eq_sym E))|discriminate E|exact (A b Hb (eq_sym E))]. }
  destruct H as [c Hc| |t P H].
  - intros [E|[]]. exact (A c Hc (eq_sym E)).
  - intros [E|[]]. discriminate E.
  - rewrite !in_app_iff. intros [[E|[]]|[E|[E|[]]]]; [discriminate E| |discriminate E]. revert E.
    induction H as [t P H|t P ts Q H H' IH]; [eapply I; exact H|]. rewrite in_app_iff. intros [E|E]; [|auto]. exact (I _ _ H E).
Qed.

Lemma tag_text_no_slash : forall t P, tag_matcher_text t P -> ~ In SLASH t.
Proof.
  intros t P [t0 t1 t2 t3 P0 P1 P2 P3 H0 H1 H2 H3]. rewrite !in_app_iff.
  assert (A : forall allowed, forallb (fun c => negb (SLASH =? c)) allowed = true -> ~ In SLASH allowed).
  { intros allowed H X. rewrite forallb_forall in H. specialize (H _ X). rewrite N.eqb_refl in H. discriminate H. }
  intros [X|[X|[X|X]]]; revert X; eapply pos_no_slash; try eassumption; apply A; reflexivity.
Qed.

Lemma digits_no_slash : forall x, valid_occ x -> ~ In SLASH x.
Proof.
  intros x Hx X. destruct Hx as [_ F]. rewrite Forall_forall in F. specialize (F _ X). vm_compute in F. intuition discriminate.
Qed.

Lemma occ_text_slash : forall o Q, occ_matcher_text o Q -> o = [] \/ exists x, o = SLASH :: x /\ ~ In SLASH x.
Proof.
  intros o Q H. destruct H as [| | |x Hx _|x y Hx Hy _ _].
  - left. reflexivity.
  - right. exists (lit "00"). split; [reflexivity|]. vm_compute. intuition discriminate.
  - right. exists (lit "*"). split; [reflexivity|]. vm_compute. intuition discriminate.
  - right. exists x. split; [reflexivity|]. apply digits_no_slash. exact Hx.
  - right. exists (x ++ lit "-" ++ y). split; [reflexivity|]. rewrite !in_app_iff.
    intros [X|[[X|[]]|X]]; [exact (digits_no_slash x Hx X)|discriminate X|exact (digits_no_slash y Hy X)].
Qed.

Lemma parse_predicate_sound : forall item p, parse_predicate item = Some p ->
  exists P, predicate_text item P /\ denotes p P.
Proof.
  assert (G : forall t o m n, tag_matcher_new t = Some m -> occ_matcher_new o = Some n ->
    exists P, predicate_text (t ++ o) P /\ denotes (m, n) P).
  { intros t o m n Hm Hn. apply tag_matcher_sound in Hm as (T & HT & Em). apply occ_matcher_sound in Hn as (Q & HQ & En).
    exists (fun tag occ => T tag /\ Q occ). split.
    - exists t, o, T, Q. split; [reflexivity|]. split; [exact HT|]. split; [exact HQ|]. intros; reflexivity.
    - intros tag occ. cbn [fst snd]. rewrite Em, En. reflexivity. }
  intros item p. unfold parse_predicate. destruct (split_last_slash item) as [[t o]|] eqn:E.
  - apply slash_split in E. subst item. destruct (tag_matcher_new t) as [m|] eqn:Hm; [|discriminate].
    destruct (occ_matcher_new o) as [n|] eqn:Hn; [|discriminate]. intros H. injection H as <-. apply G; assumption.
  - destruct (tag_matcher_new item) as [m|] eqn:Hm; [|discriminate]. intros H. injection H as <-.
    rewrite <- (app_nil_r item). apply G; [exact Hm|reflexivity].
Qed.

Lemma parse_predicate_complete : forall item P, predicate_text item P -> exists p, parse_predicate item = Some p.
Proof.
  intros item P (t & o & T & Q & -> & HT & HQ & _). unfold parse_predicate.
  destruct (tag_matcher_complete t T HT) as (m & Hm & _). destruct (occ_matcher_complete o Q HQ) as (n & Hn & _).
  destruct (occ_text_slash o Q HQ) as [->|(x & -> & Nx)].
  - rewrite app_nil_r. rewrite slash_none by (eapply tag_text_no_slash; exact HT). rewrite Hm. eexists. reflexivity.
  - rewrite slash_app by exact Nx. rewrite Hm, Hn. eexists. reflexivity.
Qed.

Lemma model_items : forall b, list_items b (filter (fun s => match s with [] => false | _ => true end) (map str_trim (split_on 44 b))).
Proof.
  intros b. exists (split_on 44 b), (map str_trim (split_on 44 b)). split; [apply split_on_items|]. split.
  - induction (split_on 44 b) as [|x l IH]; cbn [map]; constructor; [apply str_trim_trimmed|exact IH].
  - match goal with |- picks _ _ ?l (filter ?g _) => pose proof (picks_filter bytes bytes (fun t => t <> []) (fun t => t) g l) as K end.
    rewrite map_id in K. apply K. intros x _. destruct x; split; congruence.
Qed.

Lemma list_items_fun : forall b l l', list_items b l -> list_items b l' -> l = l'.
Proof.
  intros b l l' (p & t & H1 & H2 & H3) (p' & t' & H1' & H2' & H3').
  rewrite (comma_items_fun _ _ H1' _ H1) in H2'. assert (E : t = t').
  { clear - H2 H2'. revert t' H2'. induction H2 as [|x y l m H H2 IH]; intros t' H2'; inversion H2' as [|? y' ? m' H' H2'']; subst; [reflexivity|].
    f_equal; [eapply trimmed_fun; eassumption|apply IH; assumption]. }
  subst t'. eapply picks_fun; eassumption.
Qed.

Lemma predicates_sound : forall b ms, parse_predicates (Some b) = Some ms ->
  exists items Ps, list_items b items /\ Forall2 predicate_text items Ps /\ Forall2 denotes ms Ps.
Proof.
  intros b ms H. cbn [parse_predicates] in H. pose proof (model_items b) as I. revert H I.
  generalize (filter (fun s => match s with [] => false | _ => true end) (map str_trim (split_on 44 b))). intros items H I.
  exists items. assert (G : exists Ps, Forall2 predicate_text items Ps /\ Forall2 denotes ms Ps); [|destruct G as (Ps & G1 & G2); exists Ps; auto].
  clear I. revert ms H. induction items as [|x l IH]; intros ms H; cbn [map_opt] in H.
  - injection H as <-. exists []. split; constructor.
  - destruct (parse_predicate x) as [p|] eqn:E; [|discriminate]. destruct (map_opt parse_predicate l) as [ps|]; [|discriminate].
    injection H as <-. destruct (IH ps eq_refl) as (Ps & H1 & H2). apply parse_predicate_sound in E as (P & H3 & H4).
    exists (P :: Ps). split; constructor; assumption.
Qed.

Lemma predicates_accepted : forall b, parse_predicates (Some b) <> None <->
  exists items, list_items b items /\ Forall (fun i => exists P, predicate_text i P) items.
Proof.
  intros b. split.
  - destruct (parse_predicates (Some b)) as [ms|] eqn:E; [|congruence]. intros _.
    apply predicates_sound in E as (items & Ps & H1 & H2 & _). exists items. split; [exact H1|].
    clear - H2. induction H2 as [|x P l Ps H H2 IH]; constructor; [exists P; exact H|exact IH].
  - intros (items & H1 & H2). rewrite (list_items_fun _ _ _ H1 (model_items b)) in H2. cbn [parse_predicates].
    revert H2. generalize (filter (fun s => match s with [] => false | _ => true end) (map str_trim (split_on 44 b))).
    intros l H2. induction H2 as [|x l [P H] H2 IH]; cbn [map_opt]; [discriminate|].
    destruct (parse_predicate_complete x P H) as [p ->]. destruct (map_opt parse_predicate l); [discriminate|congruence].
Qed.

(** the fields matched by the predicates of a list *)
Lemma predicates_match : forall b ms, parse_predicates (Some b) = Some ms ->
  exists items Ps, list_items b items /\ Forall2 predicate_text items Ps
    /\ forall f, ByteRecordSpec.field_matched ms f <-> exists P, In P Ps /\ P (f_tag f) (f_occ f).
Proof.
  intros b ms H. apply predicates_sound in H as (items & Ps & H1 & H2 & H3). exists items, Ps.
  split; [exact H1|]. split; [exact H2|]. intros f. clear - H3. unfold ByteRecordSpec.field_matched.
  induction H3 as [|p P ms Ps H H3 IH].
  - split; [intros (t & o & [] & _)|intros (P & [] & _)].
  - split.
    + intros (t & o & [->|Hin] & Ht & Ho).
      * exists P. split; [left; reflexivity|]. apply H. auto.
      * destruct (proj1 IH) as (P' & H1 & H2); [exists t, o; auto|]. exists P'. cbn. auto.
    + intros (P' & [<-|Hin] & HP).
      * apply H in HP as [Ht Ho]. destruct p as [t o]. exists t, o. cbn. auto.
      * destruct (proj2 IH) as (t & o & H1 & H2); [exists P'; auto|]. exists t, o. cbn. tauto.
Qed.

(** ** Config *)

Lemma bool_parse_display : forall b, bool_parse (bool_display b) = Some b.
Proof. destruct b; reflexivity. Qed.

Lemma bool_parse_some : forall v b, bool_parse v = Some b -> v = bool_display b.
Proof.
  intros v b. unfold bool_parse. destruct (bytes_eqb v (lit "true")) eqn:E1.
  - apply bytes_eqb_eq in E1. intros H. injection H as <-. exact E1.
  - destruct (bytes_eqb v (lit "false")) eqn:E2; [|discriminate]. apply bytes_eqb_eq in E2. intros H. injection H as <-. exact E2.
Qed.

Lemma nf_parse_some : forall v n, nf_parse v = Some n -> v = nf_display n.
Proof.
  intros v n. unfold nf_parse.
  repeat match goal with |- context [bytes_eqb v ?x] => destruct (bytes_eqb v x) eqn:?E end; try discriminate;
  intros H; injection H as <-; apply bytes_eqb_eq; assumption.
Qed.

Lemma skip_valid : forall v, valid_value (lit "skip-invalid") v <-> exists b, bool_parse v = Some b.
Proof.
  intros v. split.
  - intros [[_ [<-|[<-|[]]]]|[E _]]; [exists true|exists false|discriminate E]; reflexivity.
  - intros [b E]. apply bool_parse_some in E. subst v. left. split; [reflexivity|]. destruct b; cbn; auto.
Qed.

Lemma norm_valid : forall v, valid_value (lit "normalization") v <-> exists n, nf_parse v = Some n.
Proof.
  intros v. split.
  - intros [[E _]|[_ [<-|[<-|[<-|[<-|[]]]]]]]; [discriminate E|exists Nfc|exists Nfkc|exists Nfd|exists Nfkd]; reflexivity.
  - intros [n E]. apply nf_parse_some in E. subst v. right. split; [reflexivity|]. destruct n; cbn; auto.
Qed.

(** the options as the history has left them *)
Definition mirrors (h : list config_args) (c : config) : Prop :=
  (exists v, current (lit "skip-invalid") h v /\ shown (lit "skip-invalid") v (bool_display (cf_skip_invalid c)))
  /\ current (lit "normalization") h (option_map nf_display (cf_normalization c)).

Lemma changes_fun : forall a n v v', changes a n v -> changes a n v' -> v = v'.
Proof.
  intros a n v v' (_ & _ & H) (_ & _ & H'). destruct v, v'; intuition congruence.
Qed.

Lemma config_step : forall from_toml, (forall c, from_toml (config_toml c) = Some c) ->
  forall h a file c, args_allowed a = true -> config_load from_toml file = Some c -> mirrors h c ->
  exists e file' c', config_execute from_toml a file = (e, file') /\ answer h a e
    /\ config_load from_toml file' = Some c' /\ mirrors (h ++ [a]) c'.
Proof.
  intros from_toml RT h a file c Al L M. unfold config_execute, config_decide. rewrite L.
  destruct (bytes_eqb (ca_name a) (lit "skip-invalid")) eqn:E1; cbn [negb andb].
  - apply bytes_eqb_eq in E1.
    assert (NN : forall v, ~ changes a (lit "normalization") v) by (intros v [X _]; rewrite E1 in X; discriminate X).
    destruct M as [(v0 & M1 & M1') M2].
    assert (M2' : current (lit "normalization") (h ++ [a]) (option_map nf_display (cf_normalization c))) by (apply cur_keep; assumption).
    assert (K : known (ca_name a)) by (left; exact E1).
    destruct (ca_value a) as [v|] eqn:Ev.
    + destruct (bool_parse v) as [b|] eqn:Eb.
      * assert (Ch : changes a (lit "skip-invalid") (Some v)).
        { split; [exact E1|]. split; [left; reflexivity|]. split; [exact Ev|]. apply skip_valid. exists b. exact Eb. }
        eexists _, _, _. split; [reflexivity|]. split; [apply (ans_changed _ _ (Some v)); rewrite E1; exact Ch|].
        split; [cbn [config_load]; apply RT|]. split; [|exact M2']. exists (Some v). split; [apply cur_change; exact Ch|].
        cbn. symmetry. apply bool_parse_some. exact Eb.
      * eexists _, _, _. split; [reflexivity|]. assert (Nv : ~ valid_value (ca_name a) v).
        { rewrite E1. intros X. apply skip_valid in X as [b X]. congruence. }
        split; [eapply ans_invalid; eassumption|]. split; [exact L|]. split; [|exact M2']. exists v0. split; [|exact M1'].
        apply cur_keep; [exact M1|]. intros v' (X & _ & Y). destruct v'; destruct Y as [Y Z]; [|congruence]. apply Nv. rewrite E1. congruence.
    + destruct (ca_unset a) eqn:Eu.
      * assert (Ch : changes a (lit "skip-invalid") None) by (split; [exact E1|]; split; [left; reflexivity|]; auto).
        eexists _, _, _. split; [reflexivity|]. split; [apply (ans_changed _ _ None); rewrite E1; exact Ch|].
        split; [cbn [config_load]; apply RT|]. split; [|exact M2']. exists None. split; [apply cur_change; exact Ch|]. left. split; reflexivity.
      * assert (Es : ca_set a = false). { unfold args_allowed in Al. rewrite Ev in Al. destruct (ca_set a); [discriminate Al|reflexivity]. }
        rewrite Es, Bool.orb_true_r. eexists _, _, _. split; [reflexivity|].
        split; [unfold print_option; eapply ans_shown; try eassumption; rewrite E1; eassumption|]. split; [exact L|]. split; [|exact M2'].
        exists v0. split; [|exact M1']. apply cur_keep; [exact M1|]. intros v' (X & _ & Y). destruct v'; intuition congruence.
  - destruct (bytes_eqb (ca_name a) (lit "normalization")) eqn:E2; cbn [negb andb].
    + apply bytes_eqb_eq in E2. clear E1.
      assert (NN : forall v, ~ changes a (lit "skip-invalid") v) by (intros v [X _]; rewrite E2 in X; discriminate X).
      destruct M as [(v0 & M1 & M1') M2].
      assert (M1a : exists v, current (lit "skip-invalid") (h ++ [a]) v /\ shown (lit "skip-invalid") v (bool_display (cf_skip_invalid c))).
      { exists v0. split; [apply cur_keep; assumption|exact M1']. }
      assert (K : known (ca_name a)) by (right; exact E2).
      destruct (ca_value a) as [v|] eqn:Ev.
      * destruct (nf_parse v) as [b|] eqn:Eb.
        -- assert (Ch : changes a (lit "normalization") (Some v)).
           { split; [exact E2|]. split; [right; reflexivity|]. split; [exact Ev|]. apply norm_valid. exists b. exact Eb. }
           eexists _, _, _. split; [reflexivity|]. split; [apply (ans_changed _ _ (Some v)); rewrite E2; exact Ch|].
           split; [cbn [config_load]; apply RT|]. split; [exact M1a|]. cbn [cf_normalization option_map].
           apply cur_change. apply nf_parse_some in Eb. rewrite <- Eb. exact Ch.
        -- eexists _, _, _. split; [reflexivity|]. assert (Nv : ~ valid_value (ca_name a) v).
           { rewrite E2. intros X. apply norm_valid in X as [b X]. congruence. }
           split; [eapply ans_invalid; eassumption|]. split; [exact L|]. split; [exact M1a|].
           apply cur_keep; [exact M2|]. intros v' (X & _ & Y). destruct v'; destruct Y as [Y Z]; [|congruence]. apply Nv. rewrite E2. congruence.
      * destruct (ca_unset a) eqn:Eu.
        -- assert (Ch : changes a (lit "normalization") None) by (split; [exact E2|]; split; [right; reflexivity|]; auto).
           eexists _, _, _. split; [reflexivity|]. split; [apply (ans_changed _ _ None); rewrite E2; exact Ch|].
           split; [cbn [config_load]; apply RT|]. split; [exact M1a|]. apply cur_change. exact Ch.
        -- assert (Es : ca_set a = false). { unfold args_allowed in Al. rewrite Ev in Al. destruct (ca_set a); [discriminate Al|reflexivity]. }
           rewrite Es, Bool.orb_true_r. eexists _, _, _. split; [reflexivity|].
           split.
           { unfold print_option. eapply ans_shown; try eassumption; rewrite E2; [exact M2|].
             destruct (cf_normalization c); cbn; [reflexivity|]. right. split; reflexivity. }
           split; [exact L|]. split; [exact M1a|].
           apply cur_keep; [exact M2|]. intros v' (X & _ & Y). destruct v'; intuition congruence.
    + eexists _, _, _. split; [reflexivity|].
      assert (Nk : ~ known (ca_name a)).
      { intros [X|X]; rewrite X in *; rewrite bytes_eqb_refl in *; discriminate. }
      split; [apply ans_unknown; exact Nk|]. split; [exact L|]. destruct M as [(v0 & M1 & M1') M2].
      assert (Nc : forall n v, ~ changes a n v) by (intros n v (X & Y & _); rewrite <- X in Y; contradiction).
      split; [exists v0; split; [|exact M1']|]; apply cur_keep; try assumption; apply Nc.
Qed.

Lemma config_run : forall from_toml, (forall c, from_toml (config_toml c) = Some c) ->
  forall rest h file c, Forall (fun a => args_allowed a = true) rest -> config_load from_toml file = Some c -> mirrors h c ->
  exists ends file', config_history from_toml rest file = (ends, file') /\ length ends = length rest
    /\ forall h1 a h2, rest = h1 ++ a :: h2 -> exists e, nth_error ends (length h1) = Some e /\ answer (h ++ h1) a e.
Proof.
  intros from_toml RT. induction rest as [|a rest IH]; intros h file c F L M.
  - exists [], file. split; [reflexivity|]. split; [reflexivity|]. intros [|? ?] a h2 E; discriminate E.
  - destruct (config_step from_toml RT h a file c (Forall_inv F) L M) as (e & file1 & c1 & H1 & H2 & H3 & H4).
    destruct (IH (h ++ [a]) file1 c1 (Forall_inv_tail F) H3 H4) as (ends & file2 & K1 & K2 & K3).
    exists (e :: ends), file2. cbn [config_history]. rewrite H1, K1. split; [reflexivity|]. split; [cbn; congruence|].
    intros [|x h1] b h2 E; cbn [app] in E; injection E as <- E.
    + exists e. rewrite app_nil_r. auto.
    + destruct (K3 h1 b h2 E) as (e' & K4 & K5). exists e'. split; [exact K4|]. rewrite <- app_assoc in K5. exact K5.
Qed.

Lemma config_toml_says : forall c, file_says (config_toml c) c.
Proof.
  assert (Both : forall b n, file_says (config_toml (mkConfig b (Some n))) (mkConfig b (Some n))).
  { intros b n.
    assert (In (n, nf_display n) [(Nfc, lit "nfc"); (Nfkc, lit "nfkc"); (Nfd, lit "nfd"); (Nfkd, lit "nfkd")])
      by (destruct n; cbn [In nf_display]; auto).
    pose proof (says_both b n _ _ eq_refl H) as S. destruct b, n; exact S. }
  intros [b [n|]]; [apply Both|]. pose proof (says_skip b _ eq_refl) as S. destruct b; exact S.
Qed.

Lemma config_histories : forall from_toml, (forall t c, file_says t c -> from_toml t = Some c) ->
  forall hist, Forall (fun a => args_allowed a = true) hist ->
  exists ends file, config_history from_toml hist None = (ends, file) /\ length ends = length hist
    /\ forall h a rest, hist = h ++ a :: rest -> exists e, nth_error ends (length h) = Some e /\ answer h a e.
Proof.
  intros from_toml RT0 hist F. assert (RT : forall c, from_toml (config_toml c) = Some c) by (intros c; apply RT0, config_toml_says).
  apply (config_run from_toml RT hist [] None config_default F eq_refl).
  split; [exists None; split; [constructor|left; split; reflexivity]|constructor].
Qed.

Lemma current_fun : forall name h v v', current name h v -> current name h v' -> v = v'.
Proof.
  intros name h v v' H. revert v'. induction H as [|h a v Ch|h a v H IH Nc]; intros v' H'.
  - inversion H' as [E|h' a' v2 Ch E|h' a' v2 H2 Nc E]; try reflexivity; destruct h'; discriminate E.
  - inversion H' as [E|h' a' v2 Ch' E|h' a' v2 H2 Nc E]; subst.
    + destruct h; discriminate E.
    + apply app_inj_tail in E as [_ ->]. eapply changes_fun; eassumption.
    + apply app_inj_tail in E as [_ ->]. exfalso. exact (Nc _ Ch).
  - inversion H' as [E|h' a' v2 Ch' E|h' a' v2 H2 Nc' E]; subst.
    + destruct h; discriminate E.
    + apply app_inj_tail in E as [_ ->]. exfalso. exact (Nc _ Ch').
    + apply app_inj_tail in E as [-> _]. apply IH. exact H2.
Qed.

Lemma allowed_fitting : forall a, args_allowed a = true <-> fitting a.
Proof.
  intros [[] [] [] name [v|]]; unfold args_allowed, fitting; cbn; split; intros H; try discriminate H;
    repeat split; intros; try reflexivity; try discriminate; intuition discriminate.
Qed.

Lemma answer_fun : forall h a e e', args_allowed a = true -> answer h a e -> answer h a e' -> e = e'.
Proof.
  intros h a e e' Al H H'. destruct H as [N1|v C1|t K1 V1 N1|v text K1 V1 U1 C1 S1]; destruct H' as [N2|v2 C2|t2 K2 V2 N2|v2 text2 K2 V2 U2 C2 S2];
    try reflexivity; try contradiction; try congruence.
  - destruct C2 as (_ & X & _). contradiction.
  - destruct C1 as (_ & X & _). contradiction.
  - destruct C1 as (_ & _ & X). destruct v; destruct X as [X Y]; [|congruence]. rewrite X in V2. injection V2 as <-. contradiction.
  - destruct C1 as (_ & _ & X). destruct v; destruct X as [X Y]; congruence.
  - destruct C2 as (_ & _ & X). destruct v2; destruct X as [X Y]; [|congruence]. rewrite X in V1. injection V1 as <-. contradiction.
  - destruct C2 as (_ & _ & X). destruct v2; destruct X as [X Y]; congruence.
  - rewrite (current_fun _ _ _ _ C1 C2) in *. destruct v2; cbn in S1, S2; [congruence|].
    do 2 f_equal. destruct S1 as [[A ->]|[A ->]], S2 as [[B ->]|[B ->]]; try reflexivity; rewrite A in B; discriminate B.
Qed.

(** a reader of the written files exists *)
Definition all_configs : list config :=
  flat_map (fun b => map (mkConfig b) [None; Some Nfc; Some Nfkc; Some Nfd; Some Nfkd]) [true; false].
Definition sample_from_toml (b : bytes) : option config :=
  find (fun c => bytes_eqb (config_toml c) b) all_configs.

Lemma sample_from_toml_ok : forall c, sample_from_toml (config_toml c) = Some c.
Proof. intros [[|] [[| | |]|]]; vm_compute; reflexivity. Qed.

Lemma sample_reads : forall t c, file_says t c -> sample_from_toml t = Some c.
Proof.
  intros t c [b v ->|b n v w -> H]; destruct b.
  - apply (sample_from_toml_ok (mkConfig true None)).
  - apply (sample_from_toml_ok (mkConfig false None)).
  - cbn [In] in H. destruct H as [H|[H|[H|[H|[]]]]]; injection H as <- <-;
      [apply (sample_from_toml_ok (mkConfig true (Some Nfc)))|apply (sample_from_toml_ok (mkConfig true (Some Nfkc)))
      |apply (sample_from_toml_ok (mkConfig true (Some Nfd)))|apply (sample_from_toml_ok (mkConfig true (Some Nfkd)))].
  - cbn [In] in H. destruct H as [H|[H|[H|[H|[]]]]]; injection H as <- <-;
      [apply (sample_from_toml_ok (mkConfig false (Some Nfc)))|apply (sample_from_toml_ok (mkConfig false (Some Nfkc)))
      |apply (sample_from_toml_ok (mkConfig false (Some Nfd)))|apply (sample_from_toml_ok (mkConfig false (Some Nfkd)))].
Qed.

Lemma str_trim_iff : forall b t, str_trim b = t <-> trimmed b t.
Proof.
  intros b t. split; [intros <-; apply str_trim_trimmed|]. intros H. eapply trimmed_fun; [apply str_trim_trimmed|exact H].
Qed.

Lemma config_broken : forall from_toml b a, from_toml b = None ->
  config_execute from_toml a (Some b) = (CfPanic, Some b).
Proof. intros from_toml b a H. unfold config_execute. cbn [config_load]. rewrite H. reflexivity. Qed.

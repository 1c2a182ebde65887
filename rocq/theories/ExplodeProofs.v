(** * Proofs about explode *)

From Coq Require Import String.
From Verif Require Import Bytes Winnow RecordModel RecordSpec BaseProofs RecordProofs TagOccModel ByteRecordModel
  ByteRecordSpec ByteRecordProofs ReaderModel MatcherModel CliModel CliSpec CliProofs CliCommandProofs
  ExplodeModel ExplodeSpec.

(** ** Levels *)

Lemma field_level_iff : forall f l, field_level f = Some l <-> at_level l f.
Proof.
  intros f l. unfold field_level, at_level. destruct (f_tag f) as [|c t].
  - split; [discriminate|]. intros (t & E). discriminate.
  - destruct (N.eqb_spec c 48) as [->|H0]; [|destruct (N.eqb_spec c 49) as [->|H1]; [|destruct (N.eqb_spec c 50) as [->|H2]]];
      split; intros H; try discriminate.
    1,3,5: injection H as <-; eauto.
    all: destruct H as (t' & E); destruct l; injection E; intros; subst; congruence.
Qed.

Lemma at_level_fun : forall f a b, at_level a f -> at_level b f -> a = b.
Proof. intros f a b Ha Hb. apply field_level_iff in Ha, Hb. congruence. Qed.

Lemma valid_level : forall f, valid_field f -> exists l, at_level l f.
Proof.
  intros f [(a & b & c & d & Ht & Ha & _) _].
  destruct Ha as [<-|[<-|[<-|[]]]]; [exists LMain|exists LLocal|exists LCopy]; eexists; exact Ht.
Qed.

Definition leveled (f : field) : Prop := exists l, at_level l f.

Definition is_lvl (l : level) (f : field) : bool :=
  match field_level f, l with
  | Some LMain, LMain | Some LLocal, LLocal | Some LCopy, LCopy => true
  | _, _ => false
  end.
Lemma is_lvl_iff : forall l f, is_lvl l f = true <-> at_level l f.
Proof.
  intros l f. rewrite <- field_level_iff. unfold is_lvl. destruct (field_level f) as [[]|]; destruct l; split; congruence.
Qed.
Lemma is_lvl_yes : forall l f, at_level l f -> is_lvl l f = true.
Proof. intros l f H. apply is_lvl_iff. exact H. Qed.
Lemma is_lvl_no : forall l m f, at_level m f -> l <> m -> is_lvl l f = false.
Proof.
  intros l m f H Hn. destruct (is_lvl l f) eqn:E; [|reflexivity]. apply is_lvl_iff in E.
  exfalso. apply Hn. eapply at_level_fun; eassumption.
Qed.

Lemma filter_of_level : forall l fs, of_level l fs (filter (is_lvl l) fs).
Proof. intros l fs. apply filter_Selected. intros x. apply is_lvl_iff. Qed.

Definition mains := filter (is_lvl LMain).
Definition locals := filter (is_lvl LLocal).
Definition copies := filter (is_lvl LCopy).
Definition others := filter (fun f => negb (is_lvl LMain f)).

Lemma filter_others : forall fs, Selected (fun f => ~ at_level LMain f) fs (others fs).
Proof.
  intros fs. apply filter_Selected. intros x. rewrite <- is_lvl_iff. destruct (is_lvl LMain x); cbn; split; congruence.
Qed.

Lemma others_nil : forall fs, others fs = [] -> Forall (at_level LMain) fs.
Proof.
  induction fs as [|f fs IH]; cbn; intros H; [constructor|].
  destruct (is_lvl LMain f) eqn:E; cbn in H; [|discriminate]. constructor; [apply is_lvl_iff; exact E|exact (IH H)].
Qed.

(** ** Chains *)

Fixpoint chain {A} (R : A -> A -> Prop) (l : list A) : Prop :=
  match l with
  | a :: ((b :: _) as l') => R a b /\ chain R l'
  | _ => True
  end.

Lemma chain_iff : forall A (R : A -> A -> Prop) l,
  chain R l <-> (forall pre a b post, l = pre ++ a :: b :: post -> R a b).
Proof.
  intros A R. induction l as [|a l IH].
  - split; [|intros _; exact I]. intros _ [|? ?] x y post E; discriminate.
  - destruct l as [|b l].
    + split; [|intros _; exact I]. intros _ [|? [|? ?]] x y post E; discriminate.
    + change (R a b /\ chain R (b :: l) <-> forall pre x y post, a :: b :: l = pre ++ x :: y :: post -> R x y).
      rewrite IH. split.
      * intros [H1 H2] [|p pre] x y post E; injection E; intros; subst; [exact H1|]. eapply H2. eassumption.
      * intros H. split; [apply (H [] a b l); reflexivity|].
        intros pre x y post E. apply (H (a :: pre) x y post). rewrite E. reflexivity.
Qed.

Lemma chain_snoc : forall A (R : A -> A -> Prop) l x y, chain R (l ++ [x]) -> R x y -> chain R ((l ++ [x]) ++ [y]).
Proof.
  intros A R. induction l as [|a l IH]; intros x y H Hr; [cbn; auto|].
  destruct l as [|b l].
  - cbn in *. tauto.
  - change (R a b /\ chain R (((b :: l) ++ [x]) ++ [y])). change (R a b /\ chain R ((b :: l) ++ [x])) in H.
    split; [apply H|]. apply IH; [apply H|exact Hr].
Qed.

Definition smooth (x y : field) : Prop := at_level LCopy x -> ~ at_level LLocal y.
Lemma unbroken_chain : forall s, unbroken s <-> chain smooth s.
Proof. intros s. rewrite chain_iff. reflexivity. Qed.

Definition heads {A} (l : list A) : list A := match l with [] => [] | x :: _ => [x] end.

Lemma next_is_local_some : forall rest, Forall leveled rest ->
  (exists y rest', rest = y :: rest' /\ at_level LLocal y /\ next_is_local rest = Some true)
  \/ ((forall y rest', rest = y :: rest' -> ~ at_level LLocal y) /\ next_is_local rest = Some false).
Proof.
  intros [|y rest] H; cbn [next_is_local].
  - right. split; [discriminate|reflexivity].
  - inversion H as [|? ? [l Hl] _]; subst. assert (E := proj2 (field_level_iff _ _) Hl). rewrite E.
    destruct l.
    + right. split; [|reflexivity]. intros y' r' X. injection X as <- <-. intros Hn.
      pose proof (at_level_fun _ _ _ Hl Hn). discriminate.
    + left. eauto.
    + right. split; [|reflexivity]. intros y' r' X. injection X as <- <-. intros Hn.
      pose proof (at_level_fun _ _ _ Hl Hn). discriminate.
Qed.

Definition broken (a b : list field) : Prop :=
  (exists a' x, a = a' ++ [x] /\ at_level LCopy x) /\ (exists y b', b = y :: b' /\ at_level LLocal y).

Lemma chain_smooth_next : forall p x rest, chain smooth (p ++ [x]) ->
  (forall y rest', rest = y :: rest' -> smooth x y) -> chain smooth ((p ++ [x]) ++ heads rest).
Proof.
  intros p x [|y rest] H Hs; cbn [heads]; [rewrite app_nil_r; exact H|].
  apply chain_snoc; [exact H|]. eapply Hs. reflexivity.
Qed.

Lemma smooth_main : forall x l, at_level l x -> l <> LCopy -> forall y, smooth x y.
Proof. intros x l H Hn y Hc. exfalso. apply Hn. eapply at_level_fun; eassumption. Qed.

(** ** Local level, any order *)

Lemma push_app : forall records main local acc,
  push_record records main local acc = records ++ push_record [] main local acc.
Proof. intros records main local [|a acc]; cbn; [symmetry; apply app_nil_r|reflexivity]. Qed.

Lemma local_parts_part : forall before p segs parts,
  local_parts (before ++ p) segs parts ->
  local_parts before (p :: segs) (push_record [] (mains (before ++ p)) [] (others p) ++ parts).
Proof.
  intros before p segs parts H. destruct (others p) as [|o os] eqn:E.
  - cbn. apply lp_skip; [apply others_nil; exact E|exact H].
  - cbn. apply (lp_part before p segs (mains (before ++ p)) (o :: os)); [apply filter_of_level| |discriminate|exact H].
    rewrite <- E. apply filter_others.
Qed.

Lemma local_general : forall rest before p records, Forall leveled rest -> chain smooth (p ++ heads rest) ->
  exists p_rest segs parts, rest = p_rest ++ concat segs
    /\ chain broken ((p ++ p_rest) :: segs) /\ Forall unbroken ((p ++ p_rest) :: segs)
    /\ local_parts before ((p ++ p_rest) :: segs) parts
    /\ local_loop rest (mains (before ++ p)) (others p) records = Some (records ++ parts).
Proof.
  induction rest as [|cur rest IH]; intros before p records HL HC.
  - exists [], [], (push_record [] (mains (before ++ p)) [] (others p) ++ []). cbn [concat heads] in *.
    rewrite !app_nil_r in *. split; [reflexivity|]. split; [exact I|].
    split; [constructor; [apply unbroken_chain; exact HC|constructor]|]. split.
    + rewrite <- (app_nil_r (push_record _ _ _ _)). apply local_parts_part. constructor.
    + cbn [local_loop]. rewrite push_app. reflexivity.
  - inversion HL as [|? ? [l Hl] HL']; subst. cbn [local_loop].
    rewrite (proj2 (field_level_iff _ _) Hl). cbn [heads] in HC.
    assert (Go : (forall y rest', rest = y :: rest' -> smooth cur y) ->
      exists p_rest segs parts, cur :: rest = p_rest ++ concat segs
        /\ chain broken ((p ++ p_rest) :: segs) /\ Forall unbroken ((p ++ p_rest) :: segs)
        /\ local_parts before ((p ++ p_rest) :: segs) parts
        /\ local_loop rest (mains (before ++ p ++ [cur])) (others (p ++ [cur])) records = Some (records ++ parts)).
    { intros Hs. destruct (IH before (p ++ [cur]) records HL') as (pr & segs & parts & E & C & U & P & R).
      - apply chain_smooth_next; assumption.
      - exists (cur :: pr), segs, parts. rewrite <- !app_assoc in *. cbn [app] in *.
        split; [rewrite E; reflexivity|]. repeat (split; [assumption|]). exact R. }
    destruct l.
    + destruct (Go (fun y _ _ => smooth_main _ _ Hl ltac:(discriminate) y)) as (pr & segs & parts & E & C & U & P & R).
      exists pr, segs, parts. repeat (split; [assumption|]).
      rewrite app_assoc in R. unfold mains, others in *. rewrite !filter_app in R. cbn [filter] in R.
      rewrite (is_lvl_yes _ _ Hl) in R. cbn [negb] in R. rewrite app_nil_r in R.
      rewrite filter_app. exact R.
    + destruct (Go (fun y _ _ => smooth_main _ _ Hl ltac:(discriminate) y)) as (pr & segs & parts & E & C & U & P & R).
      exists pr, segs, parts. repeat (split; [assumption|]).
      rewrite app_assoc in R. unfold mains, others in *. rewrite !filter_app in R. cbn [filter] in R.
      rewrite (is_lvl_no LMain _ _ Hl ltac:(discriminate)) in R. cbn [negb] in R. rewrite app_nil_r in R.
      rewrite filter_app. exact R.
    + assert (Em : mains (before ++ p ++ [cur]) = mains (before ++ p)).
      { unfold mains. rewrite app_assoc, (filter_app _ (before ++ p)). cbn [filter].
        rewrite (is_lvl_no LMain _ _ Hl ltac:(discriminate)). apply app_nil_r. }
      assert (Eo : others (p ++ [cur]) = others p ++ [cur]).
      { unfold others. rewrite filter_app. cbn [filter].
        rewrite (is_lvl_no LMain _ _ Hl ltac:(discriminate)). reflexivity. }
      destruct (next_is_local_some rest HL') as [(y & rest' & Er & Hy & ->)|(Hn & ->)].
      * destruct (IH (before ++ p ++ [cur]) [] (push_record records (mains (before ++ p)) [] (others p ++ [cur])) HL')
          as (pr & segs & parts & E & C & U & P & R).
        { rewrite Er. exact I. }
        cbn [app] in *.
        assert (Hpr : exists pr', pr = y :: pr').
        { destruct pr as [|z pr]; [|rewrite E in Er; injection Er; intros; subst; eauto].
          exfalso. destruct segs as [|s segs]; [cbn in E; congruence|].
          destruct C as [[(a' & x & X & _) _] _]. destruct a'; discriminate. }
        destruct Hpr as [pr' ->].
        exists [cur], ((y :: pr') :: segs),
          (push_record [] (mains (before ++ p ++ [cur])) [] (others (p ++ [cur])) ++ parts).
        split; [rewrite E; reflexivity|]. split.
        { split; [|exact C]. split; [exists p, cur; auto|exists y, pr'; auto]. }
        split; [constructor; [apply unbroken_chain; exact HC|exact U]|]. split.
        { apply local_parts_part. exact P. }
        cbn [others filter] in R. rewrite app_nil_r, Em in R. rewrite R, Em, Eo.
        rewrite push_app. rewrite <- app_assoc. reflexivity.
      * destruct Go as (pr & segs & parts & E & C & U & P & R).
        { intros y rest' Er _. eapply Hn. exact Er. }
        exists pr, segs, parts. repeat (split; [assumption|]). rewrite Em, Eo in R. exact R.
Qed.

Lemma process_local_general : forall fields, Forall leveled fields ->
  exists parts, process_local fields = Some parts
    /\ exists segs, segments fields segs /\ local_parts [] segs parts.
Proof.
  intros fields H. destruct (local_general fields [] [] [] H) as (pr & segs & parts & E & C & U & P & R).
  - destruct fields; exact I.
  - exists parts. split; [exact R|]. exists (pr :: segs). split; [|exact P].
    split; [symmetry; exact E|]. split; [exact U|]. apply chain_iff. exact C.
Qed.

(** ** Copy level, any order *)

Lemma occ_differ_iff : forall a b, occ_differ a b = true <-> a <> b.
Proof.
  intros [a|] [b|]; cbn; try (split; congruence).
  destruct (bytes_eqb a b) eqn:E; cbn.
  - apply bytes_eqb_eq in E. subst. split; congruence.
  - split; [|reflexivity]. intros _ X. injection X as ->. rewrite bytes_eqb_refl in E. discriminate.
Qed.

Definition uniform (p : list field) : Prop :=
  forall x y, In x p -> In y p -> at_level LCopy x -> at_level LCopy y -> f_occ x = f_occ y.

(** what the loop remembers of the occurrence *)
Definition remembered (p : list field) (count : option bytes) : Prop :=
  (copies p = [] /\ count = None) \/ (copies p <> [] /\ forall x, In x p -> at_level LCopy x -> f_occ x = count).

Definition changed (p q : list field) : Prop :=
  exists x y q', In x p /\ at_level LCopy x /\ q = y :: q' /\ at_level LCopy y /\ f_occ x <> f_occ y.

Lemma piece_parts_part : forall before start p ps parts,
  piece_parts before (start ++ p) ps parts ->
  piece_parts before start (p :: ps)
    (push_record [] (mains (before ++ start ++ p)) (locals (start ++ p)) (copies p) ++ parts).
Proof.
  intros before start p ps parts H. destruct (copies p) as [|c cs] eqn:E.
  - cbn. apply pp_skip; [rewrite <- E; apply filter_of_level|exact H].
  - cbn. apply pp_part; [apply filter_of_level|apply filter_of_level|rewrite <- E; apply filter_of_level|discriminate|exact H].
Qed.

Lemma copies_in : forall p x, In x (copies p) <-> In x p /\ at_level LCopy x.
Proof. intros p x. unfold copies. rewrite filter_In, is_lvl_iff. reflexivity. Qed.

Lemma remembered_uniform : forall p count, remembered p count -> uniform p.
Proof.
  intros p count [[E _]|[_ H]] x y Hx Hy Cx Cy.
  - exfalso. assert (In x (copies p)) by (apply copies_in; auto). rewrite E in H. contradiction.
  - rewrite (H x Hx Cx), (H y Hy Cy). reflexivity.
Qed.

Lemma remembered_more : forall p count x, ~ at_level LCopy x -> remembered p count -> remembered (p ++ [x]) count.
Proof.
  intros p count x Hx H. unfold remembered, copies in *. rewrite filter_app. cbn [filter].
  destruct (is_lvl LCopy x) eqn:E; [apply is_lvl_iff in E; contradiction|]. rewrite app_nil_r.
  destruct H as [H|[H1 H2]]; [left; exact H|]. right. split; [exact H1|].
  intros y Hy Hc. apply in_app_iff in Hy as [Hy|[->|[]]]; [auto|contradiction].
Qed.

Lemma copy_general : forall rest before start p count records, Forall leveled rest ->
  chain smooth ((start ++ p) ++ heads rest) -> remembered p count ->
  exists p_rest ps segs parts1 parts2, rest = p_rest ++ concat ps ++ concat segs
    /\ chain broken ((start ++ p ++ p_rest ++ concat ps) :: segs)
    /\ Forall unbroken ((start ++ p ++ p_rest ++ concat ps) :: segs)
    /\ Forall uniform ((p ++ p_rest) :: ps) /\ chain changed ((p ++ p_rest) :: ps)
    /\ piece_parts before start ((p ++ p_rest) :: ps) parts1
    /\ copy_parts (before ++ start ++ p ++ p_rest ++ concat ps) segs parts2
    /\ copy_loop rest (mains (before ++ start ++ p)) (locals (start ++ p)) (copies p) count records
       = Some (records ++ parts1 ++ parts2).
Proof.
  induction rest as [|cur rest IH]; intros before start p count records HL HC HR.
  - exists [], [], [], (push_record [] (mains (before ++ start ++ p)) (locals (start ++ p)) (copies p) ++ []), [].
    cbn [concat heads app] in *. rewrite !app_nil_r in *. split; [reflexivity|]. split; [exact I|].
    split; [constructor; [apply unbroken_chain; exact HC|constructor]|].
    split; [constructor; [eapply remembered_uniform; exact HR|constructor]|]. split; [exact I|].
    split. { rewrite <- (app_nil_r (push_record _ _ _ _)). apply piece_parts_part. constructor. }
    split; [constructor|]. cbn [copy_loop]. rewrite push_app. reflexivity.
  - inversion HL as [|? ? [l Hl] HL']; subst. cbn [copy_loop].
    rewrite (proj2 (field_level_iff _ _) Hl). cbn [heads] in HC.
    (* continuing the piece *)
    assert (Go : forall count' records', (forall y rest', rest = y :: rest' -> smooth cur y) ->
      remembered (p ++ [cur]) count' ->
      exists p_rest ps segs parts1 parts2, cur :: rest = p_rest ++ concat ps ++ concat segs
        /\ chain broken ((start ++ p ++ p_rest ++ concat ps) :: segs)
        /\ Forall unbroken ((start ++ p ++ p_rest ++ concat ps) :: segs)
        /\ Forall uniform ((p ++ p_rest) :: ps) /\ chain changed ((p ++ p_rest) :: ps)
        /\ piece_parts before start ((p ++ p_rest) :: ps) parts1
        /\ copy_parts (before ++ start ++ p ++ p_rest ++ concat ps) segs parts2
        /\ copy_loop rest (mains (before ++ start ++ p ++ [cur])) (locals (start ++ p ++ [cur])) (copies (p ++ [cur]))
             count' records' = Some (records' ++ parts1 ++ parts2)).
    { intros count' records' Hs Hr.
      destruct (IH before start (p ++ [cur]) count' records' HL')
        as (pr & ps & segs & parts1 & parts2 & E & C & U & F & G & P & Q & R).
      - rewrite (app_assoc start). apply chain_smooth_next; assumption.
      - exact Hr.
      - exists (cur :: pr), ps, segs, parts1, parts2. repeat rewrite <- app_assoc in *. cbn [app] in *.
        split; [rewrite E; reflexivity|]. repeat (split; [assumption|]). exact R. }
    destruct l.
    + assert (Nc : ~ at_level LCopy cur) by (intros X; pose proof (at_level_fun _ _ _ Hl X); discriminate).
      destruct (Go count records (fun y _ _ => smooth_main _ _ Hl ltac:(discriminate) y) (remembered_more _ _ _ Nc HR))
        as (pr & ps & segs & parts1 & parts2 & E & C & U & F & G & P & Q & R).
      exists pr, ps, segs, parts1, parts2. repeat (split; [assumption|]).
      unfold mains, locals, copies in *. rewrite !filter_app in R. cbn [filter] in R.
      rewrite (is_lvl_yes _ _ Hl), !(is_lvl_no _ _ _ Hl) in R by discriminate. rewrite !app_nil_r in R.
      rewrite !filter_app. rewrite <- !app_assoc. exact R.
    + assert (Nc : ~ at_level LCopy cur) by (intros X; pose proof (at_level_fun _ _ _ Hl X); discriminate).
      destruct (Go count records (fun y _ _ => smooth_main _ _ Hl ltac:(discriminate) y) (remembered_more _ _ _ Nc HR))
        as (pr & ps & segs & parts1 & parts2 & E & C & U & F & G & P & Q & R).
      exists pr, ps, segs, parts1, parts2. repeat (split; [assumption|]).
      unfold mains, locals, copies in *. rewrite !filter_app in R. cbn [filter] in R.
      rewrite (is_lvl_yes _ _ Hl), !(is_lvl_no _ _ _ Hl) in R by discriminate. rewrite !app_nil_r in R.
      rewrite !filter_app. rewrite <- !app_assoc. exact R.
    + assert (Em : forall q, mains (q ++ [cur]) = mains q).
      { intros q. unfold mains. rewrite filter_app. cbn [filter]. rewrite (is_lvl_no _ _ _ Hl) by discriminate.
        apply app_nil_r. }
      assert (El : forall q, locals (q ++ [cur]) = locals q).
      { intros q. unfold locals. rewrite filter_app. cbn [filter]. rewrite (is_lvl_no _ _ _ Hl) by discriminate.
        apply app_nil_r. }
      assert (Ec : forall q, copies (q ++ [cur]) = copies q ++ [cur]).
      { intros q. unfold copies. rewrite filter_app. cbn [filter]. rewrite (is_lvl_yes _ _ Hl). reflexivity. }
      (* the field [cur] ends up in a piece [p'] after [start'] *)
      assert (Fin : forall start' p', (start' ++ p') = start ++ p -> remembered (p' ++ [cur]) (f_occ cur) ->
        forall records', exists p_rest ps segs parts1 parts2, rest = p_rest ++ concat ps ++ concat segs
        /\ chain broken ((start' ++ (p' ++ [cur]) ++ p_rest ++ concat ps) :: segs)
        /\ Forall unbroken ((start' ++ (p' ++ [cur]) ++ p_rest ++ concat ps) :: segs)
        /\ Forall uniform ((p' ++ [cur] ++ p_rest) :: ps) /\ chain changed ((p' ++ [cur] ++ p_rest) :: ps)
        /\ piece_parts before start' ((p' ++ [cur] ++ p_rest) :: ps) parts1
        /\ copy_parts (before ++ start' ++ (p' ++ [cur]) ++ p_rest ++ concat ps) segs parts2
        /\ (do b <- next_is_local rest;
            (if b : bool then copy_loop rest (mains (before ++ start ++ p)) [] [] None
                         (push_record records' (mains (before ++ start ++ p)) (locals (start ++ p)) (copies p' ++ [cur]))
            else copy_loop rest (mains (before ++ start ++ p)) (locals (start ++ p)) (copies p' ++ [cur]) (f_occ cur) records'))
           = Some (records' ++ parts1 ++ parts2)).
      { intros start' p' Esp Hrem records'.
        destruct (next_is_local_some rest HL') as [(y & rest' & Er & Hy & ->)|(Hn & ->)].
        - destruct (IH (before ++ start ++ p ++ [cur]) [] [] None
                      (push_record records' (mains (before ++ start ++ p)) (locals (start ++ p)) (copies p' ++ [cur])) HL')
            as (pr & ps & segs & parts1 & parts2 & E & C & U & F & G & P & Q & R).
          { rewrite Er. exact I. }
          { left. split; reflexivity. }
          cbn [app] in *.
          assert (Hne : exists pr', pr ++ concat ps = y :: pr').
          { destruct (pr ++ concat ps) as [|z q] eqn:Eq.
            - exfalso. destruct segs as [|s segs].
              + rewrite app_assoc, Eq in E. cbn in E. congruence.
              + destruct C as [[(a' & x & X & _) _] _]. destruct a'; discriminate.
            - rewrite app_assoc, Eq in E. rewrite Er in E. injection E; intros; subst. eauto. }
          destruct Hne as [pr' Hne].
          exists [], [], ((pr ++ concat ps) :: segs),
            (push_record [] (mains (before ++ start' ++ p' ++ [cur])) (locals (start' ++ p' ++ [cur])) (copies (p' ++ [cur])) ++ []),
            (parts1 ++ parts2).
          cbn [concat app]. rewrite !app_nil_r. split; [rewrite E, app_assoc; reflexivity|].
          split. { split; [|exact C]. split; [exists (start' ++ p'), cur; split; [rewrite app_assoc; reflexivity|exact Hl]|].
                   exists y, pr'. auto. }
          split. { constructor; [|exact U]. apply unbroken_chain. rewrite app_assoc, Esp. exact HC. }
          split; [constructor; [eapply remembered_uniform; exact Hrem|constructor]|]. split; [exact I|].
          split. { rewrite <- (app_nil_r (push_record _ _ _ _)). apply piece_parts_part. constructor. }
          split. { apply cp_seg with (ps := pr :: ps); [| |].
                   - split; [reflexivity|]. split; [|apply chain_iff; exact G].
                     rewrite Forall_forall in F. intros q x y' Hq. apply F. exact Hq.
                   - replace (before ++ start' ++ p' ++ [cur]) with (before ++ start ++ p ++ [cur]); [exact P|].
                     rewrite !(app_assoc _ _ [cur]). rewrite Esp. reflexivity.
                   - rewrite <- !app_assoc in *. replace (start' ++ p' ++ [cur] ++ pr ++ concat ps)
                       with (start ++ p ++ [cur] ++ pr ++ concat ps); [exact Q|].
                     rewrite (app_assoc start p), (app_assoc start' p'), Esp. reflexivity. }
          change (mains []) with (@nil field) in R. change (locals []) with (@nil field) in R.
          change (copies []) with (@nil field) in R. rewrite !app_nil_r in R.
          replace (before ++ start ++ p ++ [cur]) with ((before ++ start ++ p) ++ [cur]) in R by (rewrite <- !app_assoc; reflexivity).
          rewrite Em in R. rewrite R. rewrite push_app, <- app_assoc. f_equal. f_equal. f_equal.
          replace (before ++ start' ++ p' ++ [cur]) with ((before ++ start ++ p) ++ [cur]) by (rewrite <- Esp, <- !app_assoc; reflexivity).
          rewrite (app_assoc start'), Esp, Em, El, Ec. reflexivity.
        - destruct (IH before start' (p' ++ [cur]) (f_occ cur) records' HL')
            as (pr & ps & segs & parts1 & parts2 & E & C & U & F & G & P & Q & R).
          { rewrite (app_assoc start'), Esp. apply chain_smooth_next; [exact HC|].
            intros y rest' Er _. eapply Hn. exact Er. }
          { exact Hrem. }
          exists pr, ps, segs, parts1, parts2. rewrite <- !app_assoc in *.
          repeat (split; [assumption|]).
          replace (before ++ start' ++ p' ++ [cur]) with ((before ++ start ++ p) ++ [cur]) in R by (rewrite <- Esp, <- !app_assoc; reflexivity).
          rewrite (app_assoc start'), Esp, Em, El, Ec in R. exact R. }
      destruct (occ_differ count (f_occ cur)) eqn:Ed.
      * apply occ_differ_iff in Ed. destruct HR as [[En ->]|[Hne Ho]].
        { (* first copy of the segment *)
          assert (Hrem : remembered (p ++ [cur]) (f_occ cur)).
          { right. rewrite Ec. split; [destruct (copies p); discriminate|]. intros x Hx Hc.
            apply in_app_iff in Hx as [Hx|[->|[]]]; [|reflexivity].
            exfalso. assert (X : In x (copies p)) by (apply copies_in; auto). rewrite En in X. exact X. }
          destruct (Fin start p eq_refl Hrem (push_record records (mains (before ++ start ++ p)) (locals (start ++ p)) (copies p)))
            as (pr & ps & segs & parts1 & parts2 & E & C & U & F & G & P & Q & R).
          exists (cur :: pr), ps, segs, parts1, parts2. rewrite <- !app_assoc in *. cbn [app] in *.
          split; [rewrite E; reflexivity|]. repeat (split; [assumption|]).
          rewrite En in *. cbn [push_record app] in *. exact R. }
        { (* the occurrence changes *)
          assert (Hrem : remembered ([] ++ [cur]) (f_occ cur)).
          { right. split; [cbn; rewrite (is_lvl_yes _ _ Hl); discriminate|].
            intros x [->|[]] _. reflexivity. }
          destruct (Fin (start ++ p) [] ltac:(apply app_nil_r) Hrem
                      (push_record records (mains (before ++ start ++ p)) (locals (start ++ p)) (copies p)))
            as (pr & ps & segs & parts1 & parts2 & E & C & U & F & G & P & Q & R).
          cbn [app] in *.
          exists [], ((cur :: pr) :: ps), segs,
            (push_record [] (mains (before ++ start ++ p)) (locals (start ++ p)) (copies p) ++ parts1), parts2.
          cbn [concat app]. rewrite <- !app_assoc in *. rewrite app_nil_r.
          split; [rewrite E; reflexivity|]. split; [exact C|]. split; [exact U|].
          split. { constructor; [|exact F]. apply (remembered_uniform p count). right. auto. }
          split. { split; [|exact G]. destruct (copies p) as [|x cs] eqn:Ex; [congruence|].
                   assert (Hx : In x p /\ at_level LCopy x) by (apply copies_in; rewrite Ex; left; reflexivity).
                   exists x, cur, pr. destruct Hx as [Hx Hc]. repeat (split; [assumption || reflexivity|]).
                   rewrite (Ho x Hx Hc). exact Ed. }
          split; [apply piece_parts_part; exact P|]. split; [exact Q|].
          cbn [copies filter app] in R. etransitivity; [exact R|].
          rewrite (push_app records), <- !app_assoc. reflexivity. }
      * assert (Ed' : count = f_occ cur).
        { destruct (option_map (fun x => x) count) eqn:?; destruct count as [a|], (f_occ cur) as [b|]; cbn in Ed; try discriminate; try reflexivity.
          - destruct (bytes_eqb a b) eqn:Eb; [|discriminate]. apply bytes_eqb_eq in Eb. congruence. }
        assert (Hrem : remembered (p ++ [cur]) (f_occ cur)).
        { right. rewrite Ec. split; [destruct (copies p); discriminate|]. intros x Hx Hc.
          apply in_app_iff in Hx as [Hx|[->|[]]]; [|reflexivity].
          destruct HR as [[En _]|[_ Ho]]; [|rewrite (Ho x Hx Hc); exact Ed'].
          exfalso. assert (X : In x (copies p)) by (apply copies_in; auto). rewrite En in X. exact X. }
        destruct (Fin start p eq_refl Hrem records)
          as (pr & ps & segs & parts1 & parts2 & E & C & U & F & G & P & Q & R).
        exists (cur :: pr), ps, segs, parts1, parts2. rewrite <- !app_assoc in *. cbn [app] in *.
        split; [rewrite E; reflexivity|]. repeat (split; [assumption|]).
        rewrite Ed'. exact R.
Qed.

Lemma process_copy_general : forall fields, Forall leveled fields ->
  exists parts, process_copy fields = Some parts
    /\ exists segs, segments fields segs /\ copy_parts [] segs parts.
Proof.
  intros fields H.
  destruct (copy_general fields [] [] [] None [] H) as (pr & ps & segs & parts1 & parts2 & E & C & U & F & G & P & Q & R).
  - destruct fields; exact I.
  - left. split; reflexivity.
  - exists (parts1 ++ parts2). split; [exact R|]. exists ((pr ++ concat ps) :: segs). cbn [app] in *. split.
    + split; [cbn [concat]; rewrite E, app_assoc; reflexivity|]. split; [exact U|]. apply chain_iff. exact C.
    + apply cp_seg with (ps := pr :: ps); [|exact P|exact Q].
      split; [reflexivity|]. split; [|apply chain_iff; exact G].
      rewrite Forall_forall in F. intros q x y Hq. apply F. exact Hq.
Qed.

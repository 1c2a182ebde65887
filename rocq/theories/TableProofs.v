(** * Proofs about select, frequency and describe *)

From Coq Require Import String Sorted Permutation.
From Verif Require Import Bytes Winnow RecordModel RecordSpec BaseProofs TagOccModel TagOccProofs
  ByteRecordModel ByteRecordSpec ByteRecordProofs ReaderModel MatcherModel MatcherSpec MatcherProofs
  PathModel FmtModel QueryModel QuerySpec QueryProofs QueryExtraProofs CliModel CliSpec CliProofs
  CliCommandProofs CliOutputProofs CliRangeProofs CliChunkProofs TableModel TableSpec.

(** ** Rows *)

Lemma row_eqb_eq : forall a b, row_eqb a b = true <-> a = b.
Proof.
  unfold row_eqb. induction a as [|x a IH]; destruct b as [|y b]; cbn; try (split; congruence).
  rewrite Bool.andb_true_iff, bytes_eqb_eq, IH. split; [intros [-> ->]; reflexivity|intros E; injection E; auto].
Qed.

Lemma is_nil_iff : forall e, is_nil e = true <-> e = [].
Proof. destruct e; cbn; split; congruence. Qed.

Lemma blank_iff : forall row, forallb is_nil row = true <-> blank row.
Proof.
  intros row. unfold blank. rewrite forallb_forall, Forall_forall.
  split; intros H x Hx; apply is_nil_iff; apply H; exact Hx.
Qed.

Lemma not_blank_any : forall row, existsb (fun e => negb (is_nil e)) row = negb (forallb is_nil row).
Proof. induction row as [|x row IH]; cbn; [reflexivity|]. rewrite IH. destruct (is_nil x); reflexivity. Qed.

Lemma any_empty : forall row, existsb is_nil row = true <-> In [] row.
Proof.
  intros row. rewrite existsb_exists. split.
  - intros (x & Hx & E). apply is_nil_iff in E. subst. exact Hx.
  - intros H. exists []. auto.
Qed.

Lemma query_rows_exist : forall O T qo q r, query_wf O qo q -> exists rows,
  record_query O T qo q (br_record r) = Some rows /\ query_rows O T qo q r rows
  /\ Forall (fun row => length row = query_columns q) rows.
Proof.
  intros O T qo q r W. destruct (record_query_product O T qo q (br_record r) W) as (ts & H1 & H2 & _ & H4).
  exists (lex_product ts). split; [exact H2|]. split; [exists ts; auto|exact H4].
Qed.

Lemma final_rows_list_fun : forall O T qo r frs a, Forall2 (fun fr t => final_rows O T qo fr r t) frs a ->
  forall b, Forall2 (fun fr t => final_rows O T qo fr r t) frs b -> a = b.
Proof.
  intros O T qo r frs a H. induction H as [|fr t frs ts H HH IH]; intros b K; inversion K; subst; [reflexivity|].
  f_equal; [eapply final_rows_fun; eassumption|auto].
Qed.

Lemma query_rows_fun : forall O T qo q r a b, query_rows O T qo q r a -> query_rows O T qo q r b -> a = b.
Proof.
  intros O T qo q r a b (ts & H & ->) (us & K & ->). f_equal. eapply final_rows_list_fun; eassumption.
Qed.

(** the rows of each record *)
Definition rows_or_nil (x : option outcome) : outcome := match x with Some rows => rows | None => [] end.

Lemma query_rows_list : forall O T qo q recs, query_wf O qo q ->
  Forall2 (query_rows O T qo q) recs (map (fun r => rows_or_nil (record_query O T qo q (br_record r))) recs).
Proof.
  intros O T qo q recs W. induction recs as [|r recs IH]; cbn [map]; constructor; [|exact IH].
  destruct (query_rows_exist O T qo q r W) as (rows & -> & H & _). exact H.
Qed.

Lemma query_rows_width : forall O T qo q recs, query_wf O qo q ->
  Forall (fun row => length row = query_columns q)
    (concat (map (fun r => rows_or_nil (record_query O T qo q (br_record r))) recs)).
Proof.
  intros O T qo q recs W. induction recs as [|r recs IH]; cbn [map concat]; [constructor|].
  apply Forall_app. split; [|exact IH]. destruct (query_rows_exist O T qo q r W) as (rows & -> & _ & H). exact H.
Qed.

(** folding with an invariant of the state *)
Lemma fold_steps_inv : forall S A (Inv : S -> Prop) (f g : S -> A -> step S) l,
  (forall s x, Inv s -> f s x = g s x) ->
  (forall s x s', Inv s -> g s x = Next s' -> Inv s') ->
  forall s, Inv s -> fold_steps f s l = fold_steps g s l.
Proof.
  intros S A Inv f g l E P. induction l as [|x l IH]; intros s Hs; cbn [fold_steps]; [reflexivity|].
  rewrite (E _ _ Hs). destruct (g s x) as [s'| | |] eqn:G; try reflexivity. apply IH. eapply P; eassumption.
Qed.

(** ** select *)

Section Select.
  Variables O Od : oracles.
  Variable T : text_fns.
  Variable lossy : bytes -> bytes.
  Variable hash : list bytes -> N.
  Variable c : select_cmd.

  (** what the loop does when no write fails *)
  Fixpoint sel_pass (rows : outcome) (seen : list N) : list N * outcome :=
    match rows with
    | [] => (seen, [])
    | row :: rest =>
        if se_no_empty c && existsb is_nil row then sel_pass rest seen
        else if se_unique c && existsb (N.eqb (hash row)) seen then sel_pass rest seen
        else
          let seen1 := if se_unique c then hash row :: seen else seen in
          let (seen2, out) := sel_pass rest seen1 in
          (seen2, if forallb is_nil row then out else row :: out)
    end.

  Lemma sel_pass_app : forall a b seen,
    sel_pass (a ++ b) seen
    = let (s1, o1) := sel_pass a seen in let (s2, o2) := sel_pass b s1 in (s2, o1 ++ o2).
  Proof.
    induction a as [|row a IH]; intros b seen; cbn [app sel_pass].
    - destruct (sel_pass b seen). reflexivity.
    - destruct (se_no_empty c && existsb is_nil row); [apply IH|].
      destruct (se_unique c && existsb (N.eqb (hash row)) seen); [apply IH|].
      cbv zeta. rewrite IH. destruct (sel_pass a _) as [s1 o1]. destruct (sel_pass b s1) as [s2 o2].
      destruct (forallb is_nil row); reflexivity.
  Qed.

  (** rows written so far have the given width *)
  Definition fits (w : nat) (rows : list (list bytes)) : Prop := Forall (fun row => length row = w) rows.

  Lemma csv_write_fits : forall w rows row, fits w rows -> length row = w ->
    csv_write rows row = Some (rows ++ [row]).
  Proof.
    intros w rows row F E. destruct rows as [|first rows]; [reflexivity|]. cbn [csv_write].
    inversion F; subst. rewrite H1. rewrite Nat.eqb_refl. reflexivity.
  Qed.

  Lemma select_fields_length : forall row, length (select_fields lossy c row) = length row.
  Proof. intros row. unfold select_fields. destruct (se_nf c); [apply map_length|reflexivity]. Qed.

  Lemma select_loop_pass : forall w rows s, fits w (sel_rows s) ->
    Forall (fun row => length row = w) rows ->
    select_loop lossy hash c rows s
    = let (seen, out) := sel_pass rows (sel_seen s) in
      mkSel (sel_count s) seen (sel_rows s ++ map (select_fields lossy c) out) (sel_failed s).
  Proof.
    intros w. induction rows as [|row rows IH]; intros s F W; cbn [select_loop sel_pass].
    - cbn [map]. rewrite app_nil_r. destruct s; reflexivity.
    - inversion W as [|? ? Wr Ws]; subst.
      destruct (se_no_empty c && existsb is_nil row); [apply IH; assumption|].
      destruct (se_unique c && existsb (N.eqb (hash row)) (sel_seen s)); [apply IH; assumption|].
      cbv zeta. destruct (forallb is_nil row); cbn [negb].
      + rewrite IH by assumption. cbn [sel_seen sel_count sel_rows sel_failed].
        destruct (sel_pass rows _). reflexivity.
      + rewrite (csv_write_fits (length row)) by (try assumption; apply select_fields_length).
        rewrite IH; [|apply Forall_app; split; [exact F|repeat constructor; apply select_fields_length]|assumption].
        cbn [sel_seen sel_count sel_rows sel_failed]. destruct (sel_pass rows _) as [s2 out].
        cbn [map]. rewrite <- app_assoc. reflexivity.
  Qed.

  Lemma sel_pass_width : forall w rows seen, Forall (fun row => length row = w) rows ->
    Forall (fun row => length row = w) (snd (sel_pass rows seen)).
  Proof.
    intros w. induction rows as [|row rows IH]; intros seen W; cbn [sel_pass]; [constructor|].
    inversion W as [|? ? Wr Ws]; subst.
    destruct (se_no_empty c && existsb is_nil row); [apply IH; assumption|].
    destruct (se_unique c && existsb (N.eqb (hash row)) seen); [apply IH; assumption|].
    cbv zeta. specialize (IH (if se_unique c then hash row :: seen else seen) Ws).
    destruct (sel_pass rows _) as [s2 out]. cbn [snd] in *. destruct (forallb is_nil row); [exact IH|].
    constructor; [reflexivity|exact IH].
  Qed.

  (** the pass writes what the specification says *)
  Lemma sel_pass_spec : forall rows seen before,
    (forall h, In h seen <-> exists y, In y before /\ hash y = h) ->
    exists rows1 rows2,
      picks (considered (se_no_empty c)) (fun r => r) rows rows1
      /\ (if se_unique c then first_of_each (fun a b => hash a = hash b) before rows1 rows2
          else rows2 = rows1)
      /\ picks (fun r => ~ blank r) (fun r => r) rows2 (snd (sel_pass rows seen)).
  Proof.
    induction rows as [|row rows IH]; intros seen before Hb; cbn [sel_pass].
    - exists [], []. split; [constructor|]. split; [|constructor]. destruct (se_unique c); [constructor|reflexivity].
    - destruct (se_no_empty c && existsb is_nil row) eqn:En.
      + destruct (IH seen before Hb) as (r1 & r2 & H1 & H2 & H3). exists r1, r2.
        split; [|auto]. apply (picks_no _ (fun r => r)); [|exact H1].
        apply andb_prop in En as [E1 E2]. intros H. apply (H E1). apply any_empty. exact E2.
      + assert (Hc : considered (se_no_empty c) row).
        { intros E1 Hin. apply any_empty in Hin. rewrite E1, Hin in En. discriminate. }
        destruct (se_unique c) eqn:Eu; cbn [andb].
        * destruct (existsb (N.eqb (hash row)) seen) eqn:Es.
          { apply existsb_exists in Es as (h & Hh & E). apply N.eqb_eq in E. subst h.
            destruct (proj1 (Hb _) Hh) as (y & Hy & Ey).
            destruct (IH seen (before ++ [row])) as (r1 & r2 & H1 & H2 & H3).
            { intros h. rewrite Hb. split; intros (z & Hz & Ez).
              - exists z. split; [apply in_app_iff; auto|exact Ez].
              - apply in_app_iff in Hz as [Hz|[<-|[]]]; [eauto|]. exists y. split; [exact Hy|congruence]. }
            exists (row :: r1), r2. split; [apply (picks_yes _ (fun r => r)); assumption|].
            split; [|exact H3]. eapply foe_old; [exact Hy|exact Ey|exact H2]. }
          { destruct (IH (hash row :: seen) (before ++ [row])) as (r1 & r2 & H1 & H2 & H3).
            { intros h. cbn [In]. rewrite Hb. split.
              - intros [<-|(z & Hz & Ez)].
                + exists row. split; [apply in_app_iff; right; left; reflexivity|reflexivity].
                + exists z. split; [apply in_app_iff; auto|exact Ez].
              - intros (z & Hz & Ez). apply in_app_iff in Hz as [Hz|[<-|[]]]; [right; eauto|left; exact Ez]. }
            exists (row :: r1), (row :: r2). split; [apply (picks_yes _ (fun r => r)); assumption|]. split.
            - apply foe_new; [|exact H2]. intros y Hy E.
              assert (Hin : In (hash row) seen) by (apply Hb; eauto).
              assert (existsb (N.eqb (hash row)) seen = true); [|congruence].
              apply existsb_exists. exists (hash row). split; [exact Hin|apply N.eqb_refl].
            - destruct (sel_pass rows (hash row :: seen)) as [s2 out]. cbn [snd] in *.
              destruct (forallb is_nil row) eqn:Ef.
              + apply (picks_no _ (fun r => r)); [|exact H3]. intros H. apply H. apply blank_iff. exact Ef.
              + apply (picks_yes _ (fun r => r)); [|exact H3]. intros H. apply blank_iff in H. congruence. }
        * destruct (IH seen before Hb) as (r1 & r2 & H1 & -> & H3).
          exists (row :: r1), (row :: r1). split; [apply (picks_yes _ (fun r => r)); assumption|].
          split; [reflexivity|]. destruct (sel_pass rows seen) as [s2 out]. cbn [snd] in *.
          destruct (forallb is_nil row) eqn:Ef.
          { apply (picks_no _ (fun r => r)); [|exact H3]. intros H. apply H. apply blank_iff. exact Ef. }
          { apply (picks_yes _ (fun r => r)); [|exact H3]. intros H. apply blank_iff in H. congruence. }
  Qed.

  Lemma sel_pass_writes : forall rows,
    select_writes hash (se_unique c) (se_no_empty c) rows (snd (sel_pass rows [])).
  Proof.
    intros rows. destruct (sel_pass_spec rows [] []) as (r1 & r2 & H).
    - intros h. split; [intros []|intros (y & [] & _)].
    - exists r1, r2. exact H.
  Qed.

  (** the rows of a record *)
  Definition sel_rec (r : byte_record) : outcome :=
    rows_or_nil (record_query O T (se_qo c) (se_query c) (br_record r)).
  Definition sel_act (s : select_state) (r : byte_record) : select_state :=
    let (seen, out) := sel_pass (sel_rec r) (sel_seen s) in
    mkSel (sel_count s + 1) seen (sel_rows s ++ map (select_fields lossy c) out) false.

  Lemma sel_fold : forall recs s, fold_left sel_act recs s
    = let (seen, out) := sel_pass (concat (map sel_rec recs)) (sel_seen s) in
      mkSel (sel_count s + N.of_nat (length recs)) seen
        (sel_rows s ++ map (select_fields lossy c) out) (match recs with [] => sel_failed s | _ => false end).
  Proof.
    induction recs as [|r recs IH]; intros s.
    - cbn. rewrite app_nil_r, N.add_0_r. destruct s; reflexivity.
    - cbn [fold_left map concat]. rewrite IH. rewrite sel_pass_app. unfold sel_act.
      destruct (sel_pass (sel_rec r) (sel_seen s)) as [s1 o1]. cbn [sel_seen sel_count sel_rows sel_failed].
      destruct (sel_pass (concat (map sel_rec recs)) s1) as [s2 o2].
      rewrite map_app, app_assoc. f_equal; [cbn [length]; lia|]. destruct recs; reflexivity.
  Qed.

  Definition sel_body (o : filter_opts) (s : select_state) (r : byte_record) : step select_state :=
    if limit_reached (fo_limit o) (sel_count s + 1) then Halt (sel_act s r) else Next (sel_act s r).

  Lemma select_body_act : forall o s r, query_wf O (se_qo c) (se_query c) ->
    fits (query_columns (se_query c)) (sel_rows s) -> sel_failed s = false ->
    select_body O Od T lossy hash c o s r = guarded (opts_select O Od o) (sel_body o) s r.
  Proof.
    intros o s r W F Hf. unfold select_body, guarded.
    destruct (opts_select O Od o (br_record r)) as [[|]|]; [|reflexivity|reflexivity].
    destruct (query_rows_exist O T (se_qo c) (se_query c) r W) as (rows & E & _ & Wd).
    unfold sel_body, sel_act, sel_rec. rewrite E. cbn [rows_or_nil].
    rewrite (select_loop_pass _ _ _ F Wd). destruct (sel_pass rows (sel_seen s)) as [s1 o1].
    cbn [sel_seen sel_count sel_rows sel_failed]. rewrite Hf. reflexivity.
  Qed.
End Select.

Lemma select_exact : forall O Od T lossy hash c skip o files,
  opts_wf O Od o -> query_wf O (se_qo c) (se_query c) ->
  header_fits (se_header c) (query_columns (se_query c)) ->
  exists recs e rss out, selects O Od skip o files recs e
    /\ Forall2 (query_rows O T (se_qo c) (se_query c)) recs rss
    /\ select_writes hash (se_unique c) (se_no_empty c) (concat rss) out
    /\ select_run O Od T lossy hash c skip o files
       = Some (ended (header_rows (se_header c)
                      ++ map (fun row => match se_nf c with
                                         | None => row
                                         | Some nf => map (fun v => nf (lossy v)) row
                                         end) out, false) e).
Proof.
  intros O Od T lossy hash c skip o files W Wq Wh.
  set (body := sel_body O T lossy hash c o). set (s0 := mkSel 0 [] (csv_header (se_header c)) false).
  destruct (run_selects _ O Od skip o body (sel_act O T lossy hash c) sel_count files s0 W)
    as (recs & e & Hs & He).
  - intros s r. reflexivity.
  - intros s r. unfold sel_act. destruct (sel_pass hash c _ _). reflexivity.
  - reflexivity.
  - set (rss := map (sel_rec O T c) recs).
    exists recs, e, rss, (snd (sel_pass hash c (concat rss) [])). split; [exact Hs|].
    split; [apply query_rows_list; exact Wq|]. split; [apply sel_pass_writes|].
    unfold select_run. fold s0.
    destruct (reads_exists skip files) as (all & e0 & Hr).
    rewrite (run_loop_reads _ _ _ _ _ _ _ Hr) in He. rewrite (run_loop_reads _ _ _ _ _ _ _ Hr).
    rewrite (fold_steps_inv _ _ (fun s => fits (query_columns (se_query c)) (sel_rows s) /\ sel_failed s = false)
               _ (guarded (opts_select O Od o) body)).
    + etransitivity; [exact (f_equal (finish_with _ _) He)|].
      rewrite sel_fold. change (sel_seen s0) with (@nil N). fold rss.
      change (@map byte_record outcome (sel_rec O T c) recs) with rss.
      destruct (sel_pass hash c (concat rss) []) as [s1 o1].
      assert (match recs with [] => sel_failed s0 | _ => false end = false) as -> by (destruct recs; reflexivity).
      destruct e as [e|]; reflexivity.
    + intros s r [F Ff]. apply select_body_act; assumption.
    + intros s r s' [F Ff] G. unfold guarded in G. destruct (opts_select O Od o (br_record r)) as [[|]|]; try discriminate.
      * unfold body, sel_body in G. destruct (limit_reached _ _); [discriminate|]. injection G as <-.
        unfold sel_act.
        assert (Wd := sel_pass_width hash c (query_columns (se_query c)) (sel_rec O T c r) (sel_seen s)).
        destruct (sel_pass hash c (sel_rec O T c r) (sel_seen s)) as [s1 o1]. cbn [sel_rows sel_failed].
        split; [|reflexivity]. apply Forall_app. split; [exact F|]. apply Forall_forall. intros x Hx.
        apply in_map_iff in Hx as (row & <- & Hrow). rewrite select_fields_length.
        unfold sel_rec in Wd. destruct (query_rows_exist O T (se_qo c) (se_query c) r Wq) as (rows & E & _ & Wr).
        rewrite E in Wd. specialize (Wd Wr). cbn [snd] in Wd. rewrite Forall_forall in Wd. apply Wd. exact Hrow.
      * injection G as <-. auto.
    + split; [|reflexivity]. cbn. destruct (se_header c) as [h|] eqn:Eh; cbn; [|constructor].
      constructor; [apply Wh; reflexivity|constructor].
Qed.

(** *** --unique *)

Lemma blank_dec : forall row, blank row \/ ~ blank row.
Proof.
  intros row. destruct (forallb is_nil row) eqn:E; [left; apply blank_iff; exact E|].
  right. intros H. apply blank_iff in H. congruence.
Qed.

Lemma foe_app_ext : forall A (same : A -> A -> Prop) b1 b2 l out,
  (forall x, In x b1 <-> In x b2) -> first_of_each same b1 l out -> first_of_each same b2 l out.
Proof.
  intros A same b1 b2 l out E H. revert b2 E.
  induction H as [b|b x l out Hn _ IH|b x y l out Hy Hs _ IH]; intros b2 E.
  - constructor.
  - apply foe_new; [intros y Hy; apply Hn; apply E; exact Hy|]. apply IH.
    intros z. rewrite !in_app_iff, E. tauto.
  - apply (foe_old _ _ _ y); [apply E; exact Hy|exact Hs|]. apply IH.
    intros z. rewrite !in_app_iff, E. tauto.
Qed.

Lemma foe_nonblank : forall (hash : list bytes -> N) before rows1 rows2,
  first_of_each (fun a b => hash a = hash b) before rows1 rows2 ->
  (forall a b, In a (before ++ rows1) -> In b (before ++ rows1) -> hash a = hash b -> a = b) ->
  forall out, picks (fun r => ~ blank r) (fun r => r) rows2 out ->
  forall before', (forall x, In x before' <-> In x before /\ ~ blank x) ->
  exists kept, picks (fun r => ~ blank r) (fun r => r) rows1 kept /\ first_of_each eq before' kept out.
Proof.
  intros hash before rows1 rows2 H.
  induction H as [b|b x l out2 Hn H IH|b x y l out2 Hy Hs H IH]; intros I out Hp before' Hb.
  - inversion Hp; subst. exists []. split; constructor.
  - assert (I' : forall a b0, In a ((b ++ [x]) ++ l) -> In b0 ((b ++ [x]) ++ l) -> hash a = hash b0 -> a = b0).
    { intros a b0. rewrite <- app_assoc. exact (I a b0). }
    inversion Hp as [|? ? out1 HP Hp'|? ? out1 HP Hp']; subst.
    + destruct (IH I' _ Hp' (before' ++ [x])) as (kept & K1 & K2).
      { intros z. rewrite !in_app_iff, Hb. cbn. split; [intros [[]|[<-|[]]]; auto|].
        intros [[?|[<-|[]]] ?]; auto. }
      exists (x :: kept). split; [apply (picks_yes _ (fun r => r)); assumption|].
      apply foe_new; [|exact K2]. intros y Hy ->. apply Hb in Hy as [Hy _]. apply (Hn x Hy). reflexivity.
    + destruct (IH I' _ Hp' before') as (kept & K1 & K2).
      { intros z. rewrite in_app_iff, Hb. cbn. split; [tauto|].
        intros [[?|[<-|[]]] ?]; [auto|contradiction]. }
      exists kept. split; [apply (picks_no _ (fun r => r)); assumption|exact K2].
  - assert (I' : forall a b0, In a ((b ++ [x]) ++ l) -> In b0 ((b ++ [x]) ++ l) -> hash a = hash b0 -> a = b0).
    { intros a b0. rewrite <- app_assoc. exact (I a b0). }
    assert (E : y = x).
    { apply I; [apply in_app_iff; auto|apply in_app_iff; right; left; reflexivity|exact Hs]. }
    subst y. destruct (blank_dec x) as [Bx|Bx].
    + destruct (IH I' _ Hp before') as (kept & K1 & K2).
      { intros z. rewrite in_app_iff, Hb. cbn. split; [tauto|].
        intros [[?|[<-|[]]] ?]; [auto|contradiction]. }
      exists kept. split; [apply (picks_no _ (fun r => r)); [tauto|assumption]|exact K2].
    + destruct (IH I' _ Hp (before' ++ [x])) as (kept & K1 & K2).
      { intros z. rewrite !in_app_iff, Hb. cbn. split; [intros [[]|[<-|[]]]; auto|].
        intros [[?|[<-|[]]] ?]; auto. }
      exists (x :: kept). split; [apply (picks_yes _ (fun r => r)); assumption|].
      apply (foe_old _ _ _ x); [apply Hb; auto|reflexivity|exact K2].
Qed.

Lemma picks_both : forall A (P Q : A -> Prop) l a b,
  picks P (fun x => x) l a -> picks Q (fun x => x) a b -> picks (fun x => P x /\ Q x) (fun x => x) l b.
Proof.
  intros A P Q l a b H. revert b. induction H as [|x l a HP H IH|x l a HP H IH]; intros b K.
  - inversion K; subst. constructor.
  - inversion K; subst; [apply (picks_yes _ (fun x => x))|apply (picks_no _ (fun x => x))]; auto. tauto.
  - apply (picks_no _ (fun x => x)); [tauto|auto].
Qed.

Lemma unique_rows : forall hash no_empty rows out,
  select_writes hash true no_empty rows out ->
  (forall a b, In a rows -> In b rows -> hash a = hash b -> a = b) ->
  exists kept, picks (fun r => considered no_empty r /\ ~ blank r) (fun r => r) rows kept
    /\ first_of_each eq [] kept out.
Proof.
  intros hash no_empty rows out (r1 & r2 & H1 & H2 & H3) I.
  destruct (foe_nonblank hash [] r1 r2 H2) with (out := out) (before' := @nil (list bytes)) as (kept & K1 & K2).
  - cbn. intros a b Ha Hb. apply (picks_id_In _ _ _ _ H1) in Ha as [Ha _]. apply (picks_id_In _ _ _ _ H1) in Hb as [Hb _].
    apply I; assumption.
  - exact H3.
  - cbn. tauto.
  - exists kept. split; [eapply picks_both; eassumption|exact K2].
Qed.

Lemma foe_set : forall A (dec : forall a b : A, {a = b} + {a <> b}) (before l out : list A),
  first_of_each eq before l out ->
  NoDup out /\ forall x, In x out <-> In x l /\ ~ In x before.
Proof.
  intros A dec before l out H. induction H as [b|b x l out Hn H [I1 I2]|b x y l out Hy -> H [I1 I2]].
  - split; [constructor|]. cbn. tauto.
  - split.
    + constructor; [|exact I1]. intros Hx. apply I2 in Hx as [_ Hx]. apply Hx. apply in_app_iff. right. left. reflexivity.
    + intros z. cbn [In]. rewrite I2, in_app_iff. cbn [In]. split.
      * intros [<-|[? ?]]; [|tauto]. split; [auto|]. intros Hb. exact (Hn x Hb eq_refl).
      * intros [[<-|Hz] Hb]; [auto|].
        destruct (dec x z) as [->|Hne]; [auto|]. right. split; [exact Hz|]. intros [?|[?|[]]]; contradiction.
  - split; [exact I1|]. intros z. rewrite I2, in_app_iff. cbn [In]. split; [tauto|].
    intros [[<-|Hz] Hb]; [contradiction|]. split; [exact Hz|]. intros [?|[<-|[]]]; contradiction.
Qed.

(** *** A 64-bit hash collides *)

Lemma not_NoDup_pair : forall A (f : A -> N) l, NoDup l -> ~ NoDup (map f l) ->
  exists a b, In a l /\ In b l /\ a <> b /\ f a = f b.
Proof.
  intros A f l. induction l as [|x l IH]; intros N M; cbn in M; [exfalso; apply M; constructor|].
  inversion N as [|? ? Nx Nl]; subst.
  destruct (in_dec N.eq_dec (f x) (map f l)) as [Hi|Hi].
  - apply in_map_iff in Hi as (y & E & Hy). exists x, y. split; [left; reflexivity|]. split; [right; exact Hy|].
    split; [intros ->; contradiction|congruence].
  - destruct IH as (a & b & Ha & Hb & E); [exact Nl|intros H; apply M; constructor; assumption|].
    exists a, b. cbn. auto.
Qed.

Lemma collision : forall (B : N) (f : N -> N), (forall n, f n < B) -> exists a b, a <> b /\ f a = f b.
Proof.
  intros B f Hf. set (l := map N.of_nat (seq 0 (S (N.to_nat B)))).
  destruct (not_NoDup_pair N f l) as (a & b & _ & _ & H); [| |eauto].
  - unfold l. apply FinFun.Injective_map_NoDup; [intros x y; apply Nnat.Nat2N.inj|apply seq_NoDup].
  - intros H. set (m := map N.of_nat (seq 0 (N.to_nat B))).
    assert (I : incl (map f l) m).
    { intros y Hy. apply in_map_iff in Hy as (x & <- & _). unfold m. apply in_map_iff.
      exists (N.to_nat (f x)). split; [apply Nnat.N2Nat.id|]. apply in_seq. specialize (Hf x). lia. }
    assert (L := NoDup_incl_length H I). unfold l, m in L. rewrite !map_length, !seq_length in L. lia.
Qed.

(** a record with one field and one value *)
Definition one_value_record (v : bytes) : record := [mkField (lit "012A") None [mkSubfield 97 v]].
Definition one_value (v : bytes) : byte_record :=
  mkBR (Some (write_record (one_value_record v))) (one_value_record v).
Definition one_value_query : query :=
  mkQuery [QPath (mkPath (TMTag (lit "012A")) OMNone None [lit "a"] (lit "012A.a"))] (lit "012A.a").

Lemma one_value_line : forall v, Forall (fun c => In c digits) v -> one_line (one_value v).
Proof.
  intros v D.
  assert (Hno : forall c, ~ In c digits -> ~ In c v).
  { intros c Hc Hi. rewrite Forall_forall in D. exact (Hc (D c Hi)). }
  exists (lit "012A " ++ [31] ++ lit "a" ++ v ++ [30]). split; [|split].
  - unfold one_value. cbn [br_raw]. f_equal. unfold one_value_record, write_record. cbn.
    rewrite <- !app_assoc. reflexivity.
  - rewrite !in_app_iff. intros [H|[H|[H|[H|H]]]]; try (cbn in H; intuition discriminate).
    apply (Hno 10); [|exact H]. cbn. intuition discriminate.
  - assert (V : Forall valid_field (one_value_record v)).
    { constructor; [|constructor]. split; [|split; [|constructor; [split; [|split]|constructor]]].
      - exists 48, 49, 50, 65. split; [reflexivity|]. cbn. auto 40.
      - intros o E. discriminate.
      - unfold valid_code. cbn. auto 60.
      - apply Hno. cbn. intuition discriminate.
      - apply Hno. cbn. intuition discriminate. }
    destruct (coherent_text (br_from_record (one_value_record v))) as [[H _]|H].
    + split; [reflexivity|exact V].
    + discriminate.
    + cbn [br_record br_from_record] in *. unfold br_write in H. cbn [br_raw br_from_record br_record] in H.
      unfold one_value. cbn [br_record].
      assert (E : write_record (one_value_record v) = (lit "012A " ++ [31] ++ lit "a" ++ v ++ [30]) ++ [10]).
      { unfold one_value_record, write_record. cbn. rewrite <- !app_assoc. reflexivity. }
      rewrite <- E. exact H.
Qed.

Lemma one_value_rows : forall O T v,
  record_query O T (mkQueryOptions false (lit "|") false false) one_value_query (one_value_record v)
  = Some [[v]].
Proof. intros. reflexivity. Qed.

Lemma unique_collision : forall O Od T lossy hash, (forall row, hash row < 18446744073709551616) ->
  exists c files recs rss a b,
    se_unique c = true /\ query_wf O (se_qo c) (se_query c)
    /\ selects O Od false open_opts files recs None
    /\ Forall2 (query_rows O T (se_qo c) (se_query c)) recs rss
    /\ concat rss = [a; b] /\ a <> b /\ ~ blank a /\ ~ blank b
    /\ select_run O Od T lossy hash c false open_opts files = Some (Done ([a], false)).
Proof.
  intros O Od T lossy hash Hh.
  destruct (collision 18446744073709551616 (fun n => hash [dec n])) as (x & y & Hne & E).
  { intros n. apply Hh. }
  set (c := mkSelect one_value_query (mkQueryOptions false (lit "|") false false) true false None None).
  set (recs := [one_value (dec x); one_value (dec y)]).
  set (out := flat_map br_write recs).
  assert (Hl : Forall one_line recs).
  { repeat constructor; apply one_value_line; apply (dec_spec _). }
  assert (Hs : selects O Od false open_opts [(lit "f", out)] recs None).
  { apply selects_open; [exact Hl|]. apply lines_of_flat. eapply Forall_impl; [|exact Hl]. exact one_line_from. }
  assert (Wq : query_wf O (se_qo c) (se_query c)).
  { split; [discriminate|]. repeat constructor. discriminate. }
  assert (Hrows : Forall2 (query_rows O T (se_qo c) (se_query c)) recs [[[dec x]]; [[dec y]]]).
  { assert (H := query_rows_list O T (se_qo c) (se_query c) recs Wq). exact H. }
  assert (NB : forall n, ~ blank [dec n]).
  { intros n H. inversion H as [|? ? H1 _]; subst. destruct (dec_spec n) as (_ & H2 & _). contradiction. }
  exists c, [(lit "f", out)], recs, [[[dec x]]; [[dec y]]], [dec x], [dec y].
  split; [reflexivity|]. split; [exact Wq|]. split; [exact Hs|]. split; [exact Hrows|].
  split; [reflexivity|]. split; [intros H; injection H as H; apply dec_inj in H; contradiction|].
  split; [apply NB|]. split; [apply NB|].
  destruct (select_exact O Od T lossy hash c false open_opts [(lit "f", out)] (open_opts_wf O Od) Wq)
    as (recs' & e & rss & w & Hs' & Hr' & Hw & ->).
  { intros h H. discriminate. }
  destruct (selects_fun _ _ _ _ _ _ _ Hs _ _ Hs') as [<- <-].
  assert (rss = [[[dec x]]; [[dec y]]]) as ->.
  { eapply Forall2_det; [|exact Hr'|exact Hrows]. intros; eapply query_rows_fun; eassumption. }
  destruct Hw as (r1 & r2 & H1 & H2 & H3). cbn [concat app] in H1.
  assert (r1 = [[dec x]; [dec y]]) as ->.
  { eapply picks_fun; [exact H1|]. apply (picks_yes _ (fun r => r)); [discriminate|].
    apply (picks_yes _ (fun r => r)); [discriminate|constructor]. }
  cbn [se_unique c] in H2. assert (r2 = [[dec x]]) as ->.
  { inversion H2 as [|? ? o2 Hn Hf|? ? ? ? Hin _ _]; subst; [|destruct Hin].
    f_equal. inversion Hf as [|? ? o3 Hn3 _|? ? ? ? _ _ Hf3]; subst.
    - exfalso. apply (Hn3 [dec x]); [left; reflexivity|exact E].
    - inversion Hf3. reflexivity. }
  inversion H3 as [|? ? o HP Ho|? ? o HP Ho]; subst; [|exfalso; apply HP; apply NB].
  inversion Ho; subst. reflexivity.
Qed.

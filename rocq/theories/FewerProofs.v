(** * Proofs about select that leaves out rows *)

From Coq Require Import String ZArith Lia.
From Verif Require Import Bytes BaseProofs Winnow RecordModel TagOccModel Utf8Model ByteRecordModel ReaderModel
  MatcherModel StateParser MatcherParserModel BuilderModel PathModel FmtModel QueryModel CliModel TableModel
  ExplodeModel CheckModel ConvertModel CsvModel CsvSpec CsvProofs OptionsModel OptionsSpec ConfigModel PrepareModel IoModel IoSpec WriteSpec DiskModel DirModel RuleModel
  MainModel DiskSpec RuleSpec MainSpec PipeSpec FrontRunProofs PartsSpec TitledProofs FewerSpec.
From Verif Require RunSpec RunProofs.

(** rows of one length *)
Definition even (rows : list (list bytes)) : Prop := forall x y, In x rows -> In y rows -> length x = length y.

Lemma write_even : forall rows row out, even rows -> csv_write rows row = Some out -> out = rows ++ [row] /\ even out.
Proof.
  intros rows row out He H. destruct rows as [|r0 rows]; cbn [csv_write] in H.
  - injection H as <-. split; [reflexivity|]. intros x y [<-|[]] [<-|[]]. reflexivity.
  - destruct (Nat.eqb_spec (length r0) (length row)) as [El|]; [|discriminate]. injection H as <-. split; [reflexivity|].
    assert (L : forall x, In x ((r0 :: rows) ++ [row]) -> length x = length r0).
    { intros x Hx. apply in_app_or in Hx. destruct Hx as [Hx|[<-|[]]]; [apply He; [exact Hx|left; reflexivity]|symmetry; exact El]. }
    intros x y Hx Hy. change (r0 :: rows ++ [row]) with ((r0 :: rows) ++ [row]) in *. rewrite (L x Hx), (L y Hy). reflexivity.
Qed.

Lemma write_some : forall rows rows' row, even (rows ++ [row]) -> incl rows' rows -> csv_write rows' row = Some (rows' ++ [row]).
Proof.
  intros rows rows' row He Hi. destruct rows' as [|r0 rows']; [reflexivity|]. cbn [csv_write].
  rewrite (He r0 row), Nat.eqb_refl; [reflexivity|apply in_or_app; left; apply Hi; left; reflexivity|apply in_or_app; right; left; reflexivity].
Qed.

Lemma filter_incl' : forall {A} (f : A -> bool) l, incl (filter f l) l.
Proof. intros A f l x H. apply filter_In in H. apply H. Qed.

(** every row that is written has a cell that is not empty *)
Definition cells_there (rows : list (list bytes)) : Prop := Forall (fun r => r <> []) rows.

Section Fewer.
  Variable lossy : bytes -> bytes.
  Variable hash : list bytes -> N.
  Variable c1 c2 : select_cmd.
  Hypothesis Eq : se_query c1 = se_query c2.
  Hypothesis Eo : se_qo c1 = se_qo c2.
  Hypothesis E1 : se_nf c1 = None.
  Hypothesis E2 : se_nf c2 = None.
  Hypothesis U1 : se_unique c1 = false.

  Variable R : select_state -> select_state -> Prop.
  Hypothesis Rcount : forall a b, R a b -> sel_count a = sel_count b /\ sel_failed a = false /\ sel_failed b = false.
  Hypothesis Rnext : forall a b, R a b -> R (mkSel (sel_count a + 1) (sel_seen a) (sel_rows a) false) (mkSel (sel_count b + 1) (sel_seen b) (sel_rows b) false).
  Hypothesis Rloop : forall rows a b, R a b ->
    sel_failed (select_loop lossy hash c1 rows a) = true \/ R (select_loop lossy hash c1 rows a) (select_loop lossy hash c2 rows b).

  Lemma fewer_body : forall O Od T o a b r, R a b ->
    follows R (with_refused sel_failed (select_body O Od T lossy hash c1 o a r)) (with_refused sel_failed (select_body O Od T lossy hash c2 o b r)).
  Proof.
    intros O Od T o a b r H. unfold select_body, guarded. rewrite Eq, Eo.
    destruct (opts_select O Od o (br_record r)) as [[|]|]; [|cbn; exists b; auto|exact I].
    destruct (record_query O T (se_qo c2) (se_query c2) (br_record r)) as [rows|]; [|exact I].
    destruct (Rloop rows a b H) as [F|F].
    - rewrite F. cbn [with_refused]. rewrite F. intros X. discriminate.
    - set (a' := select_loop lossy hash c1 rows a) in *. set (b' := select_loop lossy hash c2 rows b) in *.
      destruct (Rcount _ _ F) as (F1 & F2 & F3). rewrite F2, F3. cbn [sel_count]. pose proof (Rnext _ _ F) as N. rewrite F1 in N |- *.
      destruct (limit_reached _ _); cbn; (eexists; split; [reflexivity|]); exact N.
  Qed.
End Fewer.

(** ** --no-empty-columns *)

Definition thinned (a b : select_state) : Prop :=
  (sel_count a = sel_count b /\ sel_failed a = false /\ sel_failed b = false) /\ sel_rows b = filter full (sel_rows a) /\ even (sel_rows a) /\ cells_there (sel_rows a).

Lemma not_nil_row : forall row, negb (forallb is_nil row) = true -> row <> [].
Proof. intros [|x row] H; [discriminate|]. discriminate. Qed.

Lemma full_nil : forall row, full row = negb (existsb is_nil row).
Proof. reflexivity. Qed.

Lemma thinned_loop : forall lossy hash c1 c2 rows a b, se_nf c1 = None -> se_nf c2 = None -> se_unique c1 = false -> se_unique c2 = false ->
  se_no_empty c1 = false -> se_no_empty c2 = true -> thinned a b ->
  sel_failed (select_loop lossy hash c1 rows a) = true \/ thinned (select_loop lossy hash c1 rows a) (select_loop lossy hash c2 rows b).
Proof.
  intros lossy hash c1 c2. induction rows as [|row rows IH]; intros a b N1 N2 U1 U2 M1 M2 H; [right; exact H|]. cbn [select_loop]. cbv zeta.
  rewrite U1, U2, M1, M2. cbn [andb]. unfold select_fields. rewrite N1, N2.
  pose proof H as ((H1 & H2 & H3) & H4 & H5 & H6). destruct (negb (forallb is_nil row)) eqn:En.
  - destruct (csv_write (sel_rows a) row) as [out|] eqn:Ew; [|left; reflexivity]. destruct (write_even _ _ _ H5 Ew) as [-> He].
    assert (C : cells_there (sel_rows a ++ [row])) by (apply Forall_app; split; [exact H6|constructor; [apply not_nil_row; exact En|constructor]]).
    destruct (existsb is_nil row) eqn:Ex.
    + apply IH; auto. unfold thinned. cbn. repeat split; auto. rewrite filter_app. cbn [filter]. rewrite (full_nil row), Ex. cbn. rewrite app_nil_r. exact H4.
    + rewrite (write_some (sel_rows a) (sel_rows b) row He) by (rewrite H4; apply filter_incl'). apply IH; auto. unfold thinned. cbn. repeat split; auto.
      rewrite filter_app. cbn [filter]. rewrite (full_nil row), Ex. cbn. rewrite H4. reflexivity.
  - destruct (existsb is_nil row); apply IH; auto; unfold thinned; cbn; auto 10.
Qed.

(** ** --unique *)

Lemma sublist_incl : forall {A} (l m : list A), sublist l m -> incl l m.
Proof. intros A l m H. induction H; intros y Hy; [exact Hy|destruct Hy as [<-|Hy]; [left; reflexivity|right; auto]|right; auto]. Qed.

Lemma sublist_app : forall {A} (l m l' m' : list A), sublist l m -> sublist l' m' -> sublist (l ++ l') (m ++ m').
Proof. intros A l m l' m' H H'. induction H; cbn; [exact H'|constructor; assumption|constructor; assumption]. Qed.

Section Unique.
  Variable hash : list bytes -> N.

  Definition uniqued (a b : select_state) : Prop :=
    (sel_count a = sel_count b /\ sel_failed a = false /\ sel_failed b = false) /\ sublist (sel_rows b) (sel_rows a) /\ even (sel_rows a) /\ cells_there (sel_rows a)
    /\ ((forall x y, hash x = hash y -> x = y) -> NoDup (sel_rows b) /\ incl (sel_rows a) (sel_rows b)
        /\ (forall r, In r (sel_rows b) -> In (hash r) (sel_seen b))
        /\ forall r, In (hash r) (sel_seen b) -> forallb is_nil r = true \/ In r (sel_rows b)).

  Lemma seen_In : forall n l, existsb (N.eqb n) l = true <-> In n l.
  Proof.
    intros n l. rewrite existsb_exists. split; [intros (x & Hx & E); apply N.eqb_eq in E; subst; exact Hx|]. intros H. exists n. split; [exact H|apply N.eqb_refl].
  Qed.

  Lemma uniqued_loop : forall lossy c1 c2 rows a b, se_nf c1 = None -> se_nf c2 = None -> se_unique c1 = false -> se_unique c2 = true ->
    se_no_empty c1 = se_no_empty c2 -> uniqued a b ->
    sel_failed (select_loop lossy hash c1 rows a) = true \/ uniqued (select_loop lossy hash c1 rows a) (select_loop lossy hash c2 rows b).
  Proof.
    intros lossy c1 c2. induction rows as [|row rows IH]; intros a b N1 N2 U1 U2 M H; [right; exact H|]. cbn [select_loop]. cbv zeta.
    rewrite U1, U2, M. cbn [andb]. unfold select_fields. rewrite N1, N2.
    destruct (se_no_empty c2 && existsb is_nil row); [apply IH; auto|].
    pose proof H as ((H1 & H2 & H3) & H4 & H5 & H6 & H7). destruct (negb (forallb is_nil row)) eqn:En.
    - destruct (csv_write (sel_rows a) row) as [out|] eqn:Ew; [|left; reflexivity]. destruct (write_even _ _ _ H5 Ew) as [-> He].
      assert (C : cells_there (sel_rows a ++ [row])) by (apply Forall_app; split; [exact H6|constructor; [apply not_nil_row; exact En|constructor]]).
      apply Bool.negb_true_iff in En. destruct (existsb (N.eqb (hash row)) (sel_seen b)) eqn:Es.
      + apply seen_In in Es. apply IH; auto. unfold uniqued. cbn. repeat split; auto.
        * rewrite <- (app_nil_r (sel_rows b)). apply sublist_app; [exact H4|]. repeat constructor.
        * apply H7. assumption.
        * destruct (H7 H0) as (_ & I1 & _ & I2). intros x Hx. apply in_app_or in Hx. destruct Hx as [Hx|[<-|[]]]; [exact (I1 x Hx)|].
          destruct (I2 row Es) as [Y|Y]; [congruence|exact Y].
        * apply H7. assumption.
        * apply H7. assumption.
      + assert (Es' : ~ In (hash row) (sel_seen b)) by (rewrite <- seen_In, Es; discriminate).
        rewrite (write_some (sel_rows a) (sel_rows b) row He (sublist_incl _ _ H4)). apply IH; auto. unfold uniqued. cbn. repeat split; auto.
        * apply sublist_app; [exact H4|]. repeat constructor.
        * destruct (H7 H0) as (D & _ & I2 & _). apply NoDup_rev in D. rewrite <- (rev_involutive (sel_rows b ++ [row])). apply NoDup_rev. rewrite rev_app_distr. cbn.
          constructor; [|exact D]. intros Y. apply in_rev in Y. exact (Es' (I2 _ Y)).
        * destruct (H7 H0) as (_ & I1 & _). intros x Hx. apply in_app_or in Hx. apply in_or_app. destruct Hx as [Hx|Hx]; [left; exact (I1 x Hx)|right; exact Hx].
        * destruct (H7 H0) as (_ & _ & I2 & _). intros r Hr. apply in_app_or in Hr. destruct Hr as [Hr|[<-|[]]]; [right; exact (I2 r Hr)|left; reflexivity].
        * destruct (H7 H0) as (_ & _ & _ & I2). intros r [Hr|Hr]; [right; apply in_or_app; right; left; exact (H0 _ _ Hr)|].
          destruct (I2 r Hr) as [Y|Y]; [left; exact Y|right; apply in_or_app; left; exact Y].
    - apply Bool.negb_false_iff in En. destruct (existsb (N.eqb (hash row)) (sel_seen b)) eqn:Es; apply IH; auto; unfold uniqued; cbn; repeat split; auto.
      all: try (apply H7; assumption).
      + intros r Hr. right. apply H7; assumption.
      + destruct (H7 H0) as (_ & _ & _ & I2). intros r [Hr|Hr]; [left; apply H0 in Hr; subst r; exact En|exact (I2 r Hr)].
  Qed.
End Unique.

(** ** The whole *)

Lemma run_fewer : forall (R : select_state -> select_state -> Prop) e cfg w o q s squash merge u1 u2 n1 n2 quote tsv names t,
  (forall op qu a x y r, R x y -> follows R (with_refused sel_failed (select_body (oracles_for e o) (default_oracles e) (e_text e) (e_lossy e) (e_hash e) (mkSelect qu a u1 n1 None None) op x r))
                      (with_refused sel_failed (select_body (oracles_for e o) (default_oracles e) (e_text e) (e_lossy e) (e_hash e) (mkSelect qu a u2 n2 None None) op y r))) ->
  R (mkSel 0 [] [] false) (mkSel 0 [] [] false) ->
  run_writes e cfg w (KSelect o (mkColumns q s squash merge None) u1 n1 None quote tsv false None names) t ->
  exists a b, R a b /\ t = csv_text (e_numeric e) quote (csv_delim tsv) (sel_rows a)
    /\ run_writes e cfg w (KSelect o (mkColumns q s squash merge None) u2 n2 None quote tsv false None names) (csv_text (e_numeric e) quote (csv_delim tsv) (sel_rows b)).
Proof.
  intros R e cfg w o q s squash merge u1 u2 n1 n2 quote tsv names t HR H0 (w1 & H & T).
  destruct (fun X => RunProofs.run_ended _ _ _ _ _ X H) as (cf & Hset & He); [reflexivity|].
  set (k2 := KSelect o (mkColumns q s squash merge None) u2 n2 None quote tsv false None names).
  assert (RS := RunProofs.run_settings e (mkInvocation cfg k2) w cf eq_refl (settings_same e cfg _ k2 w w cf eq_refl Hset)).
  unfold run_writes. rewrite RS. cbn [in_command k2 execute option_map] in *. unfold select_on_disk in *. cbv zeta in *.
  set (a2 := load_columns e (w_disk w) o (mkColumns q s squash merge None)) in *.
  destruct (fst (table_prepare _ _ _ a2)) as [[[op qu]|]|]; [|discriminate|discriminate]. cbn [prepared] in *.
  cbn [open_all open_output out_name app] in *. rewrite world_eta in *. unfold process_all in *. cbn [fst snd] in *. change (table_header a2) with (@None (list bytes)) in *.
  cbn [se_header csv_header] in *.
  match type of He with context [io_files_loop _ ?b ?k ?s0 ?fs] => set (b1 := b) in *; set (files := fs) in *; set (sk := k) in *; set (s1 := s0) in * end.
  match goal with |- context [io_files_loop _ ?b _ s1 _] => set (b2 := b) in * end.
  assert (HR' : forall x y r, R x y -> follows R (b1 x r) (b2 y r)) by (intros; apply HR; assumption).
  destruct (io_files_loop (fun s => s) b1 sk s1 files) as [x|] eqn:E; [|discriminate].
  assert (Hx : main_status x = Some 0).
  { destruct x as [s0|s0|s0 er|]; cbn [main_status] in *; try reflexivity; [|discriminate]. destruct er as [|[]| |]; try discriminate; reflexivity. }
  destruct (files_follow R b1 b2 sk HR' files s1 s1 x H0 E Hx) as (y & Ey & F). rewrite Ey.
  destruct x as [u|u|u er|]; cbn [follows] in F; [| |specialize (F Hx)|discriminate]; destruct F as (v & -> & F).
  all: exists u, v.
  3: rewrite Hx in He; change (main_status (IFailed u er)) with (main_status (IFailed v er)) in Hx; rewrite Hx.
  all: cbn [main_status] in *; injection He as <-; cbn [map fst snd close_all close_output out_name with_disk w_stdout] in T |- *.
  all: (split; [exact F|]); (split; [|eexists; split; [reflexivity|reflexivity]]); symmetry; exact (app_inv_head (w_stdout w) _ _ T).
Qed.

Lemma run_thinned : forall e cfg w o q s squash merge quote tsv names t, quote <> QNever ->
  (forall v, e_numeric e v = true -> Forall (plain_byte (if tsv : bool then 9 else 44)) v) ->
  run_writes e cfg w (KSelect o (mkColumns q s squash merge None) false false None quote tsv false None names) t ->
  exists rows t', csv_rows (if tsv then 9 else 44) rows t /\ csv_rows (if tsv then 9 else 44) (filter full rows) t'
    /\ run_writes e cfg w (KSelect o (mkColumns q s squash merge None) false true None quote tsv false None names) t'.
Proof.
  intros e cfg w o q s squash merge quote tsv names t Hq Hn H.
  destruct (run_fewer thinned e cfg w o q s squash merge false false false true quote tsv names t) as (a & b & (_ & Eb & _ & C) & -> & H').
  - intros op qu a x y r Hxy. apply fewer_body; auto.
    + intros x0 y0 (X & _). exact X.
    + intros x0 y0 ((X1 & X2 & X3) & X). unfold thinned. cbn. rewrite X1. auto.
    + intros rows x0 y0 X. apply thinned_loop; auto.
  - unfold thinned. cbn. repeat split; auto; try (constructor); intros ? ? [].
  - exact H.
  - exists (sel_rows a), (csv_text (e_numeric e) quote (csv_delim tsv) (sel_rows b)). split; [exact (csv_text_rows _ _ _ Hq Hn _ C)|]. split; [|exact H']. rewrite <- Eb.
    apply (csv_text_rows _ _ _ Hq Hn). rewrite Eb. apply Forall_forall. intros r Hr. apply filter_In in Hr. exact (proj1 (Forall_forall _ _) C r (proj1 Hr)).
Qed.

Lemma run_uniqued : forall e cfg w o q s squash merge n quote tsv names t, quote <> QNever ->
  (forall v, e_numeric e v = true -> Forall (plain_byte (if tsv : bool then 9 else 44)) v) ->
  run_writes e cfg w (KSelect o (mkColumns q s squash merge None) false n None quote tsv false None names) t ->
  exists rows rows' t', csv_rows (if tsv then 9 else 44) rows t /\ csv_rows (if tsv then 9 else 44) rows' t' /\ sublist rows' rows
    /\ ((forall x y, e_hash e x = e_hash e y -> x = y) -> NoDup rows' /\ incl rows rows')
    /\ run_writes e cfg w (KSelect o (mkColumns q s squash merge None) true n None quote tsv false None names) t'.
Proof.
  intros e cfg w o q s squash merge n quote tsv names t Hq Hn H.
  destruct (run_fewer (uniqued (e_hash e)) e cfg w o q s squash merge false true n n quote tsv names t) as (a & b & (_ & Sb & _ & C & D) & -> & H').
  - intros op qu a x y r Hxy. apply fewer_body; auto.
    + intros x0 y0 (X & _). exact X.
    + intros x0 y0 ((X1 & X2 & X3) & X). unfold uniqued. cbn. rewrite X1. auto.
    + intros rows x0 y0 X. apply uniqued_loop; auto.
  - unfold uniqued. cbn. split; [auto|]. split; [constructor|]. split; [intros ? ? []|]. split; [constructor|]. intros _. split; [constructor|]. split; [intros ? []|]. split; intros ? [].
  - exact H.
  - exists (sel_rows a), (sel_rows b), (csv_text (e_numeric e) quote (csv_delim tsv) (sel_rows b)). split; [exact (csv_text_rows _ _ _ Hq Hn _ C)|]. split.
    + apply (csv_text_rows _ _ _ Hq Hn). apply Forall_forall. intros r Hr. exact (proj1 (Forall_forall _ _) C r (sublist_incl _ _ Sb r Hr)).
    + split; [exact Sb|]. split; [|exact H']. intros Hi. destruct (D Hi) as (D1 & D2 & _). auto.
Qed.

(** * Proofs about frequency --unique *)

From Coq Require Import String ZArith Lia Permutation.
From Verif Require Import Bytes BaseProofs Winnow RecordModel TagOccModel Utf8Model ByteRecordModel ReaderModel
  MatcherModel StateParser MatcherParserModel BuilderModel PathModel FmtModel QueryModel CliModel TableModel TableProofs
  ExplodeModel CheckModel ConvertModel CsvModel CsvSpec CsvProofs OptionsModel OptionsSpec ConfigModel PrepareModel IoModel IoSpec WriteSpec DiskModel DirModel RuleModel
  MainModel DiskSpec RuleSpec MainSpec PipeSpec FrontRunProofs PartsSpec TitledProofs FewerProofs FrequencyProofs TopmostProofs ReversedProofs.
From Verif Require RunSpec RunProofs.

(** the second table has the same rows with smaller numbers *)
Definition less : ftable -> ftable -> Prop := Forall2 (fun x y => fst x = fst y /\ 1 <= snd y <= snd x).

Lemma less_fst : forall t1 t2, less t1 t2 -> map fst t1 = map fst t2.
Proof. intros t1 t2 H. induction H as [|x y t1 t2 [E _] _ IH]; [reflexivity|]. cbn. rewrite E, IH. reflexivity. Qed.

Lemma less_both : forall k t1 t2, less t1 t2 -> less (ftable_inc k t1) (ftable_inc k t2).
Proof.
  intros k t1 t2 H. induction H as [|[k1 n1] [k2 n2] t1 t2 [E L] H IH]; cbn [ftable_inc fst snd] in *.
  - constructor; [cbn; split; [reflexivity|lia]|constructor].
  - subst k2. destruct (row_eqb k1 k); constructor; try assumption; cbn; (split; [reflexivity|lia]).
Qed.

Lemma less_one : forall k t1 t2, less t1 t2 -> In k (map fst t1) -> less (ftable_inc k t1) t2.
Proof.
  intros k t1 t2 H. induction H as [|[k1 n1] [k2 n2] t1 t2 [E L] H IH]; cbn [ftable_inc fst snd map] in *; [intros []|].
  intros Hk. destruct (row_eqb k1 k) eqn:Ek.
  - constructor; [cbn; split; [exact E|lia]|exact H].
  - constructor; [cbn; split; [exact E|lia]|]. apply IH. destruct Hk as [->|Hk]; [|exact Hk]. rewrite (proj2 (row_eqb_eq _ _) eq_refl) in Ek. discriminate.
Qed.

Lemma less_loop : forall rows seen t1 t2, less t1 t2 -> incl seen (map fst t1) -> less (freq_loop false rows [] t1) (freq_loop true rows seen t2).
Proof.
  induction rows as [|k rows IH]; intros seen t1 t2 H Hi; cbn [freq_loop]; [exact H|].
  destruct (existsb _ k); [|apply IH; assumption]. cbn [andb].
  destruct (existsb (row_eqb k) seen) eqn:Es.
  - apply row_mem in Es. apply IH; [apply less_one; [exact H|exact (Hi _ Es)]|]. intros x Hx. apply ftable_inc_In. right. exact (Hi _ Hx).
  - apply IH; [apply less_both; exact H|]. intros x [->|Hx]; apply ftable_inc_In; [left; reflexivity|right; exact (Hi _ Hx)].
Qed.

Definition lesser (a b : N * ftable) : Prop := fst a = fst b /\ less (snd a) (snd b).

Lemma lesser_body : forall O Od T c1 c2 o a b r, fq_query c1 = fq_query c2 -> fq_qo c1 = fq_qo c2 -> fq_unique c1 = false -> fq_unique c2 = true -> lesser a b ->
  follows lesser (as_io (freq_body O Od T c1 o a r)) (as_io (freq_body O Od T c2 o b r)).
Proof.
  intros O Od T c1 c2 o a b r Eq Eo U1 U2 H. unfold freq_body, guarded. rewrite Eq, Eo, U1, U2.
  destruct (opts_select O Od o (br_record r)) as [[|]|]; [|eexists; split; [reflexivity|exact H]|exact I].
  destruct (record_query O T (fq_qo c2) (fq_query c2) (br_record r)) as [rows|]; [|exact I]. destruct H as [H1 H2]. cbv zeta. cbn [fst]. rewrite H1.
  destruct (limit_reached _ _); cbn; (eexists; split; [reflexivity|]); split; cbn; try reflexivity; apply less_loop; try exact H2; intros x [].
Qed.

Lemma less_triples : forall t1 t2, less t1 t2 -> exists l, t1 = map (fun z => (fst z, fst (snd z))) l /\ t2 = map (fun z => (fst z, snd (snd z))) l
  /\ Forall (fun z : list bytes * (N * N) => 1 <= snd (snd z) <= fst (snd z)) l.
Proof.
  intros t1 t2 H. induction H as [|[k1 n1] [k2 n2] t1 t2 [E L] _ (l & -> & -> & F)]; [exists []; auto|]. cbn [fst snd] in *. subst k2.
  exists ((k1, (n1, n2)) :: l). cbn. auto.
Qed.

Lemma run_once : forall e cfg w o q s squash merge reverse nf tsv names t, (forall x, Permutation (e_freq_order e x) x) ->
  (forall v, e_numeric e v = true -> Forall (plain_byte (if tsv : bool then 9 else 44)) v) ->
  run_writes e cfg w (KFrequency o (mkColumns q s squash merge None) false 0 0 reverse nf tsv None names) t ->
  exists rows rows' t' l, csv_rows (if tsv then 9 else 44) rows t /\ csv_rows (if tsv then 9 else 44) rows' t'
    /\ Permutation rows (map (fun z => fst z ++ [dec (fst (snd z))]) l) /\ Permutation rows' (map (fun z => fst z ++ [dec (snd (snd z))]) l)
    /\ Forall (fun z : list bytes * (N * N) => 1 <= snd (snd z) <= fst (snd z)) l
    /\ run_writes e cfg w (KFrequency o (mkColumns q s squash merge None) true 0 0 reverse nf tsv None names) t'.
Proof.
  intros e cfg w o q s squash merge reverse nf tsv names t Ho Hv (w1 & H & T).
  assert (Hq : QNecessary <> QNever) by discriminate.
  destruct (fun X => RunProofs.run_ended _ _ _ _ _ X H) as (cf & Hset & He); [reflexivity|].
  set (k2 := KFrequency o (mkColumns q s squash merge None) true 0 0 reverse nf tsv None names).
  assert (RS := RunProofs.run_settings e (mkInvocation cfg k2) w cf eq_refl (settings_same e cfg _ k2 w w cf eq_refl Hset)).
  unfold run_writes. rewrite RS. cbn [in_command k2 execute] in *. unfold freq_on_disk in *. cbv zeta in *.
  set (a2 := load_columns e (w_disk w) o (mkColumns q s squash merge None)) in *.
  destruct (fst (table_prepare _ _ _ a2)) as [[[op qu]|]|]; [|discriminate|discriminate]. cbn [prepared] in *.
  cbn [open_all open_output out_name app] in *. rewrite world_eta in *. unfold process_all in *. cbn [fst snd] in *. change (table_header a2) with (@None (list bytes)) in *.
  set (c1 := mkFreq qu (table_options a2) false 0 0 reverse None (translit e nf)) in *.
  set (c2 := mkFreq qu (table_options a2) true 0 0 reverse None (translit e nf)) in *.
  match type of He with context [io_files_loop _ ?b ?k ?s0 ?fs] => set (b1 := b) in *; set (files := fs) in *; set (sk := k) in *; set (s1 := s0) in * end.
  match goal with |- context [io_files_loop _ ?b _ s1 _] => set (b2 := b) in * end.
  assert (HR : forall x y r, lesser x y -> follows lesser (b1 x r) (b2 y r)) by (intros x y r Hxy; apply lesser_body; auto).
  destruct (io_files_loop (fun s => s) b1 sk s1 files) as [x|] eqn:E; [|discriminate].
  assert (Hx : main_status x = Some 0).
  { destruct x as [s0|s0|s0 er|]; cbn [main_status] in *; try reflexivity; [|discriminate]. destruct er as [|[]| |]; try discriminate; reflexivity. }
  destruct (files_follow lesser b1 b2 sk HR files s1 s1 x) as (y & Ey & F); [split; [reflexivity|constructor]|exact E|exact Hx|]. rewrite Ey.
  unfold freq_output in *. cbn [fq_header c1 c2 fq_reverse csv_header] in *.
  set (g := fun x : list bytes => map (fun v => translit e nf (e_lossy e v)) x).
  destruct x as [u|u|u er|]; cbn [follows] in F; [| |specialize (F Hx)|discriminate]; destruct F as (v & -> & _ & L).
  3: { exists [], [], [], []. rewrite Hx in He. change (main_status (IFailed u er)) with (main_status (IFailed v er)) in Hx. rewrite Hx. injection He as <-.
    cbn [map fst snd close_all close_output out_name with_disk w_stdout] in T |- *. apply app_inv_head in T. rewrite <- T.
    repeat (split; [constructor|]). eexists. split; reflexivity. }
  all: cbn [main_status] in *; destruct (less_triples _ _ L) as (l & L1 & L2 & LF).
  all: set (o1 := sort_by (freq_cmp reverse) (e_freq_order e (snd u))) in *; set (o2 := sort_by (freq_cmp reverse) (e_freq_order e (snd v))) in *.
  all: assert (P1 : Permutation o1 (snd u)) by (eapply Permutation_trans; [apply sort_by_perm|apply Ho]).
  all: assert (P2 : Permutation o2 (snd v)) by (eapply Permutation_trans; [apply sort_by_perm|apply Ho]).
  all: destruct (freq_write (e_lossy e) c1 0 o1 []) as [rows bad] eqn:Ew; cbn [fst snd] in *; destruct bad; [discriminate|]; injection He as <-.
  all: destruct (write_all (e_lossy e) c1 eq_refl eq_refl _ _ _ _ even_nil Ew) as [-> Hev]; cbn [app] in *.
  all: assert (Ew2 : freq_write (e_lossy e) c2 0 o2 [] = (map (freq_row (e_lossy e) c2) o2, false)).
  1, 3: apply (write_can (e_lossy e) c2 eq_refl eq_refl _ 0 []); cbn [app];
    assert (K : forall r, In r (map (freq_row (e_lossy e) c2) o2) -> exists r', In r' (map (freq_row (e_lossy e) c1) o1) /\ length r' = length r);
    [intros r Hr; apply in_map_iff in Hr; destruct Hr as (z & <- & Hz); apply (Permutation_in _ P2) in Hz; rewrite L2 in Hz; apply in_map_iff in Hz; destruct Hz as (z' & <- & Hz);
     exists (freq_row (e_lossy e) c1 (fst z', fst (snd z'))); split; [apply in_map; apply (Permutation_in _ (Permutation_sym P1)); rewrite L1; apply in_map_iff; exists z'; auto|
     unfold freq_row; cbn [fst snd]; rewrite !app_length, !map_length; reflexivity]|];
    intros r r' Hr Hr'; destruct (K _ Hr) as (p & Hp & <-); destruct (K _ Hr') as (p' & Hp' & <-); apply Hev; assumption.
  all: rewrite Ew2; cbn [map fst snd close_all close_output out_name with_disk w_stdout] in T |- *; fold o1 in T; rewrite Ew in T; cbn [fst out_gz] in T; apply app_inv_head in T; rewrite <- T.
  all: exists (map (freq_row (e_lossy e) c1) o1), (map (freq_row (e_lossy e) c2) o2), (csv_text (e_numeric e) QNecessary (csv_delim tsv) (map (freq_row (e_lossy e) c2) o2)),
         (map (fun z => (g (fst z), snd z)) l).
  all: assert (C : forall c o, Forall (fun r => r <> []) (map (freq_row (e_lossy e) c) o))
         by (intros c o0; apply Forall_forall; intros r Hr; apply in_map_iff in Hr; destruct Hr as (z & <- & _); unfold freq_row; intros X; apply app_eq_nil in X; destruct X as [_ X]; discriminate).
  all: (split; [exact (csv_text_rows _ _ _ Hq Hv _ (C _ _))|]); (split; [exact (csv_text_rows _ _ _ Hq Hv _ (C _ _))|]).
  all: (split; [rewrite P1, L1, !map_map; apply Permutation_refl|]); (split; [rewrite P2, L2, !map_map; apply Permutation_refl|]).
  all: (split; [apply Forall_map; exact LF|]); eexists; (split; [reflexivity|]); unfold close_all; cbn [fold_left fst snd close_output out_name out_gz w_stdout]; fold o2; rewrite Ew2; reflexivity.
Qed.

(** * Proofs about the allow and deny lists and the inverted filter *)

From Coq Require Import String.
From Verif Require Import Bytes Winnow RecordModel RecordSpec BaseProofs TagOccModel ByteRecordModel ByteRecordSpec
  ReaderModel MatcherModel MatcherSpec MatcherProofs PathModel QuerySpec QueryProofs CliModel CliSpec CliProofs
  CliCommandProofs CliOutputProofs.

Lemma column_some : forall t n cells, column t n = Some cells <-> has_column t n cells.
Proof.
  induction t as [|[m c] t IH]; intros n cells; cbn [column].
  - split; [discriminate|]. intros (pre & post & E & _). destruct pre; discriminate.
  - destruct (bytes_eqb m n) eqn:E.
    + apply bytes_eqb_eq in E. subst m. split.
      * intros H. injection H as ->. exists [], t. auto.
      * intros (pre & post & Eq & Hn). destruct pre as [|[k d] pre]; cbn in Eq.
        { injection Eq as -> _. reflexivity. }
        { injection Eq as <- _ _. exfalso. apply Hn. left. reflexivity. }
    + apply bytes_eqb_neq in E. rewrite IH. split.
      * intros (pre & post & -> & Hn). exists ((m, c) :: pre), post. split; [reflexivity|].
        cbn. intros [H|H]; contradiction.
      * intros (pre & post & Eq & Hn). destruct pre as [|[k d] pre]; cbn in Eq.
        { injection Eq as -> _ _. congruence. }
        { injection Eq as -> -> ->. exists pre, post. split; [reflexivity|]. intros H. apply Hn. right. exact H. }
Qed.

Lemma column_none : forall t n, column t n = None <-> ~ In n (map fst t).
Proof.
  induction t as [|[m c] t IH]; intros n; cbn [column map fst]; [cbn; tauto|].
  destruct (bytes_eqb m n) eqn:E.
  - apply bytes_eqb_eq in E. subst m. split; [discriminate|]. intros H. exfalso. apply H. left. reflexivity.
  - apply bytes_eqb_neq in E. rewrite IH. cbn. intuition.
Qed.

Lemma list_column_some : forall t name cells, list_column t name = Some cells <-> id_column t name cells.
Proof.
  intros t [n|] cells; cbn [list_column id_column]; [apply column_some|].
  destruct (column t (lit "ppn")) as [c|] eqn:E.
  - rewrite <- !column_some, E. split; [auto|]. intros [H|[H _]]; [exact H|].
    apply column_none in H. congruence.
  - rewrite <- !column_some, E. apply column_none in E. intuition discriminate.
Qed.

Lemma present_In : forall cells v, In v (present cells) <-> In (Some v) cells.
Proof.
  intros cells v. unfold present. rewrite in_flat_map. split.
  - intros ([w|] & Hw & Hin); [|destruct Hin]. destruct Hin as [<-|[]]. exact Hw.
  - intros H. exists (Some v). split; [exact H|left; reflexivity].
Qed.

Lemma read_tables_some : forall ts name vs, read_tables ts name = Some vs ->
  (forall t, In t ts -> exists cells, id_column t name cells)
  /\ (forall v, In v vs <-> exists t cells, In t ts /\ id_column t name cells /\ In (Some v) cells).
Proof.
  induction ts as [|t ts IH]; intros name vs H; cbn [read_tables] in H.
  - injection H as <-. split; [intros t []|]. intros v. split; [intros []|]. intros (t & c & [] & _).
  - destruct (list_column t name) as [c|] eqn:Ec; [|discriminate].
    destruct (read_tables ts name) as [rest|] eqn:Er; [|discriminate]. injection H as <-.
    destruct (IH name rest Er) as [I1 I2]. apply list_column_some in Ec. split.
    + intros t' [<-|Ht]; eauto.
    + intros v. rewrite in_app_iff, present_In, I2. split.
      * intros [Hv|(t' & c' & H1 & H2 & H3)]; [exists t, c|exists t', c']; cbn; auto.
      * intros (t' & c' & [<-|H1] & H2 & H3); [left|right; eauto].
        apply list_column_some in Ec, H2. rewrite Ec in H2. injection H2 as ->. exact H3.
Qed.

Lemma read_filter_list_listed : forall ts name l, read_filter_list ts name = Some l -> listed ts name l.
Proof.
  intros [|t ts] name l H; cbn [read_filter_list] in H.
  - injection H as <-. left. auto.
  - destruct (read_tables (t :: ts) name) as [vs|] eqn:E; [|discriminate]. injection H as <-.
    right. split; [discriminate|]. exists vs. split; [reflexivity|]. apply read_tables_some. exact E.
Qed.

Lemma filter_set_build_lists : forall source name allow deny fs,
  filter_set_build source name allow deny = Some fs ->
  listed allow name (fset_allow fs) /\ listed deny name (fset_deny fs)
  /\ fset_path fs = match source with Some p => p | None => ppn_path end.
Proof.
  intros source name allow deny fs H. unfold filter_set_build in H.
  destruct (read_filter_list allow name) as [a|] eqn:Ea; [|discriminate].
  destruct (read_filter_list deny name) as [d|] eqn:Ed; [|discriminate]. injection H as <-. cbn.
  auto using read_filter_list_listed.
Qed.

(** a missing column is reported *)
Lemma filter_set_build_fails : forall source name allow deny,
  filter_set_build source name allow deny = None <->
  exists t, In t (allow ++ deny) /\ forall cells, ~ id_column t name cells.
Proof.
  assert (R : forall ts name, read_tables ts name = None <-> exists t, In t ts /\ forall cells, ~ id_column t name cells).
  { induction ts as [|t ts IH]; intros name; cbn [read_tables].
    - split; [discriminate|]. intros (t & [] & _).
    - destruct (list_column t name) as [c|] eqn:Ec.
      + assert (Hc := proj1 (list_column_some _ _ _) Ec).
        transitivity (read_tables ts name = None).
        { destruct (read_tables ts name); split; congruence. }
        rewrite IH. split.
        * intros (t' & H1 & H2). exists t'. cbn. auto.
        * intros (t' & [<-|H1] & H2); [destruct (H2 _ Hc)|eauto].
      + split; [|reflexivity]. intros _. exists t. split; [left; reflexivity|]. intros cells Hc.
        apply list_column_some in Hc. congruence. }
  assert (L : forall ts name, read_filter_list ts name = None <-> exists t, In t ts /\ forall cells, ~ id_column t name cells).
  { intros [|t ts] name; cbn [read_filter_list].
    - split; [discriminate|]. intros (t & [] & _).
    - rewrite <- R. destruct (read_tables (t :: ts) name); split; congruence. }
  intros source name allow deny. unfold filter_set_build.
  transitivity (read_filter_list allow name = None \/ read_filter_list deny name = None).
  - destruct (read_filter_list allow name); [destruct (read_filter_list deny name)|]; intuition congruence.
  - rewrite !L. split.
    + intros [(t & H1 & H2)|(t & H1 & H2)]; exists t; rewrite in_app_iff; auto.
    + intros (t & H1 & H2). apply in_app_iff in H1 as [H1|H1]; [left|right]; eauto.
Qed.

Lemma filter_set_empty_allow : forall Od fs r, fset_wf Od fs -> fset_allow fs = Some [] ->
  filter_set_check Od fs r = Some false.
Proof.
  intros Od fs r W E. destruct (decides_cases _ _ (filter_set_decides Od fs W r)) as [[_ H]|[H _]]; [|exact H].
  destruct H as (vs & _ & _ & Ha). destruct (Ha [] E) as (v & _ & []).
Qed.

(** the lists and the path decide, whatever the fields *)
Lemma filter_set_exact : forall Od fs r, fset_wf Od fs ->
  exists b, filter_set_check Od fs r = Some b /\ (b = true <-> admitted Od fs r).
Proof. intros Od fs r W. exact (filter_set_decides Od fs W r). Qed.

(** ** --invert-match *)

Definition with_invert (c : filter_cmd) (b : bool) : filter_cmd :=
  mkFilter (fc_fset c) (fc_matcher c) (fc_ci c) b (fc_discard c) (fc_keep c) (fc_limit c).

Lemma chosen_split : forall (P A B : record -> Prop) l adm sel1 sel2,
  (forall r, A r \/ ~ A r) ->
  (forall r, A r <-> P r /\ ~ B r) -> (forall r, B r -> P r) ->
  chosen P l adm -> chosen A l sel1 -> chosen B l sel2 -> Split adm sel1 sel2.
Proof.
  intros P A B l adm sel1 sel2 Dec HA HB H. revert sel1 sel2.
  induction H as [|r l adm HP H IH|r l adm HP H IH]; intros sel1 sel2 H1 H2; unfold chosen in *.
  - inversion H1; inversion H2; subst. constructor.
  - inversion H1 as [|? ? o1 P1 K1|? ? o1 P1 K1]; inversion H2 as [|? ? o2 P2 K2|? ? o2 P2 K2]; subst.
    + exfalso. apply HA in P1. tauto.
    + constructor. auto.
    + constructor. auto.
    + exfalso. apply P1. apply HA. tauto.
  - inversion H1 as [|? ? o1 P1 K1|? ? o1 P1 K1]; subst; [exfalso; apply HP; apply HA in P1; tauto|].
    inversion H2 as [|? ? o2 P2 K2|? ? o2 P2 K2]; subst; [exfalso; apply HP; auto|]. auto.
Qed.

Lemma filter_invert : forall O Od skip c files, filter_wf O Od c -> fc_limit c = 0 ->
  exists all e adm recs1 recs2 texts1 texts2,
    reads skip files all e
    /\ chosen (admitted Od (fc_fset c)) all adm
    /\ Split adm recs1 recs2
    /\ Forall2 (edited_text c) recs1 texts1
    /\ Forall2 (edited_text c) recs2 texts2
    /\ filter_run O Od skip (with_invert c true) files
       = Some (ended (N.of_nat (length recs1), concat texts1, concat texts1) e)
    /\ filter_run O Od skip (with_invert c false) files
       = Some (ended (N.of_nat (length recs2), concat texts2, concat texts2) e).
Proof.
  intros O Od skip c files W L.
  destruct (filter_exact O Od skip (with_invert c true) files W)
    as (all & e0 & sel & recs & e & texts & H1 & H2 & H3 & H4 & H5).
  destruct (filter_exact O Od skip (with_invert c false) files W)
    as (all' & e0' & sel' & recs' & e' & texts' & K1 & K2 & K3 & K4 & K5).
  destruct (reads_fun _ _ _ _ H1 _ _ K1) as [<- <-].
  cbn [fc_limit with_invert] in H3, K3. rewrite L in H3, K3.
  destruct H3 as [(_ & -> & ->)|(H & _)]; [|lia]. destruct K3 as [(_ & -> & ->)|(H & _)]; [|lia].
  destruct W as [Wf Wm].
  assert (Df : forall r, admitted Od (fc_fset c) r \/ ~ admitted Od (fc_fset c) r).
  { intros r. destruct (decides_cases _ _ (filter_set_decides Od (fc_fset c) Wf r)) as [[_ H]|[_ H]]; auto. }
  assert (Dm : forall r, fm_holds O (fc_ci c) (fc_matcher c) r \/ ~ fm_holds O (fc_ci c) (fc_matcher c) r).
  { intros r. destruct (decides_cases _ _ (fm_decides O (fc_ci c) (fc_matcher c) r Wm)) as [[_ H]|[_ H]]; auto. }
  destruct (chosen_exists (filter_set_check Od (fc_fset c)) (admitted Od (fc_fset c))
              (filter_set_decides Od (fc_fset c) Wf) all) as [adm Hadm].
  exists all, e0, adm, sel, sel', texts, texts'.
  split; [exact H1|]. split; [exact Hadm|]. split.
  - eapply chosen_split with (P := admitted Od (fc_fset c)); [| | |exact Hadm|exact H2|exact K2];
      unfold filter_holds; cbn [fc_fset fc_matcher fc_ci fc_invert with_invert].
    + intros r. destruct (Df r); destruct (Dm r); tauto.
    + intros r. tauto.
    + intros r. tauto.
  - split; [exact H4|]. split; [exact K4|]. split; [exact H5|exact K5].
Qed.

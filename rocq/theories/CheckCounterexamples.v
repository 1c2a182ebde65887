(** * Where the checks deviate from what they are meant to report *)

From Coq Require Import String Permutation.
From Verif Require Import Bytes Winnow RecordModel RecordSpec BaseProofs TagOccModel ByteRecordModel ByteRecordSpec ReaderModel
  MatcherModel MatcherSpec PathModel FmtModel QueryModel QuerySpec QueryProofs CliModel CliSpec CliProofs CliChunkProofs
  TableSpec TableProofs ConvertCounterexamples CheckCodes CheckModel CheckSpec CheckProofs CheckVerdictProofs CheckRunProofs.

(** "012A.a" *)
Definition cx_path : path := mkPath (TMTag (lit "012A")) OMNone None [lit "a"] (lit "012A.a").

Lemma cx_path_wf : forall O ci, opt_sm_wf O ci (p_sub cx_path).
Proof. intros. exact I. Qed.

Lemma cx_values : forall O ci v, path_lists O ci cx_path [cx_field "012A" None v] [v].
Proof.
  intros O ci v. destruct (record_path_lists O ci cx_path [cx_field "012A" None v] I) as (vs & H1 & H2).
  replace [v] with vs; [exact H2|]. cbn in H1. congruence.
Qed.

Lemma characters_filter : forall b, characters b (filter (fun c => 48 <=? c) b).
Proof.
  intros b. unfold characters. pose proof (picks_filter byte byte (fun c => 48 <= c) (fun c => c) (fun c => 48 <=? c) b) as K.
  rewrite map_id in K. apply K. intros x _. apply N.leb_le.
Qed.

Lemma all_digits : forall ds, forallb (fun c => (48 <=? c) && (c <=? 57)) ds = true -> Forall digit ds.
Proof.
  intros ds H. rewrite forallb_forall in H. apply Forall_forall. intros x Hx. apply H in Hx.
  apply Bool.andb_true_iff in Hx as [H1 H2]. apply N.leb_le in H1. apply N.leb_le in H2. apply digit_iff. auto.
Qed.

(** 16 characters that are no ISNI are accepted *)
Lemma isni_letters : forall T lossy freq_order O ci, exists p r v, path_lists O ci p r [v] /\ ~ is_isni v
  /\ run_check T lossy freq_order (CkIsni O ci p None) r = Some (false, None).
Proof.
  intros T lossy freq_order O ci. set (v := lit ";000000000000001").
  exists cx_path, [cx_field "012A" None v], v. split; [apply cx_values|]. split.
  - intros (ds & c & n & H & L & F & _).
    assert (E : ds ++ [c] = lit ";00000000000000" ++ [49]).
    { eapply picks_fun; [exact H|]. apply (characters_filter v). }
    apply app_inj_tail in E as [-> _]. apply Forall_inv in F. vm_compute in F. intuition discriminate.
  - vm_compute. reflexivity.
Qed.

(** an ISNI with its last two characters swapped is accepted *)
Lemma isni_swapped_x : exists b b' l a, is_isni b /\ characters b (l ++ [a; 88]) /\ characters b' (l ++ [88; a])
  /\ ~ is_isni b' /\ isni_reports None b' = false.
Proof.
  exists (lit "000000000000044X"), (lit "00000000000004X4"), (lit "00000000000004"), 52.
  assert (C : forall l, characters (lit l) (filter (fun c => 48 <=? c) (lit l))) by (intros; apply characters_filter).
  split; [|split; [exact (C "000000000000044X"%string)|split; [exact (C "00000000000004X4"%string)|split; [|reflexivity]]]].
  - exists (lit "000000000000044"), 88, 10. split; [exact (C "000000000000044X"%string)|]. split; [reflexivity|].
    split; [apply all_digits; reflexivity|]. split; [right; auto|reflexivity].
  - intros (ds & c & n & H & L & F & _).
    assert (E : ds ++ [c] = lit "00000000000004X" ++ [52]) by (eapply picks_fun; [exact H|exact (C "00000000000004X4"%string)]).
    apply app_inj_tail in E as [-> _]. rewrite Forall_forall in F. specialize (F 88).
    assert (X : digit 88) by (apply F; vm_compute; repeat (first [left; reflexivity|right])).
    apply digit_iff in X. lia.
Qed.

(** an empty value that is not on the list is not reported *)
Lemma list_empty : forall T lossy freq_order O ci, (forall v, lossy v = [] <-> v = []) ->
  exists p allowed r, path_lists O ci p r [[]] /\ ~ In [] allowed
    /\ run_check T lossy freq_order (CkAllow O ci p allowed) r = Some (false, None).
Proof.
  intros T lossy freq_order O ci Hl. exists cx_path, [lit "x"], [cx_field "012A" None []].
  split; [apply cx_values|]. split; [intros [X|[]]; discriminate|].
  destruct (list_check_verdict lossy Hl O ci cx_path [lit "x"] [cx_field "012A" None []] I) as (vs & v & H1 & (l & H2 & H3) & H4).
  cbn [run_check]. rewrite H4. rewrite (path_lists_fun _ _ _ _ _ H1 _ (cx_values O ci [])) in H2.
  assert (l = [[]]).
  { eapply picks_fun; [exact H2|]. apply (picks_yes (fun x => ~ In x [lit "x"]) (fun x => x)); [intros [X|[]]; discriminate|constructor]. }
  destruct H3 as [[_ ->]|(_ & N2 & _)]; [reflexivity|contradiction].
Qed.

(** "012A{a,b}" *)
Definition cx_query : query :=
  mkQuery [QPath (mkPath (TMTag (lit "012A")) OMNone None [lit "a"; lit "b"] (lit "012A{a,b}"))] (lit "012A{a,b}").

(** two different rows with the same text *)
Lemma duplicates_collision : forall T lossy freq_order O ci,
  lossy (lit "x|y") = lit "x|y" -> lossy (lit "y|z") = lit "y|z" -> lossy (lit "x") = lit "x" -> lossy (lit "z") = lit "z" ->
  exists q r rows msg, query_wf O (qoptions ci) q /\ query_rows O T (qoptions ci) q (mkBR None r) rows /\ NoDup rows
    /\ run_check T lossy freq_order (CkDuplicates O ci q 2 (lit "|")) r = Some (true, Some msg).
Proof.
  intros T lossy freq_order O ci L1 L2 L3 L4.
  set (r := [mkField (lit "012A") None [mkSubfield 97 (lit "x|y"); mkSubfield 98 (lit "z")];
             mkField (lit "012A") None [mkSubfield 97 (lit "x"); mkSubfield 98 (lit "y|z")]]).
  assert (W : query_wf O (qoptions ci) cx_query) by (split; [discriminate|]; repeat constructor; discriminate).
  destruct (query_rows_exist O T (qoptions ci) cx_query (mkBR None r) W) as (rows & H1 & H2 & _).
  assert (E : rows = [[lit "x|y"; lit "z"]; [lit "x"; lit "y|z"]]).
  { vm_compute in H1. injection H1 as <-. reflexivity. }
  subst rows.
  exists cx_query, r, [[lit "x|y"; lit "z"]; [lit "x"; lit "y|z"]]. eexists.
  split; [exact W|]. split; [exact H2|].
  split; [constructor; [intros [X|[]]; discriminate|constructor; [intros []|constructor]]|].
  cbn [run_check]. unfold dup_check. change (mkQueryOptions ci (lit "|") false false) with (qoptions ci).
  cbn [br_record] in H1. rewrite H1. unfold dup_freqs. cbn [fold_left map]. rewrite L1, L2, L3, L4. reflexivity.
Qed.

(** an empty dangling reference is not reported *)
Definition cx_link_line : bytes := lit "003@ " ++ [31] ++ lit "01" ++ [30] ++ lit "012A " ++ [31] ++ lit "a" ++ [30; 10].
Definition cx_link_record : record :=
  [mkField (lit "003@") None [mkSubfield 48 (lit "1")]; mkField (lit "012A") None [mkSubfield 97 []]].

Lemma link_empty : forall T lossy freq_order unseen_order O Od, (forall v, lossy v = [] <-> v = []) ->
  (forall l, Permutation (freq_order l) l) -> (forall l, Permutation (unseen_order l) l) ->
  exists source target files recs,
    let rs := mkRuleSet None false [mkRule (lit "L") (lit "error") None (CkLink O false source target None) no_links] in
    selects O Od false open_opts files [mkBR (Some cx_link_line) recs] None
    /\ dangling O false source target None [recs] [recs] (lit "1") [[]]
    /\ check_run Od T lossy freq_order unseen_order O false open_opts [rs] files = Some (Done []).
Proof.
  intros T lossy freq_order unseen_order O Od Hl Hf Hu.
  exists cx_path, ppn_path, [(lit "a.dat", cx_link_line)], cx_link_record. cbn zeta.
  set (rs := mkRuleSet None false [mkRule (lit "L") (lit "error") None (CkLink O false cx_path ppn_path None) no_links]).
  assert (Sel : selects O Od false open_opts [(lit "a.dat", cx_link_line)] [mkBR (Some cx_link_line) cx_link_record] None).
  { exists [mkBR (Some cx_link_line) cx_link_record], [mkBR (Some cx_link_line) cx_link_record], None. split; [|split].
    - exists ([(lit "a.dat", 1, cx_link_line)] ++ []). split.
      + apply (il_file (lit "a.dat") cx_link_line [] (lit "a.dat") [cx_link_line]).
        * right. split; [discriminate|reflexivity].
        * apply (lines_cons (removelast cx_link_line) [] []); [|constructor].
          intros X. vm_compute in X. repeat (destruct X as [X|X]; [discriminate X|]). exact X.
        * constructor. constructor.
        * constructor.
      + constructor; [|constructor]. apply RecordProofs.record_accept_iff. vm_compute. reflexivity.
    - apply (picks_yes (fun r => opts_hold O Od open_opts (br_record r)) (fun r => r)); [|constructor]. apply open_opts_hold.
    - left. split; [left; reflexivity|]. auto. }
  assert (Wl : check_wf (CkLink O false cx_path ppn_path None)) by (split; [exact I|split; [exact I|discriminate]]).
  assert (Dg : dangling O false cx_path ppn_path None [cx_link_record] [cx_link_record] (lit "1") [[]]).
  { apply dangling_iff; [exact Wl|]. vm_compute. reflexivity. }
  split; [exact Sel|]. split; [exact Dg|].
  destruct (check_exact Od T lossy Hl freq_order Hf unseen_order Hu O false open_opts [rs] [(lit "a.dat", cx_link_line)])
    as (recs & e & rowss & finals & H1 & H2 & H3 & H4).
  { apply open_opts_wf. }
  { constructor; [|constructor]. split; [discriminate|]. constructor; [|constructor]. split; [exact Wl|reflexivity]. }
  destruct (CliOutputProofs.selects_fun _ _ _ _ _ _ _ Sel _ _ H1) as [<- <-].
  rewrite H4. f_equal. f_equal.
  inversion H2 as [|? rows ? ? (parts & Hp & ->) H2']; subst. inversion H2'; subst.
  inversion Hp as [|? part ? ? Hset Hp']; subst. inversion Hp'; subst.
  assert (part = []).
  { destruct Hset as [[_ Hr]|[_ Hr]]; [|exact Hr]. cbn in Hr. inversion Hr as [|? ? ? Hv Hr'|? ? ? ? ? Hv|? ? ? ? Hv]; subst; try discriminate Hv.
    inversion Hr'. reflexivity. }
  subst part. inversion H3 as [|? fin ? ? Hfin H3']; subst. inversion H3'; subst.
  destruct Hfin as (fp & Hlen & Hnth & ->). destruct fp as [|f0 [|f1 fp]]; cbn in Hlen; try discriminate Hlen.
  specialize (Hnth 0%nat _ f0 eq_refl eq_refl). cbn in Hnth. destruct Hnth as (checked & out & Hc & [_ Ho] & ->).
  assert (checked = [cx_link_record]).
  { eapply picks_fun; [exact Hc|]. apply (picks_yes (reached Od T lossy rs 0) (fun r => r)); [|constructor].
    split; [discriminate|]. discriminate. }
  subst checked. destruct out as [|[id msg] out]; [reflexivity|]. exfalso.
  destruct (proj1 (Ho id msg) (or_introl eq_refl)) as (d & Hd & Nd1 & Nd2 & _).
  apply dangling_iff in Hd; [|exact Wl]. destruct (bytes_eqb (lit "1") id) eqn:Ei.
  - apply bytes_eqb_eq in Ei. subst id. apply Nd2. rewrite Hd. vm_compute. reflexivity.
  - apply Nd1. rewrite Hd. unfold refs_of. cbn [filter flat_map]. change (idb O cx_link_record) with (lit "1"). rewrite Ei. reflexivity.
Qed.

(** *** Consequences *)

Lemma isni_reports_app : forall prefix b, isni_reports prefix (opt_text prefix ++ b) = true <-> ~ isni_accepted b.
Proof.
  intros prefix b. rewrite isni_reports_iff. unfold isni_bad. split.
  - intros (rest & E & H). apply app_inv_head in E. congruence.
  - intros H. exists b. auto.
Qed.

Lemma isni_flagged : forall prefix b ds c, characters b (ds ++ [c]) -> Forall digit ds ->
  (isni_reports prefix (opt_text prefix ++ b) = true <-> ~ is_isni b).
Proof. intros prefix b ds c H F. rewrite isni_reports_app. rewrite (isni_shaped b ds c H F). tauto. Qed.

Lemma isni_never_flagged : forall prefix b, is_isni b -> isni_reports prefix (opt_text prefix ++ b) = false.
Proof.
  intros prefix b H. destruct (isni_reports _ _) eqn:E; [|reflexivity]. apply isni_reports_app in E.
  exfalso. apply E. apply is_isni_accepted. exact H.
Qed.

Lemma isni_other_prefix : forall prefix v, (forall b, v <> opt_text prefix ++ b) -> isni_reports prefix v = false.
Proof.
  intros prefix v H. destruct (isni_reports _ _) eqn:E; [|reflexivity]. apply isni_reports_iff in E as (rest & -> & _).
  exfalso. apply (H rest). reflexivity.
Qed.

Lemma single_error_flagged : forall prefix b b' l1 d d' l2, is_isni b ->
  characters b (l1 ++ d :: l2) -> characters b' (l1 ++ d' :: l2) -> d <> d' ->
  digit d' \/ (d' = 88 /\ l2 = []) -> isni_reports prefix (opt_text prefix ++ b') = true.
Proof. intros. apply isni_reports_app. eapply single_error; eassumption. Qed.

Lemma adjacent_swap_flagged : forall prefix b b' l1 d d' l2, is_isni b ->
  characters b (l1 ++ d :: d' :: l2) -> characters b' (l1 ++ d' :: d :: l2) -> d <> d' ->
  digit d' -> isni_reports prefix (opt_text prefix ++ b') = true.
Proof. intros. apply isni_reports_app. eapply adjacent_swap; eassumption. Qed.

Lemma list_flagged : forall T lossy, (forall v, lossy v = [] <-> v = []) ->
  forall freq_order, (forall l, Permutation (freq_order l) l) -> forall c O ci p allowed r vs bad,
  (c = CkAllow O ci p allowed \/ (c = CkIso639 O ci p /\ allowed = iso639_codes) \/ (c = CkJel O ci p /\ allowed = jel_codes)) ->
  opt_sm_wf O ci (p_sub p) -> path_lists O ci p r vs ->
  picks (fun x => ~ In x allowed) (fun x => x) vs bad -> bad <> [[]] ->
  exists flag msg, run_check T lossy freq_order c r = Some (flag, msg)
    /\ (flag = true <-> exists v, In v vs /\ ~ In v allowed)
    /\ (flag = true -> exists text, msg = Some text /\ joined (lit ", ") (map lossy bad) text).
Proof.
  intros T lossy Hl freq_order Hf c O ci p allowed r vs bad Hc W Hv Hb Nb.
  assert (Wc : check_wf c) by (destruct Hc as [->|[[-> _]|[-> _]]]; exact W).
  destruct (run_check_verdict T lossy Hl freq_order Hf c r Wc) as (v & V & E).
  assert (V' : exists vs, path_lists O ci p r vs /\ list_verdict lossy allowed vs v)
    by (destruct Hc as [->|[[-> ->]|[-> ->]]]; exact V).
  destruct V' as (vs' & Hv' & l & Hl' & D). rewrite (path_lists_fun _ _ _ _ _ Hv' _ Hv) in Hl'.
  assert (El : l = bad) by (eapply picks_fun; eassumption). subst l. clear vs' Hv' Hl' V.
  exists (fst (flag_of v)), (snd (flag_of v)). rewrite E. split; [destruct (flag_of v); reflexivity|].
  destruct D as [[[->|D] ->]|(N1 & _ & msg & Hm & ->)]; [|contradiction|]; cbn [flag_of fst snd].
  - split; [|discriminate]. split; [discriminate|]. intros (x & Hx & Nx).
    exfalso. exact (proj2 (picks_id_In _ _ _ _ Hb x) (conj Hx Nx)).
  - split; [|intros _; exists msg; auto]. split; [|reflexivity]. intros _.
    destruct bad as [|x bad]; [congruence|]. exists x. exact (proj1 (picks_id_In _ _ _ _ Hb x) (or_introl eq_refl)).
Qed.

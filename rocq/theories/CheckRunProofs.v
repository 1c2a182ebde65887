(** * Runs of the check command *)

From Coq Require Import String Permutation.
From Verif Require Import Bytes Winnow RecordModel RecordSpec BaseProofs TagOccModel Utf8Model Utf8Spec
  ByteRecordModel ReaderModel MatcherModel MatcherSpec MatcherProofs PathModel FmtModel QueryModel QuerySpec
  QueryProofs QueryExtraProofs CliModel CliSpec CliProofs TableSpec TableProofs CheckCodes CheckModel CheckSpec
  CheckProofs CheckVerdictProofs.

(** ** Total versions *)

Definition pth (O : oracles) (ci : bool) (p : path) (r : record) : list bytes :=
  match record_path O ci p r with Some vs => vs | None => [] end.
Definition idb (O : oracles) (r : record) : bytes :=
  match record_ppn O r with Some (Some p) => p | _ => [] end.
Definition holdsb (O : oracles) (ci : bool) (m : option field_matcher) (r : record) : bool :=
  match m with
  | Some m => match rm_is_match O ci m r with Some b => b | None => false end
  | None => true
  end.
Definition tgt (O : oracles) (ci : bool) (target : path) (m : option field_matcher) (r : record) : list bytes :=
  if holdsb O ci m r then pth O ci target r else [].

Lemma pth_some : forall O ci p r, opt_sm_wf O ci (p_sub p) ->
  record_path O ci p r = Some (pth O ci p r) /\ path_lists O ci p r (pth O ci p r).
Proof.
  intros O ci p r W. destruct (record_path_lists O ci p r W) as (vs & H1 & H2). unfold pth. rewrite H1. auto.
Qed.

Lemma holdsb_some : forall O ci m r, (forall fm, m = Some fm -> fm_wf O ci fm) ->
  (match m with Some m => rm_is_match O ci m r | None => Some true end) = Some (holdsb O ci m r)
  /\ (holdsb O ci m r = true <-> forall fm, m = Some fm -> fm_holds O ci fm r).
Proof.
  intros O ci [m|] r W; cbn.
  - destruct (fm_decides O ci m r (W m eq_refl)) as (b & H1 & H2). unfold rm_is_match. rewrite H1. split; [reflexivity|].
    rewrite H2. split; [intros H fm E; injection E as <-; exact H|auto].
  - split; [reflexivity|]. split; [intros _ fm E; discriminate|reflexivity].
Qed.

Lemma idb_spec : forall O r, record_id r (idb O r) /\ record_ppn O r <> None
  /\ exists ids, identifiers r ids /\ record_ppn O r = Some (hd_error ids).
Proof.
  intros O r. destruct (ppn_identifiers O r) as (ids & H1 & H2). unfold idb, record_id. rewrite H2.
  split; [|split; [discriminate|exists ids; auto]]. exists ids. split; [exact H1|]. destruct ids; reflexivity.
Qed.

Lemma record_id_fun : forall r a b, record_id r a -> record_id r b -> a = b.
Proof.
  intros r a b (i & H1 & ->) (j & H2 & ->). rewrite (identifiers_fun r i H1 j H2). reflexivity.
Qed.

(** ** The state of a link check *)

Definition lpre (c : check) (s : link_state) (r : record) : link_state :=
  match c with
  | CkLink Oc ci _ target m => mkLinkState (ls_unseen s) (ls_seen s ++ tgt Oc ci target m r)
  | _ => s
  end.
Definition lchk (c : check) (s : link_state) (r : record) : link_state :=
  match c with
  | CkLink Oc ci source _ _ =>
      mkLinkState (fold_left (fun m v => if mem_bytes v (ls_seen s) then m else unseen_add (idb Oc r) v m)
                     (pth Oc ci source r) (ls_unseen s)) (ls_seen s)
  | _ => s
  end.
Definition lstep (c : check) (reached : record -> bool) (s : link_state) (r : record) : link_state :=
  if reached r then lchk c (lpre c s r) r else lpre c s r.

Fixpoint look (k : bytes) (m : list (bytes * list bytes)) : list bytes :=
  match m with
  | [] => []
  | (k', vs) :: m' => if bytes_eqb k' k then vs else look k m'
  end.

Lemma look_add : forall k v m x, look x (unseen_add k v m) = if bytes_eqb k x then look x m ++ [v] else look x m.
Proof.
  intros k v. induction m as [|[k' vs] m IH]; intros x; cbn.
  - destruct (bytes_eqb k x); reflexivity.
  - destruct (bytes_eqb k' k) eqn:E; cbn.
    + apply bytes_eqb_eq in E. subst k'. destruct (bytes_eqb k x); reflexivity.
    + rewrite IH. destruct (bytes_eqb k' x) eqn:E1; [|reflexivity].
      destruct (bytes_eqb k x) eqn:E2; [|reflexivity]. apply bytes_eqb_eq in E1, E2. subst. rewrite bytes_eqb_refl in E. discriminate.
Qed.

Lemma unseen_keys : forall k v m x, In x (map fst (unseen_add k v m)) <-> x = k \/ In x (map fst m).
Proof.
  intros k v. induction m as [|[k' vs] m IH]; intros x; cbn; [intuition|].
  destruct (bytes_eqb k' k) eqn:E; cbn.
  - apply bytes_eqb_eq in E. subst. intuition.
  - rewrite IH. intuition.
Qed.

Lemma unseen_nodup : forall k v m, NoDup (map fst m) -> NoDup (map fst (unseen_add k v m)).
Proof.
  intros k v. induction m as [|[k' vs] m IH]; intros Nd; cbn; [repeat constructor; intros []|].
  cbn in Nd. inversion Nd as [|? ? N1 N2]; subst. destruct (bytes_eqb k' k) eqn:E; cbn; constructor; auto.
  rewrite unseen_keys. intros [->|H]; [|contradiction]. rewrite bytes_eqb_refl in E. discriminate.
Qed.

Lemma look_In : forall m k vs, NoDup (map fst m) -> In (k, vs) m -> look k m = vs.
Proof.
  induction m as [|[k' vs'] m IH]; intros k vs Nd H; [destruct H|]. cbn in Nd. inversion Nd as [|? ? N1 N2]; subst. cbn.
  destruct H as [E|H].
  - injection E as -> ->. rewrite bytes_eqb_refl. reflexivity.
  - destruct (bytes_eqb k' k) eqn:E; [|auto]. apply bytes_eqb_eq in E. subst. exfalso. apply N1. apply (in_map fst) in H. exact H.
Qed.

Lemma look_not_nil : forall m k, look k m <> [] -> In (k, look k m) m.
Proof.
  induction m as [|[k' vs'] m IH]; intros k H; cbn in *; [congruence|].
  destruct (bytes_eqb k' k) eqn:E; [|auto]. apply bytes_eqb_eq in E. subst. auto.
Qed.

Definition without (S vs : list bytes) : list bytes := filter (fun v => negb (mem_bytes v S)) vs.

Lemma without_app : forall S a b, without S (a ++ b) = without S a ++ without S b.
Proof. intros. apply filter_app. Qed.

Lemma add_values : forall S0 k vs m x S, incl S0 S -> NoDup (map fst m) ->
  let m' := fold_left (fun m v => if mem_bytes v S0 then m else unseen_add k v m) vs m in
  NoDup (map fst m')
  /\ without S (look x m') = without S (look x m) ++ (if bytes_eqb k x then without S vs else []).
Proof.
  intros S0 k vs m x S HS. revert m. induction vs as [|v vs IH]; intros m Nd; cbn [fold_left].
  - split; [exact Nd|]. destruct (bytes_eqb k x); cbn; rewrite app_nil_r; reflexivity.
  - destruct (mem_bytes v S0) eqn:E.
    + destruct (IH m Nd) as [I1 I2]. split; [exact I1|]. cbn zeta in I2. rewrite I2. destruct (bytes_eqb k x); [|reflexivity].
      f_equal. unfold without at 2. cbn [filter].
      assert (mem_bytes v S = true) as -> by (apply mem_bytes_In; apply HS; apply mem_bytes_In; exact E). reflexivity.
    + destruct (IH (unseen_add k v m) (unseen_nodup k v m Nd)) as [I1 I2]. split; [exact I1|]. cbn zeta in I2. rewrite I2, look_add.
      destruct (bytes_eqb k x); [|reflexivity]. rewrite without_app, <- app_assoc, <- without_app. reflexivity.
Qed.

Section Link.
  Variables (O : oracles) (ci : bool) (source target : path) (m : option field_matcher).
  Let c := CkLink O ci source target m.

  Definition refs_of (reached : record -> bool) (id : bytes) (recs : list record) : list bytes :=
    flat_map (fun r => if bytes_eqb (idb O r) id then pth O ci source r else []) (filter reached recs).

  Lemma link_invariant : forall reached recs,
    let s := fold_left (lstep c reached) recs no_links in
    ls_seen s = flat_map (tgt O ci target m) recs
    /\ NoDup (map fst (ls_unseen s))
    /\ forall id S, incl (ls_seen s) S -> without S (look id (ls_unseen s)) = without S (refs_of reached id recs).
  Proof.
    intros reached recs. induction recs as [|r recs IH] using rev_ind.
    - cbn. repeat split. constructor.
    - rewrite fold_left_app. cbn [fold_left]. set (s := fold_left (lstep c reached) recs no_links) in *. cbn zeta in IH.
      destruct IH as (I1 & I2 & I3). unfold refs_of. rewrite flat_map_app. cbn [flat_map]. rewrite app_nil_r.
      unfold lstep. rewrite filter_app. cbn [filter]. destruct (reached r).
      + cbn [lchk lpre ls_seen ls_unseen c]. split; [rewrite I1; reflexivity|].
        pose proof (fun x S HS => add_values (ls_seen s ++ tgt O ci target m r) (idb O r) (pth O ci source r) (ls_unseen s) x S HS I2) as A.
        cbn zeta in A. split; [apply (A [] _ (incl_refl _))|]. intros id S HS. rewrite (proj2 (A id S HS)).
        rewrite flat_map_app, without_app. rewrite I3 by (intros z Hz; apply HS; apply in_or_app; auto).
        unfold refs_of. cbn [flat_map]. rewrite app_nil_r. destruct (bytes_eqb (idb O r) id); reflexivity.
      + cbn [lpre ls_seen ls_unseen c]. split; [rewrite I1; reflexivity|]. split; [exact I2|]. intros id S HS.
        rewrite app_nil_r. apply I3. intros z Hz. apply HS. apply in_or_app. auto.
  Qed.

  Hypothesis W : check_wf c.

  Lemma is_target_iff : forall recs v, is_target O ci target m recs v <-> In v (flat_map (tgt O ci target m) recs).
  Proof.
    intros recs v. destruct W as (_ & Wt & Wm). unfold is_target. rewrite in_flat_map. unfold tgt. split.
    - intros (r & vs & H1 & H2 & H3 & H4). exists r. split; [exact H1|].
      rewrite (proj2 (proj2 (holdsb_some O ci m r Wm)) H4).
      rewrite (path_lists_fun O ci _ _ _ (proj2 (pth_some O ci target r Wt)) _ H2). exact H3.
    - intros (r & H1 & H2). exists r, (pth O ci target r). destruct (holdsb O ci m r) eqn:E; [|destruct H2].
      split; [exact H1|]. split; [apply pth_some; exact Wt|]. split; [exact H2|]. apply (holdsb_some O ci m r Wm). exact E.
  Qed.

  Lemma references_refs : forall recs id, references O ci source recs id (refs_of (fun _ => true) id recs).
  Proof.
    intros recs id. destruct W as (Ws & _ & _). unfold refs_of.
    assert (filter (fun _ : record => true) recs = recs) as -> by (clear; induction recs; cbn; congruence).
    exists (filter (fun r => bytes_eqb (idb O r) id) recs), (map (pth O ci source) (filter (fun r => bytes_eqb (idb O r) id) recs)).
    split; [|split].
    - pose proof (picks_filter record record (fun r => record_id r id) (fun r => r) (fun r => bytes_eqb (idb O r) id) recs) as K.
      rewrite map_id in K. apply K. intros r _. rewrite bytes_eqb_eq. split.
      + intros <-. apply idb_spec.
      + intros H. eapply record_id_fun; [apply idb_spec|exact H].
    - generalize (filter (fun r => bytes_eqb (idb O r) id) recs) as l. induction l; cbn; constructor; auto.
      apply pth_some. exact Ws.
    - rewrite <- flat_map_concat_map. induction recs as [|r recs IH]; [reflexivity|]. cbn. rewrite IH.
      destruct (bytes_eqb (idb O r) id); reflexivity.
  Qed.

  Lemma references_fun : forall recs id a b, references O ci source recs id a -> references O ci source recs id b -> a = b.
  Proof.
    intros recs id a b (rs & vss & H1 & H2 & ->) (rs' & vss' & H1' & H2' & ->).
    assert (rs = rs') by (eapply picks_fun; eassumption). subst rs'. f_equal.
    refine (Forall2_det _ _ (path_lists O ci source) _ _ _ _ H2 H2'). intros x y z Hy Hz. eapply path_lists_fun; [exact Hy|exact Hz].
  Qed.

  Lemma dangling_iff : forall recs checked id d, dangling O ci source target m recs checked id d <->
    d = without (flat_map (tgt O ci target m) recs) (refs_of (fun _ => true) id checked).
  Proof.
    intros recs checked id d.
    assert (P : forall refs, picks (fun v => ~ is_target O ci target m recs v) (fun v => v) refs
                  (without (flat_map (tgt O ci target m) recs) refs)).
    { intros refs. pose proof (picks_filter bytes bytes (fun v => ~ is_target O ci target m recs v) (fun r => r)
        (fun v => negb (mem_bytes v (flat_map (tgt O ci target m) recs))) refs) as K. rewrite map_id in K. apply K.
      intros x _. rewrite is_target_iff, <- mem_bytes_In, Bool.negb_true_iff. destruct (mem_bytes _ _); split; congruence. }
    split.
    - intros (refs & H1 & H2). rewrite (references_fun _ _ _ _ H1 (references_refs checked id)) in H2.
      eapply picks_fun; [exact H2|apply P].
    - intros ->. exists (refs_of (fun _ => true) id checked). split; [apply references_refs|apply P].
  Qed.

  Variable lossy : bytes -> bytes.
  Hypothesis lossy_nil : forall v, lossy v = [] <-> v = [].
  Variable unseen_order : list (bytes * list bytes) -> list (bytes * list bytes).
  Hypothesis unseen_perm : forall l, Permutation (unseen_order l) l.

  Lemma link_finish_reports : forall reached recs,
    link_reports lossy O ci source target m recs (filter reached recs)
      (link_finish lossy unseen_order (fold_left (lstep c reached) recs no_links)).
  Proof.
    intros reached recs. destruct (link_invariant reached recs) as (I1 & I2 & I3). cbn zeta in *.
    set (s := fold_left (lstep c reached) recs no_links) in *.
    assert (Nd : NoDup (map fst (unseen_order (ls_unseen s)))).
    { eapply Permutation_NoDup; [apply Permutation_map; apply Permutation_sym; apply unseen_perm|exact I2]. }
    change (link_finish lossy unseen_order s) with (flat_map (fun e : bytes * list bytes =>
        match message_of lossy (without (ls_seen s) (snd e)) with [] => [] | message => [(fst e, message)] end)
        (unseen_order (ls_unseen s))).
    assert (F : forall id msg, In (id, msg) (flat_map (fun e : bytes * list bytes =>
        match message_of lossy (without (ls_seen s) (snd e)) with [] => [] | message => [(fst e, message)] end)
        (unseen_order (ls_unseen s))) <->
      msg <> [] /\ msg = message_of lossy (without (ls_seen s) (look id (ls_unseen s)))).
    { intros id msg. rewrite in_flat_map. split.
      - intros ([k vs] & H1 & H2). cbn [fst snd] in H2. apply (Permutation_in _ (unseen_perm _)) in H1.
        destruct (message_of lossy (without (ls_seen s) vs)) eqn:E; [destruct H2|]. destruct H2 as [H2|[]]. injection H2 as <- <-.
        rewrite (look_In _ _ _ I2 H1). split; [discriminate|congruence].
      - intros [H1 ->]. assert (Hl : look id (ls_unseen s) <> []) by (intros E; rewrite E in H1; apply H1; reflexivity).
        exists (id, look id (ls_unseen s)). split.
        + apply (Permutation_in _ (Permutation_sym (unseen_perm _))). apply look_not_nil. exact Hl.
        + cbn [fst snd]. destruct (message_of lossy (without (ls_seen s) (look id (ls_unseen s)))); [congruence|cbn; auto]. }
    split.
    - clear F. induction (unseen_order (ls_unseen s)) as [|[k vs] l IH]; cbn [flat_map map fst snd]; [constructor|].
      cbn in Nd. inversion Nd as [|? ? N1 N2]; subst. rewrite map_app.
      assert (N1' : ~ In k (map fst (flat_map (fun e : bytes * list bytes =>
        match message_of lossy (without (ls_seen s) (snd e)) with [] => [] | message => [(fst e, message)] end) l))).
      { intros X. apply N1. apply in_map_iff in X as (e & <- & X). apply in_flat_map in X as (e' & X1 & X2).
        destruct (message_of lossy (without (ls_seen s) (snd e'))); [destruct X2|]. destruct X2 as [<-|[]]. cbn. apply in_map. exact X1. }
      destruct (message_of lossy (without (ls_seen s) vs)); cbn; [auto|]. constructor; auto.
    - intros id msg. etransitivity; [apply F|].
      assert (Ed : without (ls_seen s) (look id (ls_unseen s))
                   = without (flat_map (tgt O ci target m) recs) (refs_of (fun _ => true) id (filter reached recs))).
      { rewrite <- I1. rewrite I3 by apply incl_refl. f_equal. unfold refs_of. f_equal. clear. induction recs; cbn; [reflexivity|].
        destruct (reached a); cbn; congruence. }
      rewrite Ed. clear Ed. set (d := without (flat_map (tgt O ci target m) recs) (refs_of (fun _ => true) id (filter reached recs))).
      split.
      + intros [H1 H2]. exists d. split; [apply dangling_iff; reflexivity|].
        assert (D : ~ (d = [] \/ d = [[]])) by (rewrite <- (message_nil lossy lossy_nil); congruence).
        split; [tauto|]. split; [tauto|]. rewrite H2. apply message_names. tauto.
      + intros (d' & H1 & H2 & H3 & H4). apply dangling_iff in H1. change (d' = d) in H1. clearbody d. subst d'.
        assert (E : msg = message_of lossy d) by (apply joined_join; exact H4). split; [|exact E].
        rewrite E. intros X. apply (message_nil lossy lossy_nil) in X. tauto.
  Qed.
End Link.

(** ** Rules *)

Definition with_state (ru : rule) (s : link_state) : rule :=
  mkRule (ru_id ru) (ru_level ru) (ru_tags ru) (ru_check ru) s.

Section Run.
  Variable Od : oracles.
  Variable T : text_fns.
  Variable lossy : bytes -> bytes.
  Hypothesis lossy_nil : forall v, lossy v = [] <-> v = [].
  Variable freq_order : list (bytes * N) -> list (bytes * N).
  Hypothesis freq_perm : forall l, Permutation (freq_order l) l.
  Variable unseen_order : list (bytes * list bytes) -> list (bytes * list bytes).
  Hypothesis unseen_perm : forall l, Permutation (unseen_order l) l.

  Definition res (c : check) (r : record) : bool * option bytes :=
    match run_check T lossy freq_order c r with Some x => x | None => (false, None) end.
  Definition flagged (c : check) (r : record) : bool := fst (res c r).

  Lemma res_verdict : forall c r, check_wf c ->
    run_check T lossy freq_order c r = Some (res c r)
    /\ (flagged c r = false -> verdict T lossy c r None)
    /\ (flagged c r = true -> verdict T lossy c r (Some (snd (res c r)))).
  Proof.
    intros c r W. destruct (run_check_verdict T lossy lossy_nil freq_order freq_perm c r W) as (v & H1 & H2).
    unfold flagged, res. rewrite H2. split; [reflexivity|]. destruct v as [m|]; cbn; split; try discriminate; auto.
  Qed.

  Lemma flagged_iff : forall c r, check_wf c -> (flagged c r = false <-> verdict T lossy c r None).
  Proof.
    intros c r W. destruct (res_verdict c r W) as (_ & H1 & H2). split; [exact H1|]. intros H.
    destruct (flagged c r); [|reflexivity]. exfalso. eapply verdict_excl; eauto.
  Qed.

  Definition ppnb (r : record) : option bytes := match record_ppn Od r with Some p => p | None => None end.

  Lemma ppnb_some : forall r, record_ppn Od r = Some (ppnb r).
  Proof. intros r. unfold ppnb. destruct (ppn_identifiers Od r) as (ids & _ & ->). reflexivity. Qed.
  Lemma ppnb_ids : forall r, exists ids, identifiers r ids /\ ppnb r = hd_error ids.
  Proof. intros r. unfold ppnb. destruct (ppn_identifiers Od r) as (ids & H & ->). eauto. Qed.

  Definition row_of (ru : rule) (r : record) : check_row :=
    mkRow (ppnb r) (ru_id ru) (ru_level ru) (snd (res (ru_check ru) r)).

  Definition pre_rule (r : record) (ru : rule) : rule := with_state ru (lpre (ru_check ru) (ru_state ru) r).

  Lemma rule_preprocess_pure : forall ru r, check_wf (ru_check ru) -> rule_preprocess ru r = Some (pre_rule r ru).
  Proof.
    intros [id lv tg c s] r W. unfold rule_preprocess, pre_rule, with_state. cbn [ru_check ru_id ru_level ru_tags ru_state] in *.
    destruct c as [O ci p l|O ci p f off|O ci q th sep|O ci m inv|O ci p pre|O ci p|O ci p|O ci sr t m|nf]; try reflexivity.
    destruct W as (_ & Wt & Wm). unfold link_preprocess. rewrite (proj1 (pth_some O ci t r Wt)).
    unfold lpre, tgt. destruct (holdsb_some O ci m r Wm) as [-> _].
    destruct (pth O ci t r) as [|v vs]; cbn.
    - destruct s as [u sn]. cbn. destruct (holdsb O ci m r); rewrite app_nil_r; reflexivity.
    - destruct (holdsb O ci m r); [reflexivity|]. destruct s as [u sn]. cbn. rewrite app_nil_r. reflexivity.
  Qed.

  Lemma rule_check_pure : forall ru r, check_wf (ru_check ru) ->
    rule_check Od T lossy freq_order ru r
    = Some (with_state ru (lchk (ru_check ru) (ru_state ru) r),
            if flagged (ru_check ru) r then Some (row_of ru r) else None).
  Proof.
    intros [id lv tg c s] r W. unfold rule_check, with_state, row_of. cbn [ru_check ru_id ru_level ru_tags ru_state] in *.
    destruct (res_verdict c r W) as (E & _). rewrite E, ppnb_some. unfold flagged.
    assert (X : (match c with
       | CkLink Oc ci source _ _ =>
           do s0 <- link_check Oc ci source s r;
           Some (mkRule id lv tg c s0)
       | _ => Some (mkRule id lv tg c s) end) = Some (mkRule id lv tg c (lchk c s r))).
    { destruct c as [O ci p l|O ci p f off|O ci q th sep|O ci m inv|O ci p pre|O ci p|O ci p|O ci sr t m|nf]; try reflexivity.
      destruct W as (Ws & _ & _). unfold link_check, lchk, idb. destruct (ppn_identifiers O r) as (ids & _ & ->).
      rewrite (proj1 (pth_some O ci sr r Ws)). reflexivity. }
    rewrite X. destruct (res c r) as [[|] msg]; reflexivity.
  Qed.

  (** *** Rule sets *)

  Definition scopeb (rs : rule_set) (r : record) : bool := holdsb Od false (rs_scope rs) r.
  Definition silent (rules : list rule) (r : record) : bool := forallb (fun ru => negb (flagged (ru_check ru) r)) rules.
  Definition reachedb (rs : rule_set) (before : list rule) (r : record) : bool :=
    scopeb rs r && (negb (rs_fast rs) || silent before r).

  (** the rules after some records *)
  Fixpoint rules_after (rs : rule_set) (before rules : list rule) (recs : list record) : list rule :=
    match rules with
    | [] => []
    | ru :: rest =>
        with_state ru (fold_left (lstep (ru_check ru) (reachedb rs before)) recs (ru_state ru))
        :: rules_after rs (before ++ [ru]) rest recs
    end.

  Fixpoint rows_of_rules (fast : bool) (rules : list rule) (r : record) : list check_row :=
    match rules with
    | [] => []
    | ru :: rest =>
        if flagged (ru_check ru) r then row_of ru r :: (if fast then [] else rows_of_rules fast rest r)
        else rows_of_rules fast rest r
    end.

  Lemma silent_app : forall a b r, silent (a ++ b) r = silent a r && silent b r.
  Proof. intros. apply forallb_app. Qed.

  Lemma not_reached : forall rs rules before recs r, reachedb rs before r = false ->
    map (pre_rule r) (rules_after rs before rules recs) = rules_after rs before rules (recs ++ [r]).
  Proof.
    intros rs. induction rules as [|ru rest IH]; intros before recs r H; [reflexivity|]. cbn [rules_after map]. f_equal.
    - rewrite fold_left_app. cbn [fold_left].
      set (st := fold_left (lstep (ru_check ru) (reachedb rs before)) recs (ru_state ru)).
      unfold lstep. rewrite H. reflexivity.
    - apply IH. unfold reachedb in *. rewrite silent_app. destruct (scopeb rs r), (rs_fast rs), (silent before r); cbn in *; congruence.
  Qed.

  Lemma rules_check_step : forall rs r, scopeb rs r = true -> forall rules before recs,
    Forall (fun ru => check_wf (ru_check ru)) rules -> reachedb rs before r = true ->
    rules_check Od T lossy freq_order (rs_fast rs) (map (pre_rule r) (rules_after rs before rules recs)) r
    = Some (rules_after rs before rules (recs ++ [r]), rows_of_rules (rs_fast rs) rules r).
  Proof.
    intros rs r Sc. induction rules as [|ru rest IH]; intros before recs F Hr; [reflexivity|].
    inversion F as [|? ? F1 F2]; subst. cbn [rules_after map rules_check rows_of_rules].
    set (st := fold_left (lstep (ru_check ru) (reachedb rs before)) recs (ru_state ru)).
    rewrite rule_check_pure by exact F1.
    change (ru_check (pre_rule r (with_state ru st))) with (ru_check ru).
    change (row_of (pre_rule r (with_state ru st)) r) with (row_of ru r).
    assert (E : with_state (pre_rule r (with_state ru st)) (lchk (ru_check ru) (ru_state (pre_rule r (with_state ru st))) r)
                = with_state ru (fold_left (lstep (ru_check ru) (reachedb rs before)) (recs ++ [r]) (ru_state ru))).
    { rewrite fold_left_app. cbn [fold_left]. fold st. unfold lstep. rewrite Hr. reflexivity. }
    rewrite E. destruct (flagged (ru_check ru) r) eqn:Fl.
    - destruct (rs_fast rs) eqn:Ff.
      + rewrite not_reached; [reflexivity|]. unfold reachedb. rewrite silent_app, Ff. cbn. rewrite Fl. cbn.
        rewrite !Bool.andb_false_r. reflexivity.
      + rewrite <- Ff in IH |- * . rewrite IH; [rewrite Ff; reflexivity|exact F2|]. unfold reachedb in *. rewrite Ff in *. exact Hr.
    - rewrite IH; [reflexivity|exact F2|]. unfold reachedb in *. rewrite silent_app. cbn. rewrite Fl. cbn. rewrite Bool.andb_true_r. exact Hr.
  Qed.

  Lemma map_opt_pure : forall A B (f : A -> option B) g l, Forall (fun x => f x = Some (g x)) l -> map_opt f l = Some (map g l).
  Proof. intros A B f g l H. induction H as [|x l E H IH]; cbn; [reflexivity|]. rewrite E, IH. reflexivity. Qed.

  Definition set_after (rs : rule_set) (recs : list record) : rule_set :=
    mkRuleSet (rs_scope rs) (rs_fast rs) (rules_after rs [] (rs_rules rs) recs).
  Definition rows_of_set (r : record) (rs : rule_set) : list check_row :=
    if scopeb rs r then rows_of_rules (rs_fast rs) (rs_rules rs) r else [].

  Lemma rules_after_wf : forall rs rules before recs, Forall (fun ru => check_wf (ru_check ru)) rules ->
    Forall (fun ru => check_wf (ru_check ru)) (rules_after rs before rules recs).
  Proof.
    intros rs rules before recs F. revert before. induction F; intros before; cbn; constructor; auto.
  Qed.

  Lemma set_step : forall rs recs r, (forall m, rs_scope rs = Some m -> fm_wf Od false m) ->
    Forall (fun ru => check_wf (ru_check ru)) (rs_rules rs) ->
    exists rs1, rs_preprocess (set_after rs recs) r = Some rs1
      /\ rs_check Od T lossy freq_order rs1 r = Some (set_after rs (recs ++ [r]), rows_of_set r rs).
  Proof.
    intros rs recs r Ws F. unfold rs_preprocess.
    rewrite (map_opt_pure _ _ _ (pre_rule r)).
    2: { eapply Forall_impl; [|apply rules_after_wf; exact F]. intros ru W. apply rule_preprocess_pure. exact W. }
    eexists. split; [reflexivity|]. unfold rs_check, set_after, rows_of_set. cbn [rs_scope rs_fast rs_rules].
    destruct (holdsb_some Od false (rs_scope rs) r Ws) as [-> _]. fold (scopeb rs r).
    destruct (scopeb rs r) eqn:Sc.
    - rewrite rules_check_step; [reflexivity|exact Sc|exact F|]. unfold reachedb. rewrite Sc. cbn. apply Bool.orb_true_r.
    - rewrite not_reached; [reflexivity|]. unfold reachedb. rewrite Sc. reflexivity.
  Qed.

  Lemma sets_step : forall sets recs r, Forall (set_wf Od) sets ->
    sets_check Od T lossy freq_order (map (fun rs => set_after rs recs) sets) r
    = Some (map (fun rs => set_after rs (recs ++ [r])) sets, flat_map (rows_of_set r) sets).
  Proof.
    intros sets recs r F. induction F as [|rs sets [W1 W2] F IH]; [reflexivity|]. cbn [map sets_check flat_map].
    destruct (set_step rs recs r W1) as (rs1 & E1 & E2).
    { eapply Forall_impl; [|exact W2]. intros ru [H _]. exact H. }
    rewrite E1, E2, IH. reflexivity.
  Qed.

  (** *** The specification *)

  Lemma rows_of_rules_spec : forall fast rules r, Forall (fun ru => check_wf (ru_check ru)) rules ->
    rules_rows T lossy fast r rules (rows_of_rules fast rules r).
  Proof.
    intros fast rules r F. induction F as [|ru rest W F IH]; [constructor|]. cbn [rows_of_rules].
    destruct (res_verdict (ru_check ru) r W) as (_ & H1 & H2). destruct (flagged (ru_check ru) r).
    - unfold row_of. destruct (ppnb_ids r) as (ids & Hi & ->). destruct fast.
      + apply rr_stop; auto.
      + apply rr_flag; auto.
    - apply rr_pass; auto.
  Qed.

  Lemma scopeb_iff : forall rs r, (forall m, rs_scope rs = Some m -> fm_wf Od false m) ->
    (scopeb rs r = true <-> in_scope Od rs r).
  Proof. intros rs r W. apply (holdsb_some Od false (rs_scope rs) r W). Qed.

  Lemma rows_of_set_spec : forall r rs, set_wf Od rs -> set_rows Od T lossy r rs (rows_of_set r rs).
  Proof.
    intros r rs [W1 W2]. unfold rows_of_set, set_rows. rewrite <- (scopeb_iff rs r W1). destruct (scopeb rs r).
    - left. split; [reflexivity|]. apply rows_of_rules_spec. eapply Forall_impl; [|exact W2]. intros ru [H _]. exact H.
    - right. split; [congruence|reflexivity].
  Qed.

  Lemma silent_iff : forall rules r, Forall (fun ru => check_wf (ru_check ru)) rules ->
    (silent rules r = true <-> Forall (fun ru => verdict T lossy (ru_check ru) r None) rules).
  Proof.
    intros rules r F. unfold silent. rewrite forallb_forall, Forall_forall. rewrite Forall_forall in F.
    split; intros H ru Hin; specialize (H ru Hin); [apply Bool.negb_true_iff in H; apply flagged_iff; auto|].
    apply Bool.negb_true_iff. apply flagged_iff; auto.
  Qed.

  Lemma reachedb_iff : forall rs before ru rest r, set_wf Od rs -> rs_rules rs = before ++ ru :: rest ->
    (reachedb rs before r = true <-> reached Od T lossy rs (length before) r).
  Proof.
    intros rs before ru rest r [W1 W2] E. unfold reachedb, reached. rewrite Bool.andb_true_iff, (scopeb_iff rs r W1).
    assert (Wb : Forall (fun ru => check_wf (ru_check ru)) before).
    { rewrite E in W2. apply Forall_app in W2 as [W2 _]. eapply Forall_impl; [|exact W2]. intros x [H _]. exact H. }
    apply and_iff_compat_l. rewrite Bool.orb_true_iff, Bool.negb_true_iff, (silent_iff before r Wb), E. split.
    - intros [H|H] Ff j x L Hn; [congruence|]. rewrite nth_error_app1 in Hn by exact L.
      rewrite Forall_forall in H. apply H. eapply nth_error_In. exact Hn.
    - intros H. destruct (rs_fast rs); [right|left; reflexivity]. apply Forall_forall. intros x Hin.
      apply In_nth_error in Hin as [j Hj]. assert (j < length before)%nat by (apply nth_error_Some; congruence).
      apply (H eq_refl j x); [assumption|]. rewrite nth_error_app1 by assumption. exact Hj.
  Qed.

  Lemma rule_final_spec : forall rs before ru rest recs, set_wf Od rs -> rs_rules rs = before ++ ru :: rest ->
    rule_final Od T lossy recs rs (length before) ru
      (rule_finish lossy unseen_order
        (with_state ru (fold_left (lstep (ru_check ru) (reachedb rs before)) recs (ru_state ru)))).
  Proof.
    intros rs before ru rest recs W E. unfold rule_final, rule_finish. cbn [with_state ru_check ru_id ru_level ru_state].
    assert (Wr : check_wf (ru_check ru) /\ ru_state ru = no_links).
    { destruct W as [_ W2]. rewrite E in W2. apply Forall_app in W2 as [_ W2]. apply Forall_inv in W2. exact W2. }
    destruct Wr as [Wc ->].
    destruct (ru_check ru) as [O ci p l|O ci p f off|O ci q th sep|O ci m inv|O ci p pre|O ci p|O ci p|O ci sr t m|nf]; try reflexivity.
    exists (filter (reachedb rs before) recs).
    eexists. split; [|split; [apply (link_finish_reports O ci sr t m Wc lossy lossy_nil unseen_order unseen_perm)|reflexivity]].
    pose proof (picks_filter record record (reached Od T lossy rs (length before)) (fun r => r) (reachedb rs before) recs) as K.
    rewrite map_id in K. apply K. intros x _. eapply reachedb_iff; eassumption.
  Qed.

  Lemma rules_final_spec : forall rs recs, set_wf Od rs -> forall rules before, rs_rules rs = before ++ rules ->
    let parts := map (rule_finish lossy unseen_order) (rules_after rs before rules recs) in
    length parts = length rules
    /\ forall k ru part, nth_error rules k = Some ru -> nth_error parts k = Some part ->
         rule_final Od T lossy recs rs (length before + k) ru part.
  Proof.
    intros rs recs W. induction rules as [|ru rest IH]; intros before E; cbn [rules_after map length].
    - split; [reflexivity|]. intros [|k] ru part H; discriminate H.
    - destruct (IH (before ++ [ru])) as [I1 I2]; [rewrite <- app_assoc; exact E|]. cbn zeta in *. split; [rewrite I1; reflexivity|].
      intros [|k] x part Hx Hp; cbn in Hx, Hp.
      + injection Hx as <-. injection Hp as <-. rewrite Nat.add_0_r. eapply rule_final_spec; eassumption.
      + specialize (I2 k x part Hx Hp). rewrite app_length in I2. cbn in I2.
        replace (length before + S k)%nat with (length before + 1 + k)%nat by lia. exact I2.
  Qed.

  Lemma set_final_spec : forall rs recs, set_wf Od rs ->
    set_final Od T lossy recs rs (flat_map (rule_finish lossy unseen_order) (rs_rules (set_after rs recs))).
  Proof.
    intros rs recs W. destruct (rules_final_spec rs recs W (rs_rules rs) [] eq_refl) as [H1 H2]. cbn zeta in *.
    eexists. split; [exact H1|]. split; [exact H2|]. apply flat_map_concat_map.
  Qed.

  (** *** The run *)

  Variable O : oracles.

  Definition check_act (sets : list rule_set) (s : N * list record * list check_row) (r : byte_record)
    : N * list record * list check_row :=
    let '(count, recs, rows) := s in
    (count + 1, recs ++ [br_record r], rows ++ flat_map (rows_of_set (br_record r)) sets).

  Lemma set_after_nil : forall rs, set_after rs [] = rs.
  Proof.
    intros [sc f rules]. unfold set_after. cbn. f_equal. generalize (@nil rule) as before.
    generalize (mkRuleSet sc f rules) as rs. induction rules as [|[i l t c s] rules IH]; intros rs before; cbn; [reflexivity|].
    rewrite IH. reflexivity.
  Qed.

  Definition state_of (sets : list rule_set) (s : N * list record * list check_row) : check_state :=
    let '(count, recs, rows) := s in (count, map (fun rs => set_after rs recs) sets, rows).

  Lemma check_body_act : forall o sets s r, Forall (set_wf Od) sets ->
    check_body Od T lossy freq_order O o (state_of sets s) r
    = guarded (opts_select O Od o) (fun _ r =>
        if limit_reached (fo_limit o) (fst (fst s) + 1) then Halt (state_of sets (check_act sets s r))
        else Next (state_of sets (check_act sets s r))) (state_of sets s) r.
  Proof.
    intros o sets [[count recs] rows] r F. unfold check_body, guarded. destruct (opts_select O Od o (br_record r)) as [[|]|]; try reflexivity.
    cbn [state_of]. rewrite sets_step by exact F. reflexivity.
  Qed.

  (** runs of the program and of the loop with the simpler state correspond *)
  Definition step_map {A B} (g : A -> B) (x : step A) : step B :=
    match x with
    | Next s => Next (g s) | Halt s => Halt (g s) | Fail s e => Fail (g s) e | Panic => Panic
    end.

  Lemma fold_sim : forall A B X (g : A -> B) (f : A -> X -> step A) (f' : B -> X -> step B),
    (forall a x, f' (g a) x = step_map g (f a x)) ->
    forall l a, fold_steps f' (g a) l = step_map g (fold_steps f a l).
  Proof.
    intros A B X g f f' H. induction l as [|x l IH]; intros a; [reflexivity|]. cbn. rewrite H.
    destruct (f a x); cbn; auto.
  Qed.

  Lemma check_exact : forall skip o sets files, opts_wf O Od o -> Forall (set_wf Od) sets ->
    exists recs e rowss finals, selects O Od skip o files recs e
      /\ Forall2 (fun r rows => exists parts, Forall2 (set_rows Od T lossy (br_record r)) sets parts /\ rows = concat parts)
           recs rowss
      /\ Forall2 (set_final Od T lossy (map br_record recs)) sets finals
      /\ check_run Od T lossy freq_order unseen_order O skip o sets files
         = Some (match e with
                 | None => Done (concat rowss ++ concat finals)
                 | Some err => Failed (concat rowss) err
                 end).
  Proof.
    intros skip o sets files W F.
    destruct (run_selects (N * list record * list check_row) O Od skip o
      (fun s r => if limit_reached (fo_limit o) (fst (fst s) + 1) then Halt (check_act sets s r) else Next (check_act sets s r))
      (check_act sets) (fun s => fst (fst s)) files (0, [], []) W) as (recs & e & H1 & H2).
    { intros s r. reflexivity. }
    { intros [[a b] c] r. reflexivity. }
    { reflexivity. }
    exists recs, e, (map (fun r => flat_map (rows_of_set (br_record r)) sets) recs),
      (map (fun rs => flat_map (rule_finish lossy unseen_order) (rs_rules (set_after rs (map br_record recs)))) sets).
    split; [exact H1|]. split; [|split].
    - clear H1 H2. induction recs as [|r recs IH]; cbn; constructor; auto.
      exists (map (rows_of_set (br_record r)) sets). split; [|apply flat_map_concat_map].
      clear - F lossy_nil freq_perm. induction F; cbn; constructor; auto. apply rows_of_set_spec. assumption.
    - clear H1 H2. clear - F lossy_nil freq_perm unseen_perm. induction F; cbn; constructor; auto. apply set_final_spec. assumption.
    - unfold check_run.
      assert (S0 : (0, sets, []) = state_of sets (0, [], [])).
      { cbn. f_equal. f_equal. clear. induction sets as [|rs sets IH]; cbn; [reflexivity|]. rewrite set_after_nil. congruence. }
      destruct (reads_exists skip files) as (all & e0 & Hr).
      rewrite (run_loop_reads _ skip _ files all e0 _ Hr) in H2.
      change (@nil check_row) with (@nil check_row) in S0. rewrite S0.
      rewrite (run_loop_reads _ skip _ files all e0 _ Hr).
      rewrite (fold_sim _ _ _ (state_of sets)
        (guarded (opts_select O Od o) (fun s r =>
          if limit_reached (fo_limit o) (fst (fst s) + 1) then Halt (check_act sets s r) else Next (check_act sets s r)))).
      2: { intros a x. rewrite check_body_act by exact F. unfold guarded. destruct (opts_select O Od o (br_record x)) as [[|]|]; try reflexivity.
           destruct (limit_reached _ _); reflexivity. }
      assert (FL : fold_left (check_act sets) recs (0, [], [])
        = (N.of_nat (length recs), map br_record recs, concat (map (fun r => flat_map (rows_of_set (br_record r)) sets) recs))).
      { assert (G : forall recs n rs rows, fold_left (check_act sets) recs (n, rs, rows)
          = (n + N.of_nat (length recs), rs ++ map br_record recs, rows ++ concat (map (fun r => flat_map (rows_of_set (br_record r)) sets) recs))).
        { clear. induction recs as [|r recs IH]; intros n rs rows; cbn [fold_left length map concat].
          - rewrite !app_nil_r. f_equal. f_equal. lia.
          - cbn [check_act]. rewrite IH. rewrite <- !app_assoc. cbn [app]. f_equal. f_equal. lia. }
        rewrite G. reflexivity. }
      rewrite FL in H2.
      revert H2. generalize (fold_steps (guarded (opts_select O Od o) (fun s r =>
          if limit_reached (fo_limit o) (fst (fst s) + 1) then Halt (check_act sets s r) else Next (check_act sets s r)))
          (0, [], []) all) as x.
      intros x H2. assert (FM : sets_finish lossy unseen_order (map (fun rs => set_after rs (map br_record recs)) sets)
        = concat (map (fun rs => flat_map (rule_finish lossy unseen_order) (rs_rules (set_after rs (map br_record recs)))) sets)).
      { unfold sets_finish. rewrite flat_map_concat_map, map_map. reflexivity. }
      destruct x as [s|s|s er|]; cbn in H2 |- *; try (destruct e0 as [e0|]; cbn in H2 |- * );
        destruct e as [e|]; cbn in H2; try discriminate H2; injection H2 as H2; try (injection H2 as H2);
        subst; cbn -[sets_finish set_after]; try rewrite FM; try reflexivity.
  Qed.
End Run.

(** ** The order of the records *)

Lemma filter_perm : forall A (f : A -> bool) l l', Permutation l l' -> Permutation (filter f l) (filter f l').
Proof.
  induction 1 as [|x l l' H IH|x y l|l l' l'' H1 IH1 H2 IH2]; cbn; [constructor| | |eapply perm_trans; eassumption].
  - destruct (f x); [constructor|]; assumption.
  - destruct (f x), (f y); try constructor; apply Permutation_refl.
Qed.

Lemma picks_perm : forall A (P : A -> Prop) l l', Permutation l l' ->
  forall a a', picks P (fun x => x) l a -> picks P (fun x => x) l' a' -> Permutation a a'.
Proof.
  assert (Ex : forall A (P : A -> Prop) l l', Permutation l l' -> forall a, picks P (fun x => x) l a ->
    exists a', picks P (fun x => x) l' a' /\ Permutation a a').
  { induction 1 as [|x l l' H IH|x y l|l l' l'' H1 IH1 H2 IH2]; intros a Ha.
    - exists a. split; [exact Ha|apply Permutation_refl].
    - inversion Ha as [|? ? b Px Hb|? ? b Px Hb]; subst; destruct (IH _ Hb) as (b' & H1 & H2).
      + exists (x :: b'). split; [apply (picks_yes P (fun x => x)); assumption|]. constructor. exact H2.
      + exists b'. split; [apply picks_no; assumption|exact H2].
    - inversion Ha as [|? ? b Px Hb|? ? b Px Hb]; subst; inversion Hb as [|? ? b0 Py Hb0|? ? b0 Py Hb0]; subst.
      + exists (x :: y :: b0). split; [|constructor]. repeat (apply (picks_yes P (fun x => x)); [assumption|]). exact Hb0.
      + exists (y :: b). split; [|apply Permutation_refl]. apply picks_no; [assumption|]. apply (picks_yes P (fun x => x)); assumption.
      + exists (x :: b0). split; [|apply Permutation_refl]. apply (picks_yes P (fun x => x)); [assumption|]. apply picks_no; assumption.
      + exists a. split; [|apply Permutation_refl]. apply picks_no; [assumption|]. apply picks_no; assumption.
    - destruct (IH1 a Ha) as (a' & H3 & H4). destruct (IH2 a' H3) as (a'' & H5 & H6).
      exists a''. split; [exact H5|eapply perm_trans; eassumption]. }
  intros A P l l' H a a' Ha Ha'. destruct (Ex A P l l' H a Ha) as (a'' & H1 & H2).
  rewrite (picks_fun _ _ _ _ _ _ Ha' _ H1). exact H2.
Qed.

Section Order.
  Variables (O : oracles) (ci : bool) (source target : path) (m : option field_matcher).
  Variable lossy : bytes -> bytes.
  Variables recs recs' checked checked' : list record.
  Hypothesis W : check_wf (CkLink O ci source target m).
  Hypothesis P1 : Permutation recs recs'.
  Hypothesis P2 : Permutation checked checked'.

  Lemma target_perm : forall v, is_target O ci target m recs v <-> is_target O ci target m recs' v.
  Proof.
    intros v. unfold is_target. split; intros (r & vs & H1 & H2); exists r, vs;
      (split; [|exact H2]); eapply Permutation_in; try eassumption. apply Permutation_sym. exact P1.
  Qed.

  Lemma concat_perm : forall (R : record -> list bytes -> Prop), (forall x a b, R x a -> R x b -> a = b) ->
    forall l l', Permutation l l' -> forall vss vss', Forall2 R l vss -> Forall2 R l' vss' ->
    Permutation (concat vss) (concat vss').
  Proof.
    intros R D. induction 1 as [|x l l' H IH|x y l|l l' l'' H1 IH1 H2 IH2]; intros vss vss' F F'.
    - inversion F; inversion F'. constructor.
    - inversion F as [|? a ? b Ra Fb]; subst. inversion F' as [|? a' ? b' Ra' Fb']; subst. cbn.
      rewrite (D _ _ _ Ra Ra'). apply Permutation_app_head. auto.
    - inversion F as [|? a ? b Ra Fb]; subst. inversion Fb as [|? a1 ? b1 Ra1 Fb1]; subst.
      inversion F' as [|? a' ? b' Ra' Fb']; subst. inversion Fb' as [|? a1' ? b1' Ra1' Fb1']; subst. cbn.
      rewrite (D _ _ _ Ra Ra1'), (D _ _ _ Ra1 Ra'), (Forall2_det _ _ R D _ _ _ Fb1 Fb1').
      rewrite !app_assoc. apply Permutation_app_tail. apply Permutation_app_comm.
    - assert (exists vm, Forall2 R l' vm) as [vm Fm].
      { assert (Ex : forall l, (exists v, Forall2 R l v) <-> Forall (fun x => exists v, R x v) l).
        { clear. induction l as [|x l IH].
          - split; [constructor|]. exists []. constructor.
          - split.
            + intros [v F]. inversion F as [|? a ? b Ra Fb]; subst. constructor; [eauto|]. apply IH. eauto.
            + intros F. inversion F as [|? ? [a Ra] Fl]; subst. apply IH in Fl as [v Fl]. exists (a :: v). constructor; assumption. }
        apply Ex. apply Forall_forall. intros x Hx. apply (Permutation_in _ (Permutation_sym H1)) in Hx.
        revert x Hx. apply Forall_forall. apply Ex. eauto. }
      eapply perm_trans; [eapply IH1|eapply IH2]; eassumption.
  Qed.

  (** the dangling references of a record do not depend on the order *)
  Lemma dangling_perm : forall id d d', dangling O ci source target m recs checked id d ->
    dangling O ci source target m recs' checked' id d' -> Permutation d d'.
  Proof.
    intros id d d' (refs & (rs & vss & H1 & H2 & ->) & H3) (refs' & (rs' & vss' & H1' & H2' & ->) & H3').
    pose proof (picks_perm _ _ _ _ P2 _ _ H1 H1') as Pr.
    assert (Pv : Permutation (concat vss) (concat vss')).
    { eapply concat_perm with (R := path_lists O ci source); try eassumption.
      intros x a b Ha Hb. eapply path_lists_fun; [exact Ha|exact Hb]. }
    eapply picks_perm; [exact Pv|exact H3|]. eapply picks_weaken; [|exact H3'].
    intros x. cbn beta. rewrite target_perm. tauto.
  Qed.

  (** nor which identifiers are reported *)
  Lemma reports_perm : forall out out', link_reports lossy O ci source target m recs checked out ->
    link_reports lossy O ci source target m recs' checked' out' ->
    forall id msg, In (id, msg) out -> exists msg', In (id, msg') out'.
  Proof.
    intros out out' [_ H] [_ H'] id msg Hin. apply H in Hin as (d & H1 & H2 & H3 & H4).
    pose proof (proj2 (dangling_iff O ci source target m W recs' checked' id _) eq_refl) as D'.
    set (d' := without _ _) in D'. clearbody d'. pose proof (dangling_perm id d d' H1 D') as Pd.
    exists (message_of lossy d'). apply H'. exists d'. split; [exact D'|].
    assert (d' <> []). { intros ->. apply Permutation_sym, Permutation_nil in Pd. congruence. }
    split; [assumption|]. split.
    - intros ->. apply Permutation_sym, Permutation_length_1_inv in Pd. congruence.
    - apply message_names. assumption.
  Qed.

  (** records with distinct identifiers: the same reports *)
  Lemma reports_distinct : forall out out', link_reports lossy O ci source target m recs checked out ->
    link_reports lossy O ci source target m recs' checked' out' ->
    (forall id rs, picks (fun r => record_id r id) (fun r => r) checked rs -> (length rs <= 1)%nat) ->
    Permutation out out'.
  Proof.
    intros out out' H H' Dist.
    assert (E : forall id d d', dangling O ci source target m recs checked id d ->
      dangling O ci source target m recs' checked' id d' -> d = d').
    { intros id d d' (refs & (rs & vss & H1 & H2 & ->) & H3) (refs' & (rs' & vss' & H1' & H2' & ->) & H3').
      pose proof (picks_perm _ _ _ _ P2 _ _ H1 H1') as Pr. pose proof (Dist id rs H1) as L.
      assert (rs = rs').
      { destruct rs as [|r [|r2 rs]]; [apply Permutation_nil in Pr; congruence| |cbn in L; lia].
        apply Permutation_length_1_inv in Pr. congruence. }
      subst rs'. assert (vss = vss').
      { eapply (Forall2_det _ _ (path_lists O ci source)); try eassumption.
        intros x a b Ha Hb. eapply path_lists_fun; [exact Ha|exact Hb]. }
      subst vss'. eapply picks_fun; [exact H3|]. eapply picks_weaken; [|exact H3'].
      intros x. cbn beta. rewrite target_perm. tauto. }
    destruct H as [Nd H]. destruct H' as [Nd' H'].
    assert (Ex : forall rc ch id, exists d, dangling O ci source target m rc ch id d).
    { intros rc ch id. eexists. apply (dangling_iff O ci source target m W). reflexivity. }
    assert (I : forall e, In e out <-> In e out').
    { intros [id msg]. rewrite H, H'. destruct (Ex recs checked id) as [d D]. destruct (Ex recs' checked' id) as [d' D'].
      split.
      - intros (x & Hx & R). exists x. split; [|exact R]. rewrite (E id x d' Hx D'). exact D'.
      - intros (x & Hx & R). exists x. split; [|exact R]. rewrite <- (E id d x D Hx). exact D. }
    apply NoDup_Permutation; [eapply NoDup_map_inv; exact Nd|eapply NoDup_map_inv; exact Nd'|exact I].
  Qed.
End Order.

(** ** Selection of rules *)

Lemma split_on_items : forall b, comma_items b (split_on 44 b).
Proof.
  induction b as [|c b IH]; [constructor; intros []|]. cbn [split_on]. destruct (N.eqb_spec c 44) as [->|D].
  - apply (ci_more [] b); [intros []|exact IH].
  - inversion IH as [b0 Hn E1 E2|b0 rest l Hn Hc E1 E2].
    + constructor. intros [X|X]; [congruence|contradiction].
    + apply (ci_more (c :: b0)); [|exact Hc]. intros [X|X]; [congruence|contradiction].
Qed.

Lemma comma_items_fun : forall b l, comma_items b l -> forall l', comma_items b l' -> l = l'.
Proof.
  induction 1 as [b Hn|b rest l Hn Hc IH]; intros l' H'; inversion H' as [b' Hn' E1 E2|b' rest' l'' Hn' Hc' E1 E2]; subst.
  - reflexivity.
  - exfalso. apply Hn. apply in_or_app. right. left. reflexivity.
  - exfalso. apply Hn'. apply in_or_app. right. left. reflexivity.
  - apply split_first in E1 as [-> ->]; [|assumption..]. f_equal. auto.
Qed.

Lemma keeps_tag_iff : forall trim t ru, keeps_tag trim t ru = true <->
  exists items ts x i, comma_items t items /\ ru_tags ru = Some ts /\ In x ts /\ In i items /\ x = trim i.
Proof.
  intros trim t ru. unfold keeps_tag. destruct (ru_tags ru) as [ts|].
  - rewrite existsb_exists. split.
    + intros (x & H1 & H2). apply mem_bytes_In in H2. apply in_map_iff in H2 as (i & <- & H2).
      exists (split_on 44 t), ts, (trim i), i. split; [apply split_on_items|]. auto.
    + intros (items & ts' & x & i & H1 & H2 & H3 & H4 & ->). injection H2 as <-. exists (trim i). split; [exact H3|].
      apply mem_bytes_In. apply in_map. rewrite <- (comma_items_fun _ _ H1 _ (split_on_items t)). exact H4.
  - split; [discriminate|]. intros (items & ts' & x & i & _ & H & _). discriminate H.
Qed.

(** the wanted rules of each rule set, without the rule sets that have none *)
Lemma select_rules_spec : forall re trim tags sets,
  exists all, Forall2 (fun rs rs' => rs_scope rs' = rs_scope rs /\ rs_fast rs' = rs_fast rs
      /\ picks (rule_wanted re trim tags) (fun ru => ru) (rs_rules rs) (rs_rules rs')) sets all
    /\ picks (fun rs => rs_rules rs <> []) (fun rs => rs) all (select_rules re trim tags sets).
Proof.
  intros re trim tags sets. unfold select_rules. eexists. split.
  2: { match goal with |- picks _ _ ?l (filter ?g _) =>
         pose proof (picks_filter rule_set rule_set (fun rs => rs_rules rs <> []) (fun rs => rs) g l) as K end.
       rewrite map_id in K. apply K. intros rs _. destruct (rs_rules rs); split; congruence. }
  induction sets as [|rs sets IH]; cbn [map]; constructor; [|exact IH]. cbn. split; [reflexivity|]. split; [reflexivity|].
  clear IH. induction (rs_rules rs) as [|ru l IH]; [destruct re, tags; constructor|].
  assert (D : forall ru, {re_ok : bool & (re_ok = true <-> rule_wanted re trim tags ru)
      & (match tags with Some t => filter (keeps_tag trim t) (match re with Some f => filter (fun ru => f (ru_id ru)) (ru :: l) | None => ru :: l end)
         | None => match re with Some f => filter (fun ru => f (ru_id ru)) (ru :: l) | None => ru :: l end end)
        = (if re_ok then [ru] else []) ++ (match tags with Some t => filter (keeps_tag trim t) (match re with Some f => filter (fun ru => f (ru_id ru)) l | None => l end)
         | None => match re with Some f => filter (fun ru => f (ru_id ru)) l | None => l end end)}).
  { clear. intros ru. exists ((match re with Some f => f (ru_id ru) | None => true end)
      && (match tags with Some t => keeps_tag trim t ru | None => true end)).
    - unfold rule_wanted. rewrite Bool.andb_true_iff. apply Morphisms_Prop.and_iff_morphism.
      + destruct re; split; intros H; [intros f E; injection E as <-; exact H|apply H; reflexivity|discriminate|reflexivity].
      + destruct tags as [t|]; split; intros H.
        * intros t' E. injection E as <-. apply keeps_tag_iff. exact H.
        * apply keeps_tag_iff. apply H. reflexivity.
        * discriminate.
        * reflexivity.
    - destruct re as [f|]; cbn.
      + destruct (f (ru_id ru)); cbn; destruct tags as [t|]; cbn; try reflexivity. destruct (keeps_tag trim t ru); reflexivity.
      + destruct tags as [t|]; cbn; [|reflexivity]. destruct (keeps_tag trim t ru); reflexivity. }
  destruct (D ru) as [b Hb ->]. destruct b; cbn [app].
  - apply (picks_yes (rule_wanted re trim tags) (fun x => x)); [apply Hb; reflexivity|exact IH].
  - apply picks_no; [rewrite <- Hb; discriminate|exact IH].
Qed.

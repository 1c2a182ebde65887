(** * partition with its files *)

From Coq Require Import String Permutation.
From Verif Require IoProofs MatcherProofs MatcherSpec PrepareProofs.
From Verif Require Import Bytes Winnow RecordModel BaseProofs TagOccModel Utf8Model ByteRecordModel ReaderModel
  MatcherModel MatcherSpec StateParser MatcherParserModel BuilderModel PathModel FmtModel QueryModel QueryProofs CliModel CliSpec CliProofs
  CliCommandProofs CliOutputProofs CliChunkProofs TableModel CheckModel ConvertModel OptionsModel PrepareModel PrepareSpec IoModel IoSpec
  QuerySpec DiskModel DiskSpec DiskProofs DiskCommandProofs DiskEndProofs DirModel DirSpec DirLoopProofs DirSplitProofs.

Lemma insert_incl : forall v l, incl (insert_value v l) (v :: l).
Proof.
  intros v. induction l as [|w l IH]; cbn; [apply incl_refl|]. destruct (bytes_leb v w); [apply incl_refl|].
  intros x [<-|H]; [right; left; reflexivity|]. destruct (IH x H) as [<-|H']; [left; reflexivity|right; right; exact H'].
Qed.
Lemma sort_incl : forall l, incl (sort_values l) l.
Proof.
  induction l as [|v l IH]; cbn; [apply incl_refl|]. intros x H. apply insert_incl in H as [<-|H]; [left; reflexivity|right; apply IH; exact H].
Qed.
Lemma dedup_incl : forall l, incl (dedup l) l.
Proof.
  induction l as [|v [|w l] IH]; [apply incl_refl..|]. cbn [dedup]. destruct (bytes_eqb v w).
  - intros x H. right. apply IH. exact H.
  - intros x [<-|H]; [left; reflexivity|right; apply IH; exact H].
Qed.

Section Part.
  Variable gz_enc : bytes -> bytes.
  Variable gz_dec : bytes -> list piece.
  Variable writable : bytes -> bool.
  Variables O Od : oracles.
  Variable lossy : bytes -> bytes.
  Variable writer_order : list (bytes * bytes) -> list (bytes * bytes).
  Variable gzip : bool.
  Variables outdir t : bytes.
  Variable P : bytes -> Prop.
  Variable d0 : disk.

  Notation file v := (path_join outdir (partition_name lossy t v)).

  Definition value_data (v text : bytes) : bytes := if gzip || gz_name (file v) then gz_enc text else text.

  Record part_rel (a : dpart) (b : partition_state) : Prop := {
    pr_state : fst a = b;
    pr_values : Forall P (map fst (snd b));
    pr_now : forall v, In v (map fst (snd b)) -> disk_get (snd a) (file v) = Some [];
    pr_other : forall n, (forall v, In v (map fst (snd b)) -> n <> file v) -> disk_get (snd a) n = disk_get d0 n }.

  Hypothesis HW : forall v, P v -> writable (file v) = true.

  Lemma writer_write_names : forall v data ws,
    map fst (writer_write v data ws) = if existsb (fun w => bytes_eqb (fst w) v) ws then map fst ws else map fst ws ++ [v].
  Proof.
    intros v data ws. unfold writer_write. destruct (existsb _ ws).
    - rewrite map_map. apply map_ext. intros w. destruct (bytes_eqb (fst w) v); reflexivity.
    - rewrite map_app. reflexivity.
  Qed.

  Lemma existsb_names : forall v (ws : list (bytes * bytes)), existsb (fun w => bytes_eqb (fst w) v) ws = true <-> In v (map fst ws).
  Proof.
    intros v ws. rewrite existsb_exists, in_map_iff. split; intros (w & H1 & H2); exists w.
    - apply bytes_eqb_eq in H2. auto.
    - split; [exact H2|]. subst v. apply bytes_eqb_refl.
  Qed.

  Lemma part_values_sim : forall limit data vs a b, Forall P vs -> part_rel a b ->
    exists a' b' stop,
      part_disk_values (fun v => open_output writable (value_output lossy gzip outdir t v)) limit data vs a = (a', Some stop)
      /\ partition_values limit data vs b = (b', stop) /\ part_rel a' b'.
  Proof.
    intros limit data. induction vs as [|v vs IH]; intros a b HP H; cbn [part_disk_values partition_values].
    - exists a, b, false. auto.
    - inversion HP as [|x l Hv Hvs]; subst. rewrite (pr_state _ _ H). cbv zeta.
      assert (HN : exists d, (if existsb (fun w => bytes_eqb (fst w) v) (snd b) then Some (snd a)
                       else open_output writable (value_output lossy gzip outdir t v) (snd a)) = Some d
                 /\ part_rel ((fst b + 1, writer_write v data (snd b)), d) (fst b + 1, writer_write v data (snd b))).
      { destruct (existsb (fun w => bytes_eqb (fst w) v) (snd b)) eqn:E.
        - exists (snd a). split; [reflexivity|]. destruct H as [H1 H2 H3 H4].
          constructor; cbn [fst snd]; [reflexivity|..]; rewrite writer_write_names, E; assumption.
        - unfold open_output. cbn [value_output builder_output out_name out_append wb_append wb_gzip]. rewrite HW by exact Hv.
          eexists. split; [reflexivity|]. destruct H as [H1 H2 H3 H4].
          constructor; cbn [fst snd]; [reflexivity|..]; rewrite writer_write_names, E.
          + apply Forall_app. auto.
          + intros u Hu. rewrite disk_get_set. destruct (bytes_eqb (file v) (file u)) eqn:Ef; [reflexivity|].
            apply in_app_or in Hu as [Hu|[<-|[]]]; [apply H3; exact Hu|]. rewrite bytes_eqb_refl in Ef. discriminate.
          + intros n Hn. rewrite disk_get_other.
            * apply H4. intros u Hu. apply Hn. apply in_or_app. left. exact Hu.
            * intros E'. apply (Hn v); [apply in_or_app; right; left; reflexivity|auto]. }
      destruct HN as (d & -> & HN). cbn [fst snd].
      destruct (limit_reached limit (fst b + 1)).
      + eexists _, _, true. split; [reflexivity|]. split; [reflexivity|exact HN].
      + apply IH; assumption.
  Qed.

  Lemma part_body_sim : forall p o a b r, opt_sm_wf O (fo_ci o) (p_sub p) ->
    (forall v, has_value O (fo_ci o) p v (br_record r) -> P v) -> part_rel a b ->
    end_rel part_rel (partition_disk_body writable O Od lossy gzip outdir t p o a r)
                     (as_io (partition_body O Od p o b r)).
  Proof.
    intros p o a b r W HV H. unfold partition_disk_body, io_guarded, partition_body, guarded.
    destruct (opts_select O Od o (br_record r)) as [[|]|]; [|exact H|exact I].
    destruct (record_path_lists O (fo_ci o) p (br_record r) W) as (vs & -> & Hvs).
    destruct (part_values_sim (fo_limit o) (br_write r) (dedup (sort_values vs)) a b) as (a' & b' & stop & -> & -> & H').
    - apply Forall_forall. intros v Hv. apply HV. exists vs. split; [exact Hvs|]. apply sort_incl, dedup_incl, Hv.
    - exact H.
    - destruct stop; exact H'.
  Qed.

  (** closing *)

  Hypothesis HI : forall v u, P v -> P u -> file v = file u -> v = u.
  Hypothesis HO : forall l, Permutation (writer_order l) l.

  Lemma flush_all : forall ws d, NoDup (map fst ws) -> Forall P (map fst ws) ->
    (forall v, In v (map fst ws) -> disk_get d (file v) = Some []) ->
    let d' := fold_left (fun d x => flushed gz_enc (value_output lossy gzip outdir t (fst x)) (snd x) d) ws d in
    (forall v text, In (v, text) ws -> disk_get d' (file v) = Some (value_data v text))
    /\ forall n, (forall v, In v (map fst ws) -> n <> file v) -> disk_get d' n = disk_get d n.
  Proof.
    induction ws as [|[v text] ws IH]; intros d ND FP H; cbn [fold_left map fst snd] in *.
    - split; [intros v text []|reflexivity].
    - inversion ND as [|x l N1 N2]; subst. inversion FP as [|x l P1 P2]; subst.
      assert (Ed : flushed gz_enc (value_output lossy gzip outdir t v) text d = disk_set d (file v) (value_data v text)).
      { unfold flushed. cbn [value_output builder_output out_name out_gz wb_gzip]. rewrite (H v) by (left; reflexivity).
        rewrite overwrite_empty. reflexivity. }
      rewrite Ed. assert (Hne : forall u, In u (map fst ws) -> file v <> file u).
      { intros u Hu E. apply HI in E; [subst u; contradiction|exact P1|]. rewrite Forall_forall in P2. apply P2. exact Hu. }
      destruct (IH (disk_set d (file v) (value_data v text)) N2 P2) as [I1 I2].
      + intros u Hu. rewrite disk_get_other by (apply Hne; exact Hu). apply H. right. exact Hu.
      + split.
        * intros u text' [E|Hi]; [|apply I1; exact Hi]. injection E as <- <-.
          rewrite I2; [apply disk_get_same|]. intros u Hu. apply Hne. exact Hu.
        * intros n Hn. rewrite I2; [|intros u Hu; apply Hn; right; exact Hu]. apply disk_get_other. intros E.
          apply (Hn v); [left; reflexivity|auto].
  Qed.

  Lemma part_closed : forall a b, part_rel a b -> NoDup (map fst (snd b)) ->
    (forall v text, In (v, text) (snd b) -> disk_get (partition_close gz_enc lossy writer_order gzip outdir t a) (file v) = Some (value_data v text))
    /\ forall n, (forall v, In v (map fst (snd b)) -> n <> file v) ->
         disk_get (partition_close gz_enc lossy writer_order gzip outdir t a) n = disk_get d0 n.
  Proof.
    intros a b [H1 H2 H3 H4] ND. unfold partition_close. rewrite H1.
    assert (Pm := HO (snd b)). assert (Pf := Permutation_map fst Pm).
    destruct (flush_all (writer_order (snd b)) (snd a)) as [C1 C2].
    - eapply Permutation_NoDup; [apply Permutation_sym; exact Pf|exact ND].
    - eapply Permutation_Forall; [apply Permutation_sym; exact Pf|exact H2].
    - intros v Hv. apply H3. eapply Permutation_in; [exact Pf|exact Hv].
    - split.
      + intros v text Hi. apply C1. eapply Permutation_in; [apply Permutation_sym; exact Pm|exact Hi].
      + intros n Hn. rewrite C2; [apply H4; exact Hn|]. intros v Hv. apply Hn. eapply Permutation_in; [exact Pf|exact Hv].
  Qed.
End Part.

Section Exact.
  Variable gz_enc : bytes -> bytes.
  Variable gz_dec : bytes -> list piece.
  Variable writable : bytes -> bool.
  Variables O Od : oracles.
  Variable transform : bytes -> bytes.
  Variable lossy : bytes -> bytes.
  Variable writer_order : list (bytes * bytes) -> list (bytes * bytes).

  Notation partition_on_disk := (partition_on_disk gz_enc gz_dec writable O Od transform lossy writer_order).

  (** the files of the values *)
  Definition files_of (template : option bytes) (gzip : bool) (outdir : bytes) (fs fs' : list (bytes * bytes)) : Prop :=
    Forall2 (fun x y => file_for template gzip outdir (lossy (fst x)) (fst y) /\ snd x = snd y) fs fs'.

  Lemma partition_disk_exact : forall (P : bytes -> Prop) a o p gzip outdir template skip names w cs every,
    (forall l, Permutation (writer_order l) l) ->
    opts_wf O Od o -> opt_sm_wf O (fo_ci o) (p_sub p) -> fst (opts_prepare O Od transform a) = Some (Some o) ->
    available gz_dec (w_disk w) (w_stdin w) names cs -> reads true cs every None ->
    (forall r v, In r every -> has_value O (fo_ci o) p v (br_record r) -> P v) ->
    (forall v n, P v -> file_for template gzip outdir (lossy v) n -> writable n = true /\ ~ In n names) ->
    (forall v u n, P v -> P u -> file_for template gzip outdir (lossy v) n -> file_for template gzip outdir (lossy u) n -> v = u) ->
    exists all e0 sel wss ws e fs fs' w',
      reads skip cs all e0 /\ chosen (opts_hold O Od o) all sel
      /\ Forall2 (record_writes O (fo_ci o) p) sel wss
      /\ limited (fo_limit o) (concat wss) e0 ws e
      /\ value_files ws fs /\ files_of template gzip outdir fs fs'
      /\ partition_run O Od p skip o cs = Some (ended fs e)
      /\ partition_on_disk a p gzip outdir true template skip names w = Some (CEnded (status_of e), w')
      /\ only_files gz_enc gzip fs' w w'.
  Proof.
    intros P a o p gzip outdir template skip names w cs every HO W Wp Ep Ha He HV HF HI.
    destruct (partition_exact O Od p skip o cs W Wp) as (all & e0 & sel & wss & ws & e & fs & H1 & H2 & H3 & H4 & H5 & H6).
    exists all, e0, sel, wss, ws, e, fs. set (t := template_or template gzip).
    exists (map (fun x => (path_join outdir (partition_name lossy t (fst x)), snd x)) fs).
    assert (Ff : forall v, file_for template gzip outdir (lossy v) (path_join outdir (partition_name lossy t v))).
    { intros v. apply file_for_path. reflexivity. }
    assert (Hfs : files_of template gzip outdir fs (map (fun x => (path_join outdir (partition_name lossy t (fst x)), snd x)) fs)).
    { unfold files_of. clear -Ff. induction fs as [|x fs IH]; cbn; constructor; auto. split; [apply Ff|reflexivity]. }
    assert (HS : opt_rel (part_rel lossy outdir t P (w_disk w))
      (live_files_loop gz_dec snd (partition_disk_body writable O Od lossy gzip outdir t p o) skip ((0, []), w_disk w) (w_stdin w) names)
      (io_files_loop (fun s => s) (fun b r => as_io (partition_body O Od p o b r)) skip (0, []) (inputs gz_dec (w_disk w) (w_stdin w) names))).
    { apply live_sim with (Q := fun r => In r every).
      - intros x y r Hr H. apply part_body_sim; [|exact Wp| |exact H].
        + intros v Hv. apply (HF v _ Hv (Ff v)).
        + intros v Hv. apply (HV r v Hr Hv).
      - intros x y H n Hn. apply (pr_other _ _ _ _ _ _ _ H). intros v Hv ->.
        pose proof (pr_values _ _ _ _ _ _ _ H) as HPv. rewrite Forall_forall in HPv.
        exact (proj2 (HF v _ (HPv v Hv) (Ff v)) Hn).
      - eapply delivered_reads; eassumption.
      - constructor; cbn [fst snd map]; [reflexivity|constructor|intros v []|reflexivity]. }
    rewrite (available_loop _ _ _ _ _ _ _ _ _ _ _ (IoProofs.on_result_body _ (partition_body O Od p o) skip) Ha) in HS.
    assert (HC : forall x y, part_rel lossy outdir t P (w_disk w) x y -> snd y = fs ->
      only_files gz_enc gzip (map (fun x => (path_join outdir (partition_name lossy t (fst x)), snd x)) fs) w
        (with_disk w (partition_close gz_enc lossy writer_order gzip outdir t x))).
    { intros x y H Hy. destruct (part_closed gz_enc lossy writer_order gzip outdir t P (w_disk w)) with (a := x) (b := y) as [C1 C2].
      - intros v u Hv Hu E. eapply HI; [exact Hv|exact Hu|apply Ff|]. rewrite E. apply Ff.
      - exact HO.
      - exact H.
      - rewrite Hy. apply H5.
      - rewrite Hy in C1, C2. split; [|split; [|reflexivity]].
        + intros n text Hi. apply in_map_iff in Hi as ([v text'] & E & Hi). injection E as <- <-. apply holds_gz. apply C1. exact Hi.
        + intros n Hn. apply C2. intros v Hv ->. apply Hn. rewrite map_map. cbn. apply in_map_iff in Hv as (f & <- & Hi).
          apply in_map_iff. exists f. auto. }
    unfold DirModel.partition_on_disk. rewrite Ep. cbn [prepared]. cbv zeta. fold t.
    unfold partition_run, run_loop in H6 |- *.
    destruct (files_loop _ _ _) as [z|]; [|discriminate].
    destruct (live_files_loop _ _ _ _ _ _ _) as [y|]; [|contradiction].
    cbn [option_map] in HS. cbn [finish_with] in H6 |- *.
    destruct z as [s|s|s er|]; destruct y as [sa|sa|sa er'|]; cbn in HS; try contradiction; cbn in H6.
    - destruct e; [discriminate|]. injection H6 as H6. eexists. repeat (split; [assumption|]). split; [rewrite <- H6; reflexivity|].
      split; [reflexivity|]. eapply HC; eassumption.
    - destruct e; [discriminate|]. injection H6 as H6. eexists. repeat (split; [assumption|]). split; [rewrite <- H6; reflexivity|].
      split; [reflexivity|]. eapply HC; eassumption.
    - destruct e as [e|]; [|discriminate]. injection H6 as H6a H6b. destruct HS as [HS ->].
      eexists. repeat (split; [assumption|]). split; [rewrite <- H6a, <- H6b; reflexivity|].
      split; [reflexivity|]. eapply HC; eassumption.
    - destruct e; discriminate.
  Qed.
End Exact.

Section Commands.
  Variable gz_enc : bytes -> bytes.
  Variable gz_dec : bytes -> list piece.
  Variable writable : bytes -> bool.
  Variables O Od : oracles.
  Variable transform : bytes -> bytes.
  Variable lossy : bytes -> bytes.
  Variable writer_order : list (bytes * bytes) -> list (bytes * bytes).
  Hypothesis HO : forall l, Permutation (writer_order l) l.

  Notation partition_on_disk := (partition_on_disk gz_enc gz_dec writable O Od transform lossy writer_order).

  Notation sorted_out := (sorted_out gz_enc O lossy).

  Lemma file_for_fun : forall template gzip dir x n m, file_for template gzip dir x n -> file_for template gzip dir x m -> n = m.
  Proof.
    intros template gzip dir x n m (t & name & Et & Hf & Hj) (t' & name' & Et' & Hf' & Hj'). subst t'. rewrite <- Et in Hf'.
    rewrite (filled_fun _ _ _ Hf' _ Hf) in Hj'. eapply joined_fun; eassumption.
  Qed.

  Lemma files_of_in : forall template gzip outdir fs fs' v text n, files_of lossy template gzip outdir fs fs' ->
    In (v, text) fs -> file_for template gzip outdir (lossy v) n -> In (n, text) fs'.
  Proof.
    intros template gzip outdir fs fs' v text n H. induction H as [|[v' t'] [n' t''] fs fs' [H1 H2] _ IH]; intros Hi Hf; [destruct Hi|].
    cbn in H1, H2. destruct Hi as [E|Hi]; [|right; apply IH; assumption]. injection E as -> ->.
    left. rewrite (file_for_fun _ _ _ _ _ _ Hf H1), H2. reflexivity.
  Qed.

  Lemma files_of_names : forall template gzip outdir fs fs' n, files_of lossy template gzip outdir fs fs' ->
    In n (map fst fs') -> exists v, In v (map fst fs) /\ file_for template gzip outdir (lossy v) n.
  Proof.
    intros template gzip outdir fs fs' n H. induction H as [|[v' t'] [n' t''] fs fs' [H1 H2] _ IH]; cbn; [intros []|].
    intros [<-|Hi]; [exists v'; auto|]. destruct (IH Hi) as (v & Hv & Hf). exists v. auto.
  Qed.


  Lemma partition_sorted : forall (P : bytes -> Prop) a o p gzip outdir template skip names w cs every,
    opts_wf O Od o -> opt_sm_wf O (fo_ci o) (p_sub p) -> fst (opts_prepare O Od transform a) = Some (Some o) ->
    fo_limit o = 0 ->
    available gz_dec (w_disk w) (w_stdin w) names cs -> reads true cs every None ->
    (forall r v, In r every -> has_value O (fo_ci o) p v (br_record r) -> P v) ->
    (forall v n, P v -> file_for template gzip outdir (lossy v) n -> writable n = true /\ ~ In n names) ->
    (forall v u n, P v -> P u -> file_for template gzip outdir (lossy v) n -> file_for template gzip outdir (lossy u) n -> v = u) ->
    exists all e sel w',
      reads skip cs all e /\ chosen (opts_hold O Od o) all sel
      /\ partition_on_disk a p gzip outdir true template skip names w = Some (CEnded (status_of e), w')
      /\ sorted_out template gzip outdir (fo_ci o) p sel w w'.
  Proof.
    intros P a o p gzip outdir template skip names w cs every W Wp Ep L Ha He HV HF HI.
    destruct (partition_disk_exact gz_enc gz_dec writable O Od transform lossy writer_order P a o p gzip outdir template skip names w cs every
      HO W Wp Ep Ha He HV HF HI) as (all & e0 & sel & wss & ws & e & fs & fs' & w' & H1 & H2 & H3 & H4 & (H5 & H6 & H7) & H8 & H9 & H10 & K1 & K2 & K3).
    rewrite L in H4. destruct H4 as [(_ & -> & ->)|(H & _)]; [|lia].
    exists all, e0, sel, w'. split; [exact H1|]. split; [exact H2|]. split; [exact H10|]. split; [|split; [|exact K3]].
    - intros v n recs text Hf Hc Hne Hl. apply K1. eapply files_of_in; [exact H8| |exact Hf].
      destruct (writes_by_value O (fo_ci o) p v sel wss H3) as (recs' & C1 & C2).
      assert (Er : recs' = recs) by (exact (QueryProofs.picks_fun _ _ _ _ _ _ C1 _ Hc)). subst recs'.
      apply (picks_nil_iff _ _ _ _ _ _ C2) in Hne as (x & Hx & Ex).
      assert (Hv : In v (map fst fs)). { apply H6. apply in_map_iff. eauto. }
      apply in_map_iff in Hv as ([v' text'] & Ev & Hin). cbn in Ev. subst v'.
      destruct (H7 _ _ Hin) as (recs' & P1 & P2).
      assert (Er : recs' = recs) by (eapply QueryProofs.picks_fun; eassumption). subst recs'.
      rewrite (lines_of_fun _ _ _ Hl P2). exact Hin.
    - intros n Hn. apply K2. intros Hi. apply (files_of_names _ _ _ _ _ _ H8) in Hi as (v & Hv & Hf).
      apply H6 in Hv. apply in_map_iff in Hv as (x & Ex & Hx).
      assert (Y : exists r, In r sel /\ has_value O (fo_ci o) p v (br_record r)).
      { apply in_concat in Hx as (l & Hl & Hx). clear -H3 Hl Hx Ex. induction H3 as [|r ws0 sel0 wss (vs & set & Hp & [_ Hv] & ->) _ IH]; [destruct Hl|].
        destruct Hl as [<-|Hl].
        - exists r. split; [left; reflexivity|]. exists vs. split; [exact Hp|]. apply Hv. apply in_map_iff in Hx as (u & <- & Hu). cbn in Ex. subst u. exact Hu.
        - destruct (IH Hl) as (r0 & A & B). exists r0. split; [right; exact A|exact B]. }
      destruct Y as (r & A & B). exact (Hn v r A B Hf).
  Qed.

  Lemma partition_disk_accepted : forall (P : bytes -> Prop) a M V p gzip outdir template skip names w cs every,
    regexes_compile O (oa_ci a) -> regexes_compile Od false -> opts_say O Od true transform a M V -> oa_limit a = 0 ->
    opt_sm_wf O (oa_ci a) (p_sub p) ->
    available gz_dec (w_disk w) (w_stdin w) names cs -> reads true cs every None ->
    (forall r v, In r every -> has_value O (oa_ci a) p v (br_record r) -> P v) ->
    (forall v n, P v -> file_for template gzip outdir (lossy v) n -> writable n = true /\ ~ In n names) ->
    (forall v u n, P v -> P u -> file_for template gzip outdir (lossy v) n -> file_for template gzip outdir (lossy u) n -> v = u) ->
    exists all e sel w',
      reads skip cs all e /\ chosen (meant a M V) all sel
      /\ partition_on_disk a p gzip outdir true template skip names w = Some (CEnded (status_of e), w')
      /\ sorted_out template gzip outdir (oa_ci a) p sel w w'.
  Proof.
    intros P a M V p gzip outdir template skip names w cs every R Rd HS L Wp Ha He HV HF HI.
    destruct (PrepareProofs.opts_accepted O Od transform a M V HS) as (o & Eo & Ho).
    destruct (PrepareProofs.opts_prepared_holds O Od a M V o R Rd Ho) as (W & Hh & El & Hsel).
    assert (Ec : fo_ci o = oa_ci a) by apply Ho. rewrite <- Ec in Wp, HV.
    destruct (partition_sorted P a o p gzip outdir template skip names w cs every W Wp) as (all & e & sel & w' & H1 & H2 & H3 & H4);
      try assumption; [rewrite Eo; reflexivity|congruence|].
    exists all, e, sel, w'. split; [exact H1|]. split; [|rewrite <- Ec; auto].
    eapply QueryExtraProofs.picks_weaken; [|exact H2]. intros r. apply Hh.
  Qed.

  Lemma partition_disk_read : forall (P : bytes -> Prop) a p gzip outdir dir_ok template skip names w cs every st w',
    regexes_compile O (oa_ci a) -> regexes_compile Od false -> oa_limit a = 0 ->
    opt_sm_wf O (oa_ci a) (p_sub p) ->
    available gz_dec (w_disk w) (w_stdin w) names cs -> reads true cs every None ->
    (forall r v, In r every -> has_value O (oa_ci a) p v (br_record r) -> P v) ->
    (forall v n, P v -> file_for template gzip outdir (lossy v) n -> writable n = true /\ ~ In n names) ->
    (forall v u n, P v -> P u -> file_for template gzip outdir (lossy v) n -> file_for template gzip outdir (lossy u) n -> v = u) ->
    partition_on_disk a p gzip outdir dir_ok template skip names w = Some (CEnded st, w') ->
    dir_ok = true /\ exists M V all e sel, opts_say O Od false transform a M V
      /\ reads skip cs all e /\ chosen (meant a M V) all sel /\ st = status_of e
      /\ sorted_out template gzip outdir (oa_ci a) p sel w w'.
  Proof.
    intros P a p gzip outdir dir_ok template skip names w cs every st w' R Rd L Wp Ha He HV HF HI H.
    destruct (fst (opts_prepare O Od transform a)) as [[o|]|] eqn:Eo;
      [|unfold DirModel.partition_on_disk in H; rewrite Eo in H; discriminate..].
    destruct dir_ok; [|unfold DirModel.partition_on_disk in H; rewrite Eo in H; discriminate]. split; [reflexivity|].
    destruct (PrepareProofs.opts_read O Od transform a o Eo) as (M & V & HS & Ho).
    destruct (PrepareProofs.opts_prepared_holds O Od a M V o R Rd Ho) as (W & Hh & El & Hsel).
    assert (Ec : fo_ci o = oa_ci a) by apply Ho. rewrite <- Ec in Wp, HV.
    destruct (partition_sorted P a o p gzip outdir template skip names w cs every W Wp) as (all & e & sel & w1 & H1 & H2 & H3 & H4);
      try assumption; [congruence|].
    rewrite H3 in H. injection H as <- <-.
    exists M, V, all, e, sel. split; [exact HS|]. split; [exact H1|]. split; [|split; [reflexivity|rewrite <- Ec; exact H4]].
    eapply QueryExtraProofs.picks_weaken; [|exact H2]. intros r. apply Hh.
  Qed.

  (** ** Distinct files *)

  Lemma distinct_files : forall template gzip dir x y n, placeholder template -> (forall t, template = Some t -> ~ In 47 t) ->
    ~ In 47 x -> ~ In 47 y ->
    file_for template gzip dir x n -> file_for template gzip dir y n -> x = y.
  Proof.
    intros template gzip dir x y n HP Ht Hx Hy (t & name & Et & Hf & Hj) (t' & name' & Et' & Hf' & Hj').
    subst t'. rewrite <- Et in Hf'.
    assert (HB : has_braces t) by (subst t; apply (braces_template template gzip HP)).
    assert (Hd : ~ In 47 t). { pose proof (default_no_slash template gzip Ht) as H. unfold template_or in H. rewrite <- Et in H. exact H. }
    assert (Hna : forall z u, ~ In 47 z -> filled z t u -> ~ absolute u).
    { intros z u Hz Hu (q & ->). destruct (filled_In _ _ _ Hu 47 (or_introl eq_refl)); contradiction. }
    assert (name = name').
    { eapply joined_inj; [exact Hj|exact Hj'|]. split; intros A; exfalso; [exact (Hna _ _ Hx Hf A)|exact (Hna _ _ Hy Hf' A)]. }
    subst name'. eapply filled_inj; eassumption.
  Qed.

  (** ** What else can happen to files *)

  Lemma partition_refused : forall a p gzip outdir dir_ok template skip names w w',
    partition_on_disk a p gzip outdir dir_ok template skip names w = Some (CRefused, w') -> w' = w.
  Proof.
    intros a p gzip outdir dir_ok template skip names w w' H. unfold DirModel.partition_on_disk in H.
    destruct (fst (opts_prepare O Od transform a)) as [[o|]|]; cbn [prepared] in H; [|injection H as <-; reflexivity|discriminate].
    destruct dir_ok; [|injection H as <-; reflexivity]. cbv zeta in H.
    exfalso. exact (live_end_not_refused _ _ _ _ _ H).
  Qed.

  Section Frame.
    Variable P : bytes -> Prop.
    Variable gzip : bool.
    Variable outdir : bytes.
    Variable template : option bytes.
    Variable d0 : disk.

    Definition only_values (d : disk) : Prop :=
      forall n, (forall v, P v -> ~ file_for template gzip outdir (lossy v) n) -> disk_get d n = disk_get d0 n.
    Definition values_only (s : dpart) : Prop := Forall P (map fst (snd (fst s))) /\ only_values (snd s).

    Lemma only_values_set : forall d v c, P v -> only_values d ->
      only_values (disk_set d (path_join outdir (partition_name lossy (template_or template gzip) v)) c).
    Proof.
      intros d v c Hv Hd n Hn. rewrite disk_get_other; [apply Hd; exact Hn|]. intros <-. apply (Hn v Hv). apply file_for_path. reflexivity.
    Qed.

    Lemma values_only_step : forall limit data vs s, Forall P vs -> values_only s ->
      values_only (fst (part_disk_values (fun v => open_output writable (value_output lossy gzip outdir (template_or template gzip) v))
                         limit data vs s)).
    Proof.
      intros limit data. induction vs as [|v vs IH]; intros s HP H; cbn [part_disk_values]; [exact H|].
      inversion HP as [|x l Hv Hvs]; subst. cbv zeta.
      assert (HN : forall d, (if existsb (fun w => bytes_eqb (fst w) v) (snd (fst s)) then Some (snd s)
           else open_output writable (value_output lossy gzip outdir (template_or template gzip) v) (snd s)) = Some d ->
         values_only ((fst (fst s) + 1, writer_write v data (snd (fst s))), d)).
      { destruct H as [H1 H2]. intros d E. split; cbn [fst snd].
        - rewrite writer_write_names. destruct (existsb _ _); [exact H1|]. apply Forall_app. auto.
        - destruct (existsb _ _); [injection E as <-; exact H2|].
          unfold open_output in E. cbn [value_output builder_output out_name] in E. destruct (writable _); [|discriminate].
          injection E as <-. apply only_values_set; assumption. }
      destruct (if existsb _ _ then _ else _) as [d|]; [|exact H].
      specialize (HN d eq_refl). cbn [fst snd]. destruct (limit_reached limit _); [exact HN|]. apply IH; assumption.
    Qed.

    Lemma values_only_body : forall p o s r, opt_sm_wf O (fo_ci o) (p_sub p) ->
      (forall v, has_value O (fo_ci o) p v (br_record r) -> P v) -> values_only s ->
      end_holds values_only (partition_disk_body writable O Od lossy gzip outdir (template_or template gzip) p o s r).
    Proof.
      intros p o s r W HV H. unfold partition_disk_body, io_guarded.
      destruct (opts_select O Od o (br_record r)) as [[|]|]; [|exact H|exact I].
      destruct (record_path_lists O (fo_ci o) p (br_record r) W) as (vs & -> & Hvs).
      pose proof (values_only_step (fo_limit o) (br_write r) (dedup (sort_values vs)) s) as Y.
      destruct (part_disk_values _ _ _ _ _) as [s' [[|]|]]; apply Y; auto;
        apply Forall_forall; intros v Hv; apply HV; exists vs; (split; [exact Hvs|]); apply sort_incl, dedup_incl, Hv.
    Qed.

    Lemma values_only_close : forall s, values_only s ->
      only_values (partition_close gz_enc lossy writer_order gzip outdir (template_or template gzip) s).
    Proof.
      intros s [H1 H2]. unfold partition_close.
      assert (F : Forall P (map fst (writer_order (snd (fst s))))).
      { eapply Permutation_Forall; [apply Permutation_sym, Permutation_map, HO|exact H1]. }
      revert F. generalize (writer_order (snd (fst s))) as l. revert H2. generalize (snd s).
      intros d Hd l. revert d Hd. induction l as [|[v text] l IH]; intros d Hd F; cbn [fold_left fst snd]; [exact Hd|].
      cbn in F. inversion F; subst. apply IH; [|assumption].
      unfold flushed. cbn [value_output builder_output out_name]. apply only_values_set; assumption.
    Qed.
  End Frame.

  (** any end, any inputs: only files named after values differ *)
  Lemma partition_frame : forall a p gzip outdir dir_ok template skip names w c w',
    regexes_compile O (oa_ci a) -> regexes_compile Od false -> opt_sm_wf O (oa_ci a) (p_sub p) ->
    partition_on_disk a p gzip outdir dir_ok template skip names w = Some (c, w') ->
    (forall n, (forall v, ~ file_for template gzip outdir (lossy v) n) -> disk_get (w_disk w') n = disk_get (w_disk w) n)
    /\ w_stdout w' = w_stdout w.
  Proof.
    intros a p gzip outdir dir_ok template skip names w c w' R Rd Wp H. unfold DirModel.partition_on_disk in H.
    destruct (fst (opts_prepare O Od transform a)) as [[o|]|] eqn:Eo; cbn [prepared] in H;
      [|injection H as <- <-; split; reflexivity|discriminate].
    destruct dir_ok; [|injection H as <- <-; split; reflexivity]. cbv zeta in H.
    destruct (PrepareProofs.opts_read O Od transform a o Eo) as (M & V & HS & Ho).
    assert (Ec : fo_ci o = oa_ci a) by apply Ho. rewrite <- Ec in Wp.
    unfold live_end in H. destruct (live_files_loop _ _ _ _ _ _ _) as [x|] eqn:Ex; [|discriminate].
    apply (live_invariant (values_only (fun _ => True) gzip outdir template (w_disk w)) _ skip) in Ex.
    2:{ intros s r Hs. apply values_only_body; auto. }
    2:{ split; [constructor|]. intros n _. reflexivity. }
    assert (HC : forall s, values_only (fun _ => True) gzip outdir template (w_disk w) s ->
       forall n, (forall v, ~ file_for template gzip outdir (lossy v) n) ->
         disk_get (partition_close gz_enc lossy writer_order gzip outdir (template_or template gzip) s) n = disk_get (w_disk w) n).
    { intros s Hs n Hn. apply (values_only_close _ _ _ _ _ _ Hs). auto. }
    destruct x as [s|s|s e|]; cbn in H, Ex.
    - injection H as <- <-. split; [apply HC; exact Ex|reflexivity].
    - injection H as <- <-. split; [apply HC; exact Ex|reflexivity].
    - destruct (match e with CIo BrokenPipe => Some 0 | _ => Some 2 end) as [n|]; injection H as <- <-;
        (split; [first [apply HC; exact Ex|intros m _; reflexivity]|reflexivity]).
    - injection H as <- <-. split; reflexivity.
  Qed.

  (** any end: only files named after values of the records *)
  Lemma partition_frame_values : forall (P : bytes -> Prop) a p gzip outdir dir_ok template skip names w c w' cs every,
    regexes_compile O (oa_ci a) -> regexes_compile Od false -> opt_sm_wf O (oa_ci a) (p_sub p) ->
    available gz_dec (w_disk w) (w_stdin w) names cs -> reads true cs every None ->
    (forall r v, In r every -> has_value O (oa_ci a) p v (br_record r) -> P v) ->
    (forall v n, P v -> file_for template gzip outdir (lossy v) n -> ~ In n names) ->
    partition_on_disk a p gzip outdir dir_ok template skip names w = Some (c, w') ->
    forall n, (forall v, P v -> ~ file_for template gzip outdir (lossy v) n) -> disk_get (w_disk w') n = disk_get (w_disk w) n.
  Proof.
    intros P a p gzip outdir dir_ok template skip names w c w' cs every R Rd Wp Ha He HV HF H. unfold DirModel.partition_on_disk in H.
    destruct (fst (opts_prepare O Od transform a)) as [[o|]|] eqn:Eo; cbn [prepared] in H;
      [|injection H as <- <-; reflexivity|discriminate].
    destruct dir_ok; [|injection H as <- <-; reflexivity]. cbv zeta in H.
    destruct (PrepareProofs.opts_read O Od transform a o Eo) as (M & V & HS & Ho).
    assert (Ec : fo_ci o = oa_ci a) by apply Ho. rewrite <- Ec in Wp, HV.
    set (body := partition_disk_body writable O Od lossy gzip outdir (template_or template gzip) p o) in H.
    assert (HS' : opt_rel (fun x y => x = y /\ values_only P gzip outdir template (w_disk w) x)
      (live_files_loop gz_dec snd body skip ((0, []), w_disk w) (w_stdin w) names)
      (io_files_loop (fun s => s) body skip ((0, []), w_disk w) (inputs gz_dec (w_disk w) (w_stdin w) names))).
    { apply live_sim with (Q := fun r => In r every).
      - intros x y r Hr [-> Hy]. pose proof (values_only_body P gzip outdir template (w_disk w) p o y r Wp (fun v => HV r v Hr) Hy) as Y.
        unfold body. destruct (partition_disk_body writable O Od lossy gzip outdir (template_or template gzip) p o y r); cbn in Y |- *; auto.
      - intros x y [-> [_ Hy]] n Hn. apply Hy. intros v Hv Hf. exact (HF v n Hv Hf Hn).
      - eapply delivered_reads; eassumption.
      - split; [reflexivity|]. split; [constructor|]. intros n _. reflexivity. }
    unfold live_end in H. destruct (live_files_loop _ _ _ _ _ _ _) as [x|]; [|discriminate].
    destruct (io_files_loop _ _ _ _ _) as [y|]; [|contradiction].
    assert (Ex : end_holds (values_only P gzip outdir template (w_disk w)) x).
    { destruct x, y; cbn in HS'; try contradiction; cbn; try exact I; apply HS'. }
    destruct x as [s|s|s e|]; cbn in H, Ex.
    - injection H as <- <-. apply (values_only_close _ _ _ _ _ _ Ex).
    - injection H as <- <-. apply (values_only_close _ _ _ _ _ _ Ex).
    - destruct (match e with CIo BrokenPipe => Some 0 | _ => Some 2 end) as [n|]; injection H as <- <-;
        [apply (values_only_close _ _ _ _ _ _ Ex)|reflexivity].
    - injection H as <- <-. reflexivity.
  Qed.

  (** values without a slash stay in the directory *)
  Lemma partition_in_dir : forall a p gzip outdir dir_ok template skip names w c w' cs every n,
    regexes_compile O (oa_ci a) -> regexes_compile Od false -> opt_sm_wf O (oa_ci a) (p_sub p) ->
    available gz_dec (w_disk w) (w_stdin w) names cs -> reads true cs every None ->
    (forall t, template = Some t -> ~ In 47 t) ->
    (forall r v, In r every -> has_value O (oa_ci a) p v (br_record r) -> ~ In 47 (lossy v)) ->
    (forall m, In m names -> ~ in_dir outdir m) ->
    partition_on_disk a p gzip outdir dir_ok template skip names w = Some (c, w') ->
    ~ in_dir outdir n -> disk_get (w_disk w') n = disk_get (w_disk w) n.
  Proof.
    intros a p gzip outdir dir_ok template skip names w c w' cs every n R Rd Wp Ha He Ht HV HF H Hn.
    eapply (partition_frame_values (fun v => ~ In 47 (lossy v))); try eassumption.
    - intros v m Hv Hf Hm. apply (HF m Hm). eapply file_in_dir; eassumption.
    - intros v Hv Hf. apply Hn. eapply file_in_dir; eassumption.
  Qed.
End Commands.

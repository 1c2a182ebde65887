(** * Proofs about the arguments of filter and the shared options *)

From Coq Require Import String.
From Verif Require Import Bytes Winnow RecordModel RecordSpec BaseProofs TagOccModel TagOccSpec Utf8Model Utf8Spec
  Utf8Proofs ByteRecordModel ByteRecordSpec ReaderModel StrSpec MatcherModel MatcherSpec MatcherProofs StateParser
  MatcherParserModel MatcherParserProofs MatcherExtraProofs PathModel QuerySpec QueryProofs QueryParserProofs
  QueryExtraProofs QueryModel
  BuilderModel CliModel CliSpec CliProofs CliCommandProofs CliOutputProofs CliListProofs
  OptionsModel OptionsSpec OptionsProofs GrammarSpec GrammarFieldProofs GrammarSoundProofs GrammarStateProofs
  QueryGrammarSpec PathGrammarProofs QueryTextProofs PrepareModel PrepareSpec.
From Verif Require BuilderSpec BuilderProofs TagOccProofs RecordProofs CheckModel.

(** ** The builder *)

Section Builder.
  Variable O : oracles.
  Variable tr : bytes -> bytes.

  (** the matcher is the program's form of the meaning *)
  Definition stands (m : field_matcher) (P : meaning field) : Prop :=
    fm_checked O m /\ forall ci, regexes_compile O ci -> forall fs, fm_holds O ci m fs <-> P ci fs.

  Lemma stands_iff : forall m P Q, stands m P -> (forall ci fs, P ci fs <-> Q ci fs) -> stands m Q.
  Proof.
    intros m P Q [H1 H2] E. split; [exact H1|]. intros ci R fs. rewrite (H2 ci R). apply E.
  Qed.

  Lemma expression_accepted : forall t P s, expression O true t P -> calm s ->
    exists m, field_matcher_new O s t = (Some (Some m), s) /\ stands m P.
  Proof.
    intros t P s (n & H & Hn) [S1 S2].
    destruct (field_accepts O t P n s H S1 S2 (Hn eq_refl)) as (m & E & Hm).
    exists m. split; [exact E|]. split; [eapply field_matcher_new_checked; exact E|].
    intros ci _ fs. apply Hm.
  Qed.
  Lemma expression_read : forall s t m s', field_matcher_new O s t = (Some (Some m), s') ->
    exists P, expression O false t P /\ stands m P.
  Proof.
    intros s t m s' E. destruct (field_sound O s t m s' E) as (P & n & Ht & Hm).
    exists P. split; [exists n; split; [exact Ht|discriminate]|].
    split; [eapply field_matcher_new_checked; exact E|]. intros ci _ fs. apply Hm.
  Qed.

  Import BuilderSpec BuilderProofs.

  Definition combine (k : kind) (P Q : meaning field) : meaning field := fun ci fs =>
    match k with
    | KAnd => P ci fs /\ Q ci fs
    | KOr => P ci fs \/ Q ci fs
    | KNot => P ci fs /\ ~ Q ci fs
    end.

  Lemma assign_checked : forall a b, fm_checked O a -> fm_checked O b ->
    fm_checked O (fm_and_assign a b) /\ fm_checked O (fm_or_assign a b).
  Proof.
    intros a b Ha Hb. unfold fm_and_assign, fm_or_assign. cbn [fm_checked]. split; [|auto].
    split; [destruct a as [|?|?|?|? [] ?]; exact Ha|destruct b as [|?|?|?|? [] ?]; exact Hb].
  Qed.

  Lemma op_stands : forall k a b P Q, stands a P -> stands b Q -> stands (op_of k a b) (combine k P Q).
  Proof.
    intros k a b P Q [Ca Ha] [Cb Hb].
    assert (C : fm_checked O (op_of k a b)).
    { destruct k; cbn [op_of]; [exact (proj1 (assign_checked a b Ca Cb))|exact (proj2 (assign_checked a b Ca Cb))|].
      exact (proj1 (assign_checked a _ Ca (proj2 (proj2 (proj2 (fm_ops_checked O b b Cb Cb)))))). }
    split; [exact C|]. intros ci R fs. specialize (Ha ci R fs). specialize (Hb ci R fs).
    destruct R as [R1 R2].
    destruct (fm_decides O ci a fs (fm_checked_wf O ci a R1 R2 Ca)) as (x & Ex & Ix).
    destruct (fm_decides O ci b fs (fm_checked_wf O ci b R1 R2 Cb)) as (y & Ey & Iy).
    destruct (fm_decides O ci _ fs (fm_checked_wf O ci _ R1 R2 C)) as (z & Ez & Iz).
    rewrite (op_of_eval O k ci fs a b x y Ex Ey) in Ez. injection Ez as <-.
    rewrite <- Iz. rewrite <- Ix in Ha. rewrite <- Iy in Hb. clear - Ha Hb.
    unfold combine. destruct k; rewrite <- Ha, <- Hb; destruct x, y; cbn; intuition discriminate.
  Qed.

  Lemma fold_accepted : forall k l Ps m P s, Forall2 (fun t => expression O true (tr t)) l Ps -> calm s ->
    stands m P ->
    exists m', builder_fold O tr (op_of k) l m s = (Some (Some m'), s)
      /\ stands m' (fold_left (combine k) Ps P).
  Proof.
    intros k l Ps m P s H Cs. revert m P. induction H as [|t Q l Ps Ht H IH]; intros m P Hm; cbn [builder_fold fold_left].
    - exists m. auto.
    - destruct (expression_accepted _ _ s Ht Cs) as (m1 & E1 & H1). rewrite E1. cbn [and_then].
      apply IH. apply op_stands; assumption.
  Qed.
  Lemma fold_reads : forall k l m P s m' s', stands m P ->
    builder_fold O tr (op_of k) l m s = (Some (Some m'), s') ->
    exists Ps, Forall2 (fun t => expression O false (tr t)) l Ps /\ stands m' (fold_left (combine k) Ps P).
  Proof.
    intros k. induction l as [|e l IH]; intros m P s m' s' Hm H; cbn [builder_fold] in H.
    - injection H as <- <-. exists []. split; [constructor|exact Hm].
    - unfold and_then in H. destruct (field_matcher_new O s (tr e)) as [[[m1|]|] s1] eqn:E; try discriminate.
      destruct (expression_read _ _ _ _ E) as (Q & HQ & H1).
      destruct (IH _ _ _ _ _ (op_stands k m m1 P Q Hm H1) H) as (Ps & HP & Hf).
      exists (Q :: Ps). split; [constructor; assumption|exact Hf].
  Qed.

  Lemma fold_and : forall Ps P ci fs,
    fold_left (combine KAnd) Ps P ci fs <-> P ci fs /\ forall Q, In Q Ps -> Q ci fs.
  Proof.
    induction Ps as [|X Ps IH]; intros P ci fs; cbn [fold_left].
    - split; [intros H; split; [exact H|intros Q []]|tauto].
    - rewrite IH. cbn [combine]. split.
      + intros [[H1 H2] H3]. split; [exact H1|]. intros Q [<-|HQ]; [exact H2|exact (H3 Q HQ)].
      + intros [H1 H2]. split; [split; [exact H1|apply H2; left; reflexivity]|].
        intros Q HQ. apply H2. right. exact HQ.
  Qed.
  Lemma fold_or : forall Ps P ci fs,
    fold_left (combine KOr) Ps P ci fs <-> P ci fs \/ exists Q, In Q Ps /\ Q ci fs.
  Proof.
    induction Ps as [|X Ps IH]; intros P ci fs; cbn [fold_left].
    - split; [auto|]. intros [H|(Q & [] & _)]. exact H.
    - rewrite IH. cbn [combine]. split.
      + intros [[H|H]|(Q & H1 & H2)]; [auto|right; exists X; cbn; auto|right; exists Q; cbn; auto].
      + intros [H|(Q & [<-|H1] & H2)]; eauto.
  Qed.
  Lemma fold_not : forall Ps P ci fs,
    fold_left (combine KNot) Ps P ci fs <-> P ci fs /\ ~ exists Q, In Q Ps /\ Q ci fs.
  Proof.
    induction Ps as [|X Ps IH]; intros P ci fs; cbn [fold_left].
    - split; [intros H; split; [exact H|intros (Q & [] & _)]|tauto].
    - rewrite IH. cbn [combine]. split.
      + intros [[H1 H2] H3]. split; [exact H1|]. intros (Q & [<-|HQ] & H); [auto|apply H3; eauto].
      + intros [H1 H2]. split; [split; [exact H1|]|].
        * intros H. apply H2. exists X. cbn. auto.
        * intros (Q & HQ & H). apply H2. exists Q. cbn. auto.
  Qed.

  Lemma folds_combined : forall P As Os Ns ci fs,
    fold_left (combine KNot) Ns (fold_left (combine KOr) Os (fold_left (combine KAnd) As P)) ci fs
    <-> combined P As Os Ns ci fs.
  Proof. intros. rewrite fold_not, fold_or, fold_and. reflexivity. Qed.

  Lemma run_accepted : forall e ands ors nots M s, condition O true tr e ands ors nots M -> calm s ->
    exists m, builder_run O tr s e [CallAnd ands; CallOr ors; CallNot nots] = (Some (Some m), s) /\ stands m M.
  Proof.
    intros e ands ors nots M s (P & As & Os & Ns & H0 & HA & HO & HN & E) Cs.
    destruct (expression_accepted _ _ s H0 Cs) as (m0 & E0 & S0).
    destruct (fold_accepted KAnd _ _ m0 P s HA Cs S0) as (m1 & E1 & S1).
    destruct (fold_accepted KOr _ _ m1 _ s HO Cs S1) as (m2 & E2 & S2).
    destruct (fold_accepted KNot _ _ m2 _ s HN Cs S2) as (m3 & E3 & S3).
    exists m3. split.
    - unfold builder_run, builder_new. rewrite E0. cbn [and_then builder_calls builder_step].
      change fm_and_assign with (op_of KAnd). rewrite E1. cbn [and_then].
      change fm_or_assign with (op_of KOr). rewrite E2. cbn [and_then].
      change (fun a b => op_of KAnd a (fm_not b)) with (op_of KNot). rewrite E3. reflexivity.
    - eapply stands_iff; [exact S3|]. intros ci fs. rewrite E. apply folds_combined.
  Qed.

  Lemma run_reads : forall s e ands ors nots m s',
    builder_run O tr s e [CallAnd ands; CallOr ors; CallNot nots] = (Some (Some m), s') ->
    exists M, condition O false tr e ands ors nots M /\ stands m M.
  Proof.
    intros s e ands ors nots m s' H. unfold builder_run, builder_new in H.
    destruct (field_matcher_new O s (tr e)) as [[[m0|]|] s0] eqn:E0; try discriminate.
    cbn [and_then builder_calls builder_step] in H. destruct (expression_read _ _ _ _ E0) as (P & H0 & S0).
    destruct (builder_fold O tr fm_and_assign ands m0 s0) as [[[m1|]|] s1] eqn:E1; try discriminate.
    cbn [and_then] in H. change fm_and_assign with (op_of KAnd) in E1.
    destruct (fold_reads _ _ _ _ _ _ _ S0 E1) as (As & HA & S1).
    destruct (builder_fold O tr fm_or_assign ors m1 s1) as [[[m2|]|] s2] eqn:E2; try discriminate.
    cbn [and_then] in H. change fm_or_assign with (op_of KOr) in E2.
    destruct (fold_reads _ _ _ _ _ _ _ S1 E2) as (Os & HO & S2).
    destruct (builder_fold O tr (fun a b => fm_and_assign a (fm_not b)) nots m2 s2) as [[[m3|]|] s3] eqn:E3;
      try discriminate.
    cbn [and_then] in H. injection H as <- <-.
    change (fun a b => fm_and_assign a (fm_not b)) with (op_of KNot) in E3.
    destruct (fold_reads _ _ _ _ _ _ _ S2 E3) as (Ns & HN & S3).
    exists (combined P As Os Ns). split.
    - exists P, As, Os, Ns. repeat (split; [assumption|]). reflexivity.
    - eapply stands_iff; [exact S3|]. apply folds_combined.
  Qed.

  Lemma fold_total : forall op l m s, fst (builder_fold O tr op l m s) <> None.
  Proof.
    intros op. induction l as [|e l IH]; intros m s; cbn [builder_fold]; [discriminate|].
    destruct (field_matcher_new_total O s (tr e)) as (r & E & _).
    destruct (field_matcher_new O s (tr e)) as [x s1]. cbn in E. subst x. destruct r as [m1|]; cbn [and_then].
    - apply IH.
    - discriminate.
  Qed.
  Lemma run_total : forall s e cs, fst (builder_run O tr s e cs) <> None.
  Proof.
    intros s e cs. unfold builder_run, builder_new.
    destruct (field_matcher_new_total O s (tr e)) as (r & E & _).
    destruct (field_matcher_new O s (tr e)) as [x s1]. cbn in E. subst x. destruct r as [m1|]; cbn [and_then]; [|discriminate].
    revert m1 s1. induction cs as [|c cs IH]; intros m1 s1; cbn [builder_calls]; [discriminate|].
    destruct (builder_step_eq O tr c m1 s1) as (k & l & Es & _). rewrite Es.
    pose proof (fold_total (op_of k) l m1 s1) as T.
    destruct (builder_fold O tr (op_of k) l m1 s1) as [[[m2|]|] s2]; cbn [and_then]; [apply IH|discriminate|].
    exfalso. apply T. reflexivity.
  Qed.
End Builder.

(** ** The source of the lists *)

Section Source.
  Variable Od : oracles.

  Lemma ppn_parsed : forall s, path_new Od s (lit "003@.0") = (Some (Some ppn_path), s).
  Proof. intros s. reflexivity. Qed.

  Definition source_path (x : option path) : path := match x with Some p => p | None => ppn_path end.

  Lemma source_accepted : forall t V s, source_values Od true t V -> lv_sub s = 0 ->
    exists x, source_parse Od s t = (Some (Some x), s)
      /\ path_checked Od (source_path x)
      /\ forall r vs, path_lists Od false (source_path x) r vs <-> V r vs.
  Proof.
    intros t V s (F & Cs & Ht & HV) Hs.
    destruct (path_ok Od _ F Cs [] s Ht Hs) as (p & E & Hp). rewrite app_nil_r in E.
    assert (En : path_new Od s (match t with Some t => t | None => lit "003@.0" end) = (Some (Some p), s)).
    { unfold path_new, sparse_all. rewrite E. reflexivity. }
    assert (L : forall r vs, path_lists Od false p r vs <-> V r vs).
    { intros r vs. rewrite HV. apply (path_lists_means Od). exact Hp. }
    assert (C : path_checked Od p) by (eapply new_checked; [apply path_new_total|exact En]).
    destruct t as [t|]; unfold source_parse.
    - rewrite En. exists (Some p). auto.
    - rewrite ppn_parsed in En. injection En as <-. exists None. auto.
  Qed.

  Lemma source_read : forall s t x s', source_parse Od s t = (Some (Some x), s') ->
    exists V, source_values Od false t V /\ path_checked Od (source_path x)
      /\ forall r vs, path_lists Od false (source_path x) r vs <-> V r vs.
  Proof.
    intros s t x s' H.
    assert (exists p s', path_new Od s (match t with Some t => t | None => lit "003@.0" end) = (Some (Some p), s')
              /\ source_path x = p) as (p & s1 & E & Ex).
    { destruct t as [t|]; unfold source_parse, and_then in H.
      - destruct (path_new Od s t) as [[[p|]|] s1]; try discriminate. injection H as <- <-.
        exists p, s1. auto.
      - injection H as <- <-. exists ppn_path, s. split; [apply ppn_parsed|reflexivity]. }
    assert (C : path_checked Od p) by (eapply new_checked; [apply path_new_total|exact E]).
    unfold path_new, sparse_all in E. rewrite Ex.
    destruct (parse_path Od s _) as [[q [|c r]| |] s2] eqn:Ep; try discriminate. injection E as -> ->.
    destruct (path_read Od _ _ _ _ _ Ep) as (t' & F & Cs & Et & Ht & Hp). rewrite app_nil_r in Et. subst t'.
    exists (path_values_of F Cs false). split; [exists F, Cs; split; [exact Ht|reflexivity]|].
    split; [exact C|]. intros r0 vs. apply (path_lists_means Od). exact Hp.
  Qed.

  Lemma source_total : forall s t, fst (source_parse Od s t) <> None.
  Proof.
    intros s [t|]; unfold source_parse; [|discriminate].
    destruct (path_new_total Od s t) as (r & E & _). destruct (path_new Od s t) as [x s1]. cbn in E. subst x.
    destruct r; cbn; discriminate.
  Qed.
End Source.

(** ** Lists *)

Lemma read_tables_total : forall ts col, has_columns ts col -> exists vs, read_tables ts col = Some vs.
Proof.
  induction ts as [|t ts IH]; intros col H; cbn [read_tables]; [eauto|].
  destruct (H t (or_introl eq_refl)) as (cells & Hc). apply list_column_some in Hc. rewrite Hc.
  destruct (IH col) as (vs & ->); [intros t' Ht; apply H; right; exact Ht|]. eauto.
Qed.

Lemma set_accepted : forall source col allow deny, has_columns allow col -> has_columns deny col ->
  exists fs, filter_set_build source col allow deny = Some fs.
Proof.
  assert (L : forall ts col, has_columns ts col -> exists l, read_filter_list ts col = Some l).
  { intros [|t ts] col H; cbn [read_filter_list]; [eauto|]. destruct (read_tables_total _ _ H) as (vs & ->). eauto. }
  intros source col allow deny Ha Hd. unfold filter_set_build.
  destruct (L _ _ Ha) as (a & ->). destruct (L _ _ Hd) as (d & ->). eauto.
Qed.

Lemma set_read : forall source col allow deny fs, filter_set_build source col allow deny = Some fs ->
  has_columns allow col /\ has_columns deny col /\ fset_path fs = source_path source
  /\ forall Od V, (forall r vs, path_lists Od false (source_path source) r vs <-> V r vs) ->
       forall r, admitted Od fs r <-> admits V allow deny col r.
Proof.
  intros source col allow deny fs H. apply filter_set_build_lists in H as (HA & HD & HP).
  split; [|split; [|split; [exact HP|]]].
  - destruct HA as [[-> _]|(_ & vs & _ & H & _)]; [intros t []|exact H].
  - destruct HD as [[-> _]|(_ & vs & _ & H & _)]; [intros t []|exact H].
  - intros Od V HV r. unfold admitted, admits. rewrite HP.
    assert (D : forall vs, (forall deny', fset_deny fs = Some deny' -> forall v, In v vs -> ~ In v deny')
                <-> (forall v, In v vs -> ~ on_list deny col v)).
    { intros vs. destruct HD as [[-> ->]|(_ & l & -> & _ & HD)].
      - split; [intros _ v _ (t & c & [] & _)|discriminate].
      - split.
        + intros H v Hv Ho. apply (H l eq_refl v Hv). apply HD. exact Ho.
        + intros H l' E v Hv Hi. injection E as <-. apply (H v Hv). apply HD. exact Hi. }
    assert (A : forall vs, (forall allow', fset_allow fs = Some allow' -> exists v, In v vs /\ In v allow')
                <-> (allow = [] \/ exists v, In v vs /\ on_list allow col v)).
    { intros vs. destruct HA as [[-> ->]|(Hn & l & -> & _ & HA)].
      - split; [auto|discriminate].
      - split.
        + intros H. right. destruct (H l eq_refl) as (v & H1 & H2). exists v. split; [exact H1|]. apply HA. exact H2.
        + intros [H|(v & H1 & H2)] l' E; [contradiction|]. injection E as <-. exists v. split; [exact H1|].
          apply HA. exact H2. }
    split; intros (vs & H1 & H2 & H3); exists vs; (split; [apply HV; exact H1|]);
      (split; [apply D; exact H2|apply A; exact H3]).
Qed.

(** ** --keep and --discard *)

Lemma predicate_denotes : forall item P, predicate_text item P ->
  exists p, parse_predicate item = Some p /\ denotes p P.
Proof.
  intros item P (t & o & T & Q & -> & HT & HQ & HP). unfold parse_predicate.
  destruct (TagOccProofs.tag_matcher_complete t T HT) as (m & Hm & Em).
  destruct (TagOccProofs.occ_matcher_complete o Q HQ) as (n & Hn & En).
  assert (D : denotes (m, n) P).
  { intros tag occ. cbn [fst snd]. rewrite HP, Em, En. reflexivity. }
  destruct (occ_text_slash o Q HQ) as [->|(x & -> & Nx)].
  - rewrite app_nil_r. rewrite slash_none by (eapply tag_text_no_slash; exact HT). rewrite Hm.
    cbn in Hn. injection Hn as <-. eauto.
  - rewrite slash_app by exact Nx. rewrite Hm, Hn. eauto.
Qed.

Lemma fields_accepted : forall o Ps, fields_option o Ps ->
  exists ms, parse_predicates o = Some ms /\ Forall2 denotes ms Ps.
Proof.
  intros [b|] Ps H; cbn [fields_option] in H; [|subst; exists []; split; [reflexivity|constructor]].
  destruct H as (items & Hi & H). cbn [parse_predicates]. rewrite <- (list_items_fun _ _ _ Hi (model_items b)).
  clear Hi. induction H as [|x P l Ps Hx H IH]; cbn [CheckModel.map_opt]; [exists []; split; [reflexivity|constructor]|].
  destruct (predicate_denotes x P Hx) as (p & -> & Hp). destruct IH as (ms & -> & IH).
  exists (p :: ms). split; [reflexivity|constructor; assumption].
Qed.
Lemma fields_read : forall o ms, parse_predicates o = Some ms ->
  exists Ps, fields_option o Ps /\ Forall2 denotes ms Ps.
Proof.
  intros [b|] ms H.
  - apply predicates_sound in H as (items & Ps & H1 & H2 & H3). exists Ps. split; [exists items; auto|exact H3].
  - cbn in H. injection H as <-. exists []. split; [reflexivity|constructor].
Qed.

Lemma denotes_matched : forall ms Ps, Forall2 denotes ms Ps ->
  forall f, field_matched ms f <-> names_field Ps f.
Proof.
  intros ms Ps H f. unfold field_matched, names_field. induction H as [|p P ms Ps H H3 IH].
  - split; [intros (t & o & [] & _)|intros (P & [] & _)].
  - split.
    + intros (t & o & [->|Hin] & Ht & Ho).
      * exists P. split; [left; reflexivity|]. apply H. auto.
      * destruct (proj1 IH) as (P' & H1 & H2); [exists t, o; auto|]. exists P'. cbn. auto.
    + intros (P' & [<-|Hin] & HP).
      * apply H in HP as [Ht Ho]. destruct p as [t o]. exists t, o. cbn. auto.
      * destruct (proj2 IH) as (t & o & H1 & H2); [exists P'; auto|]. exists t, o. cbn. tauto.
Qed.

Lemma selected_iff : forall A (P Q : A -> Prop) l l', (forall x, P x <-> Q x) -> Selected P l l' -> Selected Q l l'.
Proof.
  intros A P Q l l' E H. induction H as [|x l l' Hx H IH|x l l' Hx H IH]; constructor; auto; [apply E; exact Hx|].
  rewrite <- E. exact Hx.
Qed.
Lemma selected_all : forall A (P : A -> Prop) l, (forall x, P x) -> Selected P l l.
Proof. intros A P l H. induction l; constructor; auto. Qed.
Lemma selected_two : forall A (P Q : A -> Prop) l m, Selected P l m -> forall n, Selected Q m n ->
  Selected (fun x => P x /\ Q x) l n.
Proof.
  intros A P Q l m H. induction H as [|x l m Hx H IH|x l m Hx H IH]; intros n K.
  - inversion K; subst. constructor.
  - inversion K as [|? ? ? Hq K'|? ? ? Hq K']; subst.
    + apply sel_keep; auto.
    + apply sel_drop; [tauto|auto].
  - apply sel_drop; [tauto|auto].
Qed.

Lemma edited_remaining : forall c D K r t, Forall2 denotes (fc_discard c) D -> Forall2 denotes (fc_keep c) K ->
  edited_text c r t -> remaining_text D K r t.
Proof.
  intros c D K r t HD HK (fs & He & Ht). exists fs. split; [|exact Ht].
  inversion He as [|e es l l' l'' E1 E2]; subst. inversion E2 as [|e es l1 l2 l3 E3 E4]; subst.
  inversion E4; subst. unfold remains.
  apply selected_two with (m := l').
  - pose proof (denotes_matched _ _ HD) as M. inversion E1 as [|?|?|? E0|p ? ? Hp Hs]; subst.
    + apply selected_all. intros f Hf. apply M in Hf. match goal with H : [] = fc_discard c |- _ => rewrite <- H in Hf end.
      destruct Hf as (? & ? & [] & _).
    + eapply selected_iff; [|exact Hs]. intros f. rewrite <- M. reflexivity.
  - pose proof (denotes_matched _ _ HK) as M. inversion E3 as [|?|p ? ? Hp Hs| |]; subst.
    + apply selected_all. intros f. left. match goal with H : [] = fc_keep c |- _ => rewrite <- H in HK end.
      inversion HK. reflexivity.
    + eapply selected_iff; [|exact Hs]. intros f. rewrite M. split; [auto|].
      intros [->|H]; [|exact H]. inversion HK; congruence.
Qed.

(** ** filter *)

Lemma input_names_model : forall content a,
  exists names, input_names a names
    /\ filter_inputs content a = map (fun n => (n, content n)) names
    /\ forall names', input_names a names' -> names' = names.
Proof.
  intros content a. unfold filter_inputs.
  set (flag := match fa_expr_file a with Some _ => true | None => false end).
  exists (filter_names flag (fa_filter a) (fa_names a)).
  assert (U : forall names, input_names a names -> names = filter_names flag (fa_filter a) (fa_names a)).
  { unfold filter_names, flag. intros names [E|x E Ef|x E Ef En|x E Ef En]; rewrite E; cbn [andb]; [reflexivity| | |].
    - rewrite Ef. reflexivity.
    - destruct (fa_filter a) as [|c l] eqn:F; [congruence|]. rewrite En. reflexivity.
    - destruct (fa_filter a) as [|c l] eqn:F; [congruence|].
      assert (X : list_eqb bytes_eqb (fa_names a) [lit "-"] = false).
      { destruct (list_eqb bytes_eqb (fa_names a) [lit "-"]) eqn:L; [|reflexivity]. exfalso. apply En.
        apply (RecordProofs.list_eqb_eq bytes_eqb bytes_eqb_eq). exact L. }
      rewrite X. reflexivity. }
  split; [|split; [reflexivity|exact U]].
  unfold filter_names, flag. destruct (fa_expr_file a) as [x|] eqn:E; cbn [andb]; [|apply inames_expr; exact E].
  destruct (bytes_eqb (fa_filter a) []) eqn:Ef; cbn [negb].
  - apply bytes_eqb_eq in Ef. eapply inames_none; eassumption.
  - apply bytes_eqb_neq in Ef. destruct (list_eqb bytes_eqb (fa_names a) [lit "-"]) eqn:L.
    + apply (RecordProofs.list_eqb_eq bytes_eqb bytes_eqb_eq) in L. eapply inames_only; eassumption.
    + eapply inames_more; [eassumption..|]. intros H. apply (RecordProofs.list_eqb_eq bytes_eqb bytes_eqb_eq) in H. congruence.
Qed.

Section Filter.
  Variables O Od : oracles.
  Variables tr content : bytes -> bytes.

  Lemma text_filter : forall a e, filter_text content a e <-> filter_expr content a = Some e.
  Proof.
    intros a e. unfold filter_text, filter_expr. destruct (fa_expr_file a) as [name|].
    - split.
      + intros [[H _]|(n & H & -> & Hu)]; [discriminate|]. injection H as <-.
        apply utf8_valid_iff in Hu. rewrite Hu. reflexivity.
      + destruct (utf8_valid (content name)) eqn:U; [|discriminate]. intros H. injection H as <-.
        right. exists name. apply utf8_valid_iff in U. auto.
    - split.
      + intros [[_ ->]|(n & H & _)]; [reflexivity|discriminate].
      + intros H. injection H as <-. auto.
  Qed.

  (** what the prepared command has to do with the arguments *)
  Definition prepared (a : filter_args) (M : meaning field) (D K : predicates) (V : record -> list bytes -> Prop)
      (c : filter_cmd) : Prop :=
    stands O (fc_matcher c) M /\ Forall2 denotes (fc_discard c) D /\ Forall2 denotes (fc_keep c) K
    /\ path_checked Od (fset_path (fc_fset c))
    /\ (forall r, admitted Od (fc_fset c) r <-> admits V (fa_allow a) (fa_deny a) (fa_column a) r)
    /\ fc_ci c = fa_ci a /\ fc_invert c = fa_invert a /\ fc_limit c = fa_limit a.

  Lemma filter_accepted : forall a M D K V, filter_says O Od true tr content a M D K V ->
    exists c, fst (filter_prepare O Od tr content a) = Some (Some c) /\ prepared a M D K V c.
  Proof.
    intros a M D K V [(e & He & Hc) HD HK HV HA HY]. unfold filter_prepare.
    destruct (source_accepted Od _ V fresh HV eq_refl) as (x & Ex & Cx & Lx). rewrite Ex. cbn [and_then].
    destruct (fields_accepted _ _ HD) as (d & -> & Hd). destruct (fields_accepted _ _ HK) as (k & -> & Hk).
    destruct (set_accepted x (fa_column a) _ _ HA HY) as (fs & Es). rewrite Es.
    apply text_filter in He. rewrite He.
    destruct (run_accepted O tr _ _ _ _ M fresh Hc (conj eq_refl eq_refl)) as (m & Em & Hm). rewrite Em. cbn [and_then].
    eexists. split; [reflexivity|]. destruct (set_read _ _ _ _ _ Es) as (_ & _ & Hp & Ha).
    unfold prepared. cbn [fc_matcher fc_discard fc_keep fc_fset fc_ci fc_invert fc_limit]. rewrite Hp.
    split; [exact Hm|]. split; [exact Hd|]. split; [exact Hk|]. split; [exact Cx|].
    split; [apply Ha; exact Lx|]. auto.
  Qed.

  Lemma filter_read : forall a c, fst (filter_prepare O Od tr content a) = Some (Some c) ->
    exists M D K V, filter_says O Od false tr content a M D K V /\ prepared a M D K V c.
  Proof.
    intros a c H. unfold filter_prepare in H.
    destruct (source_parse Od fresh (fa_source a)) as [[[x|]|] s] eqn:Ex; try discriminate. cbn [and_then] in H.
    destruct (source_read Od _ _ _ _ Ex) as (V & HV & Cx & Lx).
    destruct (parse_predicates (fa_discard a)) as [d|] eqn:Ed; [|discriminate].
    destruct (parse_predicates (fa_keep a)) as [k|] eqn:Ek; [|discriminate].
    destruct (filter_set_build x (fa_column a) (fa_allow a) (fa_deny a)) as [fs|] eqn:Es; [|discriminate].
    destruct (filter_expr content a) as [e|] eqn:Ee; [|discriminate].
    destruct (builder_run O tr s e [CallAnd (fa_and a); CallOr (fa_or a); CallNot (fa_not a)])
      as [[[m|]|] s1] eqn:Em; try discriminate.
    cbn [and_then fst] in H. injection H as <-.
    destruct (run_reads O tr _ _ _ _ _ _ _ Em) as (M & HM & Hm).
    destruct (fields_read _ _ Ed) as (D & HD & Hd). destruct (fields_read _ _ Ek) as (K & HK & Hk).
    destruct (set_read _ _ _ _ _ Es) as (HA & HY & Hp & Ha). apply text_filter in Ee.
    exists M, D, K, V. split.
    - constructor; auto. exists e. auto.
    - unfold prepared. cbn [fc_matcher fc_discard fc_keep fc_fset fc_ci fc_invert fc_limit]. rewrite Hp.
      split; [exact Hm|]. split; [exact Hd|]. split; [exact Hk|]. split; [exact Cx|].
      split; [apply Ha; exact Lx|]. auto.
  Qed.

  Lemma prepared_effect : forall a M D K V c, regexes_compile O (fa_ci a) -> regexes_compile Od false ->
    prepared a M D K V c ->
    exists x, filter_run O Od (fa_skip a) c (filter_inputs content a) = Some x
      /\ filter_effect content a M D K V x.
  Proof.
    intros a M D K V c R Rd (Sm & Hd & Hk & Cp & Ha & Ec & Ei & El).
    assert (W : filter_wf O Od c).
    { destruct R as [R1 R2], Rd as [Rd1 Rd2]. split.
      - exact (proj1 (path_checked_wf Od false Rd1 Rd2 _ Cp)).
      - rewrite Ec. apply fm_checked_wf; [assumption..|]. apply Sm. }
    destruct (filter_exact O Od (fa_skip a) c (filter_inputs content a) W)
      as (all & e0 & sel & recs & e & texts & H1 & H2 & H3 & H4 & E).
    exists (ended (N.of_nat (length recs), concat texts, concat texts) e). split; [exact E|].
    destruct (input_names_model content a) as (names & Hn & En & _). rewrite En in H1.
    exists names, all, e0, sel, recs, e, texts. split; [exact Hn|]. split; [exact H1|]. split.
    - eapply picks_weaken; [|exact H2]. intros r. unfold filter_holds. rewrite Ha, Ei, Ec.
      destruct (fa_invert a); rewrite (proj2 Sm (fa_ci a) R); reflexivity.
    - split; [rewrite <- El; exact H3|]. split; [|reflexivity].
      eapply Forall2_impl; [|exact H4]. intros r t. apply edited_remaining; assumption.
  Qed.

  Lemma execute_accepted : forall a M D K V, regexes_compile O (fa_ci a) -> regexes_compile Od false ->
    filter_says O Od true tr content a M D K V ->
    exists x, filter_execute O Od tr content a = Some (Ran x) /\ filter_effect content a M D K V x.
  Proof.
    intros a M D K V R Rd H. destruct (filter_accepted _ _ _ _ _ H) as (c & E & Hc).
    destruct (prepared_effect _ _ _ _ _ _ R Rd Hc) as (x & Ex & Hx). exists x. split; [|exact Hx].
    unfold filter_execute. rewrite E, Ex. reflexivity.
  Qed.

  Lemma execute_read : forall a x, regexes_compile O (fa_ci a) -> regexes_compile Od false ->
    filter_execute O Od tr content a = Some (Ran x) ->
    exists M D K V, filter_says O Od false tr content a M D K V /\ filter_effect content a M D K V x.
  Proof.
    intros a x R Rd H. unfold filter_execute in H.
    destruct (fst (filter_prepare O Od tr content a)) as [[c|]|] eqn:E; try discriminate.
    destruct (filter_read a c E) as (M & D & K & V & Hs & Hc).
    destruct (prepared_effect _ _ _ _ _ _ R Rd Hc) as (y & Ey & Hy). rewrite Ey in H. injection H as <-.
    exists M, D, K, V. auto.
  Qed.

  Lemma prepare_total : forall a, fst (filter_prepare O Od tr content a) <> None.
  Proof.
    intros a. unfold filter_prepare. pose proof (source_total Od fresh (fa_source a)) as T.
    destruct (source_parse Od fresh (fa_source a)) as [[[x|]|] s]; cbn [and_then]; [|discriminate|exfalso; apply T; reflexivity].
    destruct (parse_predicates (fa_discard a)) as [d|]; [|discriminate].
    destruct (parse_predicates (fa_keep a)) as [k|]; [|discriminate].
    destruct (filter_set_build x (fa_column a) (fa_allow a) (fa_deny a)) as [fs|]; [|discriminate].
    destruct (filter_expr content a) as [e|]; [|discriminate].
    pose proof (run_total O tr s e [CallAnd (fa_and a); CallOr (fa_or a); CallNot (fa_not a)]) as T'.
    destruct (builder_run O tr s e [CallAnd (fa_and a); CallOr (fa_or a); CallNot (fa_not a)]) as [[[m|]|] s1];
      cbn [and_then]; [discriminate|discriminate|exfalso; apply T'; reflexivity].
  Qed.

  Lemma execute_total : forall a, regexes_compile O (fa_ci a) -> regexes_compile Od false ->
    exists y, filter_execute O Od tr content a = Some y.
  Proof.
    intros a R Rd. unfold filter_execute. pose proof (prepare_total a) as T.
    destruct (fst (filter_prepare O Od tr content a)) as [[c|]|] eqn:E; [|eauto|congruence].
    destruct (filter_read a c E) as (M & D & K & V & Hs & Hc).
    destruct (prepared_effect _ _ _ _ _ _ R Rd Hc) as (y & Ey & Hy). rewrite Ey. cbn. eauto.
  Qed.

  Lemma execute_refused : forall a, regexes_compile O (fa_ci a) -> regexes_compile Od false ->
    (forall M D K V, ~ filter_says O Od false tr content a M D K V) ->
    filter_execute O Od tr content a = Some Refused.
  Proof.
    intros a R Rd H. destruct (execute_total a R Rd) as ([|x] & E); [exact E|].
    destruct (execute_read a x R Rd E) as (M & D & K & V & Hs & _). exfalso. eapply H. exact Hs.
  Qed.
End Filter.

(** ** The shared options *)

Section Opts.
  Variables O Od : oracles.
  Variable tr : bytes -> bytes.

  Definition opts_prepared (a : opts_args) (M : meaning field) (V : record -> list bytes -> Prop)
      (o : filter_opts) : Prop :=
    (match fo_matcher o with Some m => stands O m M | None => forall ci fs, M ci fs end)
    /\ path_checked Od (fset_path (fo_fset o))
    /\ (forall r, admitted Od (fo_fset o) r <-> admits V (oa_allow a) (oa_deny a) (oa_column a) r)
    /\ fo_ci o = oa_ci a /\ fo_limit o = oa_limit a.

  Lemma opts_accepted : forall a M V, opts_say O Od true tr a M V ->
    exists o, opts_prepare O Od tr a = (Some (Some o), fresh) /\ opts_prepared a M V o.
  Proof.
    intros a M V [Hc HV HA HY]. unfold opts_prepare.
    destruct (source_accepted Od _ V fresh HV eq_refl) as (x & Ex & Cx & Lx). rewrite Ex. cbn [and_then].
    destruct (set_accepted x (oa_column a) _ _ HA HY) as (fs & Es). rewrite Es.
    destruct (set_read _ _ _ _ _ Es) as (_ & _ & Hp & Ha).
    unfold where_condition in Hc. unfold filter_opts_matcher. destruct (oa_where a) as [e|].
    - destruct (run_accepted O tr _ _ _ _ M fresh Hc (conj eq_refl eq_refl)) as (m & Em & Hm). rewrite Em. cbn [and_then].
      eexists. split; [reflexivity|]. unfold opts_prepared. cbn [fo_matcher fo_fset fo_ci fo_limit]. rewrite Hp.
      split; [exact Hm|]. split; [exact Cx|]. split; [apply Ha; exact Lx|]. auto.
    - cbn [and_then]. eexists. split; [reflexivity|]. unfold opts_prepared. cbn [fo_matcher fo_fset fo_ci fo_limit]. rewrite Hp.
      split; [exact Hc|]. split; [exact Cx|]. split; [apply Ha; exact Lx|]. auto.
  Qed.

  Lemma opts_read : forall a o, fst (opts_prepare O Od tr a) = Some (Some o) ->
    exists M V, opts_say O Od false tr a M V /\ opts_prepared a M V o.
  Proof.
    intros a o H. unfold opts_prepare in H.
    destruct (source_parse Od fresh (oa_source a)) as [[[x|]|] s] eqn:Ex; try discriminate. cbn [and_then] in H.
    destruct (source_read Od _ _ _ _ Ex) as (V & HV & Cx & Lx).
    destruct (filter_set_build x (oa_column a) (oa_allow a) (oa_deny a)) as [fs|] eqn:Es; [|discriminate].
    destruct (set_read _ _ _ _ _ Es) as (HA & HY & Hp & Ha).
    unfold filter_opts_matcher in H. destruct (oa_where a) as [e|] eqn:Ew.
    - destruct (builder_run O tr s e [CallAnd (oa_and a); CallOr (oa_or a); CallNot (oa_not a)])
        as [[[m|]|] s1] eqn:Em; try discriminate.
      cbn [and_then fst] in H. injection H as <-. destruct (run_reads O tr _ _ _ _ _ _ _ Em) as (M & HM & Hm).
      exists M, V. split; [constructor; auto; unfold where_condition; rewrite Ew; exact HM|].
      unfold opts_prepared. cbn [fo_matcher fo_fset fo_ci fo_limit]. rewrite Hp.
      split; [exact Hm|]. split; [exact Cx|]. split; [apply Ha; exact Lx|]. auto.
    - cbn [and_then fst] in H. injection H as <-. exists (fun _ _ => True), V.
      split; [constructor; auto; unfold where_condition; rewrite Ew; auto|].
      unfold opts_prepared. cbn [fo_matcher fo_fset fo_ci fo_limit]. rewrite Hp.
      split; [auto|]. split; [exact Cx|]. split; [apply Ha; exact Lx|]. auto.
  Qed.

  Lemma opts_total : forall a, fst (opts_prepare O Od tr a) <> None.
  Proof.
    intros a. unfold opts_prepare. pose proof (source_total Od fresh (oa_source a)) as T.
    destruct (source_parse Od fresh (oa_source a)) as [[[x|]|] s]; cbn [and_then]; [|discriminate|exfalso; apply T; reflexivity].
    destruct (filter_set_build x (oa_column a) (oa_allow a) (oa_deny a)) as [fs|]; [|discriminate].
    unfold filter_opts_matcher. destruct (oa_where a) as [e|]; [|discriminate].
    pose proof (run_total O tr s e [CallAnd (oa_and a); CallOr (oa_or a); CallNot (oa_not a)]) as T'.
    destruct (builder_run O tr s e [CallAnd (oa_and a); CallOr (oa_or a); CallNot (oa_not a)]) as [[[m|]|] s1];
      cbn [and_then]; [discriminate|discriminate|exfalso; apply T'; reflexivity].
  Qed.

  Lemma opts_prepared_holds : forall a M V o, regexes_compile O (oa_ci a) -> regexes_compile Od false ->
    opts_prepared a M V o ->
    opts_wf O Od o /\ (forall r, opts_hold O Od o r <-> meant a M V r)
    /\ fo_limit o = oa_limit a
    /\ forall skip files recs e, selects O Od skip o files recs e <-> opts_records a M V skip files recs e.
  Proof.
    intros a M V o R Rd (Sm & Cp & Ha & Ec & El).
    assert (H : forall r, opts_hold O Od o r <-> meant a M V r).
    { intros r. unfold opts_hold, meant. rewrite Ha, Ec. destruct (fo_matcher o) as [m|].
      - split; intros [H1 H2]; (split; [exact H1|]).
        + apply (proj2 Sm (oa_ci a) R). apply H2. reflexivity.
        + intros m' E. injection E as <-. apply (proj2 Sm (oa_ci a) R). exact H2.
      - split; intros [H1 H2]; (split; [exact H1|]); [apply Sm|discriminate]. }
    split; [|split; [exact H|split; [exact El|]]].
    - destruct R as [R1 R2], Rd as [Rd1 Rd2]. split.
      + exact (proj1 (path_checked_wf Od false Rd1 Rd2 _ Cp)).
      + intros m E. rewrite E in Sm. rewrite Ec. apply fm_checked_wf; [assumption..|]. apply Sm.
    - intros skip files recs e. unfold selects, opts_records. rewrite El.
      split; intros (all & sel & e0 & H1 & H2 & H3); exists all, sel, e0; (split; [exact H1|]); (split; [|exact H3]).
      + eapply picks_weaken; [|exact H2]. intros r. apply H.
      + eapply picks_weaken; [|exact H2]. intros r. symmetry. apply H.
  Qed.

  Lemma opts_execute_accepted : forall S (run : filter_opts -> option (ending S)) a M V,
    regexes_compile O (oa_ci a) -> regexes_compile Od false -> opts_say O Od true tr a M V ->
    exists o, opts_execute O Od tr run a = match run o with Some x => Some (Ran x) | None => None end
      /\ opts_wf O Od o /\ (forall r, opts_hold O Od o r <-> meant a M V r)
      /\ fo_limit o = oa_limit a
      /\ forall skip files recs e, selects O Od skip o files recs e <-> opts_records a M V skip files recs e.
  Proof.
    intros S run a M V R Rd H. destruct (opts_accepted _ _ _ H) as (o & E & Ho).
    exists o. split; [unfold opts_execute; rewrite E; cbn [fst]; destruct (run o); reflexivity|].
    apply opts_prepared_holds; assumption.
  Qed.

  Lemma opts_execute_read : forall S (run : filter_opts -> option (ending S)) a,
    regexes_compile O (oa_ci a) -> regexes_compile Od false ->
    opts_execute O Od tr run a = Some Refused
    \/ exists M V o, opts_say O Od false tr a M V
         /\ opts_execute O Od tr run a = match run o with Some x => Some (Ran x) | None => None end
         /\ opts_wf O Od o /\ (forall r, opts_hold O Od o r <-> meant a M V r)
         /\ fo_limit o = oa_limit a
         /\ forall skip files recs e, selects O Od skip o files recs e <-> opts_records a M V skip files recs e.
  Proof.
    intros S run a R Rd. unfold opts_execute. pose proof (opts_total a) as T.
    destruct (fst (opts_prepare O Od tr a)) as [[o|]|] eqn:E; [|auto|congruence].
    right. destruct (opts_read a o E) as (M & V & H & Ho). exists M, V, o. split; [exact H|].
    split; [destruct (run o); reflexivity|]. apply opts_prepared_holds; assumption.
  Qed.
End Opts.

(** ** Exit codes *)

Lemma filter_code_zero : forall O Od tr content a, regexes_compile O (fa_ci a) -> regexes_compile Od false ->
  (exists y, filter_execute O Od tr content a = Some y /\ main_code y = Some 0) ->
  exists M D K V s, filter_says O Od false tr content a M D K V /\ filter_effect content a M D K V (Done s).
Proof.
  intros O Od tr content a R Rd (y & E & Hy). destruct y as [|x]; [discriminate|].
  destruct (execute_read O Od tr content a x R Rd E) as (M & D & K & V & Hs & He).
  destruct x as [s|s e|]; try discriminate. exists M, D, K, V, s. auto.
Qed.

Lemma filter_code : forall O Od tr content a, regexes_compile O (fa_ci a) -> regexes_compile Od false ->
  exists y, filter_execute O Od tr content a = Some y /\ (main_code y = Some 0 \/ main_code y = Some 2)
    /\ (main_code y = Some 0 <-> exists s, y = Ran (Done s)).
Proof.
  intros O Od tr content a R Rd. destruct (execute_total O Od tr content a R Rd) as (y & E). exists y.
  split; [exact E|]. destruct y as [|x].
  - split; [auto|]. split; [discriminate|]. intros (s & H). discriminate.
  - destruct (execute_read O Od tr content a x R Rd E) as (M & D & K & V & _ & He).
    destruct He as (names & all & e0 & sel & recs & e & texts & _ & _ & _ & _ & _ & ->).
    destruct e as [e|]; cbn.
    + split; [auto|]. split; [discriminate|]. intros (s & H). discriminate.
    + split; [auto|]. split; [eauto|auto].
Qed.

Lemma count_meant : forall O Od tr a M V skip files, regexes_compile O (oa_ci a) -> regexes_compile Od false ->
  opts_say O Od true tr a M V ->
  exists all sel e, reads skip files all e /\ chosen (meant a M V) all sel
    /\ opts_execute O Od tr (fun o => count_run O Od skip o files) a
       = Some (Ran (ended (N.of_nat (length sel), N.of_nat (length (flat_map br_record sel)),
                      N.of_nat (length (flat_map f_subfields (flat_map br_record sel)))) e)).
Proof.
  intros O Od tr a M V skip files R Rd H.
  destruct (opts_execute_accepted O Od tr _ (fun o => count_run O Od skip o files) a M V R Rd H)
    as (o & E & W & Hh & _ & _).
  destruct (count_exact O Od skip o files W) as (all & sel & e & H1 & H2 & E2).
  exists all, sel, e. split; [exact H1|]. split; [eapply picks_weaken; [|exact H2]; intros r; apply Hh|].
  rewrite E, E2. reflexivity.
Qed.

(** * Proofs about pipes: the input, and both *)

From Coq Require Import String ZArith Lia Permutation.
From Verif Require Import Bytes BaseProofs Winnow RecordModel TagOccModel Utf8Model ByteRecordModel ReaderModel
  MatcherModel StateParser MatcherParserModel BuilderModel PathModel FmtModel QueryModel CliModel TableModel
  ExplodeModel CheckModel ConvertModel CsvModel OptionsModel OptionsSpec ConfigModel PrepareModel IoModel IoSpec WriteSpec DiskModel DirModel RuleModel
  MainModel DiskSpec RuleSpec MainSpec PipeSpec DiskProofs DiskEndProofs DirLoopProofs MainProofs MainTwiceProofs MainUseProofs MainDependProofs MainEndProofs PipeProofs.
From Verif Require DirSpec DirSplitProofs.

(** ** Loops over inputs with other names *)

Section Fate.
  Context {S : Type}.

  (** the same end, but for the error that is shown *)
  Definition same_fate (x y : io_ending S) : Prop :=
    match x, y with
    | IDone a, IDone b | IStopped a, IStopped b => a = b
    | IFailed a er, IFailed b er' => a = b /\ main_status (IFailed a er) = main_status (IFailed b er')
    | IPanicked, IPanicked => True
    | _, _ => False
    end.
  Definition same_fates (x y : option (io_ending S)) : Prop :=
    match x, y with None, None => True | Some x, Some y => same_fate x y | _, _ => False end.

  Variable on_skip : S -> S.
  Variable body : S -> byte_record -> io_ending S.
  Variable skip : bool.

  Lemma fate_refl : forall x, same_fate x x.
  Proof. intros [| | |]; cbn; auto. Qed.

  Definition renamed (rd rd' : io_reader) : Prop := io_inner rd = io_inner rd' /\ io_line rd = io_line rd'.

  Lemma reader_renamed : forall fuel s rd rd', renamed rd rd' ->
    same_fates (io_reader_loop on_skip body skip fuel s rd) (io_reader_loop on_skip body skip fuel s rd').
  Proof.
    induction fuel as [|fuel IH]; intros s [src n l] [src' n' l'] [E1 E2]; [exact I|]. cbn in E1, E2. subst src' l'.
    cbn [io_reader_loop]. unfold io_next_byte_record. cbn [io_inner io_line io_source].
    destruct (io_read_until src) as [[buf|k] src'].
    - destruct buf as [|c buf]; [reflexivity|]. destruct (br_from_bytes (c :: buf)) as [r|].
      + destruct (body s r) as [s'| | |]; try (apply fate_refl). apply IH. split; reflexivity.
      + cbn [pica_skip]. destruct skip; [apply IH; split; reflexivity|]. split; reflexivity.
    - cbn [pica_skip]. split; reflexivity.
  Qed.

  Lemma files_renamed : forall f1 f2 s, map snd f1 = map snd f2 ->
    same_fates (io_files_loop on_skip body skip s f1) (io_files_loop on_skip body skip s f2).
  Proof.
    induction f1 as [|[n1 r1] f1 IH]; intros [|[n2 r2] f2] s E; try discriminate; [reflexivity|].
    cbn [map snd] in E. injection E as <- E. cbn [io_files_loop]. destruct r1 as [reads|k]; [|split; reflexivity].
    cbv zeta. cbn [io_reader_new io_inner]. set (fuel := Datatypes.S (source_size (mkSource [] reads))).
    pose proof (reader_renamed fuel s (io_reader_new reads (Some n1)) (io_reader_new reads (Some n2)) (conj eq_refl eq_refl)) as X.
    destruct (io_reader_loop _ _ _ _ _ (io_reader_new reads (Some n1))) as [[]|], (io_reader_loop _ _ _ _ _ (io_reader_new reads (Some n2))) as [[]|];
      try contradiction; try exact X. cbn in X. subst. apply IH. exact E.
  Qed.
End Fate.

Lemma invalid_renamed : forall f1 f2 out, map snd f1 = map snd f2 -> io_invalid_run f1 out = io_invalid_run f2 out.
Proof.
  induction f1 as [|[n1 r1] f1 IH]; intros [|[n2 r2] f2] out E; try discriminate; [reflexivity|].
  cbn [map snd] in E. injection E as <- E. cbn [io_invalid_run]. destruct r1 as [reads|k]; [|reflexivity].
  cbv zeta. destruct (io_invalid_file _ _ _) as [[]|]; try reflexivity. apply IH. exact E.
Qed.

(** ** The file instead of stdin *)

Section Feed.
  Variable gz_enc : bytes -> bytes.
  Variable gz_dec : bytes -> list piece.
  Variable writable : bytes -> bool.
  Variable m : bytes.
  Hypothesis Hdash : m <> lit "-".
  Hypothesis Hgz : gz_name m = false.
  Variables before after : list bytes.
  Hypothesis Hb : ~ In (lit "-") before.
  Hypothesis Ha : ~ In (lit "-") after.
  Variables content other : bytes.

  Notation get v n := (disk_get (w_disk v) n).
  Let names := before ++ lit "-" :: after.
  Let names' := before ++ m :: after.

  Lemma no_stdin : forall ns d s s', ~ In (lit "-") ns -> inputs gz_dec d s ns = inputs gz_dec d s' ns.
  Proof.
    induction ns as [|n ns IH]; intros d s s' H; [reflexivity|]. cbn [inputs].
    destruct (bytes_eqb n (lit "-")) eqn:E; [apply bytes_eqb_eq in E; exfalso; apply H; left; exact E|].
    rewrite (IH d s s'); [reflexivity|]. intros X. apply H. right. exact X.
  Qed.

  Lemma stdin_file : forall s d, disk_get d m = Some content ->
    map snd (inputs gz_dec d content [lit "-"]) = map snd (inputs gz_dec d s [m]).
  Proof.
    intros s d H. cbn [inputs]. rewrite bytes_eqb_refl. destruct (bytes_eqb m (lit "-")) eqn:E; [apply bytes_eqb_eq in E; contradiction|].
    rewrite H, Hgz. reflexivity.
  Qed.

  Lemma inputs_fed : forall d, disk_get d m = Some content ->
    map snd (inputs gz_dec d content names) = map snd (inputs gz_dec d other names').
  Proof.
    intros d H. unfold names, names'. clear names names'. induction before as [|n ns IH].
    - cbn [app inputs]. rewrite bytes_eqb_refl. destruct (bytes_eqb m (lit "-")) eqn:E; [apply bytes_eqb_eq in E; contradiction|].
      rewrite H, Hgz. cbn [map snd]. rewrite (no_stdin after d [] other Ha). reflexivity.
    - cbn [app inputs]. destruct (bytes_eqb n (lit "-")) eqn:E; [apply bytes_eqb_eq in E; exfalso; apply Hb; left; exact E|].
      cbn [map snd]. f_equal. apply IH. intros X. apply Hb. right. exact X.
  Qed.

  (** reads the content from stdin here, from the file there *)
  Definition feeding (v v' : world) : Prop := w_stdin v = content /\ v' = fed other v /\ get v m = Some content.

  Definition frel (r r' : option (command_end * world)) : Prop :=
    match r, r' with
    | None, None => True
    | Some (x, v), Some (x', v') => x' = x /\ v' = fed other v
    | _, _ => False
    end.

  Definition leaves_it (o : output) : Prop := out_name o <> Some m.

  Lemma fed_close : forall o t v, close_output gz_enc o t (fed other v) = fed other (close_output gz_enc o t v).
  Proof. intros o t v. unfold close_output. destruct (out_name o); reflexivity. Qed.

  Lemma fed_close_all : forall (outs : list (output * bytes)) v,
    close_all gz_enc outs (fed other v) = fed other (close_all gz_enc outs v).
  Proof.
    induction outs as [|o outs IH]; intros v; [reflexivity|]. unfold close_all in *. cbn [fold_left]. rewrite fed_close. apply IH.
  Qed.

  Lemma open_fed : forall outs opened v v' k k', Forall leaves_it outs -> feeding v v' ->
    (forall u u', feeding u u' -> frel (k u) (k' u')) ->
    frel (open_all gz_enc writable opened outs v k) (open_all gz_enc writable opened outs v' k').
  Proof.
    induction outs as [|o outs IH]; intros opened v v' k k' Ho H Hk; [apply Hk; exact H|].
    inversion Ho as [|? ? Ho1 Ho2]. subst. destruct H as (H1 & -> & H3). cbn [open_all]. change (w_disk (fed other v)) with (w_disk v).
    destruct (open_output writable o (w_disk v)) as [d|] eqn:E.
    - apply IH; [exact Ho2| |exact Hk]. split; [exact H1|]. split; [reflexivity|]. cbn. unfold open_output in E.
      destruct (out_name o) as [n|] eqn:En; [|injection E as <-; exact H3]. destruct (writable n); [|discriminate]. injection E as <-.
      rewrite disk_get_other; [exact H3|]. intros ->. exact (Ho1 En).
    - split; [reflexivity|]. apply fed_close_all.
  Qed.

  Lemma prepared_fed : forall {B} outs (x : option (option B)) v v' k k', feeding v v' ->
    (forall a, frel (k a) (k' a)) -> frel (prepared gz_enc outs x v k) (prepared gz_enc outs x v' k').
  Proof.
    intros B outs x v v' k k' (H1 & -> & H3) Hk. destruct x as [[a|]|]; [apply Hk| |exact I]. split; [reflexivity|]. apply fed_close_all.
  Qed.

  Lemma process_fed : forall {S} (outs : list (output * ((S -> bytes) * (S -> bytes)))) bad on_skip body skip (s : S) v v', feeding v v' ->
    frel (process_all gz_enc gz_dec outs bad on_skip body skip s names v)
         (process_all gz_enc gz_dec outs bad on_skip body skip s names' v').
  Proof.
    intros S outs bad on_skip body skip s v v' (H1 & -> & H3). unfold process_all. rewrite H1.
    change (w_disk (fed other v)) with (w_disk v). change (w_stdin (fed other v)) with other.
    pose proof (files_renamed on_skip body skip _ _ s (inputs_fed (w_disk v) H3)) as X.
    destruct (io_files_loop _ _ _ _ (inputs _ _ content _)) as [x|], (io_files_loop _ _ _ _ (inputs _ _ other _)) as [y|]; try contradiction; [|exact I].
    destruct x as [a|a|a er|], y as [b|b|b er'|]; try contradiction; cbn [same_fates same_fate] in X.
    - subst b. destruct (main_status _); (split; [reflexivity|]); [apply fed_close_all|reflexivity].
    - subst b. destruct (main_status _); (split; [reflexivity|]); [apply fed_close_all|reflexivity].
    - destruct X as [<- ->]. destruct (main_status _); (split; [reflexivity|]); [apply fed_close_all|reflexivity].
    - split; reflexivity.
  Qed.

  (** *** Inputs that are opened while outputs are written *)

  Section Live.
    Context {S : Type}.
    Variable view : S -> disk.
    Variable body : S -> byte_record -> io_ending S.
    Variable skip : bool.
    Variable P : S -> Prop.
    Hypothesis HP : forall s r, P s -> end_holds P (body s r).
    Hypothesis Hview : forall s, P s -> disk_get (view s) m = Some content.

    Lemma live_no_stdin : forall ns s x y, ~ In (lit "-") ns ->
      live_files_loop gz_dec view body skip s x ns = live_files_loop gz_dec view body skip s y ns.
    Proof.
      induction ns as [|n ns IH]; intros s x y H; [reflexivity|]. cbn [live_files_loop].
      rewrite (no_stdin [n] (view s) x y) by (intros [E|[]]; apply H; left; exact E).
      destruct (io_files_loop _ _ _ _ _) as [[]|]; try reflexivity. apply IH. intros X. apply H. right. exact X.
    Qed.

    Lemma live_fed : forall s, P s ->
      same_fates (live_files_loop gz_dec view body skip s content names) (live_files_loop gz_dec view body skip s other names').
    Proof.
      unfold names, names'. clear names names'. induction before as [|n ns IH]; intros s Hs.
      - cbn [app live_files_loop]. pose proof (files_renamed (fun s => s) body skip _ _ s (stdin_file other (view s) (Hview s Hs))) as X.
        destruct (io_files_loop _ _ _ _ (inputs _ _ content _)) as [[]|], (io_files_loop _ _ _ _ (inputs _ _ other _)) as [[]|];
          try contradiction; try exact X. cbn in X. subst. rewrite (live_no_stdin after s1 _ (if bytes_eqb m (lit "-") then [] else other) Ha).
        destruct (live_files_loop _ _ _ _ _ _ _) as [z|]; [apply fate_refl|exact I].
      - assert (n <> lit "-") as Hn by (intros ->; apply Hb; left; reflexivity).
        cbn [app live_files_loop]. rewrite (no_stdin [n] (view s) content other) by (intros [E|[]]; exact (Hn E)).
        destruct (io_files_loop _ _ _ _ _) as [y|] eqn:E; [|exact I]. pose proof (files_invariant P body skip HP _ _ _ Hs E) as Hy.
        destruct y as [s'| | |]; try apply fate_refl.
        destruct (bytes_eqb n (lit "-")) eqn:En; [apply bytes_eqb_eq in En; contradiction|]. apply IH; [|exact Hy].
        intros X. apply Hb. right. exact X.
    Qed.
  End Live.

  Lemma live_end_fed : forall {S} (close : S -> disk) x y v v', same_fates x y -> feeding v v' ->
    frel (live_end close x v) (live_end close y v').
  Proof.
    intros S close x y v v' X (H1 & -> & H3). unfold live_end. destruct x as [x|], y as [y|]; try contradiction; [|exact I].
    destruct x as [a|a|a er|], y as [b|b|b er'|]; try contradiction; cbn [same_fates same_fate] in X.
    - subst b. destruct (main_status _); split; reflexivity.
    - subst b. destruct (main_status _); split; reflexivity.
    - destruct X as [<- ->]. destruct (main_status _); split; reflexivity.
    - split; reflexivity.
  Qed.

  (** *** The commands *)

  Variables O Od : oracles.
  Variable transform : bytes -> bytes.
  Variables v v' : world.
  Hypothesis Hv : feeding v v'.

  Lemma one_leaves : forall o, out_name o <> Some m -> Forall leaves_it [o].
  Proof. intros o H. constructor; [exact H|constructor]. Qed.

  Lemma two_leave : forall b output tee, output <> Some m -> tee <> Some m ->
    Forall leaves_it (builder_output b output :: match tee with Some n => [builder_output b (Some n)] | None => [] end).
  Proof.
    intros b output tee H1 H2. constructor; [exact H1|]. destruct tee as [t|]; [|constructor]. apply one_leaves. exact H2.
  Qed.

  Lemma fed_end : forall x, frel (Some (x, v)) (Some (x, v')).
  Proof. intros x. destruct Hv as (_ & -> & _). split; reflexivity. Qed.

  Lemma expr_fed : forall a a' u u', fa_expr_file a' = fa_expr_file a ->
    (forall c, filter_prepare O Od transform c a' = filter_prepare O Od transform c a) -> feeding u u' ->
    (if expr_there a' (w_disk u') then fst (filter_prepare O Od transform (content_of (w_disk u')) a') else Some None)
    = (if expr_there a (w_disk u) then fst (filter_prepare O Od transform (content_of (w_disk u)) a) else Some None).
  Proof. intros a a' u u' E Hp (_ & -> & _). unfold expr_there. rewrite E, Hp. reflexivity. Qed.

  Definition renamed_args (a : filter_args) (ns : list bytes) : filter_args :=
    mkFilterArgs (fa_skip a) (fa_limit a) (fa_invert a) (fa_ci a) (fa_keep a) (fa_discard a) (fa_expr_file a)
      (fa_allow a) (fa_deny a) (fa_column a) (fa_source a) (fa_and a) (fa_or a) (fa_not a) (fa_filter a) ns.

  Lemma filter_fed : forall a append gzip output tee, output <> Some m -> tee <> Some m ->
    fa_expr_file a = None \/ fa_filter a = [] ->
    frel (filter_on_disk gz_enc gz_dec writable O Od transform (renamed_args a names) append gzip output tee v)
         (filter_on_disk gz_enc gz_dec writable O Od transform (renamed_args a names') append gzip output tee v').
  Proof.
    intros a append gzip output tee Ho Ht Hx. unfold filter_on_disk.
    apply (prepared_fed [] (filter_first Od (renamed_args a names)) v v'); [exact Hv|]. intros _.
    destruct (wb_run wb_new [CAppend append; CGzip gzip]) as [b|]; [|apply fed_end]. cbv zeta.
    apply open_fed; [apply two_leave; assumption|exact Hv|]. intros u u' Hu.
    rewrite (expr_fed (renamed_args a names) (renamed_args a names') u u' eq_refl (fun _ => eq_refl) Hu).
    apply prepared_fed; [exact Hu|]. intros c.
    assert (forall ns, filter_names (match fa_expr_file (renamed_args a ns) with Some _ => true | None => false end)
                        (fa_filter (renamed_args a ns)) (fa_names (renamed_args a ns)) = ns) as E.
    { intros ns. cbn [renamed_args fa_expr_file fa_filter fa_names]. unfold filter_names. destruct Hx as [-> | ->]; [reflexivity|].
      rewrite andb_comm. reflexivity. }
    rewrite !E. apply process_fed. exact Hu.
  Qed.

  Variable sha : bytes -> bytes.
  Variable lossy : bytes -> bytes.

  Lemma concat_fed : forall append output tee unique skip, output <> Some m -> tee <> Some m ->
    frel (concat_on_disk gz_enc gz_dec writable O sha lossy append output tee unique skip names v)
         (concat_on_disk gz_enc gz_dec writable O sha lossy append output tee unique skip names' v').
  Proof.
    intros append output tee unique skip Ho Ht. unfold concat_on_disk. destruct (wb_run wb_new [CAppend append]) as [b|]; [|apply fed_end].
    cbv zeta. apply open_fed; [apply two_leave; assumption|exact Hv|]. intros u u' Hu. apply process_fed. exact Hu.
  Qed.

  Lemma count_fed : forall a append output mode skip, output <> Some m ->
    frel (count_on_disk gz_enc gz_dec writable O Od transform a append output mode skip names v)
         (count_on_disk gz_enc gz_dec writable O Od transform a append output mode skip names' v').
  Proof.
    intros a append output mode skip Ho. unfold count_on_disk. cbv zeta. apply open_fed; [apply one_leaves; exact Ho|exact Hv|].
    intros u u' Hu. apply prepared_fed; [exact Hu|]. intros o. apply process_fed. exact Hu.
  Qed.

  Lemma explode_fed : forall a discard keep l gzip output skip, output <> Some m ->
    frel (explode_on_disk gz_enc gz_dec writable O Od transform a discard keep l gzip output skip names v)
         (explode_on_disk gz_enc gz_dec writable O Od transform a discard keep l gzip output skip names' v').
  Proof.
    intros a discard keep l gzip output skip Ho. unfold explode_on_disk. apply prepared_fed; [exact Hv|]. intros dk.
    destruct (wb_run wb_new [CGzip gzip]) as [b|]; [|apply fed_end]. cbv zeta. apply open_fed; [apply one_leaves; exact Ho|exact Hv|].
    intros u u' Hu. apply prepared_fed; [exact Hu|]. intros o. apply process_fed. exact Hu.
  Qed.

  Variable T : text_fns.
  Variable rule_order : list (bytes * N) -> list (bytes * N).
  Variable link_order : list (bytes * list bytes) -> list (bytes * list bytes).

  Lemma check_fed : forall a rules output skip, output <> Some m ->
    frel (check_on_disk gz_enc gz_dec writable O Od transform lossy T rule_order link_order a rules output skip names v)
         (check_on_disk gz_enc gz_dec writable O Od transform lossy T rule_order link_order a rules output skip names' v').
  Proof.
    intros a rules output skip Ho. unfold check_on_disk. cbv zeta. apply open_fed; [apply one_leaves; exact Ho|exact Hv|].
    intros u u' Hu. apply prepared_fed; [exact Hu|]. intros o. apply prepared_fed; [exact Hu|]. intros sets. apply process_fed. exact Hu.
  Qed.

  Variable numeric : bytes -> bool.
  Variable hash : list bytes -> N.
  Variable freq_order : ftable -> ftable.

  Lemma hash_fed : forall a output tsv header skip, output <> Some m ->
    frel (hash_on_disk gz_enc gz_dec writable O Od transform sha lossy numeric a output tsv header skip names v)
         (hash_on_disk gz_enc gz_dec writable O Od transform sha lossy numeric a output tsv header skip names' v').
  Proof.
    intros a output tsv header skip Ho. unfold hash_on_disk. apply prepared_fed; [exact Hv|]. intros o. cbv zeta.
    apply open_fed; [apply one_leaves; exact Ho|exact Hv|]. intros u u' Hu. apply process_fed. exact Hu.
  Qed.

  Lemma print_fed : forall a nf output skip, output <> Some m ->
    frel (print_on_disk gz_enc gz_dec writable O Od transform a nf output skip names v)
         (print_on_disk gz_enc gz_dec writable O Od transform a nf output skip names' v').
  Proof.
    intros a nf output skip Ho. unfold print_on_disk. apply prepared_fed; [exact Hv|]. intros o. cbv zeta.
    apply open_fed; [apply one_leaves; exact Ho|exact Hv|]. intros u u' Hu. apply process_fed. exact Hu.
  Qed.

  Lemma slice_fed : forall a gzip append output from to length skip, output <> Some m ->
    frel (slice_on_disk gz_enc gz_dec writable O Od transform a gzip append output from to length skip names v)
         (slice_on_disk gz_enc gz_dec writable O Od transform a gzip append output from to length skip names' v').
  Proof.
    intros a gzip append output from to length skip Ho. unfold slice_on_disk. apply prepared_fed; [exact Hv|]. intros o.
    destruct (wb_run wb_new [CGzip gzip; CAppend append]) as [b|]; [|apply fed_end]. cbv zeta.
    apply open_fed; [apply one_leaves; exact Ho|exact Hv|]. intros u u' Hu. apply process_fed. exact Hu.
  Qed.

  Lemma sample_fed : forall a gzip output draw size skip, output <> Some m ->
    frel (sample_on_disk gz_enc gz_dec writable O Od transform a gzip output draw size skip names v)
         (sample_on_disk gz_enc gz_dec writable O Od transform a gzip output draw size skip names' v').
  Proof.
    intros a gzip output draw size skip Ho. unfold sample_on_disk. apply prepared_fed; [exact Hv|]. intros o.
    destruct (wb_run wb_new [CGzip gzip]) as [b|]; [|apply fed_end]. cbv zeta.
    apply open_fed; [apply one_leaves; exact Ho|exact Hv|]. intros u u' Hu. apply process_fed. exact Hu.
  Qed.

  Lemma select_fed : forall a unique no_empty nf q tsv append output skip, output <> Some m ->
    frel (select_on_disk gz_enc gz_dec writable O Od transform lossy T numeric hash a unique no_empty nf q tsv append output skip names v)
         (select_on_disk gz_enc gz_dec writable O Od transform lossy T numeric hash a unique no_empty nf q tsv append output skip names' v').
  Proof.
    intros a unique no_empty nf q tsv append output skip Ho. unfold select_on_disk. apply prepared_fed; [exact Hv|]. intros o. cbv zeta.
    apply open_fed; [apply one_leaves; exact Ho|exact Hv|]. intros u u' Hu. apply process_fed. exact Hu.
  Qed.

  Lemma freq_fed : forall a unique num threshold reverse nf tsv output skip, output <> Some m ->
    frel (freq_on_disk gz_enc gz_dec writable O Od transform lossy T numeric freq_order a unique num threshold reverse nf tsv output skip names v)
         (freq_on_disk gz_enc gz_dec writable O Od transform lossy T numeric freq_order a unique num threshold reverse nf tsv output skip names' v').
  Proof.
    intros a unique num threshold reverse nf tsv output skip Ho. unfold freq_on_disk. apply prepared_fed; [exact Hv|]. intros o. cbv zeta.
    apply open_fed; [apply one_leaves; exact Ho|exact Hv|]. intros u u' Hu. apply process_fed. exact Hu.
  Qed.

  Variable esc : bytes -> bytes.

  Lemma convert_fed : forall from to output skip, output <> Some m ->
    frel (convert_on_disk gz_enc gz_dec writable lossy esc from to output skip names v)
         (convert_on_disk gz_enc gz_dec writable lossy esc from to output skip names' v').
  Proof.
    intros from to output skip Ho. unfold convert_on_disk. destruct from; try apply fed_end. cbv zeta.
    apply open_fed; [apply one_leaves|exact Hv|]; [destruct to; exact Ho|]. intros u u' Hu. apply process_fed. exact Hu.
  Qed.

  Lemma invalid_fed : forall output, output <> Some m ->
    frel (invalid_on_disk gz_enc gz_dec writable output names v) (invalid_on_disk gz_enc gz_dec writable output names' v').
  Proof.
    intros output Ho. unfold invalid_on_disk. cbv zeta. apply open_fed; [apply one_leaves; exact Ho|exact Hv|].
    intros u u' (H1 & -> & H3). rewrite H1. change (w_disk (fed other u)) with (w_disk u). change (w_stdin (fed other u)) with other.
    rewrite (invalid_renamed _ _ [] (inputs_fed (w_disk u) H3)). destruct (io_invalid_run _ _) as [x|]; [|exact I].
    destruct x as [t|t|t er|]; [destruct (main_status _)..|]; (split; [reflexivity|]); first [apply fed_close|reflexivity].
  Qed.

  Variable tag_order : tag_counts -> tag_counts.
  Variable frame_text : frame_format -> list N * list (bytes * list N) -> bytes.

  Lemma describe_fed : forall a discard keep csv tsv output skip,
    frel (describe_on_disk gz_enc gz_dec writable O Od transform tag_order frame_text a discard keep csv tsv output skip names v)
         (describe_on_disk gz_enc gz_dec writable O Od transform tag_order frame_text a discard keep csv tsv output skip names' v').
  Proof.
    intros a discard keep csv tsv output skip. unfold describe_on_disk. apply prepared_fed; [exact Hv|]. intros dk.
    apply prepared_fed; [exact Hv|]. intros o. destruct Hv as (H1 & -> & H3). rewrite H1.
    change (w_disk (fed other v)) with (w_disk v). change (w_stdin (fed other v)) with other.
    pose proof (files_renamed (fun s => s) (fun s r => as_io (describe_body O Od (fst dk) (snd dk) o s r)) skip _ _ (0, []) (inputs_fed (w_disk v) H3)) as X.
    destruct (io_files_loop _ _ _ _ (inputs _ _ content _)) as [x|], (io_files_loop _ _ _ _ (inputs _ _ other _)) as [y|]; try contradiction; [|exact I].
    destruct x as [s|s|s er|], y as [s2|s2|s2 er'|]; try contradiction; cbn [same_fates same_fate] in X.
    - subst s2. destruct (main_status _); [|split; reflexivity]. cbv zeta.
      destruct (open_output _ _ _) as [d|]; (split; [reflexivity|]); [|reflexivity].
      exact (fed_close (mkOut output false false) _ (with_disk v d)).
    - subst s2. destruct (main_status _); [|split; reflexivity]. cbv zeta.
      destruct (open_output _ _ _) as [d|]; (split; [reflexivity|]); [|reflexivity].
      exact (fed_close (mkOut output false false) _ (with_disk v d)).
    - destruct X as [<- ->]. destruct (main_status _); split; reflexivity.
    - split; reflexivity.
  Qed.

  Lemma split_fed : forall a gzip outdir dir_ok template size skip, (forall k, ~ DirSpec.chunk_file template gzip outdir k m) ->
    frel (split_on_disk gz_enc gz_dec writable O Od transform a gzip outdir dir_ok template size skip names v)
         (split_on_disk gz_enc gz_dec writable O Od transform a gzip outdir dir_ok template size skip names' v').
  Proof.
    intros a gzip outdir dir_ok template size skip Hm. unfold split_on_disk. apply prepared_fed; [exact Hv|]. intros o.
    destruct dir_ok; [|apply fed_end]. cbv zeta. set (t := template_or template gzip) in *.
    destruct Hv as (H1 & E & H3). rewrite E, H1. clear E. change (w_disk (fed other v)) with (w_disk v). change (w_stdin (fed other v)) with other.
    assert (HN : forall k, path_join outdir (replace_braces (dec k) t) <> m).
    { intros k E. apply (Hm k). apply DirSplitProofs.chunk_file_path. symmetry. exact E. }
    assert (Hset : forall d' k c, disk_get d' m = Some content -> disk_get (disk_set d' (path_join outdir (replace_braces (dec k) t)) c) m = Some content).
    { intros d' k c Hd. rewrite disk_get_other; [exact Hd|apply HN]. }
    assert (Hopen : forall d' k d'', disk_get d' m = Some content -> open_output writable (chunk_output gzip outdir t k) d' = Some d'' ->
      disk_get d'' m = Some content).
    { intros d' k d'' Hd E. unfold open_output in E. cbn [chunk_output builder_output out_name] in E.
      destruct (writable _); [|discriminate]. injection E as <-. apply Hset. exact Hd. }
    set (P := fun s : dsplit => disk_get (ds_disk s) m = Some content
      /\ match ds_open s with Some (out, _) => exists k, out = chunk_output gzip outdir t k | None => True end).
    assert (Hclose : forall s, P s -> disk_get (split_close gz_enc s) m = Some content).
    { intros s [K1 K2]. unfold split_close. destruct (ds_open s) as [[out text]|]; [|exact K1]. destruct K2 as [k ->].
      unfold flushed. cbn [chunk_output builder_output out_name]. apply Hset. exact K1. }
    assert (HP : forall s r, P s -> end_holds P (split_disk_body gz_enc writable O Od gzip outdir t size o s r)).
    { intros s r Hs. unfold split_disk_body, io_guarded. destruct (opts_select O Od o (br_record r)) as [[|]|]; [|exact Hs|exact I].
      cbv zeta. assert (HW : forall s1, P s1 -> end_holds P
        (if limit_reached (fo_limit o) (ds_count s1 + 1)
         then IStopped (mkDSplit (ds_chunks s1) (ds_count s1 + 1) (option_map (fun x => (fst x, snd x ++ br_write r)) (ds_open s1)) (ds_disk s1))
         else IDone (mkDSplit (ds_chunks s1) (ds_count s1 + 1) (option_map (fun x => (fst x, snd x ++ br_write r)) (ds_open s1)) (ds_disk s1)))).
      { intros s1 [K1 K2]. destruct (limit_reached _ _); (split; [exact K1|]); cbn [ds_open]; destruct (ds_open s1) as [[out text]|]; exact K2. }
      destruct ((0 <? ds_count s) && (u32 (ds_count s) mod size =? 0)); [|apply HW; exact Hs].
      destruct (open_output writable _ (split_close gz_enc s)) as [d'|] eqn:E.
      - apply HW. split; [eapply Hopen; [apply Hclose; exact Hs|exact E]|]. cbn [ds_open]. eexists. reflexivity.
      - split; [apply Hclose; exact Hs|exact I]. }
    destruct (open_output writable _ (w_disk v)) as [d|] eqn:Eo; [|split; reflexivity].
    apply live_end_fed; [|split; [exact H1|split; [reflexivity|exact H3]]].
    apply (live_fed ds_disk _ skip P HP); [intros s Hs; apply Hs|].
    split; [eapply Hopen; [exact H3|exact Eo]|]. cbn [ds_open]. eexists. reflexivity.
  Qed.

  Variable writer_order : list (bytes * bytes) -> list (bytes * bytes).

  Lemma partition_fed : forall a p gzip outdir dir_ok template skip, (forall x, ~ DirSpec.file_for template gzip outdir (lossy x) m) ->
    frel (partition_on_disk gz_enc gz_dec writable O Od transform lossy writer_order a p gzip outdir dir_ok template skip names v)
         (partition_on_disk gz_enc gz_dec writable O Od transform lossy writer_order a p gzip outdir dir_ok template skip names' v').
  Proof.
    intros a p gzip outdir dir_ok template skip Hm. unfold partition_on_disk. apply prepared_fed; [exact Hv|]. intros o.
    destruct dir_ok; [|apply fed_end]. cbv zeta. set (t := template_or template gzip) in *.
    destruct Hv as (H1 & E & H3). rewrite E, H1. clear E. change (w_disk (fed other v)) with (w_disk v). change (w_stdin (fed other v)) with other.
    assert (HN : forall x, path_join outdir (partition_name lossy t x) <> m).
    { intros x E. apply (Hm x). apply DirSplitProofs.file_for_path. symmetry. exact E. }
    assert (HO : forall x d d', open_output writable (value_output lossy gzip outdir t x) d = Some d' -> disk_get d' m = disk_get d m).
    { intros x d d' Ho. unfold open_output, value_output, builder_output in Ho. cbn [out_name out_append] in Ho.
      destruct (writable _); [|discriminate]. injection Ho as <-. apply disk_get_other. exact (HN x). }
    set (P := fun s : dpart => disk_get (snd s) m = Some content).
    assert (HP : forall s r, P s -> end_holds P (partition_disk_body writable O Od lossy gzip outdir t p o s r)).
    { intros s r Hs. unfold partition_disk_body, io_guarded. destruct (opts_select O Od o (br_record r)) as [[|]|]; [|exact Hs|exact I].
      destruct (record_path O (fo_ci o) p (br_record r)) as [values|]; [|exact I].
      set (vs := dedup (sort_values values)). clearbody vs.
      assert (HV : P (fst (part_disk_values (fun x => open_output writable (value_output lossy gzip outdir t x)) (fo_limit o) (br_write r) vs s))).
      { revert s Hs. induction vs as [|x vs IH]; intros s Hs; cbn [part_disk_values]; [exact Hs|]. cbv zeta.
        destruct (if existsb (fun w => bytes_eqb (fst w) x) (snd (fst s)) then Some (snd s)
                  else open_output writable (value_output lossy gzip outdir t x) (snd s)) as [d|] eqn:Ed; [|exact Hs].
        assert (Hd : disk_get d m = Some content).
        { destruct (existsb _ _); [injection Ed as <-; exact Hs|]. rewrite (HO _ _ _ Ed). exact Hs. }
        destruct (limit_reached _ _); [exact Hd|]. apply IH. exact Hd. }
      destruct (part_disk_values _ _ _ _ _) as [s' [[|]|]]; exact HV. }
    apply live_end_fed; [|split; [exact H1|split; [reflexivity|exact H3]]].
    apply (live_fed snd _ skip P HP); [intros s Hs; exact Hs|]. exact H3.
  Qed.
End Feed.

(** ** A run *)

Lemma execute_fed : forall e c cfg k m a b w other, m <> lit "-" -> ~ gz_extension m ->
  ~ In (lit "-") a -> ~ In (lit "-") b -> input_names k = a ++ lit "-" :: b -> expression_free k ->
  ~ may_change e (mkInvocation cfg k) m -> disk_get (w_disk w) m = Some (w_stdin w) ->
  frel other (execute e c k w) (execute e c (with_inputs (a ++ m :: b) k) (fed other w)).
Proof.
  intros e c cfg k m a b w other Hd Hg Ha Hb Hi Hx Hc Hw.
  assert (Hgz : gz_name m = false) by (destruct (gz_name m) eqn:E; [apply gz_name_iff in E; contradiction|reflexivity]).
  assert (Hv : feeding m (w_stdin w) other w (fed other w)) by (split; [reflexivity|split; [reflexivity|exact Hw]]).
  assert (Ho : ~ In m (output_names k)) by (intros X; apply Hc; exact (mc_output e (mkInvocation cfg k) m X)).
  assert (Hn : forall out, ~ In m (DiskSpec.named out) -> out <> Some m) by (intros out X ->; apply X; left; reflexivity).
  assert (Hn2 : forall out tee, ~ In m (DiskSpec.named out ++ DiskSpec.named tee) -> out <> Some m /\ tee <> Some m).
  { intros out tee X. split; intros ->; apply X; apply in_or_app; [left|right]; left; reflexivity. }
  destruct k; cbn [input_names output_names] in *; try (exfalso; exact (app_cons_not_nil _ _ _ Hi)); subst; cbn [with_inputs execute];
    change (w_disk (fed other w)) with (w_disk w).
  - unfold check_files_on_disk. change (w_disk (fed other w)) with (w_disk w).
    destruct (disk_rules _ _ _ _ _ _ _ _ _ _ _ _ _ _ _ _) as [rules'|]; [|exact I].
    exact (check_fed _ _ _ m Hd Hgz a b Ha Hb _ other _ _ _ _ _ Hv _ _ _ _ _ _ _ _ (Hn _ Ho)).
  - destruct (Hn2 _ _ Ho) as [H1 H2]. exact (concat_fed _ _ _ m Hd Hgz a b Ha Hb _ other _ _ _ Hv _ _ _ _ _ _ _ H1 H2).
  - exact (convert_fed _ _ _ m Hd Hgz a b Ha Hb _ other _ _ Hv _ _ _ _ _ _ (Hn _ Ho)).
  - exact (count_fed _ _ _ m Hd Hgz a b Ha Hb _ other _ _ _ _ _ Hv _ _ _ _ _ (Hn _ Ho)).
  - exact (describe_fed _ _ _ m Hd Hgz a b Ha Hb _ other _ _ _ _ _ Hv _ _ _ _ _ _ _ _ _).
  - exact (explode_fed _ _ _ m Hd Hgz a b Ha Hb _ other _ _ _ _ _ Hv _ _ _ _ _ _ _ (Hn _ Ho)).
  - destruct (Hn2 _ _ Ho) as [H1 H2].
    refine (filter_fed _ _ _ m Hd Hgz a b Ha Hb _ other _ _ _ _ _ Hv (load_filter e (w_disk w) (o_skip o || cf_skip_invalid c) o f []) _ _ _ _ H1 H2 _).
    exact (Hx _ _ _ _ _ _ _ eq_refl).
  - exact (freq_fed _ _ _ m Hd Hgz a b Ha Hb _ other _ _ _ _ _ Hv _ _ _ _ _ _ _ _ _ _ _ _ _ (Hn _ Ho)).
  - exact (hash_fed _ _ _ m Hd Hgz a b Ha Hb _ other _ _ _ _ _ Hv _ _ _ _ _ _ _ _ (Hn _ Ho)).
  - exact (invalid_fed _ _ _ m Hd Hgz a b Ha Hb _ other _ _ Hv _ (Hn _ Ho)).
  - refine (partition_fed _ _ _ m Hd Hgz a b Ha Hb _ other _ _ _ _ _ Hv _ _ _ _ _ _ _ _ _ _). intros x X. apply Hc.
    exact (mc_value e (mkInvocation cfg _) o p gzip outdir template _ x m eq_refl X).
  - exact (print_fed _ _ _ m Hd Hgz a b Ha Hb _ other _ _ _ _ _ Hv _ _ _ _ (Hn _ Ho)).
  - exact (sample_fed _ _ _ m Hd Hgz a b Ha Hb _ other _ _ _ _ _ Hv _ _ _ _ _ _ (Hn _ Ho)).
  - exact (select_fed _ _ _ m Hd Hgz a b Ha Hb _ other _ _ _ _ _ Hv _ _ _ _ _ _ _ _ _ _ _ _ _ (Hn _ Ho)).
  - exact (slice_fed _ _ _ m Hd Hgz a b Ha Hb _ other _ _ _ _ _ Hv _ _ _ _ _ _ _ _ (Hn _ Ho)).
  - refine (split_fed _ _ _ m Hd Hgz a b Ha Hb _ other _ _ _ _ _ Hv _ _ _ _ _ _ _ _). intros x X. apply Hc.
    exact (mc_chunk e (mkInvocation cfg _) o gzip outdir template size _ x m eq_refl X).
Qed.

Lemma run_fed : forall e cfg k m a b w other x v, m <> lit "-" -> ~ gz_extension m ->
  ~ In (lit "-") a -> ~ In (lit "-") b -> input_names k = a ++ lit "-" :: b -> expression_free k ->
  ~ may_change e (mkInvocation cfg k) m -> disk_get (w_disk w) m = Some (w_stdin w) ->
  run e (mkInvocation cfg k) w = Some (x, v) ->
  run e (mkInvocation cfg (with_inputs (a ++ m :: b) k)) (fed other w) = Some (x, fed other v).
Proof.
  intros e cfg k m a b w other x v Hd Hg Ha Hb Hi Hx Hc Hw H.
  assert (Hk : forall c, k <> KConfig c) by (intros c ->; destruct a; discriminate Hi).
  pose proof (fun c => execute_fed e c cfg k m a b w other Hd Hg Ha Hb Hi Hx Hc Hw) as X.
  assert (Hk' : forall c, with_inputs (a ++ m :: b) k <> KConfig c) by (intros c E; destruct k; try discriminate; exact (Hk _ eq_refl)).
  rewrite (run_other e cfg k w Hk) in H. rewrite (run_other e cfg _ (fed other w) Hk'). unfold with_config in *.
  change (w_disk (fed other w)) with (w_disk w). destruct (match cfg with Some n => _ | None => _ end) as [p n].
  destruct (config_start _ _ _) as [c| |].
  - specialize (X c). rewrite H in X. destruct (execute e c (with_inputs (a ++ m :: b) k) (fed other w)) as [[x' v']|]; [|contradiction].
    destruct X as [-> ->]. reflexivity.
  - injection H as <- <-. reflexivity.
  - injection H as <- <-. reflexivity.
Qed.

(** ** A pipe *)

Lemma run_pipe : forall e1 e2 cfg1 cfg2 k1 k2 m a b w s1 s2 st w1 t x w2,
  (forall l, Permutation (e_writer_order e2 l) l) ->
  to_stdout k1 = true -> e_writable e1 m = true -> plain m -> m <> lit "-" ->
  disk_get (w_disk w) m = None \/ appends k1 = false ->
  ~ In m (output_names k1) -> ~ needs e1 (mkInvocation cfg1 k1) (fed s1 w) m ->
  input_names k2 = a ++ lit "-" :: b -> ~ In (lit "-") a -> ~ In (lit "-") b -> expression_free k2 ->
  ~ may_change e2 (mkInvocation cfg2 k2) m -> ~ needs e2 (mkInvocation cfg2 k2) (mkWorld (w_disk w1) t (w_stdout w)) m ->
  run e1 (mkInvocation cfg1 k1) (fed s1 w) = Some (CEnded st, w1) -> w_stdout w1 = w_stdout w ++ t ->
  run e2 (mkInvocation cfg2 k2) (mkWorld (w_disk w1) t (w_stdout w)) = Some (x, w2) ->
  exists w', session [(e1, mkInvocation cfg1 (with_output m k1), s1); (e2, mkInvocation cfg2 (with_inputs (a ++ m :: b) k2), s2)] w
               = Some ([CEnded st; x], w')
    /\ (forall n, n <> m -> disk_get (w_disk w') n = disk_get (w_disk w2) n)
    /\ w_stdout w' = w_stdout w2 /\ disk_get (w_disk w') m = Some t.
Proof.
  intros e1 e2 cfg1 cfg2 k1 k2 m a b w s1 s2 st w1 t x w2 Hp Ht Hw Hpl Hd Hap Ho Hn1 Hi Ha Hb Hx Hc Hn2 R1 Et R2.
  destruct (run_move e1 cfg1 k1 m (fed s1 w) _ _ Ht Hw Hpl Ho Hn1 R1) as (v1 & S1 & _ & _ & Hr).
  destruct (Hr st eq_refl) as (G1 & G2 & t' & Et' & Em). change (w_stdout (fed s1 w)) with (w_stdout w) in *.
  rewrite Et in Et'. apply app_inv_head in Et'. subst t'.
  assert (Em' : disk_get (w_disk v1) m = Some t).
  { rewrite Em. unfold before. change (w_disk (fed s1 w)) with (w_disk w). destruct Hap as [-> | ->]; [destruct (appends k1)|]; reflexivity. }
  set (u := mkWorld (w_disk w1) t (w_stdout w)) in *. set (u' := mkWorld (w_disk v1) t (w_stdout w)).
  destruct (run_depends e2 (mkInvocation cfg2 k2) u u' x w2 Hp eq_refl) as (w2' & R2' & D & t2 & T1 & T2); [|exact R2|].
  { intros n Hn. cbn. symmetry. apply G1. intros ->. exact (Hn2 Hn). }
  pose proof (run_fed e2 cfg2 k2 m a b u' s2 x w2' Hd (proj1 Hpl) Ha Hb Hi Hx Hc Em' R2') as R3.
  exists (fed s2 w2'). split; [|split; [|split]].
  - cbn [session]. change (mkWorld (w_disk w) s1 (w_stdout w)) with (fed s1 w). rewrite S1. cbn [snd fst].
    rewrite G2. change (mkWorld (w_disk v1) s2 (w_stdout w)) with (fed s2 u'). rewrite R3. reflexivity.
  - intros n Hn. change (w_disk (fed s2 w2')) with (w_disk w2').
    destruct (D n) as [[D1 D2]|[(c & D1 & D2)|(_ & c & D1 & D2)]].
    + rewrite D1, D2. apply G1. exact Hn.
    + rewrite D1, D2. reflexivity.
    + rewrite D1, D2. unfold before. cbn. rewrite (G1 n Hn). reflexivity.
  - cbn in *. rewrite T1, T2. reflexivity.
  - change (w_disk (fed s2 w2')) with (w_disk w2'). rewrite (run_leaves e2 _ _ _ _ R2' m Hc). exact Em'.
Qed.

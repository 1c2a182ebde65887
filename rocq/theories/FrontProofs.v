(** * Proofs about one command in front of another *)

From Coq Require Import String ZArith Lia.
From Verif Require Import Bytes BaseProofs Winnow RecordModel TagOccModel Utf8Model ByteRecordModel ReaderModel
  MatcherModel StateParser MatcherParserModel BuilderModel PathModel FmtModel QueryModel CliModel TableModel
  ExplodeModel CheckModel ConvertModel CsvModel OptionsModel OptionsSpec ConfigModel PrepareModel IoModel IoSpec WriteSpec DiskModel DirModel RuleModel
  MainModel DiskSpec RuleSpec MainSpec PipeSpec DiskProofs DirLoopProofs PipeInProofs FrontLoop FrontSpec.
From Verif Require DirSpec DirSplitProofs.

Section Front.
  Variable gz_enc : bytes -> bytes.
  Variable gz_dec : bytes -> list piece.
  Variable writable : bytes -> bool.
  Variable names : list bytes.
  Variable stdin : bytes.
  Variable d0 : disk.
  Variable skip : bool.
  Variable recs : list byte_record.
  Hypothesis Hrecs : io_files_loop (fun l => l) snoc skip [] (inputs gz_dec d0 stdin names) = Some (IDone recs).
  Variable sel : byte_record -> bool.
  Let t := flat_map br_write (filter sel recs).

  Notation get v n := (disk_get (w_disk v) n).

  (** [v] has the text on stdin, [v'] the inputs *)
  Definition fronted (v v' : world) : Prop :=
    w_stdin v = t /\ v' = fed stdin v /\ forall n, In n names -> get v n = disk_get d0 n.

  Notation frel := (frel stdin).

  Lemma good_lines : Forall of_line recs.
  Proof. destruct (files_collects _ _ _ _ Hrecs) as (recs' & E & H & _). cbn in E. subst recs'. exact H. Qed.

  Lemma good_kept : Forall of_line (filter sel recs).
  Proof. apply Forall_forall. intros r Hr. apply filter_In in Hr. exact (proj1 (Forall_forall _ _) good_lines r (proj1 Hr)). Qed.

  Lemma loop_whole : forall S (on_skip : S -> S) body s d, (forall n, In n names -> disk_get d n = disk_get d0 n) ->
    skip = false \/ (forall s, on_skip s = s) ->
    io_files_loop on_skip body skip s (inputs gz_dec d stdin names) = Some (fold_end body s recs).
  Proof.
    intros S on_skip body s d Hd Hs. rewrite (inputs_same gz_dec names d0 d stdin Hd).
    destruct (files_collects _ _ _ _ Hrecs) as (recs' & E & _ & H). cbn in E. subst recs'. apply H. exact Hs.
  Qed.

  Lemma loop_back : forall S (on_skip : S -> S) body s d, skip = false \/ (forall s, on_skip s = s) ->
    io_files_loop on_skip body skip s (inputs gz_dec d t [lit "-"]) = Some (fold_end body s (filter sel recs)).
  Proof.
    intros S on_skip body s d Hs. cbn [inputs]. rewrite bytes_eqb_refl.
    destruct (files_collects _ _ _ _ (written_collected skip (filter sel recs) (lit "-") [] good_kept)) as (recs' & E & _ & H).
    cbn in E. subst recs'. apply H. exact Hs.
  Qed.

  Lemma open_front : forall outs opened v v' k k', Forall (fun o => forall n, out_name o = Some n -> ~ In n names) outs -> fronted v v' ->
    (forall u u', fronted u u' -> frel (k u) (k' u')) ->
    frel (open_all gz_enc writable opened outs v k) (open_all gz_enc writable opened outs v' k').
  Proof.
    induction outs as [|o outs IH]; intros opened v v' k k' Ho H Hk; [apply Hk; exact H|].
    inversion Ho as [|? ? Ho1 Ho2]. subst. destruct H as (H1 & -> & H3). cbn [open_all]. change (w_disk (fed stdin v)) with (w_disk v).
    destruct (open_output writable o (w_disk v)) as [d|] eqn:E.
    - apply IH; [exact Ho2| |exact Hk]. split; [exact H1|]. split; [reflexivity|]. intros m Hm. cbn. unfold open_output in E.
      destruct (out_name o) as [n|] eqn:En; [|injection E as <-; exact (H3 m Hm)]. destruct (writable n); [|discriminate]. injection E as <-.
      rewrite disk_get_other; [exact (H3 m Hm)|]. intros ->. exact (Ho1 m eq_refl Hm).
    - split; [reflexivity|]. apply fed_close_all.
  Qed.

  (** both checks fail, or both succeed *)
  Lemma prepared_front : forall {A} outs (x x' : option (option A)) v v' k k', fronted v v' ->
    match x, x' with
    | None, None | Some None, Some None => True
    | Some (Some a), Some (Some a') => frel (k a) (k' a')
    | _, _ => False
    end -> frel (prepared gz_enc outs x v k) (prepared gz_enc outs x' v' k').
  Proof.
    intros A outs x x' v v' k k' (H1 & -> & H3) H. destruct x as [[a|]|], x' as [[a'|]|]; try contradiction; try exact H.
    split; [reflexivity|]. apply fed_close_all.
  Qed.

  Lemma prepared_both : forall {A} outs (x : option (option A)) v v' k k', fronted v v' ->
    (forall a, x = Some (Some a) -> frel (k a) (k' a)) -> frel (prepared gz_enc outs x v k) (prepared gz_enc outs x v' k').
  Proof. intros A outs x v v' k k' H Hk. apply prepared_front; [exact H|]. destruct x as [[a|]|]; auto. Qed.

  (** the body [b] on what is left, the body [b'] on all *)
  Definition passes {S} (b b' : S -> byte_record -> io_ending S) : Prop :=
    forall s r, In r recs -> b' s r = if sel r then b s r else IDone s.

  Lemma process_front : forall {S} (outs : list (output * ((S -> bytes) * (S -> bytes)))) bad on_skip b b' (s : S) v v', fronted v v' ->
    skip = false \/ (forall s, on_skip s = s) -> passes b b' ->
    frel (process_all gz_enc gz_dec outs bad on_skip b skip s [lit "-"] v)
         (process_all gz_enc gz_dec outs bad on_skip b' skip s names v').
  Proof.
    intros S outs bad on_skip b b' s v v' (H1 & -> & H3) Hs Hb. unfold process_all. rewrite H1.
    change (w_disk (fed stdin v)) with (w_disk v). change (w_stdin (fed stdin v)) with stdin.
    rewrite (loop_back S on_skip b s (w_disk v) Hs), (loop_whole S on_skip b' s (w_disk v) H3 Hs).
    rewrite (fold_filter b' b sel recs s Hb). destruct (fold_end b s _) as [a|a|a er|].
    - split; [reflexivity|]. apply fed_close_all.
    - split; [reflexivity|]. apply fed_close_all.
    - destruct (main_status _); (split; [reflexivity|]); [apply fed_close_all|reflexivity].
    - split; reflexivity.
  Qed.

  Lemma live_front : forall {S} (close : S -> disk) view (b b' : S -> byte_record -> io_ending S) (P : S -> Prop) s v v', fronted v v' ->
    (forall s r, P s -> end_holds P (b' s r)) -> (forall s n, P s -> In n names -> disk_get (view s) n = disk_get d0 n) -> P s ->
    passes b b' ->
    frel (live_end close (live_files_loop gz_dec view b skip s t [lit "-"]) v) (live_end close (live_files_loop gz_dec view b' skip s stdin names) v').
  Proof.
    intros S close view b b' P s v v' (H1 & -> & H3) HP Hv Hs Hb. cbn [live_files_loop].
    rewrite (loop_back S (fun s => s) b s (view s)) by (right; reflexivity).
    destruct (live_collects skip gz_dec view b' P d0 HP names stdin [] recs s Hs Hv Hrecs) as (recs' & E & ->). cbn in E. subst recs'.
    rewrite (fold_filter b' b sel recs s Hb). destruct (fold_end b s _) as [a|a|a er|]; unfold live_end.
    - split; reflexivity.
    - split; reflexivity.
    - destruct (main_status _); split; reflexivity.
    - split; reflexivity.
  Qed.

  (** ** The commands *)

  Variables O Od : oracles.

  (** the options [o] for what is left, the options [o'] for all *)
  Definition passing (o o' : filter_opts) : Prop :=
    fo_ci o' = fo_ci o /\ fo_limit o' = fo_limit o
    /\ (forall r, In r recs -> opts_select O Od o' (br_record r) = if sel r then opts_select O Od o (br_record r) else Some false)
    /\ (forall r, In r recs -> opts_select_print O Od o' (br_record r) = if sel r then opts_select_print O Od o (br_record r) else Some false).

  Lemma pass_guarded : forall {S} (f : step S -> io_ending S) s1 s2 (b : S -> byte_record -> step S), (forall s, f (Next s) = IDone s) ->
    (forall r, In r recs -> s2 (br_record r) = if sel r then s1 (br_record r) else Some false) ->
    passes (fun s r => f (guarded s1 b s r)) (fun s r => f (guarded s2 b s r)).
  Proof. intros S f s1 s2 b Hf H s r Hr. unfold guarded. rewrite (H r Hr). destruct (sel r); [reflexivity|]. apply Hf. Qed.

  Variables v v' : world.
  Hypothesis Hv : fronted v v'.

  Definition spares (output : option bytes) : Prop := forall n, output = Some n -> ~ In n names.

  Lemma one_spares : forall o, spares (out_name o) -> Forall (fun o => forall n, out_name o = Some n -> ~ In n names) [o].
  Proof. intros o H. constructor; [exact H|constructor]. Qed.

  Lemma two_spare : forall b output tee, spares output -> spares tee ->
    Forall (fun o => forall n, out_name o = Some n -> ~ In n names)
      (builder_output b output :: match tee with Some n => [builder_output b (Some n)] | None => [] end).
  Proof.
    intros b output tee H1 H2. constructor; [exact H1|]. destruct tee as [x|]; [|constructor]. apply one_spares. exact H2.
  Qed.

  Lemma front_end : forall x, frel (Some (x, v)) (Some (x, v')).
  Proof. intros x. destruct Hv as (_ & -> & _). split; reflexivity. Qed.

  Variable transform : bytes -> bytes.
  Variable lossy : bytes -> bytes.
  Variable sha : bytes -> bytes.

  Section Opts.
    (** the arguments, read alike *)
    Variables a a' : opts_args.
    Definition preparing : Prop :=
      match fst (opts_prepare O Od transform a), fst (opts_prepare O Od transform a') with
      | None, None | Some None, Some None => True
      | Some (Some o), Some (Some o') => passing o o'
      | _, _ => False
      end.
    Hypothesis Ha : preparing.

    Lemma opts_front : forall outs u u' k k', fronted u u' -> (forall o o', passing o o' -> frel (k o) (k' o')) ->
      frel (prepared gz_enc outs (fst (opts_prepare O Od transform a)) u k) (prepared gz_enc outs (fst (opts_prepare O Od transform a')) u' k').
    Proof.
      intros outs u u' k k' Hu Hk. apply prepared_front; [exact Hu|]. unfold preparing in Ha.
      destruct (fst (opts_prepare O Od transform a)) as [[o|]|], (fst (opts_prepare O Od transform a')) as [[o'|]|]; try exact Ha. apply Hk. exact Ha.
    Qed.

    Lemma count_front : forall append output mode, spares output ->
      frel (count_on_disk gz_enc gz_dec writable O Od transform a append output mode skip [lit "-"] v)
           (count_on_disk gz_enc gz_dec writable O Od transform a' append output mode skip names v').
    Proof.
      intros append output mode Ho. unfold count_on_disk. cbv zeta. apply open_front; [apply one_spares; exact Ho|exact Hv|]. intros u u' Hu.
      apply opts_front; [exact Hu|]. intros o o' Hp. apply process_front; [exact Hu|right; reflexivity|].
      apply pass_guarded; [reflexivity|apply Hp].
    Qed.

    Variable T : text_fns.
    Variable rule_order : list (bytes * N) -> list (bytes * N).
    Variable link_order : list (bytes * list bytes) -> list (bytes * list bytes).

    Lemma check_front : forall rules output, spares output ->
      frel (check_on_disk gz_enc gz_dec writable O Od transform lossy T rule_order link_order a rules output skip [lit "-"] v)
           (check_on_disk gz_enc gz_dec writable O Od transform lossy T rule_order link_order a' rules output skip names v').
    Proof.
      intros rules output Ho. unfold check_on_disk. cbv zeta. apply open_front; [apply one_spares; exact Ho|exact Hv|]. intros u u' Hu.
      apply opts_front; [exact Hu|]. intros o o' Hp. apply prepared_both; [exact Hu|]. intros sets _.
      apply process_front; [exact Hu|right; reflexivity|]. unfold check_body. destruct Hp as (_ & El & Hp & _). rewrite El.
      apply pass_guarded; [reflexivity|exact Hp].
    Qed.

    Variable numeric : bytes -> bool.

    Lemma hash_front : forall output tsv header, spares output ->
      frel (hash_on_disk gz_enc gz_dec writable O Od transform sha lossy numeric a output tsv header skip [lit "-"] v)
           (hash_on_disk gz_enc gz_dec writable O Od transform sha lossy numeric a' output tsv header skip names v').
    Proof.
      intros output tsv header Ho. unfold hash_on_disk. apply opts_front; [exact Hv|]. intros o o' Hp. cbv zeta.
      apply open_front; [apply one_spares; exact Ho|exact Hv|]. intros u u' Hu. apply process_front; [exact Hu|right; reflexivity|].
      unfold hash_csv_body. destruct Hp as (_ & El & Hp & _). rewrite El. apply pass_guarded; [reflexivity|exact Hp].
    Qed.

    Lemma print_front : forall nf output, spares output ->
      frel (print_on_disk gz_enc gz_dec writable O Od transform a nf output skip [lit "-"] v)
           (print_on_disk gz_enc gz_dec writable O Od transform a' nf output skip names v').
    Proof.
      intros nf output Ho. unfold print_on_disk. apply opts_front; [exact Hv|]. intros o o' Hp. cbv zeta.
      apply open_front; [apply one_spares; exact Ho|exact Hv|]. intros u u' Hu. apply process_front; [exact Hu|right; reflexivity|].
      unfold print_body. destruct Hp as (_ & El & _ & Hp). rewrite El. apply pass_guarded; [reflexivity|exact Hp].
    Qed.

    Lemma slice_front : forall gzip append output from to length, spares output -> skip = false \/ length = 0 ->
      frel (slice_on_disk gz_enc gz_dec writable O Od transform a gzip append output from to length skip [lit "-"] v)
           (slice_on_disk gz_enc gz_dec writable O Od transform a' gzip append output from to length skip names v').
    Proof.
      intros gzip append output from to length Ho Hl. unfold slice_on_disk. apply opts_front; [exact Hv|]. intros o o' Hp.
      destruct (wb_run wb_new [CGzip gzip; CAppend append]) as [b|]; [|apply front_end]. cbv zeta.
      apply open_front; [apply one_spares; exact Ho|exact Hv|]. intros u u' Hu. apply process_front; [exact Hu| |].
      - destruct Hl as [Hl|Hl]; [left; exact Hl|right; rewrite Hl; reflexivity].
      - intros s r Hr. unfold slice_body. destruct Hp as (_ & -> & Hp & _). rewrite (Hp r Hr). destruct (sel r); reflexivity.
    Qed.

    Lemma sample_front : forall gzip output draw size, spares output ->
      frel (sample_on_disk gz_enc gz_dec writable O Od transform a gzip output draw size skip [lit "-"] v)
           (sample_on_disk gz_enc gz_dec writable O Od transform a' gzip output draw size skip names v').
    Proof.
      intros gzip output draw size Ho. unfold sample_on_disk. apply opts_front; [exact Hv|]. intros o o' Hp.
      destruct (wb_run wb_new [CGzip gzip]) as [b|]; [|apply front_end]. cbv zeta.
      apply open_front; [apply one_spares; exact Ho|exact Hv|]. intros u u' Hu. apply process_front; [exact Hu|right; reflexivity|].
      unfold sample_body. destruct Hp as (_ & El & Hp & _). rewrite El. apply pass_guarded; [reflexivity|exact Hp].
    Qed.

    Variable tag_order : tag_counts -> tag_counts.
    Variable frame_text : frame_format -> list N * list (bytes * list N) -> bytes.

    Lemma describe_front : forall discard keep csv tsv output,
      frel (describe_on_disk gz_enc gz_dec writable O Od transform tag_order frame_text a discard keep csv tsv output skip [lit "-"] v)
           (describe_on_disk gz_enc gz_dec writable O Od transform tag_order frame_text a' discard keep csv tsv output skip names v').
    Proof.
      intros discard keep csv tsv output. unfold describe_on_disk. apply prepared_both; [exact Hv|]. intros dk _.
      apply opts_front; [exact Hv|]. intros o o' Hp. destruct Hv as (H1 & -> & H3). rewrite H1.
      change (w_disk (fed stdin v)) with (w_disk v). change (w_stdin (fed stdin v)) with stdin.
      rewrite loop_back by (right; reflexivity). rewrite (loop_whole _ (fun s => s) _ _ _ H3) by (right; reflexivity).
      rewrite (fold_filter _ (fun s r => as_io (describe_body O Od (fst dk) (snd dk) o s r)) sel recs).
      2:{ unfold describe_body. destruct Hp as (_ & El & Hp & _). rewrite El. apply (pass_guarded as_io); [reflexivity|exact Hp]. }
      destruct (fold_end _ _ _) as [s|s|s er|].
      - cbn [main_status]. cbv zeta. destruct (open_output _ _ _) as [d|]; (split; [reflexivity|]); [|reflexivity].
        exact (fed_close gz_enc stdin (mkOut output false false) _ (with_disk v d)).
      - cbn [main_status]. cbv zeta. destruct (open_output _ _ _) as [d|]; (split; [reflexivity|]); [|reflexivity].
        exact (fed_close gz_enc stdin (mkOut output false false) _ (with_disk v d)).
      - destruct (main_status _); split; reflexivity.
      - split; reflexivity.
    Qed.

    Lemma split_front : forall gzip outdir dir_ok template size, (forall n k, In n names -> ~ DirSpec.chunk_file template gzip outdir k n) ->
      frel (split_on_disk gz_enc gz_dec writable O Od transform a gzip outdir dir_ok template size skip [lit "-"] v)
           (split_on_disk gz_enc gz_dec writable O Od transform a' gzip outdir dir_ok template size skip names v').
    Proof.
      intros gzip outdir dir_ok template size Hm. unfold split_on_disk. apply opts_front; [exact Hv|]. intros o o' Hp.
      destruct dir_ok; [|apply front_end]. cbv zeta. set (tm := template_or template gzip) in *.
      pose proof Hv as (H1 & E & H3). rewrite H1.
      assert (Edk : w_disk v' = w_disk v) by (rewrite E; reflexivity). assert (Es : w_stdin v' = stdin) by (rewrite E; reflexivity). rewrite ?Edk, ?Es.
      assert (HN : forall k n, In n names -> path_join outdir (replace_braces (dec k) tm) <> n).
      { intros k n Hn X. apply (Hm n k Hn). apply DirSplitProofs.chunk_file_path. symmetry. exact X. }
      set (Q := fun d : disk => forall n, In n names -> disk_get d n = disk_get d0 n).
      assert (Hset : forall d' k c, Q d' -> Q (disk_set d' (path_join outdir (replace_braces (dec k) tm)) c)).
      { intros d' k c Hd n Hn. rewrite disk_get_other; [exact (Hd n Hn)|apply HN; exact Hn]. }
      assert (Hopen : forall d' k d'', Q d' -> open_output writable (chunk_output gzip outdir tm k) d' = Some d'' -> Q d'').
      { intros d' k d'' Hd X. unfold open_output in X. cbn [chunk_output builder_output out_name] in X.
        destruct (writable _); [|discriminate]. injection X as <-. apply Hset. exact Hd. }
      set (P := fun s : dsplit => Q (ds_disk s)
        /\ match ds_open s with Some (out, _) => exists k, out = chunk_output gzip outdir tm k | None => True end).
      assert (Hclose : forall s, P s -> Q (split_close gz_enc s)).
      { intros s [K1 K2]. unfold split_close. destruct (ds_open s) as [[out text]|]; [|exact K1]. destruct K2 as [k ->].
        unfold flushed. cbn [chunk_output builder_output out_name]. apply Hset. exact K1. }
      assert (HP : forall s r, P s -> end_holds P (split_disk_body gz_enc writable O Od gzip outdir tm size o' s r)).
      { intros s r Hs. unfold split_disk_body, io_guarded. destruct (opts_select O Od o' (br_record r)) as [[|]|]; [|exact Hs|exact I].
        cbv zeta. assert (HW : forall s1, P s1 -> end_holds P
          (if limit_reached (fo_limit o') (ds_count s1 + 1)
           then IStopped (mkDSplit (ds_chunks s1) (ds_count s1 + 1) (option_map (fun x => (fst x, snd x ++ br_write r)) (ds_open s1)) (ds_disk s1))
           else IDone (mkDSplit (ds_chunks s1) (ds_count s1 + 1) (option_map (fun x => (fst x, snd x ++ br_write r)) (ds_open s1)) (ds_disk s1)))).
        { intros s1 [K1 K2]. destruct (limit_reached _ _); (split; [exact K1|]); cbn [ds_open]; destruct (ds_open s1) as [[out text]|]; exact K2. }
        destruct ((0 <? ds_count s) && (u32 (ds_count s) mod size =? 0)); [|apply HW; exact Hs].
        destruct (open_output writable _ (split_close gz_enc s)) as [d'|] eqn:X.
        - apply HW. split; [eapply Hopen; [apply Hclose; exact Hs|exact X]|]. cbn [ds_open]. eexists. reflexivity.
        - split; [apply Hclose; exact Hs|exact I]. }
      destruct (open_output writable _ (w_disk v)) as [d|] eqn:Eo; [|rewrite E; split; reflexivity].
      apply (live_front _ _ _ _ P); [exact Hv|exact HP| | |].
      - intros s n Hs Hn. exact (proj1 Hs n Hn).
      - split; [eapply Hopen; [exact H3|exact Eo]|]. cbn [ds_open]. eexists. reflexivity.
      - intros s r Hr. unfold split_disk_body, io_guarded. destruct Hp as (_ & -> & Hp & _). rewrite (Hp r Hr). destruct (sel r); reflexivity.
    Qed.

    Variable writer_order : list (bytes * bytes) -> list (bytes * bytes).

    Lemma partition_front : forall p gzip outdir dir_ok template, (forall n x, In n names -> ~ DirSpec.file_for template gzip outdir (lossy x) n) ->
      frel (partition_on_disk gz_enc gz_dec writable O Od transform lossy writer_order a p gzip outdir dir_ok template skip [lit "-"] v)
           (partition_on_disk gz_enc gz_dec writable O Od transform lossy writer_order a' p gzip outdir dir_ok template skip names v').
    Proof.
      intros p gzip outdir dir_ok template Hm. unfold partition_on_disk. apply opts_front; [exact Hv|]. intros o o' Hp.
      destruct dir_ok; [|apply front_end]. cbv zeta. set (tm := template_or template gzip) in *.
      pose proof Hv as (H1 & E & H3). rewrite H1.
      assert (Edk : w_disk v' = w_disk v) by (rewrite E; reflexivity). assert (Es : w_stdin v' = stdin) by (rewrite E; reflexivity). rewrite ?Edk, ?Es.
      assert (HN : forall x n, In n names -> path_join outdir (partition_name lossy tm x) <> n).
      { intros x n Hn X. apply (Hm n x Hn). apply DirSplitProofs.file_for_path. symmetry. exact X. }
      assert (HO : forall x d d' n, In n names -> open_output writable (value_output lossy gzip outdir tm x) d = Some d' -> disk_get d' n = disk_get d n).
      { intros x d d' n Hn Ho. unfold open_output, value_output, builder_output in Ho. cbn [out_name out_append] in Ho.
        destruct (writable _); [|discriminate]. injection Ho as <-. apply disk_get_other. exact (HN x n Hn). }
      set (P := fun s : dpart => forall n, In n names -> disk_get (snd s) n = disk_get d0 n).
      assert (HP : forall s r, P s -> end_holds P (partition_disk_body writable O Od lossy gzip outdir tm p o' s r)).
      { intros s r Hs. unfold partition_disk_body, io_guarded. destruct (opts_select O Od o' (br_record r)) as [[|]|]; [|exact Hs|exact I].
        destruct (record_path O (fo_ci o') p (br_record r)) as [values|]; [|exact I].
        set (vs := dedup (sort_values values)). clearbody vs.
        assert (HV : P (fst (part_disk_values (fun x => open_output writable (value_output lossy gzip outdir tm x)) (fo_limit o') (br_write r) vs s))).
        { revert s Hs. induction vs as [|x vs IH]; intros s Hs; cbn [part_disk_values]; [exact Hs|]. cbv zeta.
          destruct (if existsb (fun w => bytes_eqb (fst w) x) (snd (fst s)) then Some (snd s)
                    else open_output writable (value_output lossy gzip outdir tm x) (snd s)) as [d|] eqn:Ed; [|exact Hs].
          assert (Hd : forall n, In n names -> disk_get d n = disk_get d0 n).
          { intros n Hn. destruct (existsb _ _); [injection Ed as <-; exact (Hs n Hn)|]. rewrite (HO _ _ _ n Hn Ed). exact (Hs n Hn). }
          destruct (limit_reached _ _); [exact Hd|]. apply IH. exact Hd. }
        destruct (part_disk_values _ _ _ _ _) as [s' [[|]|]]; exact HV. }
      apply (live_front _ _ _ _ P); [exact Hv|exact HP| |exact H3|].
      - intros s n Hs Hn. exact (Hs n Hn).
      - intros s r Hr. unfold partition_disk_body, io_guarded. destruct Hp as (-> & -> & Hp & _). rewrite (Hp r Hr). destruct (sel r); reflexivity.
    Qed.
  End Opts.

  Section Tables.
    Variables a a' : table_args.
    Definition preparing_table : Prop :=
      table_options a' = table_options a /\ table_header a' = table_header a
      /\ match fst (table_prepare O Od transform a), fst (table_prepare O Od transform a') with
         | None, None | Some None, Some None => True
         | Some (Some (o, q)), Some (Some (o', q')) => passing o o' /\ q' = q
         | _, _ => False
         end.
    Hypothesis Ha : preparing_table.

    Lemma table_front : forall outs u u' k k', fronted u u' -> (forall o o' q, passing o o' -> frel (k (o, q)) (k' (o', q))) ->
      frel (prepared gz_enc outs (fst (table_prepare O Od transform a)) u k) (prepared gz_enc outs (fst (table_prepare O Od transform a')) u' k').
    Proof.
      intros outs u u' k k' Hu Hk. apply prepared_front; [exact Hu|]. destruct Ha as (_ & _ & Hp).
      destruct (fst (table_prepare O Od transform a)) as [[[o q]|]|], (fst (table_prepare O Od transform a')) as [[[o' q']|]|]; try exact Hp.
      destruct Hp as [Hp ->]. apply Hk. exact Hp.
    Qed.

    Variable T : text_fns.
    Variable numeric : bytes -> bool.
    Variable hash : list bytes -> N.
    Variable freq_order : ftable -> ftable.

    Lemma select_front : forall unique no_empty nf q tsv append output, spares output ->
      frel (select_on_disk gz_enc gz_dec writable O Od transform lossy T numeric hash a unique no_empty nf q tsv append output skip [lit "-"] v)
           (select_on_disk gz_enc gz_dec writable O Od transform lossy T numeric hash a' unique no_empty nf q tsv append output skip names v').
    Proof.
      intros unique no_empty nf q tsv append output Ho. unfold select_on_disk. apply table_front; [exact Hv|]. intros o o' x Hp. cbv zeta. cbn [fst snd].
      destruct Ha as (-> & -> & _).
      apply open_front; [apply one_spares; exact Ho|exact Hv|]. intros u u' Hu. apply process_front; [exact Hu|right; reflexivity|].
      unfold select_body. destruct Hp as (_ & El & Hp & _). rewrite El. apply pass_guarded; [reflexivity|exact Hp].
    Qed.

    Lemma freq_front : forall unique num threshold reverse nf tsv output, spares output ->
      frel (freq_on_disk gz_enc gz_dec writable O Od transform lossy T numeric freq_order a unique num threshold reverse nf tsv output skip [lit "-"] v)
           (freq_on_disk gz_enc gz_dec writable O Od transform lossy T numeric freq_order a' unique num threshold reverse nf tsv output skip names v').
    Proof.
      intros unique num threshold reverse nf tsv output Ho. unfold freq_on_disk. apply table_front; [exact Hv|]. intros o o' x Hp. cbv zeta. cbn [fst snd].
      destruct Ha as (-> & -> & _).
      apply open_front; [apply one_spares; exact Ho|exact Hv|]. intros u u' Hu. apply process_front; [exact Hu|right; reflexivity|].
      unfold freq_body. destruct Hp as (_ & El & Hp & _). rewrite El. apply pass_guarded; [reflexivity|exact Hp].
    Qed.
  End Tables.

  (** ** Nothing is left out *)

  Section All.
    Hypothesis Hall : forall r, sel r = true.

    Lemma pass_all : forall {S} (b : S -> byte_record -> io_ending S), passes b b.
    Proof. intros S b s r _. rewrite Hall. reflexivity. Qed.

    Lemma passing_all : forall o, passing o o.
    Proof. intros o. repeat split; intros r _; rewrite Hall; reflexivity. Qed.

    Lemma preparing_all : forall a, preparing a a.
    Proof. intros a. unfold preparing. destruct (fst (opts_prepare O Od transform a)) as [[o|]|]; auto. apply passing_all. Qed.

    Lemma preparing_table_all : forall a, preparing_table a a.
    Proof.
      intros a. split; [reflexivity|]. split; [reflexivity|]. destruct (fst (table_prepare O Od transform a)) as [[[o q]|]|]; auto.
      split; [apply passing_all|reflexivity].
    Qed.

    Lemma concat_front : forall append output tee unique, spares output -> spares tee ->
      frel (concat_on_disk gz_enc gz_dec writable O sha lossy append output tee unique skip [lit "-"] v)
           (concat_on_disk gz_enc gz_dec writable O sha lossy append output tee unique skip names v').
    Proof.
      intros append output tee unique Ho Ht. unfold concat_on_disk. destruct (wb_run wb_new [CAppend append]) as [b|]; [|apply front_end].
      cbv zeta. apply open_front; [apply two_spare; assumption|exact Hv|]. intros u u' Hu. apply process_front; [exact Hu|right; reflexivity|apply pass_all].
    Qed.

    Variable esc : bytes -> bytes.

    Lemma convert_front : forall from to output, spares output ->
      frel (convert_on_disk gz_enc gz_dec writable lossy esc from to output skip [lit "-"] v)
           (convert_on_disk gz_enc gz_dec writable lossy esc from to output skip names v').
    Proof.
      intros from to output Ho. unfold convert_on_disk. destruct from; try apply front_end. cbv zeta.
      apply open_front; [apply one_spares|exact Hv|]; [destruct to; exact Ho|]. intros u u' Hu.
      apply process_front; [exact Hu|right; reflexivity|apply pass_all].
    Qed.

    Lemma explode_front : forall a discard keep l gzip output, spares output ->
      frel (explode_on_disk gz_enc gz_dec writable O Od transform a discard keep l gzip output skip [lit "-"] v)
           (explode_on_disk gz_enc gz_dec writable O Od transform a discard keep l gzip output skip names v').
    Proof.
      intros a discard keep l gzip output Ho. unfold explode_on_disk. apply prepared_both; [exact Hv|]. intros dk _.
      destruct (wb_run wb_new [CGzip gzip]) as [b|]; [|apply front_end]. cbv zeta. apply open_front; [apply one_spares; exact Ho|exact Hv|].
      intros u u' Hu. apply prepared_both; [exact Hu|]. intros o _. apply process_front; [exact Hu|right; reflexivity|apply pass_all].
    Qed.

    Lemma filter_front : forall a append gzip output tee, fa_skip a = skip -> spares output -> spares tee -> fa_expr_file a = None \/ fa_filter a = [] ->
      frel (filter_on_disk gz_enc gz_dec writable O Od transform (renamed_args a [lit "-"]) append gzip output tee v)
           (filter_on_disk gz_enc gz_dec writable O Od transform (renamed_args a names) append gzip output tee v').
    Proof.
      intros a append gzip output tee Hs Ho Ht Hx. unfold filter_on_disk.
      apply (prepared_both [] (filter_first Od (renamed_args a [lit "-"])) v v'); [exact Hv|]. intros _ _.
      destruct (wb_run wb_new [CAppend append; CGzip gzip]) as [b|]; [|apply front_end]. cbv zeta.
      apply open_front; [apply two_spare; assumption|exact Hv|]. intros u u' Hu.
      assert (Ex : expr_there (renamed_args a names) (w_disk u') = expr_there (renamed_args a [lit "-"]) (w_disk u)) by (destruct Hu as (_ & -> & _); reflexivity).
      assert (Ec : content_of (w_disk u') = content_of (w_disk u)) by (destruct Hu as (_ & -> & _); reflexivity).
      rewrite Ex, Ec. change (filter_prepare O Od transform (content_of (w_disk u)) (renamed_args a names))
        with (filter_prepare O Od transform (content_of (w_disk u)) (renamed_args a [lit "-"])).
      apply prepared_both; [exact Hu|]. intros c _.
      assert (forall ns, filter_names (match fa_expr_file (renamed_args a ns) with Some _ => true | None => false end)
                          (fa_filter (renamed_args a ns)) (fa_names (renamed_args a ns)) = ns) as E.
      { intros ns. cbn [renamed_args fa_expr_file fa_filter fa_names]. unfold filter_names. destruct Hx as [-> | ->]; [reflexivity|].
        rewrite andb_comm. reflexivity. }
      rewrite !E. cbn [renamed_args fa_skip]. rewrite Hs. apply process_front; [exact Hu|right; reflexivity|apply pass_all].
    Qed.
  End All.
End Front.

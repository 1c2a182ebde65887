(** * Proofs about limits in front of a command *)

From Coq Require Import String ZArith Lia.
From Verif Require Import Bytes BaseProofs Winnow RecordModel TagOccModel Utf8Model ByteRecordModel ByteRecordProofs ReaderModel
  MatcherModel MatcherProofs MatcherExtraProofs StateParser MatcherParserModel BuilderModel PathModel QuerySpec FmtModel QueryModel CliModel CliProofs TableModel
  ExplodeModel CheckModel ConvertModel CsvModel OptionsModel OptionsSpec ConfigModel PrepareModel PrepareSpec PrepareProofs GrammarStateProofs
  IoModel IoSpec WriteSpec DiskModel DirModel RuleModel
  MainModel DiskSpec RuleSpec MainSpec PipeSpec DiskProofs DirLoopProofs PipeProofs PipeInProofs FrontLoop FrontSpec FrontProofs FrontRunProofs LimitSpec LimitProofs LimitFrontSpec.
From Verif Require DirSpec DirSplitProofs RunSpec RunProofs.

(** ** Inputs that are opened while outputs are written, if these are not inputs *)

Lemma live_same : forall skip gz_dec {S} (view : S -> disk) (body : S -> byte_record -> io_ending S) (P : S -> Prop) d,
  (forall s r, P s -> end_holds P (body s r)) ->
  forall names stdin s, P s -> (forall s n, P s -> In n names -> disk_get (view s) n = disk_get d n) ->
  live_files_loop gz_dec view body skip s stdin names = io_files_loop (fun s => s) body skip s (inputs gz_dec d stdin names).
Proof.
  intros skip gz_dec S view body P d HP. induction names as [|n names IH]; intros stdin s Hs Hv; [reflexivity|].
  assert (E : exists x, inputs gz_dec (view s) stdin [n] = [x]
    /\ inputs gz_dec d stdin (n :: names) = x :: inputs gz_dec d (if bytes_eqb n (lit "-") then [] else stdin) names).
  { cbn [inputs]. rewrite (Hv s n Hs (or_introl eq_refl)). destruct (bytes_eqb n (lit "-")); eexists; split; reflexivity. }
  destruct E as (x & E1 & E2). cbn [live_files_loop]. rewrite E1, E2.
  assert (X : io_files_loop (fun s => s) body skip s (x :: inputs gz_dec d (if bytes_eqb n (lit "-") then [] else stdin) names)
    = match io_files_loop (fun s => s) body skip s [x] with
      | Some (IDone s') => io_files_loop (fun s => s) body skip s' (inputs gz_dec d (if bytes_eqb n (lit "-") then [] else stdin) names)
      | other => other
      end).
  { destruct x as [m [reads|k]]; cbn [io_files_loop]; [|reflexivity]. cbv zeta. destruct (io_reader_loop _ _ _ _ s _) as [[]|]; reflexivity. }
  rewrite X. destruct (io_files_loop (fun s => s) body skip s [x]) as [[s'|s'|s' er|]|] eqn:Ey; try reflexivity.
  pose proof (files_invariant P body skip HP _ _ _ Hs Ey) as Hy. apply IH; [exact Hy|]. intros s0 m H0 Hm. apply Hv; [exact H0|right; exact Hm].
Qed.

Section Short.
  Variable gz_enc : bytes -> bytes.
  Variable gz_dec : bytes -> list piece.
  Variable writable : bytes -> bool.
  Variable names : list bytes.
  Variable stdin : bytes.
  Variable d0 : disk.
  Variable skip : bool.
  (** the records that filter has read, and those it has written *)
  Variable recs : list byte_record.
  Variable sel : byte_record -> bool.
  Variable limit : N.
  (** filter has read everything *)
  Variable whole : Prop.
  Hypothesis Hlines : Forall of_line recs.
  Hypothesis Hloop : forall T (b : T -> byte_record -> io_ending T) s, whole \/ ~ goes_on (fold_end b s recs) ->
    io_files_loop (fun s => s) b skip s (inputs gz_dec d0 stdin names) = Some (fold_end b s recs).
  Hypothesis Hnum : (whole /\ (limit = 0 \/ N.of_nat (length (filter sel recs)) < limit))
    \/ (0 < limit /\ exists l r, recs = l ++ [r] /\ sel r = true /\ N.of_nat (length (filter sel l)) + 1 = limit).

  Notation frel := (frel stdin).
  Notation fronted := (fronted names stdin d0 recs sel).

  (** the body [b] without limit on what is left, the body [b'] on all *)
  Definition counts {S} (cnt : S -> N) (b b' : S -> byte_record -> io_ending S) : Prop :=
    (forall s r, In r recs -> b' s r = if sel r then match b s r with
                                                    | IDone s' => if limit_reached limit (cnt s') then IStopped s' else IDone s'
                                                    | x => x
                                                    end else IDone s)
    /\ forall s r s', b s r = IDone s' -> cnt s' = cnt s + 1.

  Definition same_end {S} (x y : io_ending S) : Prop := x = y \/ exists s, x = IDone s /\ y = IStopped s.

  Section Counts.
    Context {S : Type}.
    Variable cnt : S -> N.
    Variables b b' : S -> byte_record -> io_ending S.
    Hypothesis Hb : counts cnt b b'.

    Lemma fold_counted : forall l s s', fold_end b s l = IDone s' -> cnt s' = cnt s + N.of_nat (length l).
    Proof.
      induction l as [|r l IH]; intros s s' H; [injection H as <-; cbn; lia|]. cbn [fold_end length] in *.
      destruct (b s r) as [s1|s1|s1 er|] eqn:E; try discriminate. rewrite (IH _ _ H), (proj2 Hb _ _ _ E). lia.
    Qed.

    Lemma fold_below : forall l s, (forall r, In r l -> In r recs) -> limit = 0 \/ cnt s + N.of_nat (length (filter sel l)) < limit ->
      fold_end b' s l = fold_end b s (filter sel l).
    Proof.
      induction l as [|r l IH]; intros s Hin Hl; [reflexivity|]. cbn [fold_end filter] in *. rewrite (proj1 Hb s r (Hin r (or_introl eq_refl))).
      assert (Hin' : forall r, In r l -> In r recs) by (intros x Hx; apply Hin; right; exact Hx).
      destruct (sel r); [|apply IH; assumption]. cbn [fold_end length] in *.
      destruct (b s r) as [s1|s1|s1 er|] eqn:E; try reflexivity. pose proof (proj2 Hb _ _ _ E) as Ec.
      assert (X : limit_reached limit (cnt s1) = false).
      { unfold limit_reached. destruct Hl as [->|Hl]; [reflexivity|]. apply andb_false_iff. right. apply N.leb_gt. lia. }
      rewrite X. apply IH; [exact Hin'|]. destruct Hl as [Hl|Hl]; [left; exact Hl|right; lia].
    Qed.

    Lemma fold_short : forall s, cnt s = 0 ->
      same_end (fold_end b s (filter sel recs)) (fold_end b' s recs) /\ (whole \/ ~ goes_on (fold_end b' s recs)).
    Proof.
      intros s Hs. destruct Hnum as [[Hw Hl]|(H0 & l & r & E & Er & Hl)].
      - split; [|left; exact Hw]. left. symmetry. apply fold_below; [auto|]. rewrite Hs. destruct Hl as [Hl|Hl]; [left; exact Hl|right; lia].
      - assert (Hin : forall x, In x l -> In x recs) by (intros x Hx; rewrite E; apply in_or_app; left; exact Hx).
        assert (Ef : fold_end b' s recs = match fold_end b s (filter sel l) with IDone s' => fold_end b' s' [r] | other => other end).
        { rewrite E, fold_end_app, (fold_below l s Hin) by (right; lia). reflexivity. }
        assert (Eb : fold_end b s (filter sel recs) = match fold_end b s (filter sel l) with IDone s' => fold_end b s' [r] | other => other end).
        { rewrite E, filter_app, fold_end_app. cbn [filter]. rewrite Er. reflexivity. }
        rewrite Ef, Eb. destruct (fold_end b s (filter sel l)) as [s1|s1|s1 er|] eqn:E1.
        + cbn [fold_end]. rewrite (proj1 Hb s1 r) by (rewrite E; apply in_or_app; right; left; reflexivity). rewrite Er.
          destruct (b s1 r) as [s2|s2|s2 er|] eqn:E2.
          * assert (X : limit_reached limit (cnt s2) = true).
            { rewrite (proj2 Hb _ _ _ E2), (fold_counted _ _ _ E1), Hs. unfold limit_reached. apply andb_true_iff. split; [apply N.ltb_lt|apply N.leb_le]; lia. }
            rewrite X. split; [right; exists s2; auto|]. right. intros [y Hy]. discriminate.
          * split; [left; reflexivity|]. right. intros [y Hy]. discriminate.
          * split; [left; reflexivity|]. right. intros [y Hy]. discriminate.
          * split; [left; reflexivity|]. right. intros [y Hy]. discriminate.
        + split; [left; reflexivity|]. right. intros [y Hy]. discriminate.
        + split; [left; reflexivity|]. right. intros [y Hy]. discriminate.
        + split; [left; reflexivity|]. right. intros [y Hy]. discriminate.
    Qed.

    Lemma loop_all : forall s d, cnt s = 0 -> (forall n, In n names -> disk_get d n = disk_get d0 n) ->
      io_files_loop (fun s => s) b' skip s (inputs gz_dec d stdin names) = Some (fold_end b' s recs).
    Proof. intros s d Hs Hd. rewrite (inputs_same gz_dec names d0 d stdin Hd). apply Hloop. apply fold_short. exact Hs. Qed.
  End Counts.

  Lemma kept_lines : Forall of_line (filter sel recs).
  Proof. apply Forall_forall. intros r Hr. apply filter_In in Hr. exact (proj1 (Forall_forall _ _) Hlines r (proj1 Hr)). Qed.

  Lemma loop_left : forall S (on_skip : S -> S) body s d,
    io_files_loop on_skip body skip s (inputs gz_dec d (flat_map br_write (filter sel recs)) [lit "-"]) = Some (fold_end body s (filter sel recs)).
  Proof. intros S on_skip body s d. apply back_any. exact kept_lines. Qed.

  Lemma process_short : forall {S} (cnt : S -> N) (outs : list (output * ((S -> bytes) * (S -> bytes)))) bad b b' (s : S) v v', fronted v v' ->
    counts cnt b b' -> cnt s = 0 ->
    frel (process_all gz_enc gz_dec outs bad (fun s => s) b skip s [lit "-"] v)
         (process_all gz_enc gz_dec outs bad (fun s => s) b' skip s names v').
  Proof.
    intros S cnt outs bad b b' s v v' (H1 & -> & H3) Hb Hs. unfold process_all. rewrite H1.
    change (w_disk (fed stdin v)) with (w_disk v). change (w_stdin (fed stdin v)) with stdin.
    rewrite loop_left, (loop_all cnt b b' Hb s (w_disk v) Hs H3).
    destruct (fold_short cnt b b' Hb s Hs) as [[E|(s' & E1 & E2)] _].
    - rewrite <- E. destruct (fold_end b s _) as [a|a|a er|].
      + split; [reflexivity|]. apply fed_close_all.
      + split; [reflexivity|]. apply fed_close_all.
      + destruct (main_status _); (split; [reflexivity|]); [apply fed_close_all|reflexivity].
      + split; reflexivity.
    - rewrite E1, E2. cbn [main_status]. split; [reflexivity|]. apply fed_close_all.
  Qed.

  Lemma live_short : forall {S} (cnt : S -> N) (close : S -> disk) view (b b' : S -> byte_record -> io_ending S) (P : S -> Prop) s v v', fronted v v' ->
    (forall s r, P s -> end_holds P (b' s r)) -> (forall s n, P s -> In n names -> disk_get (view s) n = disk_get d0 n) -> P s ->
    counts cnt b b' -> cnt s = 0 ->
    frel (live_end close (live_files_loop gz_dec view b skip s (flat_map br_write (filter sel recs)) [lit "-"]) v)
         (live_end close (live_files_loop gz_dec view b' skip s stdin names) v').
  Proof.
    intros S cnt close view b b' P s v v' (H1 & -> & H3) HP Hv Hs Hb Hc.
    rewrite (live_same skip gz_dec view b' P d0 HP names stdin s Hs Hv), (loop_all cnt b b' Hb s d0 Hc (fun n _ => eq_refl)).
    cbn [live_files_loop]. rewrite loop_left.
    destruct (fold_short cnt b b' Hb s Hc) as [[E|(s' & E1 & E2)] _].
    - rewrite <- E. destruct (fold_end b s _) as [a|a|a er|]; unfold live_end.
      + split; reflexivity.
      + split; reflexivity.
      + destruct (main_status _); split; reflexivity.
      + split; reflexivity.
    - rewrite E1, E2. unfold live_end. cbn [main_status]. split; reflexivity.
  Qed.

  (** ** The commands *)

  Variables O Od : oracles.

  (** the options [o] for what is left, the options [o'] for all *)
  Definition limiting (o o' : filter_opts) : Prop :=
    fo_ci o' = fo_ci o /\ fo_limit o = 0 /\ fo_limit o' = limit
    /\ (forall r, opts_select O Od o r = Some true) /\ (forall r, opts_select_print O Od o r = Some true)
    /\ (forall r, In r recs -> opts_select O Od o' (br_record r) = Some (sel r))
    /\ (forall r, In r recs -> opts_select_print O Od o' (br_record r) = Some (sel r)).

  Lemma counts_guarded : forall {S} (cnt : S -> N) (f : step S -> io_ending S) s1 s2 (b b' : S -> byte_record -> step S), (forall s, f (Next s) = IDone s) ->
    (forall r, s1 r = Some true) -> (forall r, In r recs -> s2 (br_record r) = Some (sel r)) ->
    (forall s r, f (b' s r) = match f (b s r) with
                              | IDone s' => if limit_reached limit (cnt s') then IStopped s' else IDone s'
                              | x => x
                              end) ->
    (forall s r s', f (b s r) = IDone s' -> cnt s' = cnt s + 1) ->
    counts cnt (fun s r => f (guarded s1 b s r)) (fun s r => f (guarded s2 b' s r)).
  Proof.
    intros S cnt f s1 s2 b b' Hf H1 H2 Hl Hc. split.
    - intros s r Hr. unfold guarded. rewrite H1, (H2 r Hr). destruct (sel r); [apply Hl|apply Hf].
    - intros s r s' E. unfold guarded in E. rewrite H1 in E. exact (Hc _ _ _ E).
  Qed.

  Variables v v' : world.
  Hypothesis Hv : fronted v v'.

  Notation spares := (spares names).

  Variable transform : bytes -> bytes.
  Variable lossy : bytes -> bytes.
  Variable sha : bytes -> bytes.

  Section Opts.
    Variables a a' : opts_args.
    Variables o o' : filter_opts.
    Hypothesis Ea : fst (opts_prepare O Od transform a) = Some (Some o).
    Hypothesis Ea' : fst (opts_prepare O Od transform a') = Some (Some o').
    Hypothesis Hp : limiting o o'.

    Variable T : text_fns.
    Variable rule_order : list (bytes * N) -> list (bytes * N).
    Variable link_order : list (bytes * list bytes) -> list (bytes * list bytes).

    Lemma check_short : forall rules output, spares output ->
      frel (check_on_disk gz_enc gz_dec writable O Od transform lossy T rule_order link_order a rules output skip [lit "-"] v)
           (check_on_disk gz_enc gz_dec writable O Od transform lossy T rule_order link_order a' rules output skip names v').
    Proof.
      intros rules output Ho. unfold check_on_disk. cbv zeta. eapply open_front; [apply one_spares; exact Ho|exact Hv|]. intros u u' Hu.
      eapply prepared_front; [exact Hu|]. rewrite Ea, Ea'. eapply prepared_both; [exact Hu|]. intros sets _. destruct Hp as (_ & L0 & L & P0 & _ & P1 & _).
      apply (process_short (fun s : check_state => fst (fst s))); [exact Hu| |reflexivity].
      unfold check_body. rewrite L0, L. apply (counts_guarded _ as_io); [reflexivity|exact P0|exact P1| |].
      - intros [[n rs] rows] r. destruct (sets_check _ _ _ _ rs (br_record r)) as [[rs' new]|]; cbn; [|reflexivity]. destruct (limit_reached _ _); reflexivity.
      - intros [[n rs] rows] r s' E. destruct (sets_check _ _ _ _ rs (br_record r)) as [[rs' new]|]; cbn in E; [|discriminate]. injection E as <-. reflexivity.
    Qed.

    Variable numeric : bytes -> bool.

    Lemma hash_short : forall output tsv header, spares output ->
      frel (hash_on_disk gz_enc gz_dec writable O Od transform sha lossy numeric a output tsv header skip [lit "-"] v)
           (hash_on_disk gz_enc gz_dec writable O Od transform sha lossy numeric a' output tsv header skip names v').
    Proof.
      intros output tsv header Ho. unfold hash_on_disk. rewrite Ea, Ea'. cbn [prepared]. cbv zeta. destruct Hp as (_ & L0 & L & P0 & _ & P1 & _).
      eapply open_front; [apply one_spares; exact Ho|exact Hv|]. intros u u' Hu.
      apply (process_short (fun s : N * list (list bytes) * bool => fst (fst s))); [exact Hu| |reflexivity].
      unfold hash_csv_body. rewrite L0, L. apply (counts_guarded _ (with_refused snd)); [reflexivity|exact P0|exact P1| |].
      - intros [[n rows] f] r. destruct (record_ppn O (br_record r)) as [ppn|]; [|reflexivity].
        destruct (csv_write rows _) as [rows'|]; [|reflexivity]. cbn. destruct (limit_reached _ _); reflexivity.
      - intros [[n rows] f] r s' E. destruct (record_ppn O (br_record r)) as [ppn|]; [|discriminate].
        destruct (csv_write rows _) as [rows'|]; [|discriminate]. cbn in E. injection E as <-. reflexivity.
    Qed.

    Lemma print_short : forall nf output, spares output ->
      frel (print_on_disk gz_enc gz_dec writable O Od transform a nf output skip [lit "-"] v)
           (print_on_disk gz_enc gz_dec writable O Od transform a' nf output skip names v').
    Proof.
      intros nf output Ho. unfold print_on_disk. rewrite Ea, Ea'. cbn [prepared]. cbv zeta. destruct Hp as (_ & L0 & L & _ & P0 & _ & P1).
      eapply open_front; [apply one_spares; exact Ho|exact Hv|]. intros u u' Hu.
      apply (process_short (fun s : N * bytes => fst s)); [exact Hu| |reflexivity].
      unfold print_body. rewrite L0, L. apply (counts_guarded _ as_io); [reflexivity|exact P0|exact P1| |].
      - intros [n out] r. destruct (print_fields _ (br_record r)) as [text|]; [|reflexivity]. cbn. destruct (limit_reached _ _); reflexivity.
      - intros [n out] r s' E. destruct (print_fields _ (br_record r)) as [text|]; [|discriminate]. cbn in E. injection E as <-. reflexivity.
    Qed.

    Lemma sample_short : forall gzip output draw size, spares output ->
      frel (sample_on_disk gz_enc gz_dec writable O Od transform a gzip output draw size skip [lit "-"] v)
           (sample_on_disk gz_enc gz_dec writable O Od transform a' gzip output draw size skip names v').
    Proof.
      intros gzip output draw size Ho. unfold sample_on_disk. rewrite Ea, Ea'. cbn [prepared]. destruct Hp as (_ & L0 & L & P0 & _ & P1 & _).
      destruct (wb_run wb_new [CGzip gzip]) as [b|]; [|eapply front_end; exact Hv]. cbv zeta.
      eapply open_front; [apply one_spares; exact Ho|exact Hv|]. intros u u' Hu.
      apply (process_short (fun s : sample_state => fst s)); [exact Hu| |reflexivity].
      unfold sample_body. rewrite L0, L. apply (counts_guarded _ as_io); [reflexivity|exact P0|exact P1| |].
      - intros [n out] r. cbn. destruct (limit_reached _ _); reflexivity.
      - intros [n out] r s' E. cbn in E. injection E as <-. reflexivity.
    Qed.

    Variable tag_order : tag_counts -> tag_counts.
    Variable frame_text : frame_format -> list N * list (bytes * list N) -> bytes.

    Lemma describe_short : forall discard keep csv tsv output,
      frel (describe_on_disk gz_enc gz_dec writable O Od transform tag_order frame_text a discard keep csv tsv output skip [lit "-"] v)
           (describe_on_disk gz_enc gz_dec writable O Od transform tag_order frame_text a' discard keep csv tsv output skip names v').
    Proof.
      intros discard keep csv tsv output. unfold describe_on_disk. eapply prepared_both; [exact Hv|]. intros dk _.
      rewrite Ea, Ea'. cbn [prepared]. destruct Hv as (H1 & -> & H3). rewrite H1.
      change (w_disk (fed stdin v)) with (w_disk v). change (w_stdin (fed stdin v)) with stdin.
      destruct Hp as (_ & L0 & L & P0 & _ & P1 & _).
      assert (HC : counts (fun s : N * tag_counts => fst s) (fun s r => as_io (describe_body O Od (fst dk) (snd dk) o s r))
                     (fun s r => as_io (describe_body O Od (fst dk) (snd dk) o' s r))).
      { unfold describe_body. rewrite L0, L. apply (counts_guarded _ as_io); [reflexivity|exact P0|exact P1| |].
        - intros [n out] r. cbn [fst]. change (limit_reached 0 _) with false. cbn [as_io fst]. destruct (limit_reached _ _); reflexivity.
        - intros [n out] r s' E. cbn [fst] in E. change (limit_reached 0 _) with false in E. cbn [as_io] in E. injection E as <-. reflexivity. }
      rewrite loop_left, (loop_all _ _ _ HC) by (first [reflexivity|exact H3]).
      destruct (fold_short _ _ _ HC (0, []) eq_refl) as [[E|(s' & E1 & E2)] _].
      - rewrite <- E. destruct (fold_end _ _ _) as [s|s|s er|].
        + cbn [main_status]. cbv zeta. destruct (open_output _ _ _) as [d|]; (split; [reflexivity|]); [|reflexivity].
          exact (fed_close gz_enc stdin (mkOut output false false) _ (with_disk v d)).
        + cbn [main_status]. cbv zeta. destruct (open_output _ _ _) as [d|]; (split; [reflexivity|]); [|reflexivity].
          exact (fed_close gz_enc stdin (mkOut output false false) _ (with_disk v d)).
        + destruct (main_status _); split; reflexivity.
        + split; reflexivity.
      - rewrite E1, E2. cbn [main_status]. cbv zeta. destruct (open_output _ _ _) as [d|]; (split; [reflexivity|]); [|reflexivity].
        exact (fed_close gz_enc stdin (mkOut output false false) _ (with_disk v d)).
    Qed.

    Lemma split_short : forall gzip outdir dir_ok template size, (forall n k, In n names -> ~ DirSpec.chunk_file template gzip outdir k n) ->
      frel (split_on_disk gz_enc gz_dec writable O Od transform a gzip outdir dir_ok template size skip [lit "-"] v)
           (split_on_disk gz_enc gz_dec writable O Od transform a' gzip outdir dir_ok template size skip names v').
    Proof.
      intros gzip outdir dir_ok template size Hm. unfold split_on_disk. rewrite Ea, Ea'. cbn [prepared].
      destruct dir_ok; [|eapply front_end; exact Hv]. cbv zeta. set (tm := template_or template gzip) in *.
      pose proof Hv as (H1 & E & H3). rewrite H1.
      assert (Edk : w_disk v' = w_disk v) by (rewrite E; reflexivity). assert (Es : w_stdin v' = stdin) by (rewrite E; reflexivity). rewrite ?Edk, ?Es.
      assert (HN : forall k n, In n names -> path_join outdir (replace_braces (dec k) tm) <> n).
      { intros k n Hn X. apply (Hm n k Hn). apply DirSplitProofs.chunk_file_path. symmetry. exact X. }
      set (Q := fun d : disk => forall n, In n names -> disk_get d n = disk_get d0 n).
      assert (Hset : forall d' k c, Q d' -> Q (disk_set d' (path_join outdir (replace_braces (dec k) tm)) c)).
      { intros d' k c Hd n Hn. rewrite disk_get_other; [exact (Hd n Hn)|apply HN; exact Hn]. }
      assert (Hopen : forall d' k d'', Q d' -> open_output writable (chunk_output gzip outdir tm k) d' = Some d'' -> Q d'').
      { intros d' k d'' Hd X. unfold open_output in X. cbn [chunk_output builder_output out_name] in X.
        destruct (writable _); [|discriminate]. injection X as <-. apply Hset. exact Hd. }
      set (P := fun s : dsplit => Q (ds_disk s)
        /\ match ds_open s with Some (out, _) => exists k, out = chunk_output gzip outdir tm k | None => True end).
      assert (Hclose : forall s, P s -> Q (split_close gz_enc s)).
      { intros s [K1 K2]. unfold split_close. destruct (ds_open s) as [[out text]|]; [|exact K1]. destruct K2 as [k ->].
        unfold flushed. cbn [chunk_output builder_output out_name]. apply Hset. exact K1. }
      assert (HP : forall s r, P s -> end_holds P (split_disk_body gz_enc writable O Od gzip outdir tm size o' s r)).
      { intros s r Hs. unfold split_disk_body, io_guarded. destruct (opts_select O Od o' (br_record r)) as [[|]|]; [|exact Hs|exact I].
        cbv zeta. assert (HW : forall s1, P s1 -> end_holds P
          (if limit_reached (fo_limit o') (ds_count s1 + 1)
           then IStopped (mkDSplit (ds_chunks s1) (ds_count s1 + 1) (option_map (fun x => (fst x, snd x ++ br_write r)) (ds_open s1)) (ds_disk s1))
           else IDone (mkDSplit (ds_chunks s1) (ds_count s1 + 1) (option_map (fun x => (fst x, snd x ++ br_write r)) (ds_open s1)) (ds_disk s1)))).
        { intros s1 [K1 K2]. destruct (limit_reached _ _); (split; [exact K1|]); cbn [ds_open]; destruct (ds_open s1) as [[out text]|]; exact K2. }
        destruct ((0 <? ds_count s) && (u32 (ds_count s) mod size =? 0)); [|apply HW; exact Hs].
        destruct (open_output writable _ (split_close gz_enc s)) as [d'|] eqn:X.
        - apply HW. split; [eapply Hopen; [apply Hclose; exact Hs|exact X]|]. cbn [ds_open]. eexists. reflexivity.
        - split; [apply Hclose; exact Hs|exact I]. }
      destruct (open_output writable _ (w_disk v)) as [d|] eqn:Eo; [|rewrite E; split; reflexivity].
      apply (live_short ds_count _ _ _ _ P); [exact Hv|exact HP| | | |reflexivity].
      - intros s n Hs Hn. exact (proj1 Hs n Hn).
      - split; [eapply Hopen; [exact H3|exact Eo]|]. cbn [ds_open]. eexists. reflexivity.
      - destruct Hp as (_ & L0 & L & P0 & _ & P1 & _). split.
        + intros s r Hr. unfold split_disk_body, io_guarded. rewrite P0, (P1 r Hr), L0, L. destruct (sel r); [|reflexivity].
          cbv zeta.
          destruct (_ && _); [destruct (open_output writable (chunk_output gzip outdir tm (u32 (ds_chunks s + 1))) (split_close gz_enc s)); [|reflexivity]|]; change (limit_reached 0 _) with false; cbn [ds_count]; destruct (limit_reached limit _); reflexivity.
        + intros s r s' X. unfold split_disk_body, io_guarded in X. rewrite P0, L0 in X. cbv zeta in X.
          destruct (_ && _); [destruct (open_output writable (chunk_output gzip outdir tm (u32 (ds_chunks s + 1))) (split_close gz_enc s)); [|discriminate]|]; change (limit_reached 0 _) with false in X; injection X as <-; reflexivity.
    Qed.
  End Opts.

  Section Tables.
    Variables a a' : table_args.
    Variables o o' : filter_opts.
    Variable q : option (option query).
    Hypothesis Eo : table_options a' = table_options a.
    Hypothesis Eh : table_header a' = table_header a.
    Hypothesis Ea : fst (table_prepare O Od transform a) = match q with Some (Some q) => Some (Some (o, q)) | Some None => Some None | None => None end.
    Hypothesis Ea' : fst (table_prepare O Od transform a') = match q with Some (Some q) => Some (Some (o', q)) | Some None => Some None | None => None end.
    Hypothesis Hp : limiting o o'.

    Lemma table_short : forall outs u u' k k', fronted u u' -> (forall q, frel (k (o, q)) (k' (o', q))) ->
      frel (prepared gz_enc outs (fst (table_prepare O Od transform a)) u k) (prepared gz_enc outs (fst (table_prepare O Od transform a')) u' k').
    Proof. intros outs u u' k k' Hu Hk. eapply prepared_front; [exact Hu|]. rewrite Ea, Ea'. destruct q as [[x|]|]; auto. Qed.

    Variable T : text_fns.
    Variable numeric : bytes -> bool.
    Variable hash : list bytes -> N.
    Variable freq_order : ftable -> ftable.

    Lemma select_loop_count : forall c rows s, sel_count (select_loop lossy hash c rows s) = sel_count s.
    Proof.
      intros c. induction rows as [|row rows IH]; intros s; [reflexivity|]. cbn [select_loop]. cbv zeta.
      destruct (_ && _); [apply IH|]. destruct (_ && _); [apply IH|]. destruct (negb _); [|rewrite IH; reflexivity].
      destruct (csv_write _ _); [rewrite IH; reflexivity|reflexivity].
    Qed.

    Lemma select_short : forall unique no_empty nf qu tsv append output, spares output ->
      frel (select_on_disk gz_enc gz_dec writable O Od transform lossy T numeric hash a unique no_empty nf qu tsv append output skip [lit "-"] v)
           (select_on_disk gz_enc gz_dec writable O Od transform lossy T numeric hash a' unique no_empty nf qu tsv append output skip names v').
    Proof.
      intros unique no_empty nf qu tsv append output Ho. unfold select_on_disk. apply table_short; [exact Hv|]. intros x. cbv zeta. cbn [fst snd].
      rewrite Eo, Eh. eapply open_front; [apply one_spares; exact Ho|exact Hv|]. intros u u' Hu. destruct Hp as (_ & L0 & L & P0 & _ & P1 & _).
      apply (process_short sel_count); [exact Hu| |reflexivity].
      unfold select_body. rewrite L0, L. apply (counts_guarded _ (with_refused sel_failed)); [reflexivity|exact P0|exact P1| |].
      - intros s r. destruct (record_query _ _ _ _ _) as [rows|]; [|reflexivity]. cbv zeta. destruct (sel_failed (select_loop _ _ _ rows s)) eqn:Ef.
        + cbn [with_refused]. rewrite Ef. reflexivity.
        + change (limit_reached 0 _) with false. cbn -[limit_reached select_loop]. match goal with |- context [limit_reached limit ?n] => destruct (limit_reached limit n) end; reflexivity.
      - intros s r s' E. destruct (record_query _ _ _ _ _) as [rows|]; [|discriminate]. cbv zeta in E.
        destruct (sel_failed (select_loop _ _ _ rows s)) eqn:Ef; [cbn [with_refused] in E; rewrite Ef in E; discriminate|].
        change (limit_reached 0 _) with false in E. cbv iota in E. cbn [with_refused] in E. injection E as <-. cbn [sel_count].
        rewrite select_loop_count. reflexivity.
    Qed.

    Lemma freq_short : forall unique num threshold reverse nf tsv output, spares output ->
      frel (freq_on_disk gz_enc gz_dec writable O Od transform lossy T numeric freq_order a unique num threshold reverse nf tsv output skip [lit "-"] v)
           (freq_on_disk gz_enc gz_dec writable O Od transform lossy T numeric freq_order a' unique num threshold reverse nf tsv output skip names v').
    Proof.
      intros unique num threshold reverse nf tsv output Ho. unfold freq_on_disk. apply table_short; [exact Hv|]. intros x. cbv zeta. cbn [fst snd].
      rewrite Eo, Eh. eapply open_front; [apply one_spares; exact Ho|exact Hv|]. intros u u' Hu. destruct Hp as (_ & L0 & L & P0 & _ & P1 & _).
      apply (process_short (fun s : N * ftable => fst s)); [exact Hu| |reflexivity].
      unfold freq_body. rewrite L0, L. apply (counts_guarded _ as_io); [reflexivity|exact P0|exact P1| |].
      - intros s r. destruct (record_query _ _ _ _ _) as [rows|]; [|reflexivity]. cbv zeta. change (limit_reached 0 _) with false. cbv iota.
        cbn [as_io]. destruct (limit_reached _ _); reflexivity.
      - intros s r s' E. destruct (record_query _ _ _ _ _) as [rows|]; [|discriminate]. cbv zeta in E. change (limit_reached 0 _) with false in E. cbv iota in E.
        cbn [as_io] in E. injection E as <-. reflexivity.
    Qed.
  End Tables.
End Short.

(** ** What filter with a limit leaves on stdout *)

Lemma stop_prefix : forall S (body : S -> byte_record -> io_ending S) recs s s', fold_end body s recs = IStopped s' ->
  exists l r l' s1, recs = l ++ r :: l' /\ fold_end body s l = IDone s1 /\ body s1 r = IStopped s'.
Proof.
  intros S body. induction recs as [|r recs IH]; intros s s' H; [discriminate|]. cbn [fold_end] in H.
  destruct (body s r) as [s1|s1|s1 er|] eqn:E; try discriminate.
  - destruct (IH _ _ H) as (l & r' & l' & s2 & -> & E1 & E2). exists (r :: l), r', l', s2. split; [reflexivity|]. split; [|exact E2].
    cbn [fold_end]. rewrite E. exact E1.
  - injection H as <-. exists [], r, recs, s. split; [reflexivity|]. split; [reflexivity|exact E].
Qed.

Lemma filter_fold_go : forall O Od c recs n a b s', fc_keep c = [] -> fc_discard c = [] -> fc_limit c = 0 \/ n < fc_limit c ->
  fold_end (fun s r => as_io (filter_body O Od c s r)) (n, a, b) recs = IDone s' ->
  (forall r, In r recs -> filter_select O Od c (br_record r) = Some (chosen O Od c r))
  /\ snd (fst s') = a ++ flat_map br_write (filter (chosen O Od c) recs)
  /\ fst (fst s') = n + N.of_nat (length (filter (chosen O Od c) recs)) /\ (fc_limit c = 0 \/ fst (fst s') < fc_limit c).
Proof.
  intros O Od c recs n a b s' Hk Hd. revert n a b. induction recs as [|r recs IH]; intros n a b Hl H.
  - injection H as <-. split; [intros r []|]. cbn. rewrite app_nil_r. split; [reflexivity|]. split; [lia|exact Hl].
  - cbn [fold_end] in H. unfold filter_body at 1, guarded in H.
    destruct (filter_select O Od c (br_record r)) as [[|]|] eqn:E; [| |discriminate].
    + rewrite (discard_nil _ r Hd), (keep_nil _ r Hk) in H.
      assert (Ec : chosen O Od c r = true) by (unfold chosen; rewrite E; reflexivity).
      destruct (limit_reached (fc_limit c) (n + 1)) eqn:El; [discriminate|]. cbn [as_io] in H.
      assert (Hl' : fc_limit c = 0 \/ n + 1 < fc_limit c).
      { unfold limit_reached in El. destruct (N.ltb_spec 0 (fc_limit c)) as [X|X]; [|left; lia]. cbn [andb] in El. apply N.leb_gt in El. right. exact El. }
      destruct (IH _ _ _ Hl' H) as (H1 & H2 & H3 & H4). split.
      * intros x [<-|Hx]; [rewrite Ec; exact E|exact (H1 x Hx)].
      * cbn [filter]. rewrite Ec. cbn [flat_map length]. rewrite H2, app_assoc. split; [reflexivity|]. split; [lia|exact H4].
    + cbn [as_io] in H. assert (Ec : chosen O Od c r = false) by (unfold chosen; rewrite E; reflexivity).
      destruct (IH _ _ _ Hl H) as (H1 & H2 & H3 & H4). split.
      * intros x [<-|Hx]; [rewrite Ec; exact E|exact (H1 x Hx)].
      * cbn [filter]. rewrite Ec. auto.
Qed.

Lemma filter_body_fails : forall O Od c s r s' k, as_io (filter_body O Od c s r) <> IFailed s' (CIo k).
Proof.
  intros O Od c [[n x] y] r s' k. unfold filter_body, guarded. destruct (filter_select O Od c (br_record r)) as [[]|]; try discriminate.
  destruct (limit_reached _ _); discriminate.
Qed.

Lemma filter_limit_done : forall gz_enc gz_dec writable O Od tr a w w1,
  fa_keep a = None -> fa_discard a = None -> fa_expr_file a = None ->
  filter_on_disk gz_enc gz_dec writable O Od tr a false false None None w = Some (CEnded 0, w1) ->
  exists c s' recs (whole : Prop), (forall content, filter_prepare O Od tr content a = (Some (Some c), s'))
    /\ Forall of_line recs
    /\ (forall T (b : T -> byte_record -> io_ending T) s, whole \/ ~ goes_on (fold_end b s recs) ->
          io_files_loop (fun s => s) b (fa_skip a) s (inputs gz_dec (w_disk w) (w_stdin w) (fa_names a)) = Some (fold_end b s recs))
    /\ ((whole /\ (fa_limit a = 0 \/ N.of_nat (length (filter (chosen O Od c) recs)) < fa_limit a))
        \/ (0 < fa_limit a /\ exists l r, recs = l ++ [r] /\ chosen O Od c r = true /\ N.of_nat (length (filter (chosen O Od c) l)) + 1 = fa_limit a))
    /\ (forall r, In r recs -> filter_select O Od c (br_record r) = Some (chosen O Od c r))
    /\ w1 = mkWorld (w_disk w) (w_stdin w) (w_stdout w ++ flat_map br_write (filter (chosen O Od c) recs)).
Proof.
  intros gz_enc gz_dec writable O Od tr a w w1 Hk Hd Hx H. unfold filter_on_disk in H.
  destruct (filter_first Od a) as [[[]|]|]; try discriminate. cbn [prepared] in H.
  change (wb_run wb_new [CAppend false; CGzip false]) with (Some wb_new) in H. cbv iota zeta in H.
  cbn [open_all open_output builder_output out_name app] in H. rewrite world_eta in H. unfold expr_there in H. rewrite Hx in H.
  assert (Ep : forall c1 c2, filter_prepare O Od tr c1 a = filter_prepare O Od tr c2 a).
  { intros c1 c2. unfold filter_prepare, filter_expr. rewrite Hx. reflexivity. }
  destruct (filter_prepare O Od tr (content_of (w_disk w)) a) as [[[c|]|] s'] eqn:E; try discriminate.
  cbn [fst prepared] in H. cbn [filter_names andb] in H. unfold process_all in H.
  assert (Hc : fc_limit c = fa_limit a /\ fc_keep c = [] /\ fc_discard c = []).
  { unfold filter_prepare in E. destruct (source_parse Od fresh (fa_source a)) as [[[src|]|] s0]; try discriminate. cbn [and_then] in E.
    rewrite Hk, Hd in E. cbn [parse_predicates] in E. destruct (filter_set_build _ _ _ _); [|discriminate]. destruct (filter_expr _ a); [|discriminate].
    destruct (builder_run _ _ _ _ _) as [[[m|]|] s1]; try discriminate. cbn [and_then] in E. injection E as <- _. cbn. auto. }
  destruct Hc as (Hc1 & Hc2 & Hc3).
  set (body := fun s r => as_io (filter_body O Od c s r)) in *.
  set (files := inputs gz_dec (w_disk w) (w_stdin w) (fa_names a)) in *.
  destruct (io_files_loop (fun s : filter_state => s) body (fa_skip a) (0, [], []) files) as [x|] eqn:El; [|discriminate].
  assert (Hend : comes_to_end x).
  { apply (status_end _ _ _ (filter_body_fails O Od c) _ _ _ (fun n k => inputs_kind gz_dec (fa_names a) (w_disk w) (w_stdin w) n k) El).
    destruct x as [s|s|s er|]; cbn [main_status] in *; try reflexivity; [|discriminate]. destruct er as [|[]| |]; try discriminate; reflexivity. }
  destruct (files_prefix (fa_skip a) _ _ _ _ El Hend) as (recs & Hf & Ex & Hl).
  assert (Hstart : fc_limit c = 0 \/ 0 < fc_limit c) by lia.
  destruct Hend as [s1 [E1|E1]]; rewrite E1 in Ex; symmetry in Ex.
  - destruct (filter_fold_go O Od c recs 0 [] [] s1 Hc2 Hc3 Hstart Ex) as (H1 & H2 & H3 & H4). rewrite Hc1 in H4.
    exists c, s', recs, (goes_on x). split; [intros c0; rewrite <- E; apply Ep|]. split; [exact Hf|].
    split; [intros T b s Hs; apply Hl; exact Hs|]. split.
    { left. split; [exists s1; exact E1|]. rewrite N.add_0_l in H3. rewrite <- H3. exact H4. }
    split; [exact H1|]. subst x. cbn [main_status] in H. injection H as <-. cbn. rewrite H2. reflexivity.
  - destruct (stop_prefix _ _ _ _ _ Ex) as (l & r & l' & s0 & Er & Ea & Eb).
    destruct (filter_fold_go O Od c l 0 [] [] s0 Hc2 Hc3 Hstart Ea) as (H1 & H2 & H3 & H4). rewrite N.add_0_l in H3.
    assert (Hr : exists y, filter_select O Od c (br_record r) = Some true /\ 0 < fc_limit c /\ fc_limit c <= fst (fst s0) + 1
      /\ s1 = (fst (fst s0) + 1, snd (fst s0) ++ br_write r, y)).
    { unfold body, filter_body, guarded in Eb. destruct s0 as [[n0 o0] t0]. destruct (filter_select O Od c (br_record r)) as [[|]|]; try discriminate.
      rewrite (discard_nil _ r Hc3), (keep_nil _ r Hc2) in Eb. unfold limit_reached in Eb.
      destruct (N.ltb_spec 0 (fc_limit c)) as [X|X]; [|discriminate]. destruct (N.leb_spec (fc_limit c) (n0 + 1)) as [Y|Y]; [|discriminate].
      cbn in Eb. injection Eb as <-. eexists. auto. }
    destruct Hr as (y & S1 & S2 & S3 & S4).
    assert (Ec : chosen O Od c r = true) by (unfold chosen; rewrite S1; reflexivity).
    exists c, s', (l ++ [r]), False. split; [intros c0; rewrite <- E; apply Ep|]. split.
    { rewrite Er in Hf. apply Forall_app in Hf. destruct Hf as [F1 F2]. inversion F2 as [|? ? F3 F4]. subst. apply Forall_app. split; [exact F1|]. constructor; [exact F3|constructor]. }
    split.
    { intros T b s [[]|Hs]. assert (Eq : fold_end b s recs = fold_end b s (l ++ [r])).
      { rewrite Er. change (r :: l') with ([r] ++ l'). rewrite app_assoc, fold_end_app.
        destruct (fold_end b s (l ++ [r])) as [z|z|z er|]; try reflexivity. destruct Hs. exists z. reflexivity. }
      rewrite <- Eq. apply Hl. right. rewrite Eq. exact Hs. }
    rewrite Hc1 in *. split.
    { right. split; [exact S2|]. exists l, r. split; [reflexivity|]. split; [exact Ec|]. rewrite <- H3. lia. }
    split.
    { intros z Hz. apply in_app_or in Hz. destruct Hz as [Hz|[<-|[]]]; [exact (H1 z Hz)|]. rewrite Ec. exact S1. }
    subst x. cbn [main_status] in H. injection H as <-. cbn. rewrite S4. cbn [fst snd]. rewrite H2, filter_app. cbn [filter]. rewrite Ec.
    rewrite flat_map_app. cbn [flat_map app]. rewrite app_nil_r. reflexivity.
Qed.

(** ** The options *)

Lemma unlimited_accepted : forall O Od tr content e d skip o W names c s',
  filter_prepare O Od tr content (mkFilterArgs skip (o_limit o) false (o_ci o) None None None (map (load_table e d) (o_allow o)) (map (load_table e d) (o_deny o))
    (o_column o) (o_source o) (o_and o) (o_or o) (o_not o) W names) = (Some (Some c), s') ->
  exists c0, filter_prepare O Od tr content (bare_filter o W names e d skip) = (Some (Some c0), s')
    /\ filter_select O Od c0 = filter_select O Od c.
Proof.
  intros O Od tr content e d skip o W names c s' H. unfold bare_filter, filter_prepare, filter_expr in *.
  cbn [fa_source fa_discard fa_keep fa_column fa_allow fa_deny fa_expr_file fa_filter fa_and fa_or fa_not fa_ci fa_invert fa_limit] in *.
  destruct (source_parse Od fresh (o_source o)) as [[[src|]|] s0]; try discriminate. cbn [and_then parse_predicates] in *.
  destruct (filter_set_build _ _ _ _) as [fs|]; [|discriminate].
  destruct (builder_run _ _ _ _ _) as [[[m|]|] s1]; try discriminate. cbn [and_then] in *. injection H as <- <-.
  eexists. split; reflexivity.
Qed.

Definition unlimited (o : file_opts) : file_opts := mkFileOpts (o_skip o) 0 (o_ci o) (o_threshold o) [] [] None None None [] [] [].

Lemma where_limiting : forall e o W d tr skip names c s' content recs, o_where o = Some W ->
  filter_prepare (oracles_for e o) (default_oracles e) tr content (bare_filter o W names e d skip) = (Some (Some c), s') ->
  (forall r, In r recs -> filter_select (oracles_for e o) (default_oracles e) c (br_record r) = Some (chosen (oracles_for e o) (default_oracles e) c r)) ->
  regexes_compile (oracles_for e o) (o_ci o) ->
  exists fo fo0,
    opts_prepare (oracles_for e o) (default_oracles e) tr (load_opts e d o) = (Some (Some fo), s')
    /\ opts_prepare (oracles_for e o) (default_oracles e) tr (load_opts e d (unlimited o)) = (Some (Some fo0), fresh)
    /\ limiting recs (chosen (oracles_for e o) (default_oracles e) c) (o_limit o) (oracles_for e o) (default_oracles e) fo0 fo.
Proof.
  intros e o W d tr skip names c s' content recs HW Hc Hr Hre.
  set (O := oracles_for e o) in *. set (Od := default_oracles e) in *.
  destruct (where_passing e o W HW d tr skip names c s' content Hc recs Hr Hre) as (fo & fo0 & E & E0 & Hp). fold O Od in E, E0, Hp.
  destruct (where_accepted e o W HW d tr skip names c s' content Hc recs Hr) as (fs & m & s0 & _ & Efo & _). fold O Od in Efo. rewrite E in Efo. injection Efo as Efo.
  assert (Hfo0 : fo0 = mkOpts (mkFSet None None ppn_path) None (o_ci o) (o_limit o)).
  { cut (opts_prepare O Od tr (load_opts e d (bare o)) = (Some (Some (mkOpts (mkFSet None None ppn_path) None (o_ci o) (o_limit o))), fresh)); [|reflexivity].
    intros X. rewrite E0 in X. injection X as ->. reflexivity. }
  exists fo, (mkOpts (mkFSet None None ppn_path) None (o_ci o) 0). split; [exact E|]. split; [reflexivity|].
  assert (B : forall r, opts_select O Od fo0 r = Some true /\ opts_select_print O Od fo0 r = Some true).
  { intros r. rewrite Hfo0. apply bare_selects; reflexivity. }
  destruct Hp as (_ & _ & P1 & P2).
  split; [rewrite Efo; reflexivity|]. split; [reflexivity|]. split; [rewrite Efo; reflexivity|].
  split; [intros r; exact (proj1 (bare_selects O Od (mkFSet None None ppn_path) _ _ r eq_refl eq_refl eq_refl))|].
  split; [intros r; exact (proj2 (bare_selects O Od (mkFSet None None ppn_path) _ _ r eq_refl eq_refl eq_refl))|].
  split; intros r Hin; [rewrite (P1 r Hin), (proj1 (B _))|rewrite (P2 r Hin), (proj2 (B _))]; destruct (chosen O Od c r); reflexivity.
Qed.

Lemma execute_limit_front : forall e c cfg k o W w w1 t,
  regexes_compile (oracles_for e o) (o_ci o) -> opts_of k = Some o -> o_where o = Some W -> limits_records k -> levelled e k ->
  (forall n, may_change e (mkInvocation cfg k) n -> ~ (In n (input_names k) \/ In n (o_allow o) \/ In n (o_deny o))) ->
  execute e c (filter_limited o false W (o_limit o) false false None (input_names k)) w = Some (CEnded 0, w1) -> w_stdout w1 = w_stdout w ++ t ->
  frel (w_stdin w) (execute e c (after_limit o k) (mkWorld (w_disk w) t (w_stdout w))) (execute e c k w).
Proof.
  intros e c cfg k o W w w1 t Hre Ho HW Hk Hl Hc H Ht.
  set (O := oracles_for e o) in *. set (Od := default_oracles e) in *. set (tr := translit e (cf_normalization c)) in *.
  set (skip := o_skip o || cf_skip_invalid c) in *. set (names := input_names k) in *.
  set (fa := mkFilterArgs skip (o_limit o) false (o_ci o) None None None (map (load_table e (w_disk w)) (o_allow o)) (map (load_table e (w_disk w)) (o_deny o))
    (o_column o) (o_source o) (o_and o) (o_or o) (o_not o) W names).
  destruct (filter_limit_done (e_gz_enc e) (e_gz_dec e) (e_writable e) O Od tr fa w w1
    eq_refl eq_refl eq_refl H) as (fc & s' & recs & whole & Hp & Hf & Hloop & Hnum & Hsel & ->).
  change (fa_skip fa) with skip in Hloop. change (fa_names fa) with names in Hloop. change (fa_limit fa) with (o_limit o) in Hnum.
  cbn [w_stdout] in Ht. apply app_inv_head in Ht. subst t.
  destruct (unlimited_accepted O Od tr _ e (w_disk w) skip o W names fc s' (Hp (content_of (w_disk w)))) as (c0 & Hp0 & Es).
  assert (Esel : chosen O Od fc = chosen O Od c0) by (unfold chosen; rewrite Es; reflexivity).
  rewrite <- Es in Hsel. rewrite Esel in *. set (sel := chosen O Od c0) in *.
  set (v := mkWorld (w_disk w) (flat_map br_write (filter sel recs)) (w_stdout w)).
  assert (Hv : fronted names (w_stdin w) (w_disk w) recs sel v w).
  { split; [reflexivity|]. split; [destruct w; reflexivity|]. intros n _. reflexivity. }
  destruct (where_limiting e o W (w_disk w) tr skip names c0 s' _ recs HW Hp0 Hsel Hre) as (fo & fo0 & E & E0 & Hlim).
  fold O Od sel in E, E0, Hlim.
  assert (EA : fst (opts_prepare O Od tr (load_opts e (w_disk w) o)) = Some (Some fo)) by (rewrite E; reflexivity).
  assert (EA0 : fst (opts_prepare O Od tr (load_opts e (w_disk w) (unlimited o))) = Some (Some fo0)) by (rewrite E0; reflexivity).
  assert (Hlev : (o_source o = None \/ exists V, source_values Od true (o_source o) V) ->
    (forall t, o_where o = Some t \/ In t (o_and o ++ o_or o ++ o_not o) -> balanced O (tr t)) -> s' = fresh).
  { eapply where_levels; [exact HW|exact Hp0|exact Hsel]. }
  assert (Hout : forall n, In n (output_names k) -> ~ (In n names \/ In n (o_allow o) \/ In n (o_deny o))).
  { intros n X. apply Hc. exact (mc_output e (mkInvocation cfg k) n X). }
  assert (Hsp : forall out, (forall n, In n (DiskSpec.named out) -> In n (output_names k)) -> spares names out).
  { intros out X n -> Y. apply (Hout n); [apply X; left; reflexivity|left; exact Y]. }
  assert (Hlists : forall out append, (forall n, In n (DiskSpec.named out) -> In n (output_names k)) ->
    load_opts e (after_open e out append (w_disk w)) o = load_opts e (w_disk w) o).
  { intros out append X. apply RunProofs.opened_lists. intros n -> Y. apply (Hout n); [apply X; left; reflexivity|right; exact Y]. }
  assert (Hb : forall out append, load_opts e (after_open e out append (w_disk w)) (unlimited o) = load_opts e (w_disk w) (unlimited o)) by reflexivity.
  assert (HT : forall q, s' = fresh -> let x := fst (query_new O fresh (tr (co_query q))) in
    fst (table_prepare O Od tr (load_columns e (w_disk w) (unlimited o) q)) = match x with Some (Some y) => Some (Some (fo0, y)) | Some None => Some None | None => None end
    /\ fst (table_prepare O Od tr (load_columns e (w_disk w) o q)) = match x with Some (Some y) => Some (Some (fo, y)) | Some None => Some None | None => None end).
  { intros q ->. unfold table_prepare, load_columns. cbn [ta_opts ta_query]. rewrite E, E0.
    cbn [and_then]. destruct (query_new O fresh (tr (co_query q))) as [[[x|]|] s2]; cbn; auto. }
  unfold after_limit. change (mkFileOpts (o_skip o) 0 (o_ci o) (o_threshold o) [] [] None None None [] [] []) with (unlimited o). unfold names in *.
  destruct k; cbn [limits_records] in Hk; try contradiction; cbn [opts_of] in Ho; injection Ho as ->;
    cbn [with_opts with_inputs execute input_names output_names levelled] in *;
    change (oracles_for e (unlimited o)) with O; fold O Od tr skip; change (w_disk v) with (w_disk w); change (o_skip (unlimited o) || cf_skip_invalid c) with skip.
  - destruct Hl as [Hl1 Hl2]. assert (Ef : s' = fresh) by (apply Hlev; [exact Hl1|intros t; apply Hl2]). rewrite Hb, Hlists by auto.
    unfold check_files_on_disk. change (w_disk v) with (w_disk w). unfold disk_rules at 2. change (e_oracles e strsim_default) with Od. rewrite E, Ef.
    unfold disk_rules at 1. change (e_oracles e strsim_default) with Od. rewrite E0.
    destruct (fst (rules_prepare _ _ _ _ _ _ _ _ _ _ _ _ _)) as [rules'|]; [|exact I].
    eapply check_short; eauto.
  - eapply describe_short; eauto.
  - destruct Hl as [Hl1 Hl2]. assert (Ef : s' = fresh) by (apply Hlev; [exact Hl1|intros t; apply Hl2]). destruct (HT q Ef) as [T0 T1].
    eapply freq_short; eauto.
  - eapply hash_short; eauto.
  - eapply print_short; eauto.
  - eapply sample_short; eauto.
  - destruct Hl as [Hl1 Hl2]. assert (Ef : s' = fresh) by (apply Hlev; [exact Hl1|intros t; apply Hl2]). destruct (HT q Ef) as [T0 T1].
    eapply select_short; eauto.
  - eapply split_short; eauto. intros n x Hn X. apply (Hc n); [|left; exact Hn].
    exact (mc_chunk e (mkInvocation cfg _) o gzip outdir template size _ x n eq_refl X).
Qed.

Lemma run_limit_front : forall e cfg k o W w w1 t x w2,
  regexes_compile (oracles_for e o) (o_ci o) -> opts_of k = Some o -> o_where o = Some W -> limits_records k -> levelled e k ->
  (forall n, may_change e (mkInvocation cfg k) n -> ~ (In n (input_names k) \/ In n (o_allow o) \/ In n (o_deny o))) ->
  run e (mkInvocation cfg (filter_limited o false W (o_limit o) false false None (input_names k))) w = Some (CEnded 0, w1) ->
  w_stdout w1 = w_stdout w ++ t ->
  run e (mkInvocation cfg (after_limit o k)) (mkWorld (w_disk w) t (w_stdout w)) = Some (x, w2) ->
  run e (mkInvocation cfg k) w = Some (x, fed (w_stdin w) w2).
Proof.
  intros e cfg k o W w w1 t x w2 Hre Ho HW Hk Hl Hc H Ht H2.
  destruct (fun X => RunProofs.run_ended _ _ _ _ _ X H) as (c & Hset & He); [reflexivity|].
  assert (Hk1 : RunProofs.is_config k = false) by (destruct k; try reflexivity; discriminate).
  assert (Hk' : RunProofs.is_config (after_limit o k) = false) by (destruct k; try reflexivity; discriminate).
  rewrite (RunProofs.run_settings e (mkInvocation cfg k) w c Hk1) by (eapply settings_same; [reflexivity|exact Hset]).
  rewrite (RunProofs.run_settings e (mkInvocation cfg (after_limit o k)) _ c Hk') in H2 by (eapply settings_same; [|exact Hset]; reflexivity).
  cbn [in_command] in *.
  pose proof (execute_limit_front e c cfg k o W w w1 t Hre Ho HW Hk Hl Hc He Ht) as X. rewrite H2 in X.
  destruct (execute e c k w) as [[y v]|]; [|contradiction]. destruct X as [-> ->]. reflexivity.
Qed.

(** * split and partition with outputs that cannot be opened: status 0 means that
    none was met *)

From Coq Require Import String Permutation.
From Verif Require Import Bytes Winnow RecordModel BaseProofs TagOccModel Utf8Model ByteRecordModel ReaderModel
  MatcherModel MatcherSpec StateParser MatcherParserModel BuilderModel PathModel FmtModel QueryModel QuerySpec CliModel CliSpec
  TableModel CheckModel ConvertModel OptionsModel PrepareModel PrepareSpec IoModel IoSpec
  DiskModel DiskSpec DirModel DirSpec DirSplitProofs DirPartProofs.

(** ** A body that fails more often *)

Definition broken {S} (x : option (io_ending S)) : Prop := exists s, x = Some (IFailed s (CIo OtherKind)).

Section Weaker.
  Context {S : Type}.
  Variable b1 b2 : S -> byte_record -> io_ending S.
  Variable skip : bool.
  Hypothesis H : forall s r, b1 s r = b2 s r \/ exists s', b1 s r = IFailed s' (CIo OtherKind).

  Lemma reader_weaker : forall fuel s rd,
    io_reader_loop (fun s => s) b1 skip fuel s rd = io_reader_loop (fun s => s) b2 skip fuel s rd
    \/ broken (io_reader_loop (fun s => s) b1 skip fuel s rd).
  Proof.
    induction fuel as [|fuel IH]; intros s rd; cbn [io_reader_loop]; [left; reflexivity|].
    destruct (io_next_byte_record rd) as [[[r|e]|] rd']; [| |left; reflexivity].
    - destruct (H s r) as [->|(s' & ->)]; [|right; exists s'; reflexivity].
      destruct (b2 s r) as [s'|s'|s' e|]; [apply IH|left; reflexivity..].
    - destruct (pica_skip e skip); [apply IH|left; reflexivity].
  Qed.

  Lemma files_weaker : forall files s,
    io_files_loop (fun s => s) b1 skip s files = io_files_loop (fun s => s) b2 skip s files
    \/ broken (io_files_loop (fun s => s) b1 skip s files).
  Proof.
    induction files as [|[name [rs|k]] files IH]; intros s; cbn [io_files_loop]; cbv zeta; [left; reflexivity| |left; reflexivity].
    destruct (reader_weaker (Datatypes.S (source_size (io_inner (io_reader_new rs (Some name))))) s (io_reader_new rs (Some name)))
      as [->|(s' & ->)]; [|right; exists s'; reflexivity].
    destruct (io_reader_loop _ b2 _ _ _ _) as [[s'|s'|s' e|]|]; [apply IH|left; reflexivity..].
  Qed.

  Lemma live_weaker : forall gz_dec view names s stdin,
    live_files_loop gz_dec view b1 skip s stdin names = live_files_loop gz_dec view b2 skip s stdin names
    \/ broken (live_files_loop gz_dec view b1 skip s stdin names).
  Proof.
    intros gz_dec view. induction names as [|n names IH]; intros s stdin; cbn [live_files_loop]; [left; reflexivity|].
    destruct (files_weaker (inputs gz_dec (view s) stdin [n]) s) as [->|(s' & ->)]; [|right; exists s'; reflexivity].
    destruct (io_files_loop _ b2 _ _ _) as [[s'|s'|s' e|]|]; [apply IH|left; reflexivity..].
  Qed.
End Weaker.

Lemma broken_status : forall S (close : S -> disk) x w w', broken x -> live_end close x w <> Some (CEnded 0, w').
Proof. intros S close x w w' (s & ->). cbn. discriminate. Qed.

Definition anywhere (n : bytes) : bool := true.

Lemma open_anywhere : forall writable o d, open_output writable o d = None \/ open_output writable o d = open_output anywhere o d.
Proof.
  intros writable o d. unfold open_output. destruct (out_name o) as [n|]; [|right; reflexivity].
  destruct (writable n); [right; reflexivity|left; reflexivity].
Qed.

Section Commands.
  Variable gz_enc : bytes -> bytes.
  Variable gz_dec : bytes -> list piece.
  Variable writable : bytes -> bool.
  Variables O Od : oracles.
  Variable transform : bytes -> bytes.
  Variable lossy : bytes -> bytes.
  Variable writer_order : list (bytes * bytes) -> list (bytes * bytes).

  Notation split_on_disk W := (split_on_disk gz_enc gz_dec W O Od transform).
  Notation partition_on_disk W := (partition_on_disk gz_enc gz_dec W O Od transform lossy writer_order).

  Lemma split_anywhere : forall a gzip outdir dir_ok template size skip names w w',
    split_on_disk writable a gzip outdir dir_ok template size skip names w = Some (CEnded 0, w') ->
    split_on_disk anywhere a gzip outdir dir_ok template size skip names w = Some (CEnded 0, w').
  Proof.
    intros a gzip outdir dir_ok template size skip names w w' H. unfold DirModel.split_on_disk in *.
    destruct (fst (opts_prepare O Od transform a)) as [[o|]|]; cbn [prepared] in *; [|discriminate..].
    destruct dir_ok; [|discriminate]. cbv zeta in *. set (t := template_or template gzip) in *.
    destruct (open_anywhere writable (chunk_output gzip outdir t 0) (w_disk w)) as [E|E]; rewrite E in H; [discriminate|].
    destruct (open_output anywhere _ _) as [d|]; [|discriminate].
    destruct (live_weaker (split_disk_body gz_enc writable O Od gzip outdir t size o)
                (split_disk_body gz_enc anywhere O Od gzip outdir t size o) skip) with (gz_dec := gz_dec) (view := ds_disk) (names := names)
      (s := mkDSplit 0 0 (Some (chunk_output gzip outdir t 0, [])) d) (stdin := w_stdin w) as [<-|B]; [|exact H|exfalso; exact (broken_status _ _ _ _ _ B H)].
    intros s r. unfold split_disk_body, io_guarded. destruct (opts_select O Od o (br_record r)) as [[|]|]; [|left; reflexivity..].
    cbv zeta. destruct (_ && _); [|left; reflexivity].
    match goal with |- match ?X with _ => _ end = _ \/ _ => destruct (open_anywhere writable (chunk_output gzip outdir t (u32 (ds_chunks s + 1))) (split_close gz_enc s)) as [E'|E'] end;
      rewrite E'; [right; eexists; reflexivity|left; reflexivity].
  Qed.

  Lemma values_anywhere : forall limit data (out : bytes -> output) vs s,
    part_disk_values (fun v => open_output writable (out v)) limit data vs s
    = part_disk_values (fun v => open_output anywhere (out v)) limit data vs s
    \/ snd (part_disk_values (fun v => open_output writable (out v)) limit data vs s) = None.
  Proof.
    intros limit data out. induction vs as [|v vs IH]; intros s; cbn [part_disk_values]; [left; reflexivity|]. cbv zeta.
    destruct (existsb _ _).
    - cbn [fst snd]. destruct (limit_reached limit _); [left; reflexivity|apply IH].
    - destruct (open_anywhere writable (out v) (snd s)) as [E|E]; rewrite E; [right; reflexivity|].
      destruct (open_output anywhere _ _) as [d|]; [|left; reflexivity]. cbn [fst snd].
      destruct (limit_reached limit _); [left; reflexivity|apply IH].
  Qed.

  Lemma partition_anywhere : forall a p gzip outdir dir_ok template skip names w w',
    partition_on_disk writable a p gzip outdir dir_ok template skip names w = Some (CEnded 0, w') ->
    partition_on_disk anywhere a p gzip outdir dir_ok template skip names w = Some (CEnded 0, w').
  Proof.
    intros a p gzip outdir dir_ok template skip names w w' H. unfold DirModel.partition_on_disk in *.
    destruct (fst (opts_prepare O Od transform a)) as [[o|]|]; cbn [prepared] in *; [|discriminate..].
    destruct dir_ok; [|discriminate]. cbv zeta in *. set (t := template_or template gzip) in *.
    destruct (live_weaker (partition_disk_body writable O Od lossy gzip outdir t p o)
                (partition_disk_body anywhere O Od lossy gzip outdir t p o) skip) with (gz_dec := gz_dec) (view := @snd partition_state disk)
      (names := names) (s := (((0, []), w_disk w) : dpart)) (stdin := w_stdin w) as [E|B];
      [|exact (eq_trans (f_equal (fun x => live_end (partition_close gz_enc lossy writer_order gzip outdir t) x w) (eq_sym E)) H)|exfalso; exact (broken_status _ _ _ _ _ B H)].
    intros s r. unfold partition_disk_body, io_guarded. destruct (opts_select O Od o (br_record r)) as [[|]|]; [|left; reflexivity..].
    destruct (record_path O (fo_ci o) p (br_record r)) as [vs|]; [|left; reflexivity].
    destruct (values_anywhere (fo_limit o) (br_write r) (value_output lossy gzip outdir t) (dedup (sort_values vs)) s) as [->|E];
      [left; reflexivity|].
    destruct (part_disk_values _ _ _ _ s) as [s' [stop|]]; [discriminate|]. right. exists s'. reflexivity.
  Qed.

  Lemma status_zero : forall e, 0 = status_of e -> e = None.
  Proof. intros [e|] H; [discriminate|reflexivity]. Qed.

  (** success: everything is there, whichever files can be opened *)
  Lemma split_success : forall a gzip outdir dir_ok template size skip names w cs w',
    regexes_compile O (oa_ci a) -> regexes_compile Od false ->
    placeholder template -> 1 <= size ->
    (forall k n, chunk_file template gzip outdir k n -> ~ In n names) ->
    available gz_dec (w_disk w) (w_stdin w) names cs ->
    split_on_disk writable a gzip outdir dir_ok template size skip names w = Some (CEnded 0, w') ->
    exists M V recs e, opts_say O Od false transform a M V
      /\ opts_records a M V skip cs recs e
      /\ (N.of_nat (length recs) <= 4294967296 ->
          e = None
          /\ exists chunks fs, chunked size recs chunks /\ chunk_texts template gzip outdir chunks fs
               /\ only_files gz_enc gzip fs w w').
  Proof.
    intros a gzip outdir dir_ok template size skip names w cs w' R Rd HP Hs HF Ha H. apply split_anywhere in H.
    destruct (split_disk_read gz_enc gz_dec anywhere O Od transform a gzip outdir dir_ok template size skip names w cs 0 w' R Rd HP Hs)
      as (_ & M & V & recs & e & H1 & H2 & H3); [|exact Ha|exact H|].
    - intros k n Hk. split; [reflexivity|exact (HF k n Hk)].
    - exists M, V, recs, e. split; [exact H1|]. split; [exact H2|]. intros L. destruct (H3 L) as [E X].
      split; [apply status_zero; exact E|exact X].
  Qed.

  Lemma partition_success : forall (P : bytes -> Prop) a p gzip outdir dir_ok template skip names w cs every w',
    (forall l, Permutation (writer_order l) l) ->
    regexes_compile O (oa_ci a) -> regexes_compile Od false -> oa_limit a = 0 ->
    opt_sm_wf O (oa_ci a) (p_sub p) ->
    available gz_dec (w_disk w) (w_stdin w) names cs -> reads true cs every None ->
    (forall r v, In r every -> has_value O (oa_ci a) p v (br_record r) -> P v) ->
    (forall v n, P v -> file_for template gzip outdir (lossy v) n -> ~ In n names) ->
    (forall v u n, P v -> P u -> file_for template gzip outdir (lossy v) n -> file_for template gzip outdir (lossy u) n -> v = u) ->
    partition_on_disk writable a p gzip outdir dir_ok template skip names w = Some (CEnded 0, w') ->
    exists M V all sel, opts_say O Od false transform a M V
      /\ reads skip cs all None /\ chosen (meant a M V) all sel
      /\ sorted_out gz_enc O lossy template gzip outdir (oa_ci a) p sel w w'.
  Proof.
    intros P a p gzip outdir dir_ok template skip names w cs every w' HO R Rd L Wp Ha He HV HF HI H. apply partition_anywhere in H.
    destruct (partition_disk_read gz_enc gz_dec anywhere O Od transform lossy writer_order HO P a p gzip outdir dir_ok template skip
                names w cs every 0 w' R Rd L Wp Ha He HV) as (_ & M & V & all & e & sel & H1 & H2 & H3 & E & H4); [|exact HI|exact H|].
    - intros v n Hv Hf. split; [reflexivity|exact (HF v n Hv Hf)].
    - apply status_zero in E. subst e. exists M, V, all, sel. auto.
  Qed.
End Commands.

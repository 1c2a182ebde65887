(** * Appending the output for further inputs *)

From Coq Require Import String.
From Verif Require Import Bytes Winnow RecordModel BaseProofs TagOccModel Utf8Model ByteRecordModel ReaderModel
  MatcherModel StateParser MatcherParserModel BuilderModel PathModel FmtModel QueryModel CliModel TableModel
  ExplodeModel CheckModel CsvModel OptionsModel PrepareModel IoModel IoSpec IoProofs WriteSpec DiskModel DiskSpec
  DiskProofs DiskCommandProofs.

(** ** Loops *)

Section Loop.
  Context {S : Type}.
  Variable on_skip : S -> S.
  Variable body : S -> byte_record -> io_ending S.
  Variable skip : bool.

  Lemma io_files_app : forall a b s s', io_files_loop on_skip body skip s a = Some (IDone s') ->
    io_files_loop on_skip body skip s (a ++ b) = io_files_loop on_skip body skip s' b.
  Proof.
    induction a as [|[name x] a IH]; intros b s s' H; cbn [io_files_loop app] in *; cbv zeta in *.
    - injection H as ->. reflexivity.
    - destruct x as [reads|k]; [|discriminate]. destruct (io_reader_loop on_skip body skip _ s _) as [[s1|s1|s1 e|]|]; try discriminate.
      apply IH. exact H.
  Qed.

  Variable R : S -> S -> Prop.
  Hypothesis R_skip : forall s t, R s t -> R (on_skip s) (on_skip t).
  Definition ends_alike (x y : io_ending S) : Prop :=
    match x, y with
    | IDone s, IDone t | IStopped s, IStopped t => R s t
    | IFailed s e, IFailed t e' => R s t /\ e = e'
    | IPanicked, IPanicked => True
    | _, _ => False
    end.
  Hypothesis R_body : forall s t r, R s t -> ends_alike (body s r) (body t r).

  Lemma io_reader_alike : forall fuel s t rd x, R s t -> io_reader_loop on_skip body skip fuel s rd = Some x ->
    exists y, io_reader_loop on_skip body skip fuel t rd = Some y /\ ends_alike x y.
  Proof.
    induction fuel as [|n IH]; intros s t rd x Hr H; cbn in *; [discriminate|].
    destruct (io_next_byte_record rd) as [[[r|e]|] rd'].
    - pose proof (R_body s t r Hr) as Hb. destruct (body s r) as [s'|s'|s' e|], (body t r) as [t'|t'|t' e'|]; cbn in Hb; try contradiction.
      + apply (IH s'); assumption.
      + injection H as <-. eexists. split; [reflexivity|exact Hb].
      + injection H as <-. eexists. split; [reflexivity|exact Hb].
      + injection H as <-. eexists. split; [reflexivity|exact I].
    - destruct (pica_skip e skip).
      + apply (IH (on_skip s)); [apply R_skip; exact Hr|exact H].
      + injection H as <-. eexists. split; [reflexivity|]. split; [exact Hr|reflexivity].
    - injection H as <-. eexists. split; [reflexivity|exact Hr].
  Qed.

  Lemma io_files_alike : forall files s t x, R s t -> io_files_loop on_skip body skip s files = Some x ->
    exists y, io_files_loop on_skip body skip t files = Some y /\ ends_alike x y.
  Proof.
    induction files as [|[name z] files IH]; intros s t x Hr H; cbn [io_files_loop] in *; cbv zeta in *.
    - injection H as <-. eexists. split; [reflexivity|exact Hr].
    - destruct z as [reads|k].
      + destruct (io_reader_loop on_skip body skip _ s _) as [y|] eqn:E; [|discriminate].
        destruct (io_reader_alike _ _ t _ _ Hr E) as (y' & E' & Ha). rewrite E'.
        destruct y as [s'|s'|s' e|], y' as [t'|t'|t' e'|]; cbn in Ha; try contradiction.
        * apply (IH s'); assumption.
        * injection H as <-. eexists. split; [reflexivity|exact Ha].
        * injection H as <-. eexists. split; [reflexivity|exact Ha].
        * injection H as <-. eexists. split; [reflexivity|exact I].
      + injection H as <-. eexists. split; [reflexivity|]. split; [exact Hr|reflexivity].
  Qed.

  Hypothesis no_stop : forall s r s', body s r <> IStopped s'.
  Lemma io_reader_no_stop : forall fuel s rd s', io_reader_loop on_skip body skip fuel s rd <> Some (IStopped s').
  Proof.
    induction fuel as [|n IH]; intros s rd s' H; cbn in *; [discriminate|].
    destruct (io_next_byte_record rd) as [[[r|e]|] rd'].
    - destruct (body s r) as [s1|s1|s1 e|] eqn:E; try discriminate.
      + exact (IH _ _ _ H).
      + exact (no_stop _ _ _ E).
    - destruct (pica_skip e skip); [exact (IH _ _ _ H)|discriminate].
    - discriminate.
  Qed.
  Lemma io_files_no_stop : forall files s s', io_files_loop on_skip body skip s files <> Some (IStopped s').
  Proof.
    induction files as [|[name z] files IH]; intros s s' H; cbn [io_files_loop] in *; cbv zeta in *; [discriminate|].
    destruct z as [reads|k]; [|discriminate].
    destruct (io_reader_loop on_skip body skip _ s _) as [[s1|s1|s1 e|]|] eqn:E; try discriminate.
    - exact (IH _ _ H).
    - exact (io_reader_no_stop _ _ _ _ E).
  Qed.

  (** the kind of a broken pipe does not come from opening a file of the disk *)
  Hypothesis no_pipe : forall s r s', body s r <> IFailed s' (CIo BrokenPipe).
  Lemma io_reader_no_pipe : forall fuel s rd s', io_reader_loop on_skip body skip fuel s rd <> Some (IFailed s' (CIo BrokenPipe)).
  Proof.
    induction fuel as [|n IH]; intros s rd s' H; cbn in *; [discriminate|].
    destruct (io_next_byte_record rd) as [[[r|e]|] rd'].
    - destruct (body s r) as [s1|s1|s1 e|] eqn:E; try discriminate.
      + exact (IH _ _ _ H).
      + injection H as -> ->. exact (no_pipe _ _ _ E).
    - destruct (pica_skip e skip); [exact (IH _ _ _ H)|discriminate].
    - discriminate.
  Qed.
  Lemma io_files_no_pipe : forall gz_dec d names stdin s s',
    io_files_loop on_skip body skip s (inputs gz_dec d stdin names) <> Some (IFailed s' (CIo BrokenPipe)).
  Proof.
    induction names as [|n names IH]; intros stdin s s' H; cbn [inputs] in *; [discriminate|].
    assert (Hf : forall reads stdin',
      io_files_loop on_skip body skip s ((n, inl reads) :: inputs gz_dec d stdin' names) <> Some (IFailed s' (CIo BrokenPipe))).
    { intros reads stdin' E. cbn [io_files_loop] in E. cbv zeta in E. destruct (io_reader_loop on_skip body skip _ s _) as [[s1|s1|s1 e|]|] eqn:E1; try discriminate.
      - exact (IH _ _ _ E).
      - injection E as -> ->. exact (io_reader_no_pipe _ _ _ _ E1). }
    destruct (bytes_eqb n (lit "-")).
    - exact (Hf _ _ H).
    - destruct (disk_get d n) as [c|]; [exact (Hf _ _ H)|discriminate].
  Qed.
End Loop.

Lemma inputs_app : forall gz_dec d a b stdin, ~ In (lit "-") a ->
  inputs gz_dec d stdin (a ++ b) = inputs gz_dec d stdin a ++ inputs gz_dec d stdin b.
Proof.
  induction a as [|n a IH]; intros b stdin H; cbn [app inputs]; [reflexivity|].
  rewrite eqb_neq by (intros ->; apply H; left; reflexivity). cbn [app]. f_equal. apply IH. intros Hi. apply H. right. exact Hi.
Qed.

(** ** Two runs and one *)

Section Two.
  Context {S : Type}.
  Variable gz_enc : bytes -> bytes.
  Variable gz_dec : bytes -> list piece.
  Variable writable : bytes -> bool.
  Variable body : S -> byte_record -> io_ending S.
  Variable skip : bool.
  Variable s0 : S.
  Variable out : S -> bytes.
  (** the second state has written [t] more, at the beginning *)
  Variable R : bytes -> S -> S -> Prop.
  Hypothesis R_out : forall t a b, R t a b -> out b = t ++ out a.
  Hypothesis R_start : forall s, R (out s) s0 s.
  Hypothesis R_body : forall t a b r, R t a b -> ends_alike (R t) (body a r) (body b r).
  Hypothesis no_stop : forall s r s', body s r <> IStopped s'.
  Hypothesis no_pipe : forall s r s', body s r <> IFailed s' (CIo BrokenPipe).

  Lemma run_done : forall append n w names w', ~ In n names ->
    open_all gz_enc writable [] [mkOut (Some n) append false] w
      (fun w1 => process_all gz_enc gz_dec [(mkOut (Some n) append false, (out, out))] (fun _ => false) (fun s => s) body skip s0
                   names w1) = Some (CEnded 0, w') ->
    writable n = true /\ exists s', io_files_loop (fun s => s) body skip s0 (inputs gz_dec (w_disk w) (w_stdin w) names) = Some (IDone s')
      /\ w' = mkWorld (disk_set (disk_set (w_disk w) n (if append then before w n else [])) n
                         ((if append then before w n else []) ++ out s')) (w_stdin w) (w_stdout w).
  Proof.
    intros append n w names w' Hn H. cbn in H. unfold open_output in H. cbn in H.
    destruct (writable n); [|discriminate]. split; [reflexivity|].
    unfold process_all in H. cbn [w_disk w_stdin with_disk] in H.
    rewrite (inputs_same gz_dec names (w_disk w)) in H.
    2:{ intros m Hm. apply disk_get_other. intros ->. contradiction. }
    destruct (io_files_loop _ _ _ _ _) as [x|] eqn:E; [|discriminate].
    destruct x as [s'|s'|s' e|]; cbn in H.
    - exists s'. split; [reflexivity|]. injection H as <-. unfold with_disk, before. cbn. rewrite disk_get_same. reflexivity.
    - exfalso. exact (io_files_no_stop _ _ _ no_stop _ _ _ E).
    - destruct e as [p|k| |]; try (injection H; intros; discriminate). destruct k; [|injection H; intros; discriminate].
      exfalso. exact (io_files_no_pipe _ _ _ no_pipe _ _ _ _ _ _ E).
    - discriminate.
  Qed.

  Lemma run_twice : forall n w a b w1 w2, ~ In n (a ++ b) -> ~ In (lit "-") a ->
    open_all gz_enc writable [] [mkOut (Some n) false false] w
      (fun w1 => process_all gz_enc gz_dec [(mkOut (Some n) false false, (out, out))] (fun _ => false) (fun s => s) body skip s0
                   a w1) = Some (CEnded 0, w1) ->
    open_all gz_enc writable [] [mkOut (Some n) true false] w1
      (fun w1 => process_all gz_enc gz_dec [(mkOut (Some n) true false, (out, out))] (fun _ => false) (fun s => s) body skip s0
                   b w1) = Some (CEnded 0, w2) ->
    exists w', open_all gz_enc writable [] [mkOut (Some n) false false] w
      (fun w1 => process_all gz_enc gz_dec [(mkOut (Some n) false false, (out, out))] (fun _ => false) (fun s => s) body skip s0
                   (a ++ b) w1) = Some (CEnded 0, w')
      /\ same_disk w2 w' /\ w_stdout w' = w_stdout w2.
  Proof.
    intros n w a b w1 w2 Hn Hs H1 H2.
    destruct (run_done false n w a w1 (fun Hi => Hn (in_or_app _ _ _ (or_introl Hi))) H1) as (Hw & s1 & E1 & ->).
    destruct (run_done true n _ b w2 (fun Hi => Hn (in_or_app _ _ _ (or_intror Hi))) H2) as (_ & s2 & E2 & ->).
    clear H1 H2. cbn [w_disk w_stdin w_stdout] in *.
    rewrite (inputs_same gz_dec b (w_disk w)) in E2.
    2:{ intros m Hm. assert (n <> m) by (intros ->; apply Hn, in_or_app; right; exact Hm).
        rewrite !disk_get_other by assumption. reflexivity. }
    destruct (io_files_alike (fun s => s) body skip (R (out s1)) (fun s t H => H) (R_body (out s1)) _ s0 s1 _ (R_start s1) E2)
      as (y & Ey & Ha).
    destruct y as [s3|s3|s3 e|]; cbn in Ha; try contradiction. apply R_out in Ha.
    cbn. unfold open_output. cbn. rewrite Hw. unfold process_all. cbn [w_disk w_stdin with_disk].
    rewrite (inputs_same gz_dec (a ++ b) (w_disk w)).
    2:{ intros m Hm. apply disk_get_other. intros ->. contradiction. }
    rewrite inputs_app by exact Hs. rewrite (io_files_app _ _ _ _ _ _ _ E1), Ey. cbn.
    eexists. split; [reflexivity|]. split; [|reflexivity]. intros m. cbn. unfold before. cbn.
    rewrite disk_get_same, app_nil_l, !disk_get_set. destruct (bytes_eqb n m); [|reflexivity].
    rewrite eqb_refl. f_equal. exact Ha.
  Qed.
End Two.

Section Commands.
  Variable gz_enc : bytes -> bytes.
  Variable gz_dec : bytes -> list piece.
  Variable writable : bytes -> bool.
  Variables O Od : oracles.
  Variable transform : bytes -> bytes.
  Variable sha : bytes -> bytes.
  Variable lossy : bytes -> bytes.

  Lemma concat_twice : forall skip n w a b w1 w2,
    ~ In n (a ++ b) -> ~ In (lit "-") a -> gz_name n = false ->
    concat_on_disk gz_enc gz_dec writable O sha lossy false (Some n) None None skip a w = Some (CEnded 0, w1) ->
    concat_on_disk gz_enc gz_dec writable O sha lossy true (Some n) None None skip b w1 = Some (CEnded 0, w2) ->
    exists w', concat_on_disk gz_enc gz_dec writable O sha lossy false (Some n) None None skip (a ++ b) w = Some (CEnded 0, w')
      /\ same_disk w2 w' /\ w_stdout w' = w_stdout w2.
  Proof.
    intros skip n w a b w1 w2 Hn Hs Hg. unfold concat_on_disk. cbn [wb_run wb_step wb_set_append wb_new negb xorb orb wb_gzip].
    unfold builder_output. cbn [wb_append wb_gzip orb]. rewrite Hg.
    apply run_twice with (R := fun t (x y : concat_state) => fst (fst x) = [] /\ snd (fst y) = t ++ snd (fst x)); try assumption.
    - intros t x y [_ H]. exact H.
    - intros [[k o] e]. cbn. rewrite app_nil_r. auto.
    - intros t [[k o] e] [[k' o'] e'] r [H1 H2]. cbn in *. split; [exact H1|]. rewrite H2, app_assoc. reflexivity.
    - intros [[k o] e] r s'. discriminate.
    - intros [[k o] e] r s'. discriminate.
  Qed.

  Lemma filter_twice : forall a n w na nb w1 w2,
    ~ In n (na ++ nb) -> ~ In (lit "-") na -> gz_name n = false -> fa_expr_file a = None -> fa_limit a = 0 ->
    filter_on_disk gz_enc gz_dec writable O Od transform (with_names a na) false false (Some n) None w = Some (CEnded 0, w1) ->
    filter_on_disk gz_enc gz_dec writable O Od transform (with_names a nb) true false (Some n) None w1 = Some (CEnded 0, w2) ->
    exists w', filter_on_disk gz_enc gz_dec writable O Od transform (with_names a (na ++ nb)) false false (Some n) None w
        = Some (CEnded 0, w')
      /\ same_disk w2 w' /\ w_stdout w' = w_stdout w2.
  Proof.
    intros a n w na nb w1 w2 Hn Hs Hg He Hl H1 H2. unfold filter_on_disk in *.
    change (filter_first Od (with_names a na)) with (filter_first Od a) in H1.
    change (filter_first Od (with_names a nb)) with (filter_first Od a) in H2.
    change (filter_first Od (with_names a (na ++ nb))) with (filter_first Od a).
    destruct (filter_first Od a) as [[[]|]|]; cbn [prepared] in *; [|discriminate|discriminate].
    cbn [wb_run wb_step wb_set_append wb_set_gzip wb_new negb xorb orb wb_gzip wb_append] in *.
    unfold builder_output in *. cbn [wb_append wb_gzip orb] in *. rewrite Hg in *.
    assert (Hex : forall names d, expr_there (with_names a names) d = true).
    { intros names d. unfold expr_there. cbn. rewrite He. reflexivity. }
    assert (Hp : forall names d, filter_prepare O Od transform (content_of d) (with_names a names)
                 = filter_prepare O Od transform (fun _ => []) a).
    { intros names d. transitivity (filter_prepare O Od transform (content_of d) a); [reflexivity|].
      apply filter_prepare_content. rewrite He. discriminate. }
    assert (Hnm : forall names, filter_names match fa_expr_file (with_names a names) with Some _ => true | None => false end
                  (fa_filter (with_names a names)) (fa_names (with_names a names)) = names).
    { intros names. cbn. rewrite He. reflexivity. }
    assert (Hopen : forall append names w c w', open_all gz_enc writable [] [mkOut (Some n) append false] w (fun w1 =>
        prepared gz_enc [mkOut (Some n) append false] (if expr_there (with_names a names) (w_disk w1)
           then fst (filter_prepare O Od transform (content_of (w_disk w1)) (with_names a names)) else Some None) w1
          (fun c => process_all gz_enc gz_dec [(mkOut (Some n) append false, (fun s : filter_state => snd (fst s), fun s => snd (fst s)))]
            (fun _ => false) (fun s => s) (fun s r => as_io (filter_body O Od c s r)) (fa_skip (with_names a names)) (0, [], [])
            (filter_names match fa_expr_file (with_names a names) with Some _ => true | None => false end
              (fa_filter (with_names a names)) (fa_names (with_names a names))) w1)) = Some (c, w') -> c <> CRefused ->
      exists cmd, fst (filter_prepare O Od transform (fun _ => []) a) = Some (Some cmd)
      /\ open_all gz_enc writable [] [mkOut (Some n) append false] w (fun w1 =>
           process_all gz_enc gz_dec [(mkOut (Some n) append false, (fun s : filter_state => snd (fst s), fun s => snd (fst s)))]
            (fun _ => false) (fun s => s) (fun s r => as_io (filter_body O Od cmd s r)) (fa_skip a) (0, [], []) names w1) = Some (c, w')).
    { intros append names w0 c w' H Hc. cbn [open_all app] in H |- *. unfold open_output in *. cbn [out_name out_append] in *.
      destruct (writable n); cbn [open_all app] in *.
      - rewrite Hex, Hp, Hnm in H. destruct (fst (filter_prepare O Od transform (fun _ => []) a)) as [[cmd|]|]; cbn [prepared] in H.
        + exists cmd. split; [reflexivity|exact H].
        + injection H as <- _. contradiction.
        + discriminate.
      - injection H as <- _. contradiction. }
    destruct (Hopen _ _ _ _ _ H1 ltac:(discriminate)) as (cmd & Ec & K1).
    destruct (Hopen _ _ _ _ _ H2 ltac:(discriminate)) as (cmd' & Ec' & K2).
    rewrite Ec in Ec'. injection Ec' as <-. clear H1 H2.
    assert (Hlim : fc_limit cmd = 0).
    { clear - Ec Hl. unfold filter_prepare, and_then in Ec. destruct (source_parse Od fresh (fa_source a)) as [[[source|]|] s]; try discriminate.
      destruct (parse_predicates (fa_discard a)); [|discriminate]. destruct (parse_predicates (fa_keep a)); [|discriminate].
      destruct (filter_set_build _ _ _ _); [|discriminate]. destruct (filter_expr _ a); [|discriminate].
      destruct (builder_run _ _ _ _ _) as [[[m|]|] s']; try discriminate. injection Ec as <-. exact Hl. }
    edestruct (run_twice gz_enc gz_dec writable (fun s r => as_io (filter_body O Od cmd s r)) (fa_skip a) (0, [], [])
      (fun s : filter_state => snd (fst s)) (fun t (x y : filter_state) => snd (fst y) = t ++ snd (fst x)))
      as (w' & E & Hw); [| | | | |exact Hn|exact Hs|exact K1|exact K2|].
    - intros t x y H. exact H.
    - intros [[k o] e]. cbn. rewrite app_nil_r. reflexivity.
    - intros t [[k o] e] [[k' o'] e'] r H. cbn in H. unfold filter_body, guarded.
      destruct (filter_select O Od cmd (br_record r)) as [[]|]; cbn.
      + unfold limit_reached. rewrite Hlim. cbn. rewrite H, app_assoc. reflexivity.
      + exact H.
      + exact I.
    - intros [[k o] e] r s'. unfold filter_body, guarded. destruct (filter_select O Od cmd (br_record r)) as [[]|]; cbn; try discriminate.
      unfold limit_reached. rewrite Hlim. cbn. discriminate.
    - intros [[k o] e] r s'. unfold filter_body, guarded. destruct (filter_select O Od cmd (br_record r)) as [[]|]; cbn; try discriminate.
      unfold limit_reached. rewrite Hlim. cbn. discriminate.
    - exists w'. split; [|exact Hw]. rewrite <- E. cbn [open_all app]. unfold open_output. cbn [out_name out_append].
      destruct (writable n); cbn [open_all app]; [|reflexivity]. rewrite Hex, Hp, Hnm, Ec. reflexivity.
  Qed.
End Commands.

(** * split with its files *)

From Coq Require Import String.
From Verif Require IoProofs MatcherProofs MatcherSpec PrepareProofs.
From Verif Require Import Bytes Winnow RecordModel BaseProofs TagOccModel Utf8Model ByteRecordModel ReaderModel
  MatcherModel StateParser MatcherParserModel BuilderModel PathModel FmtModel QueryModel CliModel CliSpec CliProofs
  CliCommandProofs CliOutputProofs CliChunkProofs TableModel CheckModel ConvertModel OptionsModel PrepareModel PrepareSpec IoModel IoSpec
  QuerySpec DiskModel DiskSpec DiskProofs DiskCommandProofs DiskEndProofs DirModel DirSpec DirLoopProofs.

(** ** Names *)

Lemma replace_absolute : forall x y t, (forall q, x <> 47 :: q) -> (forall q, y <> 47 :: q) -> x <> [] -> y <> [] ->
  absolute (replace_braces x t) -> absolute (replace_braces y t).
Proof.
  intros x y t Hx Hy Nx Ny (q & E). destruct t as [|c t]; [discriminate|]. rewrite replace_braces_cons in E |- *.
  destruct t as [|d t]; [exists []; congruence|].
  destruct ((c =? 123) && (d =? 125)).
  - destruct x as [|b x]; [contradiction|]. injection E as -> E. exfalso. exact (Hx x eq_refl).
  - injection E as -> E. eexists. reflexivity.
Qed.

Lemma digits_relative : forall k q, dec k <> 47 :: q.
Proof.
  intros k q E. destruct (dec_spec k) as (H & _). rewrite E in H. inversion H as [|x l Hx _]; subst. cbn in Hx.
  repeat destruct Hx as [Hx|Hx]; try discriminate Hx. exact Hx.
Qed.
Lemma digits_some : forall k, dec k <> [].
Proof. intros k. apply (dec_spec k). Qed.

Lemma braces_template : forall template gzip, placeholder template -> has_braces (template_or template gzip).
Proof.
  intros [t|] gzip H; cbn.
  - apply H. reflexivity.
  - destruct gzip; [exists [], (lit ".dat.gz")|exists [], (lit ".dat")]; reflexivity.
Qed.

Lemma file_for_path : forall template gzip dir x n,
  file_for template gzip dir x n <-> n = path_join dir (replace_braces x (template_or template gzip)).
Proof.
  intros template gzip dir x n. split.
  - intros (t & name & -> & Hf & Hj). eapply joined_fun; [exact Hj|].
    rewrite (filled_fun _ _ _ Hf _ (replace_filled _ _)). apply path_join_joined.
  - intros ->. eexists _, _. split; [reflexivity|]. split; [apply replace_filled|]. apply path_join_joined.
Qed.

Lemma chunk_file_path : forall template gzip dir k n,
  chunk_file template gzip dir k n <-> n = path_join dir (replace_braces (dec k) (template_or template gzip)).
Proof.
  intros template gzip dir k n. split.
  - intros (num & Hn & Hf). rewrite (decimal_dec _ _ Hn) in Hf. apply file_for_path. exact Hf.
  - intros H. exists (dec k). split; [apply dec_spec|]. apply file_for_path. exact H.
Qed.

(** ** Files by name *)

Lemma content_create : forall m n fs, file_content n (file_create m fs) = if bytes_eqb m n then Some [] else file_content n fs.
Proof.
  intros m n fs. unfold file_content, file_create. cbn [find fst]. destruct (bytes_eqb m n) eqn:E; [reflexivity|].
  induction fs as [|[k v] fs IH]; cbn; [reflexivity|]. destruct (bytes_eqb k m) eqn:Ek; cbn.
  - rewrite IH. destruct (bytes_eqb k n) eqn:Ekn; [|reflexivity]. apply bytes_eqb_eq in Ek, Ekn. subst.
    rewrite bytes_eqb_refl in E. discriminate.
  - destruct (bytes_eqb k n); [reflexivity|exact IH].
Qed.

Lemma content_append : forall m n data fs,
  file_content n (file_append m data fs)
  = if bytes_eqb m n then option_map (fun x => x ++ data) (file_content n fs) else file_content n fs.
Proof.
  intros m n data fs. unfold file_content, file_append. induction fs as [|[k v] fs IH]; cbn.
  - destruct (bytes_eqb m n); reflexivity.
  - destruct (bytes_eqb k m) eqn:Ek; cbn.
    + apply bytes_eqb_eq in Ek. subst k. destruct (bytes_eqb m n) eqn:E; [reflexivity|exact IH].
    + destruct (bytes_eqb k n) eqn:Ekn; [|exact IH]. apply bytes_eqb_eq in Ekn. subst k.
      destruct (bytes_eqb m n) eqn:E; [|reflexivity]. apply bytes_eqb_eq in E. subst. rewrite bytes_eqb_refl in Ek. discriminate.
Qed.

Lemma content_in : forall fs n x, NoDup (map fst fs) -> In (n, x) fs -> file_content n fs = Some x.
Proof.
  unfold file_content. induction fs as [|[k v] fs IH]; intros n x ND H; [destruct H|]. inversion ND as [|y l N1 N2]; subst.
  cbn [find fst]. destruct H as [E|H].
  - injection E as -> ->. rewrite bytes_eqb_refl. reflexivity.
  - destruct (bytes_eqb k n) eqn:E; [|apply IH; assumption]. apply bytes_eqb_eq in E. subst k. exfalso. apply N1.
    apply in_map_iff. exists (n, x). auto.
Qed.

Lemma content_none : forall fs n, ~ In n (map fst fs) -> file_content n fs = None.
Proof.
  unfold file_content. induction fs as [|[k v] fs IH]; intros n H; [reflexivity|]. cbn [find fst].
  destruct (bytes_eqb k n) eqn:E.
  - apply bytes_eqb_eq in E. subst k. exfalso. apply H. left. reflexivity.
  - apply IH. intros Hi. apply H. right. exact Hi.
Qed.

Lemma overwrite_empty : forall data, overwrite data [] = data.
Proof. intros data. unfold overwrite. rewrite skipn_nil. apply app_nil_r. Qed.

Section Split.
  Variable gz_enc : bytes -> bytes.
  Variable gz_dec : bytes -> list piece.
  Variable writable : bytes -> bool.
  Variables O Od : oracles.
  Variable gzip : bool.
  Variables outdir t : bytes.

  Notation file k := (path_join outdir (replace_braces (dec k) t)).
  Notation name k := (replace_braces (dec k) t).

  (** what is on the disk for a text *)
  Definition chunk_data (k : N) (text : bytes) : bytes := if gzip || gz_name (file k) then gz_enc text else text.

  Hypothesis HB : has_braces t.

  Lemma file_inj : forall k l, file k = file l -> k = l.
  Proof.
    intros k l E. apply dec_inj. apply (replace_inj t); [exact HB|].
    eapply joined_inj; [apply path_join_joined|rewrite E; apply path_join_joined|].
    split; apply replace_absolute; auto using digits_relative, digits_some.
  Qed.

  Variable d0 : disk.

  (** the state with the disk and the state of [CliModel.v] *)
  Record split_rel (a : dsplit) (b : split_state) : Prop := {
    sr_chunks : ds_chunks a = sp_chunks b;
    sr_count : ds_count a = sp_count b;
    sr_open : exists text, ds_open a = Some (chunk_output gzip outdir t (ds_chunks a), text)
                /\ file_content (name (ds_chunks a)) (sp_files b) = Some text;
    sr_now : disk_get (ds_disk a) (file (ds_chunks a)) = Some [];
    sr_done : forall k, k <> ds_chunks a ->
                disk_get (ds_disk a) (file k)
                = match file_content (name k) (sp_files b) with
                  | Some text => Some (chunk_data k text)
                  | None => disk_get d0 (file k)
                  end;
    sr_other : forall n, (forall k, n <> file k) -> disk_get (ds_disk a) n = disk_get d0 n }.

  Lemma name_eqb : forall k l, bytes_eqb (name k) (name l) = (k =? l).
  Proof.
    intros k l. destruct (N.eqb_spec k l) as [->|H]; [apply bytes_eqb_refl|]. apply bytes_eqb_neq. intros E.
    apply (replace_inj t) in E; [|exact HB]. apply dec_inj in E. contradiction.
  Qed.
  Lemma file_eqb : forall k l, bytes_eqb (file k) (file l) = (k =? l).
  Proof.
    intros k l. destruct (N.eqb_spec k l) as [->|H]; [apply bytes_eqb_refl|]. apply bytes_eqb_neq. intros E.
    apply file_inj in E. contradiction.
  Qed.

  Lemma split_closed : forall a b, split_rel a b ->
    (forall k, disk_get (split_close gz_enc a) (file k)
               = match file_content (name k) (sp_files b) with
                 | Some text => Some (chunk_data k text)
                 | None => disk_get d0 (file k)
                 end)
    /\ forall n, (forall k, n <> file k) -> disk_get (split_close gz_enc a) n = disk_get d0 n.
  Proof.
    intros a b [Hc Hn (text & Ho & Hf) Hd Hk Hx]. unfold split_close. rewrite Ho. unfold flushed. cbn [chunk_output builder_output out_name out_gz wb_gzip].
    rewrite Hd, overwrite_empty. split.
    - intros k. rewrite disk_get_set, file_eqb. destruct (N.eqb_spec (ds_chunks a) k) as [<-|H].
      + rewrite Hf. reflexivity.
      + apply Hk. congruence.
    - intros n H. rewrite disk_get_other by (intros E; exact (H _ (eq_sym E))). apply Hx. exact H.
  Qed.

  Lemma split_append : forall a b data, split_rel a b ->
    split_rel (mkDSplit (ds_chunks a) (ds_count a + 1) (option_map (fun x => (fst x, snd x ++ data)) (ds_open a)) (ds_disk a))
              (mkSplit (sp_chunks b) (sp_count b + 1) (file_append (name (sp_chunks b)) data (sp_files b))).
  Proof.
    intros a b data [Hc Hn (text & Ho & Hf) Hd Hk Hx]. constructor; cbn [ds_chunks ds_count ds_open ds_disk sp_chunks sp_count sp_files].
    - exact Hc.
    - congruence.
    - exists (text ++ data). rewrite Ho. split; [reflexivity|]. rewrite content_append, name_eqb, Hc, N.eqb_refl, <- Hc, Hf. reflexivity.
    - exact Hd.
    - intros k Hne. rewrite content_append, name_eqb. destruct (N.eqb_spec (sp_chunks b) k) as [E|_]; [congruence|].
      apply Hk. exact Hne.
    - exact Hx.
  Qed.

  Hypothesis HW : forall k, writable (file k) = true.

  Lemma split_new : forall a b k, split_rel a b ->
    exists d, open_output writable (chunk_output gzip outdir t k) (split_close gz_enc a) = Some d
      /\ split_rel (mkDSplit k (ds_count a) (Some (chunk_output gzip outdir t k, [])) d)
                   (mkSplit k (sp_count b) (file_create (name k) (sp_files b))).
  Proof.
    intros a b k H. destruct (split_closed a b H) as [C1 C2]. unfold open_output. cbn [chunk_output builder_output out_name out_append wb_append wb_gzip].
    rewrite HW. eexists. split; [reflexivity|]. constructor; cbn [ds_chunks ds_count ds_open ds_disk sp_chunks sp_count sp_files].
    - reflexivity.
    - apply H.
    - exists []. split; [reflexivity|]. rewrite content_create, name_eqb, N.eqb_refl. reflexivity.
    - apply disk_get_same.
    - intros l Hne. rewrite disk_get_set, file_eqb, content_create, name_eqb. destruct (N.eqb_spec k l) as [E|_]; [congruence|]. apply C1.
    - intros n Hn. rewrite disk_get_other by (intros E; exact (Hn _ (eq_sym E))). apply C2. exact Hn.
  Qed.

  Lemma split_start : exists d, open_output writable (chunk_output gzip outdir t 0) d0 = Some d
    /\ split_rel (mkDSplit 0 0 (Some (chunk_output gzip outdir t 0, [])) d) (mkSplit 0 0 (file_create (name 0) [])).
  Proof.
    unfold open_output. cbn [chunk_output builder_output out_name out_append wb_append wb_gzip]. rewrite HW.
    eexists. split; [reflexivity|]. constructor; cbn [ds_chunks ds_count ds_open ds_disk sp_chunks sp_count sp_files].
    - reflexivity.
    - reflexivity.
    - exists []. split; [reflexivity|]. rewrite content_create, name_eqb. reflexivity.
    - apply disk_get_same.
    - intros l Hne. rewrite disk_get_set, file_eqb, content_create, name_eqb. destruct (N.eqb_spec 0 l) as [E|_]; [congruence|]. reflexivity.
    - intros n Hn. rewrite disk_get_other by (intros E; exact (Hn _ (eq_sym E))). reflexivity.
  Qed.

  Lemma split_body_sim : forall size o a b r, split_rel a b ->
    end_rel split_rel (split_disk_body gz_enc writable O Od gzip outdir t size o a r)
                      (as_io (split_body O Od t size o b r)).
  Proof.
    intros size o a b r H. unfold split_disk_body, io_guarded, split_body, guarded.
    destruct (opts_select O Od o (br_record r)) as [[|]|]; [|exact H|exact I]. cbv zeta.
    rewrite (sr_count _ _ H).
    destruct ((0 <? sp_count b) && (u32 (sp_count b) mod size =? 0)).
    - rewrite (sr_chunks _ _ H). destruct (split_new a b (u32 (sp_chunks b + 1)) H) as (d & -> & H').
      rewrite (sr_count _ _ H) in H'. pose proof (split_append _ _ (br_write r) H') as H2.
      cbn [ds_chunks ds_count ds_open ds_disk sp_chunks sp_count sp_files] in H2 |- *.
      destruct (limit_reached (fo_limit o) (sp_count b + 1)); exact H2.
    - pose proof (split_append _ _ (br_write r) H) as H2. rewrite (sr_count _ _ H) in H2.
      cbn [ds_chunks ds_count ds_open ds_disk sp_chunks sp_count sp_files] in H2 |- *.
      destruct (limit_reached (fo_limit o) (sp_count b + 1)); exact H2.
  Qed.

  (** the whole loop *)
  Lemma split_loop : forall size o skip names stdin cs, (forall k, ~ In (file k) names) ->
    available gz_dec d0 stdin names cs ->
    exists a, open_output writable (chunk_output gzip outdir t 0) d0 = Some (ds_disk a)
      /\ a = mkDSplit 0 0 (Some (chunk_output gzip outdir t 0, [])) (ds_disk a)
      /\ opt_rel split_rel
           (live_files_loop gz_dec ds_disk (split_disk_body gz_enc writable O Od gzip outdir t size o) skip a stdin names)
           (option_map as_io (files_loop (on_result skip (split_body O Od t size o)) (mkSplit 0 0 (file_create (name 0) [])) cs)).
  Proof.
    intros size o skip names stdin cs HN Ha. destruct split_start as (d & Ed & Hd). exists (mkDSplit 0 0 (Some (chunk_output gzip outdir t 0, [])) d).
    split; [exact Ed|]. split; [reflexivity|]. cbn [ds_disk].
    rewrite <- (available_loop _ _ _ _ _ _ _ _ _ _ _ (IoProofs.on_result_body _ (split_body O Od t size o) skip) Ha).
    apply live_sim with (Q := fun _ => True).
    - intros a b r _ H. apply split_body_sim. exact H.
    - intros a b H n Hn. apply (sr_other _ _ H). intros k ->. exact (HN k Hn).
    - auto.
    - exact Hd.
  Qed.
End Split.

(** the files of the chunks *)
Fixpoint chunk_list (template : option bytes) (gzip : bool) (dir : bytes) (n : N) (chunks : list (list byte_record))
  : list (bytes * bytes) :=
  match chunks with
  | [] => []
  | c :: cs => (path_join dir (replace_braces (dec n) (template_or template gzip)), flat_map br_write c)
               :: chunk_list template gzip dir (n + 1) cs
  end.

Lemma chunk_list_named : forall template gzip dir chunks n,
  chunk_list template gzip dir n chunks
  = map (fun f => (path_join dir (fst f), snd f)) (named_chunks (template_or template gzip) n chunks).
Proof.
  intros template gzip dir. induction chunks as [|c chunks IH]; intros n; cbn; [reflexivity|]. f_equal. apply IH.
Qed.

Lemma chunk_list_nth : forall template gzip dir chunks n k x, nth_error (chunk_list template gzip dir n chunks) k = Some x ->
  exists c, nth_error chunks k = Some c
    /\ x = (path_join dir (replace_braces (dec (n + N.of_nat k)) (template_or template gzip)), flat_map br_write c).
Proof.
  intros template gzip dir. induction chunks as [|c chunks IH]; intros n [|k] x H; cbn in H; try discriminate.
  - injection H as <-. exists c. rewrite N.add_0_r. split; reflexivity.
  - apply IH in H as (c' & H1 & ->). exists c'. split; [exact H1|]. do 4 f_equal. lia.
Qed.

Lemma chunk_list_length : forall template gzip dir chunks n, length (chunk_list template gzip dir n chunks) = length chunks.
Proof. intros template gzip dir. induction chunks; intros n; cbn; auto. Qed.

Lemma chunk_list_In : forall template gzip dir chunks n x, In x (chunk_list template gzip dir n chunks) ->
  exists k c, nth_error chunks k = Some c
    /\ x = (path_join dir (replace_braces (dec (n + N.of_nat k)) (template_or template gzip)), flat_map br_write c).
Proof.
  intros template gzip dir chunks n x H. apply In_nth_error in H as (k & H). apply chunk_list_nth in H as (c & H). exists k, c. exact H.
Qed.

Lemma chunk_list_NoDup : forall template gzip dir, placeholder template -> forall chunks n,
  NoDup (map fst (chunk_list template gzip dir n chunks)).
Proof.
  intros template gzip dir HP. assert (HB := braces_template template gzip HP).
  induction chunks as [|c chunks IH]; intros n; cbn; constructor; [|apply IH].
  intros H. apply in_map_iff in H as (x & E & H). apply chunk_list_In in H as (k & c' & _ & ->). cbn in E.
  apply file_inj in E; [|exact HB]. lia.
Qed.

Lemma holds_gz : forall gz_enc gzip w n text,
  disk_get (w_disk w) n = Some (if gzip || gz_name n then gz_enc text else text) -> holds gz_enc gzip w n text.
Proof.
  intros gz_enc gzip w n text H. exists (gzip || gz_name n). split; [|exact H].
  exact (builder_output_gz (mkWB false gzip) n).
Qed.

Lemma content_dec : forall a b : option bytes, {a = b} + {a <> b}.
Proof. decide equality. apply list_eq_dec. apply N.eq_dec. Qed.

Section Exact.
  Variable gz_enc : bytes -> bytes.
  Variable gz_dec : bytes -> list piece.
  Variable writable : bytes -> bool.
  Variables O Od : oracles.
  Variable transform : bytes -> bytes.

  Lemma split_disk_exact : forall a o gzip outdir template size skip names w cs recs e,
    opts_wf O Od o -> fst (opts_prepare O Od transform a) = Some (Some o) ->
    placeholder template -> 1 <= size ->
    (forall k n, chunk_file template gzip outdir k n -> writable n = true /\ ~ In n names) ->
    available gz_dec (w_disk w) (w_stdin w) names cs ->
    selects O Od skip o cs recs e -> N.of_nat (length recs) <= 4294967296 ->
    exists chunks fs w', chunked size recs chunks /\ chunk_texts template gzip outdir chunks fs
      /\ split_on_disk gz_enc gz_dec writable O Od transform a gzip outdir true template size skip names w
         = Some (CEnded (status_of e), w')
      /\ only_files gz_enc gzip fs w w'.
  Proof.
    intros a o gzip outdir template size skip names w cs recs e W Ep HP Hsz HF Ha Hs HM.
    set (t := template_or template gzip). assert (HB : has_braces t) by (apply braces_template; exact HP).
    assert (HF' : forall k, writable (path_join outdir (replace_braces (dec k) t)) = true
                            /\ ~ In (path_join outdir (replace_braces (dec k) t)) names).
    { intros k. apply (HF k). apply chunk_file_path. reflexivity. }
    destruct (split_run_fold O Od t size skip o cs W) as (recs' & e' & Hs' & He).
    destruct (selects_fun _ _ _ _ _ _ _ Hs _ _ Hs') as [<- <-]. clear Hs'.
    destruct (split_fold t size recs HB Hsz HM) as (full & last & E & HFu & HL & HN & Hcnt & Hch & Hf).
    set (chunks := full ++ [last]).
    assert (EF : sp_files (fold_left (split_core t size) recs (mkSplit 0 0 (file_create (replace_braces (dec 0) t) [])))
                 = rev (named_chunks t 0 chunks)).
    { rewrite Hf. unfold chunks. rewrite named_chunks_app, rev_app_distr. reflexivity. }
    rewrite EF in He.
    destruct (split_loop gz_enc gz_dec writable O Od gzip outdir t HB (w_disk w) (fun k => proj1 (HF' k)) size o skip names (w_stdin w) cs
                (fun k => proj2 (HF' k)) Ha) as (x & Eo & Ex & Hr).
    set (fs := chunk_list template gzip outdir 0 chunks).
    assert (HC : forall a b, split_rel gz_enc gzip outdir t (w_disk w) a b -> sp_files b = rev (named_chunks t 0 chunks) ->
              only_files gz_enc gzip fs w (with_disk w (split_close gz_enc a))).
    { intros sa sb H Hb. destruct (split_closed gz_enc gzip outdir t HB (w_disk w) sa sb H) as [C1 C2]. rewrite Hb in C1.
      assert (ND : NoDup (map fst (rev (named_chunks t 0 chunks)))).
      { rewrite map_rev. apply NoDup_rev. apply named_chunks_NoDup. exact HB. }
      split; [|split; [|reflexivity]].
      - intros n text Hi. apply chunk_list_In in Hi as (k & c & Hk & Ex'). injection Ex' as -> ->. apply holds_gz.
        cbn [with_disk w_disk]. fold t. rewrite C1.
        pose proof (content_in _ _ _ ND (proj1 (in_rev _ _) (named_chunks_nth t chunks 0 k c Hk))) as Y.
        unfold chunk_name in Y. rewrite N.add_0_l in Y. rewrite Y. reflexivity.
      - intros n Hn. cbn [with_disk w_disk].
        destruct (content_dec (disk_get (split_close gz_enc sa) n) (disk_get (w_disk w) n)) as [Y|NY]; [exact Y|].
        apply C2. intros k ->. apply NY. clear NY.
        rewrite C1, content_none; [reflexivity|]. intros Hi. apply Hn. rewrite map_rev in Hi. apply in_rev in Hi.
        unfold fs. rewrite chunk_list_named, map_map. cbn. apply in_map_iff in Hi as (f & Ef & Hi). fold t.
        apply in_map_iff. exists f. split; [rewrite Ef; reflexivity|exact Hi]. }
    exists chunks, fs.
    assert (HT : chunked size recs chunks /\ chunk_texts template gzip outdir chunks fs).
    { split.
      - split; [unfold chunks; rewrite concat_app; cbn [concat]; rewrite app_nil_r; exact E|].
        destruct recs as [|r0 recs].
        + left. split; [reflexivity|]. apply app_eq_nil in E as [E1 E2]. unfold chunks. rewrite E2.
          destruct full as [|c full]; [reflexivity|].
          exfalso. pose proof (Forall_inv HFu) as Hc. cbn beta in Hc. cbn in E1. apply app_eq_nil in E1 as [E1 _]. rewrite E1 in Hc. cbn in Hc. lia.
        + right. exists full, last. split; [reflexivity|]. split; [exact HFu|].
          destruct HN as [HN|HN]; [discriminate|]. auto.
      - split; [apply chunk_list_length|]. split; [apply chunk_list_NoDup; exact HP|].
        intros k c n text Hk Hx. apply chunk_list_nth in Hx as (c' & Hk' & Ex'). rewrite Hk in Hk'. injection Hk' as <-.
        injection Ex' as -> ->. split; [apply chunk_file_path; reflexivity|].
        apply lines_of_flat. pose proof (selects_from_line _ _ _ _ _ _ _ Hs) as F. rewrite Forall_forall in *. intros r Hr0. apply F.
        rewrite <- E. apply nth_error_In in Hk. unfold chunks in Hk.
        apply in_app_iff in Hk as [Hk|[Hk|[]]]; apply in_app_iff.
        + left. apply in_concat. exists c. split; assumption.
        + right. rewrite Hk. exact Hr0. }
    destruct HT as [HT1 HT2].
    unfold split_on_disk. rewrite Ep. cbn [prepared]. cbv zeta. fold t. rewrite Eo. rewrite Ex in Hr. cbn [ds_disk] in Hr.
    unfold split_run, run_loop in He. fold t in He.
    destruct (files_loop _ _ _) as [z|]; [|discriminate].
    match goal with |- context [live_files_loop ?a ?b ?c ?d ?s ?f ?g] => destruct (live_files_loop a b c d s f g) as [y|] end;
      [|contradiction].
    cbn [option_map] in Hr. cbn [finish_with] in He.
    destruct z as [s|s|s er|]; destruct y as [sa|sa|sa er'|]; cbn in Hr; try contradiction; cbn in He.
    - destruct e; [discriminate|]. injection He as He. eexists. split; [exact HT1|]. split; [exact HT2|]. split; [reflexivity|].
      eapply HC; eassumption.
    - destruct e; [discriminate|]. injection He as He. eexists. split; [exact HT1|]. split; [exact HT2|]. split; [reflexivity|].
      eapply HC; eassumption.
    - destruct e as [e|]; [|discriminate]. injection He as He1 He2. destruct Hr as [Hr ->].
      eexists. split; [exact HT1|]. split; [exact HT2|]. split; [reflexivity|]. eapply HC; eassumption.
    - destruct e; discriminate.
  Qed.
End Exact.

Section Commands.
  Variable gz_enc : bytes -> bytes.
  Variable gz_dec : bytes -> list piece.
  Variable writable : bytes -> bool.
  Variables O Od : oracles.
  Variable transform : bytes -> bytes.

  Notation split_on_disk := (split_on_disk gz_enc gz_dec writable O Od transform).

  Lemma split_disk_accepted : forall a M V gzip outdir template size skip names w cs recs e,
    regexes_compile O (oa_ci a) -> regexes_compile Od false -> opts_say O Od true transform a M V ->
    placeholder template -> 1 <= size ->
    (forall k n, chunk_file template gzip outdir k n -> writable n = true /\ ~ In n names) ->
    available gz_dec (w_disk w) (w_stdin w) names cs ->
    opts_records a M V skip cs recs e -> N.of_nat (length recs) <= 4294967296 ->
    exists chunks fs w', chunked size recs chunks /\ chunk_texts template gzip outdir chunks fs
      /\ split_on_disk a gzip outdir true template size skip names w = Some (CEnded (status_of e), w')
      /\ only_files gz_enc gzip fs w w'.
  Proof.
    intros a M V gzip outdir template size skip names w cs recs e R Rd HS HP Hsz HF Ha Hr HM.
    destruct (PrepareProofs.opts_accepted O Od transform a M V HS) as (o & Eo & Ho).
    destruct (PrepareProofs.opts_prepared_holds O Od a M V o R Rd Ho) as (W & _ & _ & Hsel).
    eapply split_disk_exact; try eassumption; [rewrite Eo; reflexivity|]. apply Hsel. exact Hr.
  Qed.

  Lemma split_disk_read : forall a gzip outdir dir_ok template size skip names w cs st w',
    regexes_compile O (oa_ci a) -> regexes_compile Od false ->
    placeholder template -> 1 <= size ->
    (forall k n, chunk_file template gzip outdir k n -> writable n = true /\ ~ In n names) ->
    available gz_dec (w_disk w) (w_stdin w) names cs ->
    split_on_disk a gzip outdir dir_ok template size skip names w = Some (CEnded st, w') ->
    dir_ok = true /\ exists M V recs e, opts_say O Od false transform a M V
      /\ opts_records a M V skip cs recs e
      /\ (N.of_nat (length recs) <= 4294967296 ->
          st = status_of e
          /\ exists chunks fs, chunked size recs chunks /\ chunk_texts template gzip outdir chunks fs
               /\ only_files gz_enc gzip fs w w').
  Proof.
    intros a gzip outdir dir_ok template size skip names w cs st w' R Rd HP Hsz HF Ha H.
    destruct (fst (opts_prepare O Od transform a)) as [[o|]|] eqn:Eo;
      [|unfold DirModel.split_on_disk in H; rewrite Eo in H; discriminate..].
    destruct dir_ok; [|unfold DirModel.split_on_disk in H; rewrite Eo in H; discriminate]. split; [reflexivity|].
    destruct (PrepareProofs.opts_read O Od transform a o Eo) as (M & V & HS & Ho).
    destruct (PrepareProofs.opts_prepared_holds O Od a M V o R Rd Ho) as (W & _ & _ & Hsel).
    destruct (split_run_fold O Od [] size skip o cs W) as (recs & e & Hs & _).
    exists M, V, recs, e. split; [exact HS|]. split; [apply Hsel; exact Hs|]. intros HM.
    destruct (split_disk_exact gz_enc gz_dec writable O Od transform a o gzip outdir template size skip names w cs recs e W Eo HP Hsz HF Ha Hs HM)
      as (chunks & fs & w1 & H1 & H2 & H3 & H4).
    rewrite H3 in H. injection H as <- <-. split; [reflexivity|]. exists chunks, fs. auto.
  Qed.

  Lemma live_end_not_refused : forall S (close : S -> disk) x w w', live_end close x w <> Some (CRefused, w').
  Proof.
    intros S close x w w' H. unfold live_end in H. destruct x as [x|]; [|discriminate].
    destruct x as [s|s|s e|]; cbn in H; try discriminate. destruct e as [p|k| |]; try destruct k; discriminate.
  Qed.

  Lemma split_refused : forall a gzip outdir dir_ok template size skip names w w',
    split_on_disk a gzip outdir dir_ok template size skip names w = Some (CRefused, w') -> w' = w.
  Proof.
    intros a gzip outdir dir_ok template size skip names w w' H. unfold DirModel.split_on_disk in H.
    destruct (fst (opts_prepare O Od transform a)) as [[o|]|]; cbn [prepared] in H; [|injection H as <-; reflexivity|discriminate].
    destruct dir_ok; [|injection H as <-; reflexivity]. cbv zeta in H.
    destruct (open_output writable _ (w_disk w)) as [d|]; [|injection H as <-; reflexivity].
    exfalso. exact (live_end_not_refused _ _ _ _ _ H).
  Qed.

  (** however it ends, only files of chunks differ *)
  Lemma split_frame : forall a gzip outdir dir_ok template size skip names w c w',
    split_on_disk a gzip outdir dir_ok template size skip names w = Some (c, w') ->
    (forall n, (forall k, ~ chunk_file template gzip outdir k n) -> disk_get (w_disk w') n = disk_get (w_disk w) n)
    /\ w_stdout w' = w_stdout w.
  Proof.
    intros a gzip outdir dir_ok template size skip names w c w' H. unfold DirModel.split_on_disk in H.
    destruct (fst (opts_prepare O Od transform a)) as [[o|]|]; cbn [prepared] in H;
      [|injection H as <- <-; split; reflexivity|discriminate].
    destruct dir_ok; [|injection H as <- <-; split; reflexivity]. cbv zeta in H. set (t := template_or template gzip) in *.
    destruct (open_output writable _ (w_disk w)) as [d|] eqn:Eo; [|injection H as <- <-; split; reflexivity].
    set (same := fun d' => forall n, (forall k, ~ chunk_file template gzip outdir k n) -> disk_get d' n = disk_get (w_disk w) n).
    set (P := fun s : dsplit => same (ds_disk s)
      /\ match ds_open s with Some (out, _) => exists k, out = chunk_output gzip outdir t k | None => True end).
    assert (Hset : forall d' k c, same d' -> same (disk_set d' (path_join outdir (replace_braces (dec k) t)) c)).
    { intros d' k c0 Hd n Hn. rewrite disk_get_other; [apply Hd; exact Hn|]. intros <-. apply (Hn k). apply chunk_file_path. reflexivity. }
    assert (Hopen : forall d' k d'', same d' -> open_output writable (chunk_output gzip outdir t k) d' = Some d'' -> same d'').
    { intros d' k d'' Hd E. unfold open_output in E. cbn [chunk_output builder_output out_name] in E.
      destruct (writable _); [|discriminate]. injection E as <-. apply Hset. exact Hd. }
    assert (Hclose : forall s, P s -> same (split_close gz_enc s)).
    { intros s [H1 H2]. unfold split_close. destruct (ds_open s) as [[out text]|]; [|exact H1]. destruct H2 as [k ->].
      unfold flushed. cbn [chunk_output builder_output out_name]. apply Hset. exact H1. }
    assert (HP : forall s r, P s -> end_holds P (split_disk_body gz_enc writable O Od gzip outdir t size o s r)).
    { intros s r Hs. unfold split_disk_body, io_guarded. destruct (opts_select O Od o (br_record r)) as [[|]|]; [|exact Hs|exact I].
      cbv zeta. assert (HW : forall s1, P s1 -> end_holds P
        (if limit_reached (fo_limit o) (ds_count s1 + 1)
         then IStopped (mkDSplit (ds_chunks s1) (ds_count s1 + 1) (option_map (fun x => (fst x, snd x ++ br_write r)) (ds_open s1)) (ds_disk s1))
         else IDone (mkDSplit (ds_chunks s1) (ds_count s1 + 1) (option_map (fun x => (fst x, snd x ++ br_write r)) (ds_open s1)) (ds_disk s1)))).
      { intros s1 [H1 H2]. destruct (limit_reached _ _); (split; [exact H1|]); cbn [ds_open]; destruct (ds_open s1) as [[out text]|]; exact H2. }
      destruct ((0 <? ds_count s) && (u32 (ds_count s) mod size =? 0)); [|apply HW; exact Hs].
      destruct (open_output writable _ (split_close gz_enc s)) as [d'|] eqn:E.
      - apply HW. split; [eapply Hopen; [apply Hclose; exact Hs|exact E]|]. cbn [ds_open]. eexists. reflexivity.
      - split; [apply Hclose; exact Hs|exact I]. }
    assert (H0 : P (mkDSplit 0 0 (Some (chunk_output gzip outdir t 0, [])) d)).
    { split; [eapply Hopen; [|exact Eo]; intros n _; reflexivity|]. cbn [ds_open]. eexists. reflexivity. }
    unfold live_end in H. destruct (live_files_loop _ _ _ _ _ _ _) as [x|] eqn:Ex; [|discriminate].
    apply (live_invariant P _ skip HP) in Ex; [|exact H0].
    destruct x as [s|s|s e|]; cbn in H, Ex.
    - injection H as <- <-. split; [apply Hclose; exact Ex|reflexivity].
    - injection H as <- <-. split; [apply Hclose; exact Ex|reflexivity].
    - destruct (match e with CIo BrokenPipe => Some 0 | _ => Some 2 end) as [n|]; injection H as <- <-;
        (split; [first [apply Hclose; exact Ex|intros m _; reflexivity]|reflexivity]).
    - injection H as <- <-. split; reflexivity.
  Qed.

  (** files of chunks are in the output directory *)
  Lemma filled_In : forall x t y, filled x t y -> forall c, In c y -> In c x \/ In c t.
  Proof.
    induction 1 as [|t out _ IH|c t out _ _ IH]; intros b Hb.
    - destruct Hb.
    - apply in_app_or in Hb as [Hb|Hb]; [left; exact Hb|]. destruct (IH b Hb) as [H|H]; [left; exact H|right; apply in_or_app; right; exact H].
    - destruct Hb as [->|Hb]; [right; left; reflexivity|]. destruct (IH b Hb) as [H|H]; [left; exact H|right; right; exact H].
  Qed.

  Lemma default_no_slash : forall template gzip, (forall t, template = Some t -> ~ In 47 t) -> ~ In 47 (template_or template gzip).
  Proof.
    intros [t|] gzip H; cbn; [apply H; reflexivity|]. destruct gzip; cbn; intros Hi; repeat destruct Hi as [Hi|Hi]; try discriminate Hi; exact Hi.
  Qed.

  Lemma file_in_dir : forall template gzip dir x n, (forall t, template = Some t -> ~ In 47 t) -> ~ In 47 x ->
    file_for template gzip dir x n -> in_dir dir n.
  Proof.
    intros template gzip dir x n Ht Hx (t & name & Et & Hf & Hj). exists name. split; [|exact Hj]. intros Hi.
    destruct (filled_In _ _ _ Hf _ Hi) as [H|H]; [contradiction|].
    apply (default_no_slash template gzip Ht). unfold template_or. rewrite <- Et. exact H.
  Qed.

  Lemma decimal_no_slash : forall k num, decimal k num -> ~ In 47 num.
  Proof.
    intros k num (H & _) Hi. rewrite Forall_forall in H. apply H in Hi. cbn in Hi. repeat destruct Hi as [Hi|Hi]; try discriminate Hi. exact Hi.
  Qed.

  Lemma split_in_dir : forall a gzip outdir dir_ok template size skip names w c w' n,
    (forall t, template = Some t -> ~ In 47 t) ->
    split_on_disk a gzip outdir dir_ok template size skip names w = Some (c, w') ->
    ~ in_dir outdir n -> disk_get (w_disk w') n = disk_get (w_disk w) n.
  Proof.
    intros a gzip outdir dir_ok template size skip names w c w' n Ht H Hn.
    apply split_frame in H as [H _]. apply H. intros k (num & Hd & Hf). apply Hn.
    eapply file_in_dir; [exact Ht| |exact Hf]. eapply decimal_no_slash. exact Hd.
  Qed.

  (** ** Reading the chunks *)

  Lemma reads_cons : forall skip n c fs a b e, reads skip [(n, c)] a None -> reads skip fs b e -> reads skip ((n, c) :: fs) (a ++ b) e.
  Proof.
    intros skip n c fs a b e (ls & Hl & Hs) (ls' & Hl' & Hs'). inversion Hl as [|name content rest s l nls more Hsh Hi Hnum Hrest]; subst.
    inversion Hrest; subst. rewrite app_nil_r in Hs. exists (nls ++ ls'). split; [econstructor; eassumption|].
    clear -Hs Hs'. remember None as no eqn:En. revert En. induction Hs as [|s n l r ls rs e0 Hr _ IH|s n l ls rs e0 Hk Hr _ IH|s n l ls Hk Hr]; intros E.
    - exact Hs'.
    - cbn. apply seen_record; [exact Hr|]. apply IH. exact E.
    - cbn. apply seen_skip; [exact Hk|exact Hr|]. apply IH. exact E.
    - discriminate.
  Qed.

  Lemma reads_chunks : forall template gzip dir skip chunks fs, Forall one_line (concat chunks) ->
    chunk_texts template gzip dir chunks fs -> reads skip fs (concat chunks) None.
  Proof.
    intros template gzip dir skip chunks fs F (L & _ & H). revert chunks L F H.
    assert (G : forall fs chunks, length fs = length chunks -> Forall one_line (concat chunks) ->
      (forall k c n text, nth_error chunks k = Some c -> nth_error fs k = Some (n, text) -> lines_of c text) ->
      reads skip fs (concat chunks) None).
    { clear. induction fs as [|[n text] fs IH]; intros [|c chunks] L F H; try discriminate.
      - exists []. split; constructor.
      - cbn [concat] in F |- *. apply Forall_app in F as [F1 F2]. apply reads_cons.
        + apply reads_back; [exact F1|]. exact (H 0%nat c n text eq_refl eq_refl).
        + apply IH; [injection L; auto|exact F2|]. intros k. exact (H (S k)). }
    intros chunks L F H. apply G; [exact L|exact F|]. intros k c n text H1 H2. apply (H k c n text H1 H2).
  Qed.

  Lemma filled_incl : forall x t y, filled x t y -> has_braces t -> incl x y.
  Proof.
    intros x t y H HB. induction H as [|t out _ IH|c t out Hc _ IH].
    - destruct HB as (p & q & E). destruct p; discriminate.
    - apply incl_appl. apply incl_refl.
    - apply incl_tl. apply IH. destruct HB as (p & q & E). destruct p as [|c0 p]; [exfalso; exact (Hc q E)|].
      injection E as -> E. exists p, q. exact E.
  Qed.

  Lemma joined_incl : forall dir p n, joined dir p n -> incl p n.
  Proof.
    intros dir p n H. destruct H; [apply incl_refl..|apply incl_appr, incl_refl|]. apply incl_appr, incl_appr, incl_refl.
  Qed.

  Lemma chunk_not_stdin : forall template gzip dir k n, placeholder template -> chunk_file template gzip dir k n -> n <> lit "-".
  Proof.
    intros template gzip dir k n HP (num & (HD & Hne & _) & t & name & Et & Hf & Hj) ->.
    assert (HB : has_braces t) by (subst t; apply (braces_template template gzip HP)).
    destruct num as [|c num]; [contradiction|]. inversion HD as [|x l Hx _]; subst.
    assert (Hi : In c (lit "-")).
    { apply (joined_incl _ _ _ Hj). apply (filled_incl _ _ _ Hf HB). left. reflexivity. }
    destruct Hi as [<-|[]]. cbn in Hx. repeat destruct Hx as [Hx|Hx]; try discriminate Hx. exact Hx.
  Qed.

  Lemma holds_reads : forall gzip w n text, gz_first gz_enc gz_dec -> (gzip = true -> gz_extension n) ->
    holds gz_enc gzip w n text -> reads_as gz_dec (w_disk w) n text.
  Proof.
    intros gzip w n text Hg Hz (z & Ez & H).
    assert (Hn : z = true <-> gz_extension n). { rewrite Ez. split; [intros [E|E]; auto|auto]. }
    assert (Hm := builder_output_gz (mkWB false false) n). cbn in Hm.
    destruct z.
    - apply ra_gz with (gz_enc text); [exact H|apply Hm; right; apply Hn; reflexivity|].
      rewrite <- (app_nil_r (gz_enc text)). apply Hg.
    - apply ra_plain; [exact H|]. destruct (gz_name n); [|reflexivity]. destruct (proj1 Hm eq_refl) as [E|E]; [discriminate|].
      apply Hn in E. discriminate.
  Qed.

  Lemma files_available : forall gzip fs w w' stdin, gz_first gz_enc gz_dec ->
    (forall n text, In (n, text) fs -> n <> lit "-" /\ (gzip = true -> gz_extension n)) ->
    only_files gz_enc gzip fs w w' -> available gz_dec (w_disk w') stdin (map fst fs) fs.
  Proof.
    intros gzip fs w w' stdin Hg Hn (H & _). revert Hn H. induction fs as [|[n text] fs IH]; intros Hn H; cbn [map fst]; constructor.
    - apply (Hn n text). left. reflexivity.
    - eapply holds_reads; [exact Hg| |apply H; left; reflexivity]. apply (Hn n text). left. reflexivity.
    - apply IH; intros m t Hi; [apply (Hn m t)|apply H]; right; exact Hi.
  Qed.
End Commands.

(** split of the file that is its first chunk *)
Lemma split_self : forall gz_enc gz_dec writable O Od transform a o outdir template size skip n w,
  fst (opts_prepare O Od transform a) = Some (Some o) ->
  chunk_file template false outdir 0 n -> writable n = true -> n <> lit "-" -> gz_name n = false ->
  exists w', split_on_disk gz_enc gz_dec writable O Od transform a false outdir true template size skip [n] w = Some (CEnded 0, w')
    /\ disk_get (w_disk w') n = Some [].
Proof.
  intros gz_enc gz_dec writable O Od transform a o outdir template size skip n w Eo Hc Hw Hn Hg. apply chunk_file_path in Hc.
  unfold split_on_disk, prepared. rewrite Eo. cbv zeta. unfold chunk_output, builder_output. rewrite <- Hc. rewrite Hg.
  unfold open_output. cbn [out_name out_append wb_append wb_gzip orb]. rewrite Hw. cbn [live_files_loop ds_disk inputs].
  rewrite (proj2 (bytes_eqb_neq _ _) Hn), disk_get_same, Hg. cbn [whole io_files_loop]. cbv zeta. cbn.
  eexists. split; [reflexivity|]. cbn. rewrite ?Hn, ?disk_get_same. reflexivity.
Qed.

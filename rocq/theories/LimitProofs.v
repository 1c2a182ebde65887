(** * Proofs about the commands that stop early, after each other *)

From Coq Require Import String ZArith Lia.
From Verif Require Import Bytes BaseProofs Winnow RecordModel TagOccModel Utf8Model ByteRecordModel ByteRecordProofs ReaderModel
  MatcherModel MatcherProofs StateParser MatcherParserModel BuilderModel PathModel QuerySpec FmtModel QueryModel CliModel CliProofs TableModel
  ExplodeModel CheckModel ConvertModel CsvModel OptionsModel OptionsSpec ConfigModel PrepareModel PrepareSpec PrepareProofs GrammarStateProofs
  IoModel IoSpec WriteSpec DiskModel DirModel RuleModel
  MainModel DiskSpec RuleSpec MainSpec PipeSpec DiskProofs PipeProofs PipeInProofs FrontLoop FrontSpec FrontProofs FrontRunProofs LimitSpec.
From Verif Require RunSpec RunProofs.

(** ** Loops that stop early *)

Definition goes_on {S} (x : io_ending S) : Prop := exists s, x = IDone s.
Definition comes_to_end {S} (x : io_ending S) : Prop := exists s, x = IDone s \/ x = IStopped s.

Section Stop.
  Variable skip : bool.
  Context {S : Type}.
  Variable body : S -> byte_record -> io_ending S.

  (** the records that have been read, and what another loop does that reads no more *)
  Lemma reader_prefix : forall fuel s rd x, io_reader_loop (fun s => s) body skip fuel s rd = Some x -> comes_to_end x ->
    exists recs, Forall of_line recs /\ x = fold_end body s recs
      /\ forall T (b2 : T -> byte_record -> io_ending T) t, goes_on x \/ ~ goes_on (fold_end b2 t recs) ->
           io_reader_loop (fun t => t) b2 skip fuel t rd = Some (fold_end b2 t recs).
  Proof.
    induction fuel as [|fuel IH]; intros s rd x H Hx; [discriminate|]. cbn [io_reader_loop] in *.
    destruct (io_next_byte_record rd) as [[[r|er]|] rd'] eqn:E.
    - assert (Hr : of_line r).
      { unfold io_next_byte_record in E. destruct (io_read_until (io_inner rd)) as [[[|c b]|k] src] eqn:Er; try discriminate.
        destruct (br_from_bytes (c :: b)) as [y|] eqn:Ex; [|discriminate]. injection E as <- _. exact (parsed_of_line _ _ (io_read_line _ _ _ Er) Ex). }
      destruct (body s r) as [s'|s'|s' er|] eqn:Eb.
      + destruct (IH _ _ _ H Hx) as (recs & Hf & -> & Hl). exists (r :: recs). split; [constructor; assumption|].
        split; [cbn [fold_end]; rewrite Eb; reflexivity|]. intros T b2 t Ht. cbn [fold_end] in Ht |- *. destruct (b2 t r); try reflexivity. apply Hl. exact Ht.
      + injection H as <-. exists [r]. split; [constructor; [exact Hr|constructor]|]. split; [cbn [fold_end]; rewrite Eb; reflexivity|].
        intros T b2 t [[y Hy]|Ht]; [discriminate|]. cbn [fold_end] in Ht |- *. destruct (b2 t r); try reflexivity. destruct Ht. eexists; reflexivity.
      + injection H as <-. destruct Hx as [y [Hy|Hy]]; discriminate.
      + injection H as <-. destruct Hx as [y [Hy|Hy]]; discriminate.
    - destruct (pica_skip er skip).
      + exact (IH _ _ _ H Hx).
      + injection H as <-. destruct Hx as [y [Hy|Hy]]; discriminate.
    - injection H as <-. exists []. split; [constructor|]. split; reflexivity.
  Qed.

  Lemma files_prefix : forall files s x, io_files_loop (fun s => s) body skip s files = Some x -> comes_to_end x ->
    exists recs, Forall of_line recs /\ x = fold_end body s recs
      /\ forall T (b2 : T -> byte_record -> io_ending T) t, goes_on x \/ ~ goes_on (fold_end b2 t recs) ->
           io_files_loop (fun t => t) b2 skip t files = Some (fold_end b2 t recs).
  Proof.
    induction files as [|[n [reads|k]] files IH]; intros s x H Hx; cbn [io_files_loop] in *; cbv zeta in *.
    - injection H as <-. exists []. split; [constructor|]. split; reflexivity.
    - set (rd := io_reader_new reads (Some n)) in *. set (fuel := Datatypes.S (source_size (io_inner rd))) in *.
      destruct (io_reader_loop (fun s => s) body skip fuel s rd) as [y|] eqn:E; [|discriminate].
      assert (Hy : comes_to_end y).
      { destruct y as [a|a|a e|]; [exists a; auto|exists a; auto|injection H as <-; exact Hx|injection H as <-; exact Hx]. }
      destruct (reader_prefix _ _ _ _ E Hy) as (recs & Hf & Ey & Hl).
      destruct y as [s'|s'|s' e|].
      + destruct (IH _ _ H Hx) as (recs' & Hf' & -> & Hl'). exists (recs ++ recs'). split; [apply Forall_app; auto|].
        split; [rewrite fold_end_app, <- Ey; reflexivity|]. intros T b2 t Ht.
        rewrite (Hl T b2 t (or_introl (ex_intro _ s' eq_refl))), fold_end_app. rewrite fold_end_app in Ht.
        destruct (fold_end b2 t recs); try reflexivity. apply Hl'. exact Ht.
      + injection H as <-. exists recs. split; [exact Hf|]. split; [exact Ey|]. intros T b2 t [[z Hz]|Ht]; [discriminate|].
        rewrite (Hl T b2 t (or_intror Ht)). destruct (fold_end b2 t recs); try reflexivity. destruct Ht. eexists; reflexivity.
      + injection H as <-. destruct Hx as [z [Hz|Hz]]; discriminate.
      + injection H as <-. destruct Hx as [z [Hz|Hz]]; discriminate.
    - injection H as <-. destruct Hx as [z [Hz|Hz]]; discriminate.
  Qed.
End Stop.

(** no line is skipped: it does not matter what skipping does *)
Lemma reader_any : forall fuel rd l l', io_reader_loop (fun l => l) snoc false fuel l rd = Some (IDone l') ->
  exists recs, l' = l ++ recs
    /\ forall S (on_skip : S -> S) body skip s, io_reader_loop on_skip body skip fuel s rd = Some (fold_end body s recs).
Proof.
  induction fuel as [|fuel IH]; intros rd l l' H; [discriminate|]. cbn [io_reader_loop] in *.
  destruct (io_next_byte_record rd) as [[[r|er]|] rd'] eqn:E.
  - cbn [snoc] in H. destruct (IH _ _ _ H) as (recs & -> & Hl). exists (r :: recs). split; [rewrite <- app_assoc; reflexivity|].
    intros S on_skip body skip s. cbn [fold_end]. destruct (body s r); try reflexivity. apply Hl.
  - destruct er as [[]|]; discriminate.
  - injection H as <-. exists []. split; [symmetry; apply app_nil_r|]. reflexivity.
Qed.

Lemma back_any : forall gz_dec d recs, Forall of_line recs -> forall S (on_skip : S -> S) body skip s,
  io_files_loop on_skip body skip s (inputs gz_dec d (flat_map br_write recs) [lit "-"]) = Some (fold_end body s recs).
Proof.
  intros gz_dec d recs Hf S on_skip body skip s. cbn [inputs]. rewrite bytes_eqb_refl.
  pose proof (written_collected false recs (lit "-") [] Hf) as H. cbn [io_files_loop] in H |- *. cbv zeta in *.
  destruct (io_reader_loop _ snoc false _ [] _) as [[l'| | |]|] eqn:E; try discriminate. cbn [io_files_loop] in H. injection H as ->.
  destruct (reader_any _ _ _ _ E) as (recs' & E' & Hl). cbn in E'. subst recs'. rewrite Hl. destruct (fold_end body s recs); reflexivity.
Qed.

(** ** What slice and filter write *)

Definition window (start end_ : N) (recs : list byte_record) : list byte_record :=
  firstn (N.to_nat (end_ - start)) (skipn (N.to_nat start) recs).

Section Slice.
  Variables O Od : oracles.
  Variable start : N.
  Variable fo : filter_opts.
  Hypothesis Hsel : forall r, opts_select O Od fo r = Some true.
  Hypothesis Hlim : fo_limit fo = 0.

  Lemma slice_fold : forall recs E i cnt out, i <= N.max start E ->
    exists st, fold_end (fun s r => as_io (slice_body O Od start fo s r)) (mkSlice E i cnt out) recs
      = (if N.of_nat (length recs) <=? N.max start E - i then IDone st else IStopped st)
      /\ sl_out st = out ++ flat_map br_write (firstn (N.to_nat (E - N.max start i)) (skipn (N.to_nat (start - i)) recs)).
  Proof.
    induction recs as [|r recs IH]; intros E i cnt out Hi.
    - exists (mkSlice E i cnt out). split; [replace (N.of_nat (length (@nil byte_record)) <=? N.max start E - i) with true by (symmetry; apply N.leb_le; cbn; lia); reflexivity|]. rewrite skipn_nil, firstn_nil, app_nil_r. reflexivity.
    - cbn [fold_end]. unfold slice_body at 1. rewrite Hsel. cbn [sl_i sl_end sl_count sl_out]. rewrite Hlim. change (limit_reached 0 _) with false. cbv iota.
      destruct (N.leb_spec start i) as [Hs|Hs]; [destruct (N.ltb_spec i E) as [He|He]|]; cbn [andb as_io].
      + destruct (IH E (i + 1) (cnt + 1) (out ++ br_write r) ltac:(lia)) as (st & E1 & E2). exists st. rewrite E1, E2. split.
        * replace (N.of_nat (length (r :: recs)) <=? N.max start E - i) with (N.of_nat (length recs) <=? N.max start E - (i + 1)); [reflexivity|].
          cbn [length]. destruct (N.leb_spec (N.of_nat (length recs)) (N.max start E - (i + 1)));
            destruct (N.leb_spec (N.of_nat (Datatypes.S (length recs))) (N.max start E - i)); try reflexivity; lia.
        * replace (N.to_nat (start - (i + 1))) with 0%nat by lia. replace (N.to_nat (start - i)) with 0%nat by lia.
          replace (N.to_nat (E - N.max start i)) with (Datatypes.S (N.to_nat (E - N.max start (i + 1)))) by lia.
          cbn [skipn firstn flat_map]. rewrite <- app_assoc. reflexivity.
      + assert (Ei : (i <? start) = false) by (apply N.ltb_ge; lia). rewrite Ei. cbn [as_io].
        eexists. split.
        * replace (N.of_nat (length (r :: recs)) <=? N.max start E - i) with false; [reflexivity|].
          symmetry. apply N.leb_gt. cbn [length]. lia.
        * cbn [sl_out]. replace (N.to_nat (E - N.max start i)) with 0%nat by lia. cbn [firstn flat_map]. rewrite app_nil_r. reflexivity.
      + assert (Ei : (i <? start) = true) by (apply N.ltb_lt; lia). rewrite Ei. cbn [as_io].
        destruct (IH E (i + 1) cnt out ltac:(lia)) as (st & E1 & E2). exists st. rewrite E1, E2. split.
        * replace (N.of_nat (length (r :: recs)) <=? N.max start E - i) with (N.of_nat (length recs) <=? N.max start E - (i + 1)); [reflexivity|].
          cbn [length]. destruct (N.leb_spec (N.of_nat (length recs)) (N.max start E - (i + 1)));
            destruct (N.leb_spec (N.of_nat (Datatypes.S (length recs))) (N.max start E - i)); try reflexivity; lia.
        * replace (N.to_nat (start - i)) with (Datatypes.S (N.to_nat (start - (i + 1)))) by lia.
          replace (N.max start (i + 1)) with (N.max start i) by lia. reflexivity.
  Qed.

  Lemma slice_fold_0 : forall recs E,
    exists st, fold_end (fun s r => as_io (slice_body O Od start fo s r)) (mkSlice E 0 0 []) recs
      = (if N.of_nat (length recs) <=? N.max start E then IDone st else IStopped st)
      /\ sl_out st = flat_map br_write (window start E recs).
  Proof.
    intros recs E. destruct (slice_fold recs E 0 0 [] ltac:(lia)) as (st & E1 & E2). exists st. rewrite N.sub_0_r in E1. split; [exact E1|].
    rewrite N.sub_0_r, N.max_0_r in E2. exact E2.
  Qed.
End Slice.

Lemma window_all : forall n recs, window 0 n recs = firstn (N.to_nat n) recs.
Proof. intros n recs. unfold window. rewrite N.sub_0_r. reflexivity. Qed.

Lemma firstn_min : forall {A} n m (l : list A), firstn n (firstn m l) = firstn (Nat.min n m) l.
Proof. intros A n m l. apply firstn_firstn. Qed.

Lemma skipn_skipn_add : forall {A} n m (l : list A), skipn n (skipn m l) = skipn (m + n) l.
Proof.
  intros A n m. induction m as [|m IH]; intros l; [reflexivity|]. destruct l as [|x l]; [rewrite !skipn_nil; reflexivity|]. exact (IH l).
Qed.

Lemma window_window : forall a E1 c E2 recs, window c E2 (window a E1 recs) = window (a + c) (N.min E1 (a + E2)) recs.
Proof.
  intros a E1 c E2 recs. unfold window. rewrite skipn_firstn_comm, skipn_skipn_add, firstn_min.
  replace (N.to_nat a + N.to_nat c)%nat with (N.to_nat (a + c)) by lia. f_equal. lia.
Qed.

(** ** filter with a limit *)

Lemma filter_fold_limit : forall O Od c limit recs n out tee, 0 < limit -> fc_limit c = limit -> fc_keep c = [] -> fc_discard c = [] -> n < limit ->
  (forall r, In r recs -> filter_select O Od c (br_record r) = Some (chosen O Od c r)) ->
  exists st, (fold_end (fun s r => as_io (filter_body O Od c s r)) (n, out, tee) recs = IDone st
      \/ fold_end (fun s r => as_io (filter_body O Od c s r)) (n, out, tee) recs = IStopped st)
    /\ snd (fst st) = out ++ flat_map br_write (firstn (N.to_nat (limit - n)) (filter (chosen O Od c) recs)).
Proof.
  intros O Od c limit. induction recs as [|r recs IH]; intros n out tee H0 Hl Hk Hd Hn Hs.
  - eexists. split; [left; reflexivity|]. cbn [filter]. rewrite firstn_nil, app_nil_r. reflexivity.
  - assert (Hs' : forall r, In r recs -> filter_select O Od c (br_record r) = Some (chosen O Od c r)) by (intros x Hx; apply Hs; right; exact Hx).
    cbn [fold_end filter]. unfold filter_body at 1 3, guarded. rewrite (Hs r (or_introl eq_refl)).
    destruct (chosen O Od c r) eqn:Ec; [|cbn [as_io]; exact (IH n out tee H0 Hl Hk Hd Hn Hs')].
    rewrite (discard_nil _ r Hd), (keep_nil _ r Hk), Hl. unfold limit_reached.
    replace (0 <? limit) with true by (symmetry; apply N.ltb_lt; exact H0). cbn [andb].
    replace (N.to_nat (limit - n)) with (Datatypes.S (N.to_nat (limit - (n + 1)))) by lia. cbn [firstn flat_map].
    destruct (N.leb_spec limit (n + 1)) as [Hr|Hr]; cbn [as_io].
    + eexists. split; [right; reflexivity|]. cbn [fst snd]. replace (N.to_nat (limit - (n + 1))) with 0%nat by lia. cbn. rewrite app_nil_r. reflexivity.
    + destruct (IH (n + 1) (out ++ br_write r) (tee ++ br_write r) H0 Hl Hk Hd Hr Hs') as (st & E & Eo). exists st. split; [exact E|].
      rewrite Eo, <- app_assoc. reflexivity.
Qed.

(** outputs of two commands that write the same *)
Lemma process_same : forall gz_enc gz_dec stdin out {S T} (f : S -> bytes) (g : T -> bytes) os1 os2 b1 b2 sk1 sk2 s t n1 n2 v x y,
  io_files_loop os1 b1 sk1 s (inputs gz_dec (w_disk v) (w_stdin v) n1) = Some x ->
  io_files_loop os2 b2 sk2 t (inputs gz_dec (w_disk v) stdin n2) = Some y ->
  (exists a, (x = IDone a \/ x = IStopped a) /\ exists b, (y = IDone b \/ y = IStopped b) /\ f a = g b) ->
  frel stdin (process_all gz_enc gz_dec [(out, (f, f))] (fun _ => false) os1 b1 sk1 s n1 v)
    (process_all gz_enc gz_dec [(out, (g, g))] (fun _ => false) os2 b2 sk2 t n2 (fed stdin v)).
Proof.
  intros gz_enc gz_dec stdin out S T f g os1 os2 b1 b2 sk1 sk2 s t n1 n2 v x y Hx Hy (a & Ha & b & Hb & E). unfold process_all.
  change (w_disk (fed stdin v)) with (w_disk v). change (w_stdin (fed stdin v)) with stdin. rewrite Hx, Hy.
  destruct Ha as [->| ->], Hb as [->| ->]; cbn [main_status map fst snd]; rewrite E; (split; [reflexivity|]); apply fed_close_all.
Qed.

Lemma filter_prepare_limit : forall O Od tr content a b c s, fa_limit a = 0 ->
  b = mkFilterArgs (fa_skip a) (fa_limit b) (fa_invert a) (fa_ci a) (fa_keep a) (fa_discard a) (fa_expr_file a) (fa_allow a) (fa_deny a) (fa_column a)
        (fa_source a) (fa_and a) (fa_or a) (fa_not a) (fa_filter a) (fa_names a) ->
  filter_prepare O Od tr content a = (Some (Some c), s) ->
  filter_prepare O Od tr content b
    = (Some (Some (mkFilter (fc_fset c) (fc_matcher c) (fc_ci c) (fc_invert c) (fc_discard c) (fc_keep c) (fa_limit b))), s)
  /\ (fa_discard a = None -> fc_discard c = []) /\ (fa_keep a = None -> fc_keep c = []).
Proof.
  intros O Od tr content a b c s Ha -> H. cbn [fa_limit]. unfold filter_prepare, filter_expr in *.
  cbn [fa_source fa_discard fa_keep fa_column fa_allow fa_deny fa_expr_file fa_filter fa_and fa_or fa_not fa_ci fa_invert fa_limit].
  destruct (source_parse Od fresh (fa_source a)) as [[[src|]|] s0]; try discriminate. cbn [and_then] in *.
  destruct (parse_predicates (fa_discard a)) as [dd|] eqn:Ed; [|discriminate]. destruct (parse_predicates (fa_keep a)) as [kk|] eqn:Ek; [|discriminate].
  destruct (filter_set_build _ _ _ _) as [fs|]; [|discriminate].
  match type of H with match ?X with _ => _ end = _ => destruct X as [ex|] end; [|discriminate].
  destruct (builder_run _ _ _ _ _) as [[[m|]|] s1]; try discriminate. cbn [and_then] in *. injection H as <- <-. cbn.
  split; [reflexivity|]. split; intros E; rewrite E in *; cbn in *; congruence.
Qed.

Definition slice_opts (skip : bool) : file_opts := mkFileOpts skip 0 false 0 [] [] None None None [] [] [].

Lemma slice_ready : forall e skip tr d, opts_prepare (oracles_for e (slice_opts skip)) (default_oracles e) tr (load_opts e d (slice_opts skip))
  = (Some (Some (mkOpts (mkFSet None None ppn_path) None false 0)), fresh).
Proof. reflexivity. Qed.

Lemma slice_selects : forall O Od r, opts_select O Od (mkOpts (mkFSet None None ppn_path) None false 0) r = Some true.
Proof. intros O Od r. exact (proj1 (bare_selects O Od (mkFSet None None ppn_path) false 0 r eq_refl eq_refl eq_refl)). Qed.

Lemma execute_limit : forall e c o invert W limit append gzip output names w w1 t,
  0 < limit -> limit <= usize_max -> (forall n, output = Some n -> ~ In n names) ->
  execute e c (filter_limited o invert W 0 false false None names) w = Some (CEnded 0, w1) -> w_stdout w1 = w_stdout w ++ t ->
  frel (w_stdin w) (execute e c (slice_of (o_skip o) gzip append output 0 0 limit [lit "-"]) (mkWorld (w_disk w) t (w_stdout w)))
    (execute e c (filter_limited o invert W limit append gzip output names) w).
Proof.
  intros e c o invert W limit append gzip output names w w1 t H0 Hmax Hout H Ht.
  cbn [filter_limited slice_of execute o_skip] in *.
  change (oracles_for e (mkFileOpts _ _ (o_ci o) (o_threshold o) _ _ _ _ _ _ _ _)) with (oracles_for e o) in H |- *.
  set (O := oracles_for e o) in *. set (Od := default_oracles e) in *. set (tr := translit e (cf_normalization c)) in *.
  set (skip := o_skip o || cf_skip_invalid c) in *.
  set (a0 := load_filter e (w_disk w) skip _ _ names) in H.
  destruct (filter_front_done _ _ _ O Od tr a0 w w1 eq_refl eq_refl eq_refl eq_refl H) as (fc & s' & recs & Hp & Hr & Hsel & ->).
  cbn [w_stdout] in Ht. apply app_inv_head in Ht. subst t. change (fa_skip a0) with skip in Hr. change (fa_names a0) with names in Hr.
  set (sel := chosen O Od fc) in *. set (v := mkWorld (w_disk w) (flat_map br_write (filter sel recs)) (w_stdout w)).
  assert (Hv : fronted names (w_stdin w) (w_disk w) recs sel v w).
  { split; [reflexivity|]. split; [destruct w; reflexivity|]. intros n _. reflexivity. }
  set (a := load_filter e (w_disk w) skip _ _ names).
  assert (Hpl := fun content => filter_prepare_limit O Od tr content a0 a fc s' eq_refl eq_refl (Hp content)).
  change (fa_limit a) with limit in Hpl.
  (* slice *)
  unfold slice_on_disk. change (oracles_for e (mkFileOpts _ 0 false 0 _ _ _ _ _ _ _ _)) with (oracles_for e (slice_opts (o_skip o))).
  change (mkFileOpts (o_skip o) 0 false 0 [] [] None None None [] [] []) with (slice_opts (o_skip o)). 
  assert (SR := fun d => slice_ready e (o_skip o) tr d). fold Od in SR. rewrite SR. cbn [fst prepared].
  (* filter *)
  unfold filter_on_disk.
  assert (Hfirst : filter_first Od a = Some (Some tt)).
  { specialize (Hp (content_of (w_disk w))). unfold filter_prepare, filter_first in *.
    change (fa_source a) with (fa_source a0). change (fa_discard a) with (fa_discard a0). change (fa_keep a) with (fa_keep a0).
    change (fa_column a) with (fa_column a0). change (fa_allow a) with (fa_allow a0). change (fa_deny a) with (fa_deny a0).
    destruct (source_parse Od fresh (fa_source a0)) as [[[src|]|] s0]; try discriminate. cbn [and_then fst] in *.
    destruct (parse_predicates (fa_discard a0)); [|discriminate]. destruct (parse_predicates (fa_keep a0)); [|discriminate].
    destruct (filter_set_build _ _ _ _); [reflexivity|discriminate]. }
  rewrite Hfirst. cbn [prepared].
  assert (Hb : wb_run wb_new [CGzip gzip; CAppend append] = wb_run wb_new [CAppend append; CGzip gzip]) by (destruct gzip, append; reflexivity).
  rewrite Hb. destruct (wb_run wb_new [CAppend append; CGzip gzip]) as [b|]; [|apply (front_end _ _ _ _ _ _ _ Hv)]. cbv zeta.
  apply (open_front (e_gz_enc e) (e_writable e) names (w_stdin w) (w_disk w) recs sel); [|exact Hv|].
  { constructor; [|constructor]. intros n Hn. apply Hout. destruct output; exact Hn. }
  intros u u' (Hu1 & -> & Hu3). change (expr_there a _) with true. cbv iota.
  destruct (Hpl (content_of (w_disk (fed (w_stdin w) u)))) as (E & Hdn & Hkn). rewrite E. cbn [fst prepared].
  set (fl := mkFilter _ _ _ _ _ _ limit). change (filter_names _ (fa_filter a) (fa_names a)) with names. change (fa_skip a) with skip.
  assert (Hsl : forall r, In r recs -> filter_select O Od fl (br_record r) = Some (chosen O Od fl r)).
  { intros r Hin. unfold chosen. change (filter_select O Od fl) with (filter_select O Od fc). rewrite (Hsel r Hin). reflexivity. }
  assert (Esel : chosen O Od fl = sel) by reflexivity.
  destruct (filter_fold_limit O Od fl limit recs 0 [] [] H0 eq_refl (Hkn eq_refl) (Hdn eq_refl) H0 Hsl) as (st & Est & Eout).
  destruct (slice_fold_0 (oracles_for e (slice_opts (o_skip o))) Od 0 _ (slice_selects _ _) eq_refl (filter sel recs) (slice_end 0 0 limit)) as (st2 & Est2 & Eout2).
  eapply process_same with (out := builder_output b output).
  - rewrite Hu1. apply back_any. exact (good_kept _ _ _ _ _ _ Hr sel).
  - apply (loop_whole (e_gz_dec e) names (w_stdin w) (w_disk w) skip recs Hr); [exact Hu3|right; reflexivity].
  - exists st2. split; [rewrite Est2; destruct (_ <=? _); auto|]. exists st. split; [destruct Est as [->| ->]; auto|].
    rewrite Eout2, Eout, Esel. cbn [app]. unfold slice_end. change (0 <? 0) with false. cbv iota.
    replace (0 <? limit) with true by (symmetry; apply N.ltb_lt; exact H0). rewrite N.add_0_l, N.mod_small by lia.
    rewrite window_all, N.sub_0_r. reflexivity.
Qed.

Lemma run_limit : forall e cfg o invert W limit append gzip output names w w1 t x w2,
  0 < limit -> limit <= usize_max -> (forall n, output = Some n -> ~ In n names) ->
  run e (mkInvocation cfg (filter_limited o invert W 0 false false None names)) w = Some (CEnded 0, w1) -> w_stdout w1 = w_stdout w ++ t ->
  run e (mkInvocation cfg (slice_of (o_skip o) gzip append output 0 0 limit [lit "-"])) (mkWorld (w_disk w) t (w_stdout w)) = Some (x, w2) ->
  run e (mkInvocation cfg (filter_limited o invert W limit append gzip output names)) w = Some (x, fed (w_stdin w) w2).
Proof.
  intros e cfg o invert W limit append gzip output names w w1 t x w2 H0 Hm Ho H Ht H2.
  destruct (fun X => RunProofs.run_ended _ _ _ _ _ X H) as (c & Hset & He); [reflexivity|].
  rewrite (RunProofs.run_settings e (mkInvocation cfg (filter_limited o invert W limit append gzip output names)) w c eq_refl)
    by (eapply settings_same; [reflexivity|exact Hset]).
  rewrite (RunProofs.run_settings e (mkInvocation cfg (slice_of (o_skip o) gzip append output 0 0 limit [lit "-"])) _ c eq_refl) in H2
    by (eapply settings_same; [|exact Hset]; reflexivity).
  cbn [in_command] in *.
  pose proof (execute_limit e c o invert W limit append gzip output names w w1 t H0 Hm Ho He Ht) as X. rewrite H2 in X.
  destruct (execute e c (filter_limited o invert W limit append gzip output names) w) as [[y v]|]; [|contradiction]. destruct X as [-> ->]. reflexivity.
Qed.

(** ** Two slices *)

Lemma slice_end_open : forall a b, slice_end a b 0 = if b =? 0 then usize_max else b.
Proof. intros a b. unfold slice_end. destruct b; reflexivity. Qed.

Lemma on_skip_none : forall s, slice_on_skip 0 s = s.
Proof. reflexivity. Qed.

Lemma files_loop_ext : forall S (f g : S -> S) body skip, (forall s, f s = g s) -> forall files s,
  io_files_loop f body skip s files = io_files_loop g body skip s files.
Proof.
  intros S f g body skip H.
  assert (R : forall fuel s rd, io_reader_loop f body skip fuel s rd = io_reader_loop g body skip fuel s rd).
  { induction fuel as [|fuel IH]; intros s rd; [reflexivity|]. cbn [io_reader_loop]. destruct (io_next_byte_record rd) as [[[r|er]|] rd'].
    - destruct (body s r); auto.
    - rewrite H. destruct (pica_skip er skip); auto.
    - reflexivity. }
  induction files as [|[n [reads|k]] files IH]; intros s; cbn [io_files_loop]; cbv zeta; [reflexivity| |reflexivity].
  rewrite R. destruct (io_reader_loop g body skip _ s _) as [[]|]; auto.
Qed.

Lemma reader_fails : forall S (body : S -> byte_record -> io_ending S) skip, (forall s r s' k, body s r <> IFailed s' (CIo k)) ->
  forall fuel s rd s' k, io_reader_loop (fun s => s) body skip fuel s rd <> Some (IFailed s' (CIo k)).
Proof.
  intros S body skip Hb. induction fuel as [|fuel IH]; intros s rd s' k; [discriminate|]. cbn [io_reader_loop].
  destruct (io_next_byte_record rd) as [[[r|er]|] rd'].
  - specialize (Hb s r s' k). destruct (body s r); try discriminate; [apply IH|]. intros E. injection E as -> ->. exact (Hb eq_refl).
  - destruct (pica_skip er skip); [apply IH|discriminate].
  - discriminate.
Qed.

Lemma status_end : forall S (body : S -> byte_record -> io_ending S) skip, (forall s r s' k, body s r <> IFailed s' (CIo k)) ->
  forall files s x, (forall n k, In (n, inr k) files -> k = OtherKind) ->
  io_files_loop (fun s => s) body skip s files = Some x -> main_status x = Some 0 -> comes_to_end x.
Proof.
  intros S body skip Hb. induction files as [|[n [reads|k]] files IH]; intros s x Hk H Hx; cbn [io_files_loop] in H; cbv zeta in H.
  - injection H as <-. exists s. auto.
  - destruct (io_reader_loop _ body skip _ s _) as [y|] eqn:E; [|discriminate].
    destruct y as [a|a|a er|].
    + apply (IH a x); [intros m k Hin; apply (Hk m); right; exact Hin|exact H|exact Hx].
    + injection H as <-. exists a. auto.
    + injection H as <-. destruct er as [|k| |]; try discriminate. destruct (reader_fails _ _ _ Hb _ _ _ _ _ E).
    + injection H as <-. discriminate.
  - injection H as <-. rewrite (Hk n k (or_introl eq_refl)) in Hx. discriminate.
Qed.

Lemma slice_body_fails : forall O Od start fo s r s' k, as_io (slice_body O Od start fo s r) <> IFailed s' (CIo k).
Proof.
  intros O Od start fo s r s' k. unfold slice_body. destruct (opts_select O Od fo (br_record r)) as [[]|]; try discriminate.
  destruct (_ && _); [destruct (limit_reached _ _); discriminate|]. destruct (_ <? _); discriminate.
Qed.

Lemma execute_slices : forall e c skip0 a b c1 d append gzip output names w w1 t,
  b <= usize_max -> a + c1 <= usize_max -> a + d <= usize_max -> b = 0 \/ a + c1 <= b -> (forall n, output = Some n -> ~ In n names) ->
  execute e c (slice_of skip0 false false None a b 0 names) w = Some (CEnded 0, w1) -> w_stdout w1 = w_stdout w ++ t ->
  frel (w_stdin w) (execute e c (slice_of skip0 gzip append output c1 d 0 [lit "-"]) (mkWorld (w_disk w) t (w_stdout w)))
    (execute e c (slice_of skip0 gzip append output (a + c1) (end_after a b d) 0 names) w).
Proof.
  intros e c skip0 a b c1 d append gzip output names w w1 t Hb Hac Had Hc Hout H Ht.
  cbn [slice_of execute o_skip] in *. change (mkFileOpts skip0 0 false 0 [] [] None None None [] [] []) with (slice_opts skip0) in *.
  set (O := oracles_for e (slice_opts skip0)) in *. set (Od := default_oracles e) in *. set (tr := translit e (cf_normalization c)) in *.
  set (skip := skip0 || cf_skip_invalid c) in *.
  unfold slice_on_disk in *. assert (SR := fun d => slice_ready e skip0 tr d). fold O Od in SR. rewrite !SR. rewrite SR in H. cbn [fst prepared] in *. set (fo := mkOpts _ None false 0) in *.
  assert (HS : forall r, opts_select O Od fo r = Some true) by apply slice_selects.
  change (wb_run wb_new [CGzip false; CAppend false]) with (Some wb_new) in H. cbv iota zeta in H.
  cbn [open_all open_output builder_output out_name app] in H. rewrite world_eta in H. unfold process_all in H.
  rewrite (files_loop_ext _ _ (fun s => s) _ _ on_skip_none) in H.
  destruct (io_files_loop (fun s => s) _ skip _ (inputs (e_gz_dec e) (w_disk w) (w_stdin w) names)) as [x|] eqn:El; [|discriminate].
  assert (Hx : comes_to_end x).
  { apply (status_end _ _ _ (slice_body_fails O Od a fo) _ _ _ (fun n k => inputs_kind (e_gz_dec e) names (w_disk w) (w_stdin w) n k) El).
    destruct x as [s|s|s er|]; try reflexivity; [|discriminate]. destruct (main_status (IFailed s er)) as [st|]; [|discriminate]. injection H as -> _. reflexivity. }
  destruct (files_prefix skip _ _ _ _ El Hx) as (recs & Hf & Ex & Hl).
  destruct (slice_fold_0 O Od a fo HS eq_refl recs (slice_end a b 0)) as (st & Est & Eout).
  set (E1 := slice_end a b 0) in *. set (win := window a E1 recs) in *.
  assert (Ew : w1 = mkWorld (w_disk w) (w_stdin w) (w_stdout w ++ flat_map br_write win)).
  { rewrite Est in Ex. rewrite <- Eout. destruct (_ <=? _); subst x; injection H as <-; reflexivity. }
  subst w1. cbn [w_stdout] in Ht. apply app_inv_head in Ht. subst t.
  assert (Hwin : Forall of_line win).
  { apply Forall_forall. intros r Hr. apply (proj1 (Forall_forall _ _) Hf). unfold win, window in Hr.
    rewrite <- (firstn_skipn (N.to_nat a) recs). apply in_or_app. right.
    rewrite <- (firstn_skipn (N.to_nat (E1 - a)) (skipn (N.to_nat a) recs)). apply in_or_app. left. exact Hr. }
  set (v := mkWorld (w_disk w) (flat_map br_write win) (w_stdout w)).
  assert (Hv : fronted names (w_stdin w) (w_disk w) win (fun _ => true) v w).
  { split; [|split; [destruct w; reflexivity|intros n _; reflexivity]]. cbn. f_equal. clear. induction win as [|r l IH]; [reflexivity|]. cbn. rewrite <- IH. reflexivity. }
  destruct (wb_run wb_new [CGzip gzip; CAppend append]) as [wb|]; [|apply (front_end _ _ _ _ _ _ _ Hv)]. cbv zeta.
  apply (open_front (e_gz_enc e) (e_writable e) names (w_stdin w) (w_disk w) win (fun _ => true)); [|exact Hv|].
  { constructor; [|constructor]. intros n Hn. apply Hout. destruct output; exact Hn. }
  intros u u' (Hu1 & -> & Hu3).
  assert (Hu1' : w_stdin u = flat_map br_write win).
  { rewrite Hu1. f_equal. clear. induction win as [|r l IH]; [reflexivity|]. cbn. rewrite IH. reflexivity. }
  destruct (slice_fold_0 O Od c1 fo HS eq_refl win (slice_end c1 d 0)) as (st2 & Est2 & Eout2).
  destruct (slice_fold_0 O Od (a + c1) fo HS eq_refl recs (slice_end (a + c1) (end_after a b d) 0)) as (st3 & Est3 & Eout3).
  assert (Eend : slice_end (a + c1) (end_after a b d) 0 = N.min E1 (a + slice_end c1 d 0)).
  { unfold E1. rewrite !slice_end_open. unfold end_after. destruct (N.eqb_spec d 0) as [->|Hd].
    - destruct (N.eqb_spec b 0); lia.
    - destruct (N.eqb_spec b 0) as [->|Hb0]; [|].
      + replace (a + d =? 0) with false by (symmetry; apply N.eqb_neq; lia). lia.
      + replace (N.min b (a + d) =? 0) with false by (symmetry; apply N.eqb_neq; lia). reflexivity. }
  rewrite Eend in Est3, Eout3.
  eapply process_same with (out := builder_output wb output).
  - rewrite Hu1'. apply back_any. exact Hwin.
  - rewrite (files_loop_ext _ _ (fun s => s) _ _ on_skip_none). rewrite (inputs_same (e_gz_dec e) names (w_disk w) (w_disk u) (w_stdin w) Hu3).
    rewrite Eend. apply Hl. rewrite Ex, Est, Est3.
    destruct (N.leb_spec (N.of_nat (length recs)) (N.max a E1)) as [Hn|Hn]; [left; eexists; reflexivity|]. right.
    destruct (N.leb_spec (N.of_nat (length recs)) (N.max (a + c1) (N.min E1 (a + slice_end c1 d 0)))) as [Hm|Hm]; [|intros [y Hy]; discriminate].
    exfalso. unfold E1 in *. rewrite !slice_end_open in *. destruct Hc as [->|Hc].
    + change (0 =? 0) with true in *. cbv iota in *. lia.
    + destruct (N.eqb_spec b 0); lia.
  - exists st2. split; [rewrite Est2; match goal with |- context [if ?c then _ else _] => destruct c end; auto|].
    exists st3. split; [rewrite Est3; match goal with |- context [if ?c then _ else _] => destruct c end; auto|].
    rewrite Eout2, Eout3. unfold win. rewrite window_window. reflexivity.
Qed.

Lemma run_slices : forall e cfg skip a b c d append gzip output names w w1 t x w2,
  b <= usize_max -> a + c <= usize_max -> a + d <= usize_max -> b = 0 \/ a + c <= b -> (forall n, output = Some n -> ~ In n names) ->
  run e (mkInvocation cfg (slice_of skip false false None a b 0 names)) w = Some (CEnded 0, w1) -> w_stdout w1 = w_stdout w ++ t ->
  run e (mkInvocation cfg (slice_of skip gzip append output c d 0 [lit "-"])) (mkWorld (w_disk w) t (w_stdout w)) = Some (x, w2) ->
  run e (mkInvocation cfg (slice_of skip gzip append output (a + c) (end_after a b d) 0 names)) w = Some (x, fed (w_stdin w) w2).
Proof.
  intros e cfg skip a b c d append gzip output names w w1 t x w2 Hb Hac Had Hc Ho H Ht H2.
  destruct (fun X => RunProofs.run_ended _ _ _ _ _ X H) as (cf & Hset & He); [reflexivity|].
  rewrite (RunProofs.run_settings e (mkInvocation cfg (slice_of skip gzip append output (a + c) (end_after a b d) 0 names)) w cf eq_refl)
    by (eapply settings_same; [reflexivity|exact Hset]).
  rewrite (RunProofs.run_settings e (mkInvocation cfg (slice_of skip gzip append output c d 0 [lit "-"])) _ cf eq_refl) in H2
    by (eapply settings_same; [|exact Hset]; reflexivity).
  cbn [in_command] in *.
  pose proof (execute_slices e cf skip a b c d append gzip output names w w1 t Hb Hac Had Hc Ho He Ht) as X. rewrite H2 in X.
  destruct (execute e cf (slice_of skip gzip append output (a + c) (end_after a b d) 0 names) w) as [[y v]|]; [|contradiction]. destruct X as [-> ->]. reflexivity.
Qed.

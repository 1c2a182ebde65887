(** * Proofs about the whole program: the spelling of expressions *)

From Coq Require Import String ZArith Lia Permutation.
From Verif Require Import Bytes BaseProofs Winnow RecordModel TagOccModel Utf8Model ByteRecordModel ReaderModel
  MatcherModel StateParser MatcherParserModel BuilderModel PathModel FmtModel QueryModel CliModel TableModel
  ExplodeModel CheckModel ConvertModel CsvModel OptionsModel OptionsSpec OptionsProofs ConfigModel ConfigSpec ConfigProofs
  PrepareModel IoModel IoSpec WriteSpec DiskModel DirModel RuleModel
  MainModel DiskSpec RuleSpec MainSpec DiskProofs MainEndProofs.
From Verif Require DirSpec.

Section Spell.
  Variable f tr : bytes -> bytes.
  Hypothesis Hf : forall x, tr (f x) = tr x.

  Lemma fold_spell : forall O op l m s, builder_fold O tr op (map f l) m s = builder_fold O tr op l m s.
  Proof.
    intros O op. induction l as [|x l IH]; intros m s; [reflexivity|]. cbn [map builder_fold]. rewrite Hf.
    unfold and_then. destruct (field_matcher_new O s (tr x)) as [[[m'|]|] s']; [apply IH|reflexivity..].
  Qed.

  Lemma run_spell : forall O s x a o n,
    builder_run O tr s (f x) [CallAnd (map f a); CallOr (map f o); CallNot (map f n)]
    = builder_run O tr s x [CallAnd a; CallOr o; CallNot n].
  Proof.
    intros O s x a o n. unfold builder_run, builder_new. rewrite Hf. unfold and_then.
    destruct (field_matcher_new O s (tr x)) as [[[m|]|] s1]; [|reflexivity..]. cbn [builder_calls builder_step]. unfold and_then.
    rewrite fold_spell. destruct (builder_fold O tr fm_and_assign a m s1) as [[[m2|]|] s2]; [|reflexivity..].
    rewrite fold_spell. destruct (builder_fold O tr fm_or_assign o m2 s2) as [[[m3|]|] s3]; [|reflexivity..].
    rewrite fold_spell. reflexivity.
  Qed.

  Lemma opts_spell : forall e O Od d o,
    opts_prepare O Od tr (load_opts e d (respelled_opts f o)) = opts_prepare O Od tr (load_opts e d o).
  Proof.
    intros e O Od d o. unfold opts_prepare.
    cbn [load_opts respelled_opts oa_source oa_column oa_allow oa_deny oa_where oa_and oa_or oa_not oa_ci oa_limit
      o_skip o_limit o_ci o_threshold o_allow o_deny o_column o_source o_where o_and o_or o_not].
    unfold and_then. destruct (source_parse Od fresh (o_source o)) as [[[src|]|] s]; [|reflexivity..].
    destruct (filter_set_build _ _ _ _) as [fs|]; [|reflexivity].
    unfold filter_opts_matcher. destruct (o_where o) as [x|]; cbn [option_map]; [|reflexivity].
    rewrite run_spell. reflexivity.
  Qed.

  Lemma table_spell : forall e O Od d o q,
    table_prepare O Od tr (load_columns e d (respelled_opts f o) (respelled_columns f q))
    = table_prepare O Od tr (load_columns e d o q).
  Proof.
    intros e O Od d o q. unfold table_prepare.
    cbn [load_columns respelled_columns ta_opts ta_query co_query]. rewrite opts_spell, Hf. reflexivity.
  Qed.

  Lemma filter_spell : forall e O Od content d skip o x names,
    filter_prepare O Od tr content (load_filter e d skip (respelled_opts f o) (respelled_filter f x) names)
    = filter_prepare O Od tr content (load_filter e d skip o x names).
  Proof.
    intros e O Od content d skip o x names. unfold filter_prepare, filter_expr.
    cbn [load_filter respelled_opts respelled_filter fa_source fa_column fa_allow fa_deny fa_and fa_or fa_not fa_ci fa_invert fa_limit
      fa_discard fa_keep fa_expr_file fa_filter fi_expr fi_expr_file fi_invert fi_keep fi_discard
      o_skip o_limit o_ci o_threshold o_allow o_deny o_column o_source o_where o_and o_or o_not].
    unfold and_then at 1 3. destruct (source_parse Od fresh (o_source o)) as [[[src|]|] s]; [|reflexivity..].
    destruct (parse_predicates (fi_discard x)); [|reflexivity]. destruct (parse_predicates (fi_keep x)); [|reflexivity].
    destruct (filter_set_build _ _ _ _) as [fs|]; [|reflexivity].
    destruct (fi_expr_file x) as [n|].
    - destruct (utf8_valid (content n)); [|reflexivity].
      unfold builder_run. unfold and_then. destruct (builder_new O tr s (content n)) as [[[m|]|] s1]; [|reflexivity..].
      cbn [builder_calls builder_step]. unfold and_then.
      rewrite fold_spell. destruct (builder_fold O tr fm_and_assign (o_and o) m s1) as [[[m2|]|] s2]; [|reflexivity..].
      rewrite fold_spell. destruct (builder_fold O tr fm_or_assign (o_or o) m2 s2) as [[[m3|]|] s3]; [|reflexivity..].
      rewrite fold_spell. reflexivity.
    - rewrite run_spell. reflexivity.
  Qed.
End Spell.

Lemma open_all_same : forall enc wr outs opened w k1 k2, (forall u, k1 u = k2 u) ->
  open_all enc wr opened outs w k1 = open_all enc wr opened outs w k2.
Proof.
  intros enc wr. induction outs as [|o outs IH]; intros opened w k1 k2 H; cbn [open_all]; [apply H|].
  destruct (open_output wr o (w_disk w)) as [d|]; [apply IH; exact H|reflexivity].
Qed.

Lemma execute_spell : forall e c f k w,
  (forall x, translit e (cf_normalization c) (f x) = translit e (cf_normalization c) x) ->
  execute e c (respelled f k) w = execute e c k w.
Proof.
  intros e c f k w Hf. set (tr := translit e (cf_normalization c)) in *.
  pose proof (opts_spell f tr Hf e) as Ho. pose proof (table_spell f tr Hf e) as Ht. pose proof (filter_spell f tr Hf e) as Hx.
  destruct k; cbn [respelled execute]; fold tr; try reflexivity.
  - change (oracles_for e (respelled_opts f o)) with (oracles_for e o). change (o_skip (respelled_opts f o)) with (o_skip o).
    unfold check_files_on_disk. cbv zeta. unfold disk_rules, check_on_disk. rewrite Ho. reflexivity.
  - change (oracles_for e (respelled_opts f o)) with (oracles_for e o). change (o_skip (respelled_opts f o)) with (o_skip o).
    unfold count_on_disk. rewrite Ho. reflexivity.
  - change (oracles_for e (respelled_opts f o)) with (oracles_for e o). change (o_skip (respelled_opts f o)) with (o_skip o).
    unfold describe_on_disk. rewrite Ho. reflexivity.
  - change (oracles_for e (respelled_opts f o)) with (oracles_for e o). change (o_skip (respelled_opts f o)) with (o_skip o).
    unfold explode_on_disk. rewrite Ho. reflexivity.
  - change (oracles_for e (respelled_opts f o)) with (oracles_for e o). change (o_skip (respelled_opts f o)) with (o_skip o).
    unfold filter_on_disk.
    change (filter_first (default_oracles e) (load_filter e (w_disk w) (o_skip o || cf_skip_invalid c) (respelled_opts f o) (respelled_filter f f0) names))
      with (filter_first (default_oracles e) (load_filter e (w_disk w) (o_skip o || cf_skip_invalid c) o f0 names)).
    destruct (filter_first _ _) as [[u|]|]; cbn [prepared]; [|reflexivity..].
    destruct (wb_run _ _) as [b|]; [|reflexivity]. cbv zeta. apply open_all_same. intros w1. rewrite Hx.
    change (expr_there (load_filter e (w_disk w) (o_skip o || cf_skip_invalid c) (respelled_opts f o) (respelled_filter f f0) names) (w_disk w1))
      with (expr_there (load_filter e (w_disk w) (o_skip o || cf_skip_invalid c) o f0 names) (w_disk w1)).
    replace (filter_names _ _ (fa_names (load_filter e (w_disk w) (o_skip o || cf_skip_invalid c) (respelled_opts f o) (respelled_filter f f0) names)))
      with (filter_names match fa_expr_file (load_filter e (w_disk w) (o_skip o || cf_skip_invalid c) o f0 names) with Some _ => true | None => false end
        (fa_filter (load_filter e (w_disk w) (o_skip o || cf_skip_invalid c) o f0 names)) (fa_names (load_filter e (w_disk w) (o_skip o || cf_skip_invalid c) o f0 names))).
    + reflexivity.
    + cbn [load_filter respelled_filter fa_expr_file fa_filter fa_names fi_expr fi_expr_file]. destruct (fi_expr_file f0); reflexivity.
  - change (oracles_for e (respelled_opts f o)) with (oracles_for e o). change (o_skip (respelled_opts f o)) with (o_skip o).
    unfold freq_on_disk. rewrite Ht. reflexivity.
  - change (oracles_for e (respelled_opts f o)) with (oracles_for e o). change (o_skip (respelled_opts f o)) with (o_skip o).
    unfold hash_on_disk. rewrite Ho. reflexivity.
  - change (oracles_for e (respelled_opts f o)) with (oracles_for e o). change (o_skip (respelled_opts f o)) with (o_skip o).
    unfold partition_on_disk. rewrite Ho. reflexivity.
  - change (oracles_for e (respelled_opts f o)) with (oracles_for e o). change (o_skip (respelled_opts f o)) with (o_skip o).
    unfold print_on_disk. rewrite Ho. reflexivity.
  - change (oracles_for e (respelled_opts f o)) with (oracles_for e o). change (o_skip (respelled_opts f o)) with (o_skip o).
    unfold sample_on_disk. rewrite Ho. reflexivity.
  - change (oracles_for e (respelled_opts f o)) with (oracles_for e o). change (o_skip (respelled_opts f o)) with (o_skip o).
    unfold select_on_disk. rewrite Ht. reflexivity.
  - change (oracles_for e (respelled_opts f o)) with (oracles_for e o). change (o_skip (respelled_opts f o)) with (o_skip o).
    unfold slice_on_disk. rewrite Ho. reflexivity.
  - change (oracles_for e (respelled_opts f o)) with (oracles_for e o). change (o_skip (respelled_opts f o)) with (o_skip o).
    unfold split_on_disk. rewrite Ho. reflexivity.
Qed.

Lemma says_utf8 : forall t c, OptionsSpec.file_says t c -> utf8_valid t = true.
Proof.
  intros t c H. destruct H as [b v ->|b v n w -> Hw].
  - destruct b; vm_compute; reflexivity.
  - cbn [In] in Hw. destruct Hw as [Hw|[Hw|[Hw|[Hw|[]]]]]; injection Hw as <- <-; destruct b; vm_compute; reflexivity.
Qed.

(** with a configured normal form only the normal form of an expression matters *)
Lemma spelled_otherwise : forall e i f w b nf,
  (forall t c, OptionsSpec.file_says t c -> e_config_toml e t = Some c) ->
  configured e i w (mkConfig b (Some nf)) ->
  (forall x, e_nf e nf (f x) = e_nf e nf x) ->
  run e (mkInvocation (in_config i) (respelled f (in_command i))) w = run e i w.
Proof.
  intros e [cfg k] f w b nf RT (n & t & En & Et & Hs) Hf. cbn [in_config in_command].
  assert (Hp : forall k', place e (mkInvocation cfg k') = place e (mkInvocation cfg k)) by reflexivity.
  unfold run. cbn [in_command]. 
  pose proof (place_name e (mkInvocation cfg k)) as Hn. rewrite En in Hn.
  assert (Hc : config_start (e_config_toml e) (fst (place e (mkInvocation cfg k))) (file_on (w_disk w) (Some n)) = LConfig (mkConfig b (Some nf))).
  { assert (Hu : utf8_valid t = true) by (exact (says_utf8 _ _ Hs)).
    unfold file_on. rewrite Et. unfold place in *. cbn [in_config] in *. destruct cfg as [m|]; [|destruct (e_home e); [|discriminate]];
      cbn [fst config_start config_from_path]; rewrite Hu, (RT _ _ Hs); reflexivity. }
  pose proof (execute_spell e (mkConfig b (Some nf)) f k w Hf) as Hx.
  destruct k; cbn [respelled] in *; rewrite ?Hp; destruct (place e _) as [pl nm]; cbn [fst snd] in *; try subst nm; try rewrite Hc; first [exact Hx|reflexivity].
Qed.

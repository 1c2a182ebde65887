(** * Proofs about the whole program: a run does the same where the files it uses are
      the same *)

From Coq Require Import String ZArith Lia Permutation.
From Verif Require Import Bytes BaseProofs Winnow RecordModel TagOccModel Utf8Model ByteRecordModel ReaderModel
  MatcherModel StateParser MatcherParserModel BuilderModel PathModel FmtModel QueryModel CliModel TableModel
  ExplodeModel CheckModel ConvertModel CsvModel OptionsModel OptionsSpec ConfigModel PrepareModel IoModel IoSpec WriteSpec DiskModel DirModel RuleModel
  MainModel DiskSpec RuleSpec MainSpec DiskProofs RuleEndProofs MainProofs MainTwiceProofs MainUseProofs.
From Verif Require DirSpec.

(** ** Rules depend on the lists they name *)

Section Lists.
  Variable oracles_at : N -> oracles.
  Variable int_f64 : Z -> N.
  Variable strptime : bytes -> bytes -> bool.
  Variable is_nf : norm_form -> bytes -> bool.
  Variables lists1 lists2 : bytes -> option table.

  Definition alike_in (v : toml) : Prop := forall n, text_in v n -> lists1 n = lists2 n.

  Lemma entry_In : forall k t v, entry k t = Some v -> exists k', In (k', v) t.
  Proof.
    intros k t v. induction t as [|[k' v'] t IH]; [discriminate|]. cbn [entry]. destruct (bytes_eqb k' k).
    - intros E. injection E as <-. exists k'. left. reflexivity.
    - intros E. destruct (IH E) as [k'' H]. exists k''. right. exact H.
  Qed.

  Lemma allow_ext : forall t, alike_in (TmTable t) -> allow_values lists1 t = allow_values lists2 t.
  Proof.
    intros t H. unfold allow_values, must. destruct (entry (lit "list") t) as [v|] eqn:E; [|reflexivity].
    destruct v as [| | | | | |l]; try reflexivity. cbv beta iota.
    destruct (entry (lit "filename") l) as [v|] eqn:E2; [|reflexivity]. destruct v as [b| | | | | |]; try reflexivity. cbn [as_text].
    destruct (match entry (lit "column") l with Some v => as_text v | None => None end) as [name|]; [|reflexivity].
    rewrite (H b); [reflexivity|]. destruct (entry_In _ _ _ E) as [k Hk]. destruct (entry_In _ _ _ E2) as [k2 Hk2].
    exact (ti_table _ _ _ _ Hk (ti_table _ _ _ _ Hk2 (ti_text b))).
  Qed.

  Lemma check_ext : forall t s, alike_in (TmTable t) ->
    read_check oracles_at int_f64 strptime is_nf lists1 t s = read_check oracles_at int_f64 strptime is_nf lists2 t s.
  Proof. intros t s H. unfold read_check. rewrite (allow_ext t H). reflexivity. Qed.

  Lemma rule_ext : forall x s, alike_in (snd x) ->
    read_rule oracles_at int_f64 strptime is_nf lists1 x s = read_rule oracles_at int_f64 strptime is_nf lists2 x s.
  Proof. intros x s H. unfold read_rule. destruct (snd x) as [| | | | | |t]; try reflexivity. rewrite (check_ext t s H). reflexivity. Qed.

  Lemma visit_all_ext : forall {B C} (f g : B -> levels -> presult C) l, (forall x s, In x l -> f x s = g x s) ->
    forall s, visit_all f l s = visit_all g l s.
  Proof.
    intros B C f g l H. induction l as [|x l IH]; intros s; [reflexivity|]. cbn [visit_all]. rewrite (H x s (or_introl eq_refl)).
    destruct (g x s) as [[[y|]|] s']; try reflexivity. cbn [and_then]. rewrite IH by (intros x' s'' Hx; apply H; right; exact Hx). reflexivity.
  Qed.

  Lemma visit2_ext : forall {B C} k1 (f : toml -> levels -> presult B) k2 (g g' : toml -> levels -> presult C) t,
    (forall k v s, In (k, v) t -> g v s = g' v s) -> forall a b s, visit2 k1 f k2 g t a b s = visit2 k1 f k2 g' t a b s.
  Proof.
    intros B C k1 f k2 g g' t H. induction t as [|[k v] t IH]; intros a b s; [reflexivity|]. cbn [visit2].
    assert (forall k v s, In (k, v) t -> g v s = g' v s) as Ht by (intros k' v' s' Hin; apply (H k'); right; exact Hin).
    destruct (bytes_eqb k k1).
    - destruct (f v s) as [[[x|]|] s']; try reflexivity. cbn [and_then]. apply IH. exact Ht.
    - destruct (bytes_eqb k k2); [|apply IH; exact Ht]. rewrite (H k v s (or_introl eq_refl)).
      destruct (g' v s) as [[[x|]|] s']; try reflexivity. cbn [and_then]. apply IH. exact Ht.
  Qed.

  Variable hash_order : list rule -> list rule.

  Lemma set_ext : forall v s, alike_in v ->
    read_set oracles_at int_f64 strptime is_nf lists1 hash_order v s = read_set oracles_at int_f64 strptime is_nf lists2 hash_order v s.
  Proof.
    intros v s H. unfold read_set. destruct v as [| | | | | |t]; try reflexivity.
    destruct (or_default (lit "termination") false as_fast t); [|reflexivity]. f_equal. apply visit2_ext.
    intros k v s' Hin. destruct v as [| | | | | |l]; try reflexivity. apply visit_all_ext. intros x s'' Hx. apply rule_ext.
    intros n Hn. apply H. apply (ti_table t k (TmTable l) n Hin). destruct x as [kx vx]. exact (ti_table l kx vx n Hx Hn).
  Qed.

  Variable from_toml : bytes -> option toml.
  Variable normal : bytes -> bytes.
  Variable patterns : list bytes -> option (bytes -> bool).

  Lemma rules_ext : forall files filter tags s,
    (forall b v, In (Some b) files -> from_toml (normal b) = Some v -> alike_in v) ->
    rules_prepare oracles_at int_f64 strptime is_nf lists1 hash_order from_toml normal patterns files filter tags s
    = rules_prepare oracles_at int_f64 strptime is_nf lists2 hash_order from_toml normal patterns files filter tags s.
  Proof.
    intros files filter tags s H. unfold rules_prepare. f_equal. apply visit_all_ext. intros x s' Hx. unfold set_new.
    destruct x as [b|]; [|reflexivity]. destruct (utf8_valid b); [|reflexivity].
    destruct (from_toml (normal b)) as [v|] eqn:E; [|reflexivity]. apply set_ext. exact (H b v Hx E).
  Qed.
End Lists.

(** ** Lists and options *)

Section Depend.
  Variable e : env.
  Hypothesis Horder : forall l, Permutation (e_writer_order e l) l.

  Lemma load_table_ext : forall d1 d2 n, disk_get d1 n = disk_get d2 n -> load_table e d1 n = load_table e d2 n.
  Proof. intros d1 d2 n H. unfold load_table. rewrite H. reflexivity. Qed.

  Lemma load_tables_ext : forall d1 d2 ns, (forall n, In n ns -> disk_get d1 n = disk_get d2 n) ->
    map (load_table e d1) ns = map (load_table e d2) ns.
  Proof. intros d1 d2 ns H. apply map_ext_in. intros n Hn. apply load_table_ext, H, Hn. Qed.

  Definition lists_alike (d1 d2 : disk) (o : file_opts) : Prop :=
    forall n, In n (o_allow o) \/ In n (o_deny o) -> disk_get d1 n = disk_get d2 n.

  Lemma load_opts_ext : forall d1 d2 o, lists_alike d1 d2 o -> load_opts e d1 o = load_opts e d2 o.
  Proof.
    intros d1 d2 o H. unfold load_opts.
    rewrite (load_tables_ext d1 d2 (o_allow o)) by (intros n Hn; apply H; left; exact Hn).
    rewrite (load_tables_ext d1 d2 (o_deny o)) by (intros n Hn; apply H; right; exact Hn). reflexivity.
  Qed.

  Lemma after_open_ext : forall output append d1 d2 n, disk_get d1 n = disk_get d2 n ->
    disk_get (after_open e output append d1) n = disk_get (after_open e output append d2) n.
  Proof.
    intros output append d1 d2 n H. unfold after_open, open_output. cbn [out_name out_append]. destruct output as [m|]; [|exact H].
    destruct (e_writable e m); [|exact H]. rewrite !disk_get_set. destruct (bytes_eqb m n) eqn:E; [|exact H].
    apply bytes_eqb_eq in E. subst m. rewrite H. reflexivity.
  Qed.

  Lemma after_open_running : forall output w r b, open_output (e_writable e) (mkOut output false false) (w_disk w) <> None ->
    disk_get (after_open e output false (w_disk w)) r = Some b -> running output w r b.
  Proof.
    intros output w r b Ho H. unfold after_open in H. destruct (open_output (e_writable e) (mkOut output false false) (w_disk w)) as [d|] eqn:Ed; [|congruence].
    unfold open_output in Ed. cbn [out_name out_append] in Ed. destruct output as [m|].
    - destruct (e_writable e m); [|discriminate]. injection Ed as <-. rewrite disk_get_set in H. destruct (bytes_eqb m r) eqn:E.
      + apply bytes_eqb_eq in E. subst m. injection H as <-. left. auto.
      + right. split; [|exact H]. intros X. injection X as ->. rewrite bytes_eqb_refl in E. discriminate.
    - injection Ed as <-. right. split; [discriminate|exact H].
  Qed.

  Variables w1 w2 : world.
  Hypothesis Hstdin : w_stdin w1 = w_stdin w2.

  Notation get w n := (disk_get (w_disk w) n).

  Lemma run_refused : forall A gz_enc writable outs k1 k2, 
    match outs with o :: _ => open_output writable o (w_disk w1) = None | [] => False end ->
    match outs with o :: _ => open_output writable o (w_disk w2) = None | [] => False end ->
    both A w1 w2 (open_all gz_enc writable [] outs w1 k1) (open_all gz_enc writable [] outs w2 k2).
  Proof.
    intros A gz_enc writable outs k1 k2 H1 H2. destruct outs as [|o outs]; [contradiction|]. cbn [open_all]. rewrite H1, H2.
    split; [reflexivity|]. apply done_refl.
  Qed.

  Lemma execute_twice : forall c k, (forall n, uses e w1 k n -> get w1 n = get w2 n) ->
    both (fun n => appends k = true /\ In n (output_names k)) w1 w2 (execute e c k w1) (execute e c k w2).
  Proof.
    intros c k Hu.
    assert (forall n, In n (input_names k) -> get w1 n = get w2 n) as Hi by (intros n Hn; apply Hu, us_input, Hn).
    assert (forall o, opts_of k = Some o -> lists_alike (w_disk w1) (w_disk w2) o) as Hl
      by (intros o Ho n Hn; apply Hu; exact (us_list e w1 k o n Ho Hn)).
    destruct k; cbn [execute input_names output_names appends opts_of] in *.
    - (* check *)
      assert (load_opts e (after_open e output false (w_disk w1)) o = load_opts e (after_open e output false (w_disk w2)) o) as El.
      { apply load_opts_ext. intros n Hn. apply after_open_ext. exact (Hl o eq_refl n Hn). }
      rewrite <- El. unfold check_files_on_disk. cbv zeta. fold (after_open e output false (w_disk w1)). fold (after_open e output false (w_disk w2)).
      destruct (open_output (e_writable e) (mkOut output false false) (w_disk w1)) as [d1|] eqn:Eo1.
      + match goal with |- both _ _ _ (match ?x with Some _ => _ | None => _ end) (match ?y with Some _ => _ | None => _ end) => replace y with x end.
        * destruct (disk_rules _ _ _ _ _ _ _ _ _ _ _ _ _ _ _ _) as [rules'|]; [|exact I].
          apply check_twice; [exact Hstdin|exact Hi].
        * unfold disk_rules. f_equal.
          rewrite (map_ext_in (disk_get (after_open e output false (w_disk w1))) (disk_get (after_open e output false (w_disk w2))) rules).
          2:{ intros n Hn. apply after_open_ext. apply Hu. exact (us_rule e w1 _ o rules filter tags output names n eq_refl Hn). }
          apply rules_ext. intros b v Hin Hv n Hn. apply in_map_iff in Hin. destruct Hin as (r & Er & Hr).
          assert (get w1 n = get w2 n) as E.
          { apply Hu. refine (us_named e w1 _ o rules filter tags output names r b (cf_normalization c) v n eq_refl Hr _ Hv Hn).
            apply (after_open_running output w1 r b); [rewrite Eo1; discriminate|]. rewrite <- Er. apply after_open_ext.
            apply Hu. exact (us_rule e w1 _ o rules filter tags output names r eq_refl Hr). }
          rewrite (after_open_ext output false (w_disk w1) (w_disk w2) n E). reflexivity.
      + assert (open_output (e_writable e) (mkOut output false false) (w_disk w2) = None) as Eo2.
        { unfold open_output in *. cbn [out_name out_append] in *. destruct output as [m|]; [|discriminate].
          destruct (e_writable e m); [discriminate|reflexivity]. }
        destruct (disk_rules _ _ _ _ _ _ _ _ _ _ _ _ _ _ _ (after_open e output false (w_disk w1))) as [r1|] eqn:E1;
          [|exfalso; revert E1; apply rules_never_panic].
        destruct (disk_rules _ _ _ _ _ _ _ _ _ _ _ _ _ _ _ (after_open e output false (w_disk w2))) as [r2|] eqn:E2;
          [|exfalso; revert E2; apply rules_never_panic].
        unfold check_on_disk. apply run_refused; assumption.
    - (* concat *) apply concat_twice; [exact Hstdin| |exact Hi]. intros Ha n Hn. split; [exact Ha|exact Hn].
    - (* config *) exact I.
    - apply convert_twice; [exact Hstdin|exact Hi].
    - rewrite (load_opts_ext (after_open e output append (w_disk w1)) (after_open e output append (w_disk w2)) o).
      + apply count_twice; [exact Hstdin| |exact Hi]. intros Ha n Hn. split; [exact Ha|exact Hn].
      + intros n Hn. apply after_open_ext. exact (Hl o eq_refl n Hn).
    - rewrite (load_opts_ext (w_disk w1) (w_disk w2) o (Hl o eq_refl)). apply describe_twice; [exact Hstdin|exact Hi].
    - rewrite (load_opts_ext (after_open e output false (w_disk w1)) (after_open e output false (w_disk w2)) o).
      + apply explode_twice; [exact Hstdin|exact Hi].
      + intros n Hn. apply after_open_ext. exact (Hl o eq_refl n Hn).
    - (* filter *)
      assert (load_filter e (w_disk w1) (o_skip o || cf_skip_invalid c) o f names = load_filter e (w_disk w2) (o_skip o || cf_skip_invalid c) o f names) as El.
      { unfold load_filter.
        rewrite (load_tables_ext (w_disk w1) (w_disk w2) (o_allow o)) by (intros n Hn; apply (Hl o eq_refl); left; exact Hn).
        rewrite (load_tables_ext (w_disk w1) (w_disk w2) (o_deny o)) by (intros n Hn; apply (Hl o eq_refl); right; exact Hn). reflexivity. }
      rewrite El. apply filter_twice; [exact Hstdin| | |].
      + intros Ha n Hn. split; [exact Ha|exact Hn].
      + cbn [fa_expr_file fa_filter fa_names load_filter]. intros n Hn. unfold filter_names in Hn.
        destruct (fi_expr_file f) as [x|] eqn:Ex.
        * assert (In n names \/ n = fi_expr f) as [Hin|Hin]; [|exact (Hi n Hin)|].
          { destruct (true && negb (bytes_eqb (fi_expr f) [])); [|left; exact Hn].
            destruct (list_eqb bytes_eqb names [lit "-"]); destruct Hn as [Hn|Hn]; auto. contradiction. }
          apply Hu. exact (us_expr e w1 _ o f append gzip output tee names x n eq_refl Ex (or_intror Hin)).
        * exact (Hi n Hn).
      + cbn [fa_expr_file load_filter]. intros n Hn. apply Hu. exact (us_expr e w1 _ o f append gzip output tee names n n eq_refl Hn (or_introl eq_refl)).
    - unfold load_columns. rewrite (load_opts_ext (w_disk w1) (w_disk w2) o (Hl o eq_refl)). apply freq_twice; [exact Hstdin|exact Hi].
    - rewrite (load_opts_ext (w_disk w1) (w_disk w2) o (Hl o eq_refl)). apply hash_twice; [exact Hstdin|exact Hi].
    - apply invalid_twice; [exact Hstdin|exact Hi].
    - rewrite (load_opts_ext (w_disk w1) (w_disk w2) o (Hl o eq_refl)). apply partition_twice; [exact Hstdin|exact Horder|exact Hi].
    - rewrite (load_opts_ext (w_disk w1) (w_disk w2) o (Hl o eq_refl)). apply print_twice; [exact Hstdin|exact Hi].
    - rewrite (load_opts_ext (w_disk w1) (w_disk w2) o (Hl o eq_refl)). apply sample_twice; [exact Hstdin|exact Hi].
    - unfold load_columns. rewrite (load_opts_ext (w_disk w1) (w_disk w2) o (Hl o eq_refl)). apply select_twice; [exact Hstdin| |exact Hi].
      intros Ha n Hn. split; [exact Ha|exact Hn].
    - rewrite (load_opts_ext (w_disk w1) (w_disk w2) o (Hl o eq_refl)). apply slice_twice; [exact Hstdin| |exact Hi].
      intros Ha n Hn. split; [exact Ha|exact Hn].
    - rewrite (load_opts_ext (w_disk w1) (w_disk w2) o (Hl o eq_refl)). apply split_twice; [exact Hstdin|exact Hi].
  Qed.
End Depend.

(** * Proofs: what follows from a command line *)

From Coq Require Import String.
From Verif Require Import Bytes BaseProofs Winnow Utf8Spec Utf8Model Utf8Proofs RecordModel MatcherModel StateParser MatcherParserModel BuilderModel PathModel CliModel
  ExplodeModel ConvertModel CsvModel OptionsModel OptionsSpec ConfigModel DiskModel DirModel RuleModel ClapModel MainModel ArgsModel ArgsSpec ClapProofs ClapValues
  ArgsProofs ArgsCommands ArgsLine.
From Verif Require RunSpec MainSpec DiskProofs RunProofs.

Section Effects.
  Variable e : env.
  Variable draws : option N -> N -> N.

  (** ** The order of the options *)

  Section Same.
    Variables its its' : list item.
    Hypothesis S : same_items its its'.

    Lemma same_switch : forall n b, switch its n b -> switch its' n b.
    Proof. destruct S as (S1 & _ & _). intros n b H. unfold switch in *. rewrite <- S1. exact H. Qed.
    Lemma same_values : forall n, values its n = values its' n.
    Proof. apply S. Qed.
    Lemma same_names : names its = names its'.
    Proof. apply S. Qed.
    Lemma same_progress : forall P, progress its P -> progress its' P.
    Proof. intros P (b & H & K). exists b. split; [apply same_switch, H|exact K]. Qed.
    Lemma same_common : forall o, asks_common e its o -> asks_common e its' o.
    Proof.
      intros o H. unfold asks_common, ArgsSpec.number_or, files, text, texts, value in *. rewrite <- !same_values.
      repeat (let X := fresh "X" in destruct H as [X H]; split; [first [exact X|apply same_switch; exact X]|]). exact H.
    Qed.
    Lemma same_shared : forall o, asks_shared e its o -> asks_shared e its' o.
    Proof. intros o (H1 & H2 & H3). split; [apply same_common, H1|]. split; [|exact H3]. unfold text, value in *. rewrite <- same_values. exact H2. Qed.
    Lemma same_columns : forall q, asks_columns its q -> asks_columns its' q.
    Proof.
      intros q (X1 & X2 & X3 & X4 & X5 & X6). split; [unfold text_or; rewrite <- same_values; exact X1|].
      split; [apply same_switch, X2|]. split; [apply same_switch, X3|]. split; [unfold text, value; rewrite <- same_values; exact X4|]. auto.
    Qed.
    Lemma same_mode : forall m, asks_mode its m -> asks_mode its' m.
    Proof.
      intros m (a & b & c & d & f & g & H1 & H2 & H3 & H4 & H5 & H6 & H7). exists a, b, c, d, f, g.
      repeat (split; [apply same_switch; assumption|]). exact H7.
    Qed.

    Lemma same_asks : forall name k, asks e draws name its k -> asks e draws name its' k.
    Proof.
      intros name k H.
      inversion H; subst; econstructor; try rewrite <- same_names;
        try solve [apply same_common; eassumption|apply same_shared; eassumption|apply same_columns; eassumption|apply same_mode; eassumption
          |apply same_progress; eassumption|apply same_switch; eassumption];
        unfold text, file, texts, files, text_or, file_or, ArgsSpec.number_or, choice_or, choice in *; unfold value in *; rewrite <- ?same_values; eauto.
    Qed.
  End Same.

  Lemma same_sym : forall its its', same_items its its' -> same_items its' its.
  Proof. intros its its' (A & B & C). split; [|split]; intros; symmetry; auto. Qed.

  (** ** What the commands can rely on *)

  Lemma number_small : forall its n d k, ArgsSpec.number_or its n d k -> d < 2 ^ 64 -> k < 2 ^ 64.
  Proof. intros its n d k [[_ ->]|(t & _ & H & _)] L; assumption. Qed.

  Lemma common_orderly : forall its o, asks_common e its o -> orderly_opts o.
  Proof.
    intros its o H. unfold asks_common in H. decompose [and] H. split; [|split].
    - eapply number_small; [eassumption|reflexivity].
    - match goal with X : _ \/ exists t, _ |- _ => destruct X as [[_ ->]|(t & _ & R & _)]; [reflexivity|lia] end.
    - assumption.
  Qed.
  Lemma shared_orderly : forall its o, asks_shared e its o -> with_where o.
  Proof. intros its o (H1 & _ & H3). split; [eapply common_orderly, H1|exact H3]. Qed.
  Lemma reading_some : forall rest l, reading rest l -> l <> [].
  Proof. intros rest l [[H ->]|[_ ->]]; [exact H|discriminate]. Qed.
  Lemma columns_one : forall its q, asks_columns its q -> ~ (co_squash q = true /\ co_merge q = true).
  Proof. intros its q (_ & _ & _ & _ & _ & H) [A B]. rewrite A, B in H. discriminate. Qed.
  Lemma not_and : forall a b : bool, a && b = false -> ~ (a = true /\ b = true).
  Proof. intros a b H [-> ->]. discriminate. Qed.
  Lemma range_between : forall t n, range_text 1 4294967295 t n -> 1 <= n < 2 ^ 32.
  Proof. intros t n [H _]. change (2 ^ 32) with 4294967296. lia. Qed.

  Lemma asks_orderly : forall name its k, asks e draws name its k -> orderly k.
  Proof.
    intros name its k H. inversion H; subst; cbn [orderly];
      repeat match goal with
             | |- _ /\ _ => split
             | |- with_where _ => eapply shared_orderly; eassumption
             | |- orderly_opts _ => eapply common_orderly; eassumption
             | |- _ <> [] => first [eapply reading_some; eassumption|assumption]
             | |- ~ (co_squash _ = true /\ _) => eapply columns_one; eassumption
             | |- ~ (_ = true /\ _ = true) => apply not_and; assumption
             | X : range_text 1 _ _ ?n |- 1 <= ?n => apply (range_between _ _ X)
             | X : range_text 1 _ _ ?n |- ?n < _ => apply (range_between _ _ X)
             | X : ArgsSpec.number_or _ _ _ ?n |- ?n < _ => apply (number_small _ _ _ _ X); reflexivity
             | X : file _ _ ?o |- ?o <> Some [] => apply X
             end; try assumption.
    - (* config *)
      destruct v as [v|]; [destruct H6 as [-> ->]; [discriminate|]|destruct H5 as [-> E]; [reflexivity|]];
        unfold fitting; cbn; [intuition discriminate|]. apply not_and in E. intuition discriminate.
    - (* partition *)
      match goal with X : file_or _ _ _ _ |- _ => destruct X as [[_ ->]|[_ X]]; [discriminate|exact X] end.
    - (* slice *)
      match goal with X : _ \/ _ |- _ => destruct X as [X|X] end;
        [left; match goal with Y : ArgsSpec.number_or _ "end" _ _ |- _ => destruct Y as [[_ Y]|(t & Y & _)]; [exact Y|congruence] end
        |right; match goal with Y : ArgsSpec.number_or _ "length" _ _ |- _ => destruct Y as [[_ Y]|(t & Y & _)]; [exact Y|congruence] end].
    - (* split *)
      match goal with X : file_or _ _ _ _ |- _ => destruct X as [[_ ->]|[_ X]]; [discriminate|exact X] end.
  Qed.

  (** ** What a line with given items asks for *)

  Lemma items_line : forall c before word after its config config' k,
    config_words config before -> word_for c word -> spelled (snd c) its after ->
    (line_asks e draws (before ++ word :: after) config' k <-> config' = config /\ asks e draws (fst (fst c)) its k).
  Proof.
    intros c before word after its config config' k Cw W S. split.
    - intros H. apply line_iff in H. unfold read_line in H.
      assert (P : parse_args main_args 0 [] (before ++ word :: after) = PGiven (config_entry config, Some (lit (fst (fst c)), after))).
      { apply main_iff. exists config, before, word. split; [reflexivity|]. split; [exact Cw|]. split; [|reflexivity]. apply infer_iff. exists c. auto. }
      rewrite P in H. cbn [pbind] in H. destruct (bytes_eqb (lit (fst (fst c))) (lit "help")) eqn:E.
      { exfalso. destruct after as [|x [|y r]]; [discriminate| |discriminate]. destruct (find_subcommand command_names x); discriminate. }
      destruct (args_of e draws (lit (fst (fst c)))) as [[s make]|] eqn:A; [|discriminate]. apply pbind_given in H as (m & R & H).
      destruct (make m) as [a|] eqn:M; [|discriminate]. rewrite config_back in H. injection H as -> ->. split; [reflexivity|].
      assert (N : fst (fst c) <> "help"%string) by (intros X; rewrite X in E; discriminate).
      assert (Nc : fst (fst c) <> "completions"%string).
      { intros X. destruct (completions_row e draws c (proj1 W) X) as [A' _]. rewrite A in A'. assert (make = make_completions) as -> by congruence.
        unfold make_completions in M. destruct (get_one m (lit "shell")); discriminate. }
      destruct (by_name e draws c (proj1 W) N Nc) as (s' & make' & A' & T & Ns & Tb & As). rewrite A in A'. injection A' as <- <-. rewrite <- Tb in S.
      assert (Ty : typed s its) by (eapply spelled_typed; eassumption). apply As; [exact Ty|]. exists m.
      unfold read_args in R. rewrite (spelled_parse s T Ns _ _ S) in R. apply pbind_given in R as ([m1 sub] & R1 & R2).
      apply pbind_given in R1 as (m2 & R1 & E2). injection E2 as <- <-. destruct (valid s m2) eqn:V; [|discriminate]. injection R2 as <-.
      apply take_iff in R1 as (l & L & El & F); [|exact T|exact Ty|apply fits_nil]. cbn [app] in El. subst l. auto.
    - intros [-> Ak]. exists c, before, word, after, its. auto.
  Qed.

  Lemma order_line : forall c before word after after' its its' config k,
    config_words config before -> word_for c word -> spelled (snd c) its after -> spelled (snd c) its' after' -> same_items its its' ->
    forall config', line_asks e draws (before ++ word :: after) config' k <-> line_asks e draws (before ++ word :: after') config' k.
  Proof.
    intros c before word after after' its its' config k Cw W S S' Sm config'.
    rewrite (items_line c before word after its config config' k Cw W S), (items_line c before word after' its' config config' k Cw W S').
    split; intros [-> H]; (split; [reflexivity|]); eapply same_asks; [exact Sm|exact H|apply same_sym, Sm|exact H].
  Qed.

  (** ** The program *)

  Variables (help : list bytes -> bytes) (version : bytes) (completions : bytes -> bytes).

  Lemma program_runs : forall ts config k w, line_asks e draws ts config k ->
    program e draws help version completions ts w = run e (mkInvocation config k) w.
  Proof. intros ts config k w H. apply line_iff in H. unfold program. rewrite H. reflexivity. Qed.

  Lemma one_meaning : forall ts c1 k1 c2 k2, line_asks e draws ts c1 k1 -> line_asks e draws ts c2 k2 -> c1 = c2 /\ k1 = k2.
  Proof. intros ts c1 k1 c2 k2 H1 H2. apply line_iff in H1, H2. rewrite H1 in H2. injection H2 as -> ->. auto. Qed.

  Lemma not_both_meanings : forall ts c1 k c2 shell output, line_asks e draws ts c1 k -> ~ line_completes ts c2 shell output.
  Proof. intros ts c1 k c2 shell output H1 H2. apply line_iff in H1. apply (completes_iff e draws) in H2. rewrite H1 in H2. discriminate. Qed.

  Lemma program_completes : forall ts config shell output w conf k, line_completes ts config shell output ->
    RunSpec.settings e (mkInvocation config k) w conf ->
    match output with
    | None => program e draws help version completions ts w
                = Some (CEnded 0, mkWorld (w_disk w) (w_stdin w) (w_stdout w ++ completions shell))
    | Some n => e_writable e n = false /\ program e draws help version completions ts w = Some (CRefused, w)
        \/ exists d, program e draws help version completions ts w = Some (CEnded 0, mkWorld d (w_stdin w) (w_stdout w))
             /\ disk_get d n = Some (completions shell) /\ (forall n', n' <> n -> disk_get d n' = disk_get (w_disk w) n')
    end.
  Proof.
    intros ts config shell output w conf k H St. apply (completes_iff e draws) in H. unfold program. rewrite H.
    assert (E : let '(p, n) := place e (mkInvocation config (KInvalid None [])) in config_start (e_config_toml e) p (file_on (w_disk w) n) = LConfig conf).
    { unfold place. cbn [in_config]. destruct St as [n t c Hn Hg Hu Ht|n Hn Hg|Hn|n t Hn Hg Hu]; unfold MainSpec.config_name in *; cbn [in_config] in *.
      - apply utf8_valid_iff in Hu. destruct config as [m|].
        + injection Hn as ->. cbn. rewrite Hg. cbn. rewrite Hu, Ht. reflexivity.
        + rewrite Hn. cbn. rewrite Hg. cbn. rewrite Hu, Ht. reflexivity.
      - destruct config as [m|].
        + injection Hn as ->. cbn. rewrite Hg. reflexivity.
        + rewrite Hn. cbn. rewrite Hg. reflexivity.
      - destruct config as [m|]; [discriminate|]. rewrite Hn. reflexivity.
      - rewrite Hn. cbn. rewrite Hg. cbn. destruct (utf8_valid t) eqn:E; [|reflexivity]. apply utf8_valid_iff in E. contradiction. }
    destruct (place e (mkInvocation config (KInvalid None []))) as [p n]. rewrite E. unfold completions_on_disk, open_output, close_output. cbn [out_name out_gz out_append].
    destruct output as [x|]; [|destruct w; reflexivity]. destruct (e_writable e x); [|left; auto]. right.
    cbn [w_disk with_disk w_stdin w_stdout]. unfold with_disk. cbn [w_disk with_disk w_stdin w_stdout]. eexists. split; [reflexivity|].
    rewrite !DiskProofs.disk_get_same. split; [reflexivity|]. intros n' Hn. rewrite !DiskProofs.disk_get_other by congruence. reflexivity.
  Qed.

  Lemma program_else : forall ts w, (forall config k, ~ line_asks e draws ts config k) -> (forall config shell output, ~ line_completes ts config shell output) ->
    program e draws help version completions ts w = Some (CRefused, w)
    \/ exists t, program e draws help version completions ts w = Some (CEnded 0, mkWorld (w_disk w) (w_stdin w) (w_stdout w ++ t)).
  Proof.
    intros ts w N1 N2. unfold program. destruct (read_line e draws ts) as [[config [k|shell output]]| | |] eqn:R.
    - apply line_iff in R. destruct (N1 _ _ R).
    - apply completes_iff in R. destruct (N2 _ _ _ R).
    - right. eexists. reflexivity.
    - right. eexists. reflexivity.
    - left. reflexivity.
  Qed.
End Effects.

(** ** Completions with a configuration that cannot be read *)

Lemma program_unconfigured : forall e draws help version completions ts config shell output w n t k, line_completes ts config shell output ->
  MainSpec.config_name e (mkInvocation config k) = Some n -> disk_get (w_disk w) n = Some t ->
  (config = None -> ~ is_utf8 t -> program e draws help version completions ts w = Some (CRefused, w))
  /\ (is_utf8 t -> e_config_toml e t = None -> program e draws help version completions ts w = Some (CPanicked, w)).
Proof.
  intros e draws help version completions ts config shell output w n t k H Hn Hg. apply (completes_iff e draws) in H. unfold program. rewrite H.
  unfold MainSpec.config_name in Hn. cbn [in_config] in Hn. unfold place. cbn [in_config]. split.
  - intros -> Hu. rewrite Hn. cbn. rewrite Hg. cbn. destruct (utf8_valid t) eqn:E; [|reflexivity]. apply utf8_valid_iff in E. contradiction.
  - intros Hu Ht. apply utf8_valid_iff in Hu. destruct config as [m|]; [injection Hn as ->|rewrite Hn]; cbn; rewrite Hg; cbn; rewrite Hu, Ht; reflexivity.
Qed.

(** ** slice with --gzip and --append *)

Lemma names_spelled : forall options fs, Forall bare fs -> spelled options (map IName fs) fs.
Proof. intros options fs H. induction H; [constructor|]. cbn [map]. constructor; assumption. Qed.

Lemma names_of_names : forall fs, names (map IName fs) = fs.
Proof. induction fs as [|f fs IH]; [reflexivity|]. cbn. f_equal. exact IH. Qed.
Lemma values_of_names : forall fs n, values (map IName fs) n = [].
Proof. induction fs as [|f fs IH]; intros n; [reflexivity|]. cbn. apply IH. Qed.
Lemma switched_of_names : forall fs n, switched (map IName fs) n = [].
Proof. induction fs as [|f fs IH]; intros n; [reflexivity|]. cbn. apply IH. Qed.

Lemma slice_both : forall e draws fs, Forall bare fs ->
  line_asks e draws (lit "slice" :: lit "-ga" :: fs) None
    (KSlice (mkFileOpts false 0 false 75 [] [] None None None [] [] []) true true None 0 0 0 (match fs with [] => [lit "-"] | _ => fs end)).
Proof.
  intros e draws fs B.
  set (c := ("slice"%string, @nil string, [va "start" ""; va "end" ""; va "length" ""; sw "gzip" "g"; sw "append" "a"] ++ output_options ++ shared_options)).
  assert (Hc : In c commands) by (unfold commands, c; repeat (first [left; reflexivity|right])).
  set (its := ISwitch (lit "gzip") :: ISwitch (lit "append") :: map IName fs).
  assert (V : forall n, values its n = []) by (intros n; unfold its; cbn; apply values_of_names).
  assert (Sw : forall n, switched its n = (if bytes_eqb (lit "gzip") n then [ISwitch (lit "gzip")] else [])
                                        ++ (if bytes_eqb (lit "append") n then [ISwitch (lit "append")] else [])).
  { intros n. unfold its, switched. cbn [filter].
    change (filter (fun i => match i with ISwitch x => bytes_eqb x n | _ => false end) (map IName fs)) with (switched (map IName fs) n).
    rewrite switched_of_names. destruct (bytes_eqb (lit "gzip") n), (bytes_eqb (lit "append") n); reflexivity. }
  exists c, [], (lit "slice"), (lit "-ga" :: fs), its. split; [reflexivity|]. split; [constructor|]. split.
  { split; [exact Hc|]. left. exists "slice"%string. split; [left|]; reflexivity. }
  split.
  - apply (sp_letters (snd c) [ISwitch (lit "gzip"); ISwitch (lit "append")] (lit "ga")); [|discriminate|apply names_spelled, B].
    repeat constructor; exists true; unfold c; cbn [snd app]; repeat (first [left; reflexivity|right]).
  - assert (T : forall n, text its n None) by (intros n; split; [apply V|discriminate]).
    assert (T2 : forall n, texts its n []) by (intros n; split; [apply V|constructor]).
    assert (F2 : forall n, files its n []) by (intros n; split; [apply V|constructor]).
    apply as_slice; try (left; split; [apply V|reflexivity]); try (unfold switch; rewrite Sw; reflexivity); try apply V.
    + split; [|split; [apply T|cbn; intuition congruence]]. unfold asks_common. cbn [o_skip o_limit o_ci o_threshold o_allow o_deny o_column o_source o_where o_and o_or o_not].
      split; [unfold switch; rewrite Sw; reflexivity|]. split; [left; split; [apply V|reflexivity]|]. split; [unfold switch; rewrite Sw; reflexivity|].
      split; [left; split; [apply V|reflexivity]|]. repeat (split; [first [apply F2|apply T|apply T2|apply V]|]).
      split; [discriminate|]. repeat (split; [apply T2|]). intros X. congruence.
    + left. apply V.
    + exists false. split; [unfold switch; rewrite Sw; reflexivity|discriminate].
    + change (names its) with (names (map IName fs)). rewrite names_of_names. destruct fs; [right; auto|left; split; [discriminate|reflexivity]].
Qed.

Lemma slice_panics : forall e draws help version completions fs w conf k, Forall bare fs ->
  RunSpec.settings e (mkInvocation None k) w conf ->
  program e draws help version completions (lit "slice" :: lit "-ga" :: fs) w = Some (CPanicked, w).
Proof.
  intros e draws help version completions fs w conf k B St. erewrite program_runs by (apply slice_both, B).
  rewrite (RunProofs.run_settings e _ w conf).
  - cbn [in_command]. unfold execute, slice_on_disk. vm_compute. reflexivity.
  - reflexivity.
  - destruct St; [eapply RunSpec.se_file|eapply RunSpec.se_missing|eapply RunSpec.se_nowhere|eapply RunSpec.se_illegible]; eassumption.
Qed.

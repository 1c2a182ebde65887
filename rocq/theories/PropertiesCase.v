(** * Properties of --ignore-case and --strsim-threshold *)

From Coq Require Import String ZArith.
From Verif Require Import Bytes BaseProofs RecordModel TagOccModel MatcherModel BuilderModel CliModel CsvModel ConvertModel ConfigModel OptionsModel PrepareModel IoModel DiskModel MainModel QuerySpec MainSpec PipeSpec
  PartsSpec DealtSpec CaseSpec CaseProofs CaseRunProofs OptionsProofs PropertiesCli PropertiesQuery PropertiesTable PropertiesDisk PropertiesMatcher PropertiesMain PropertiesFront PropertiesRecordwise.
From Verif Require RunSpec StateParser.

(** ** C139: to ignore case finds at least as much

    A matcher of "==", "=^", "=$", "=?", "in", of existence and numbers, joined by "&&" and "||", matches with
    --ignore-case whatever it matches without; one of "!=", "!^", "!$", "not in" matches without whatever it matches
    with; "!" exchanges the two. *)
Theorem C139_match : forall O, lower_of_parts O -> forall up m r, field_moves singleton_moves up m ->
  exists b b', rm_is_match O false m r = Some b /\ rm_is_match O true m r = Some b' /\ moved up b b'.
Proof. exact case_side. Qed.
Print Assumptions C139_match.

(** "pica filter -i" writes every line that "pica filter" writes, in the same order; for the other side, or with
    --invert-match, it is the other way round. *)
Theorem C139_filter : forall e cfg o W invert names w c m up t1 t2, o_ci o = false -> o_limit o = 0 -> o_source o = None ->
  lower_of_parts (oracles_for e o) ->
  RunSpec.settings e (mkInvocation cfg (sifted o W invert names)) w c ->
  fst (builder_run (oracles_for e o) (translit e (cf_normalization c)) StateParser.fresh W [CallAnd (o_and o); CallOr (o_or o); CallNot (o_not o)]) = Some (Some m) ->
  field_moves singleton_moves up m ->
  run_writes e cfg w (sifted o W invert names) t1 -> run_writes e cfg w (sifted (ignoring o) W invert names) t2 ->
  exists t', if xorb up invert then dealt t1 t' t2 else dealt t2 t' t1.
Proof. exact run_ignoring. Qed.
Print Assumptions C139_filter.

(** ** Samples *)

Lemma sample_lower_of_parts : lower_of_parts sample_oracles.
Proof. intros a b c _. cbn [sample_oracles o_lower]. rewrite !map_app. reflexivity. Qed.

Definition case_world : world :=
  mkWorld [(lit "c.dat", main_line "1" (lit "xab") umlaut ++ main_line "2" (lit "Xab") umlaut ++ main_line "3" (lit "y") umlaut)] [] [].

Ltac case_moves := repeat (first [reflexivity | apply fi_or | apply fi_and | apply fi_subfields | apply sub_one | apply sm_starts | apply sm_eq | apply sm_ne | apply fi_not | apply fi_exists
  | apply fi_group | apply fi_at_least; [auto|] | apply sub_and | apply sub_or | apply sub_not | apply sub_group | apply sm_card | apply sm_exists | apply sm_in | apply sm_contains; [repeat constructor|]]).

(** "xab" without, "xab" and "Xab" with --ignore-case *)
Example C139_sample : exists m t',
  fst (builder_run sample_oracles (translit main_env None) StateParser.fresh (lit "012A.a =^ 'x' && #012A{ a =^ 'x' || a in ['xab'] } >= 1") [CallAnd []; CallOr []; CallNot []]) = Some (Some m)
  /\ dealt (main_line "1" (lit "xab") umlaut) t' (main_line "1" (lit "xab") umlaut ++ main_line "2" (lit "Xab") umlaut).
Proof.
  assert (H : exists m, fst (builder_run sample_oracles (translit main_env None) StateParser.fresh (lit "012A.a =^ 'x' && #012A{ a =^ 'x' || a in ['xab'] } >= 1") [CallAnd []; CallOr []; CallNot []]) = Some (Some m)
    /\ field_moves singleton_moves true m).
  { eexists. split; [vm_compute; reflexivity|]. case_moves. }
  destruct H as (m & Hm & M).
  assert (D := C139_filter main_env None no_opts (lit "012A.a =^ 'x' && #012A{ a =^ 'x' || a in ['xab'] } >= 1") false [lit "c.dat"] case_world (mkConfig false None) m true
    (main_line "1" (lit "xab") umlaut) (main_line "1" (lit "xab") umlaut ++ main_line "2" (lit "Xab") umlaut)).
  destruct D as (t' & D); try reflexivity.
  - exact sample_lower_of_parts.
  - eapply RunSpec.se_missing; reflexivity.
  - exact Hm.
  - exact M.
  - eexists. split; [vm_compute; reflexivity|reflexivity].
  - eexists. split; [vm_compute; reflexivity|reflexivity].
  - eexists. exists t'. split; [vm_compute; reflexivity|]. exact D.
Qed.

(** On the other side: "xab" is not written with --ignore-case, since it is equal to "XAB" then. *)
Example C139_sample_not : exists t', dealt (main_line "3" (lit "y") umlaut) t' (main_line "1" (lit "xab") umlaut ++ main_line "2" (lit "Xab") umlaut ++ main_line "3" (lit "y") umlaut).
Proof.
  assert (H : exists m, fst (builder_run sample_oracles (translit main_env None) StateParser.fresh (lit "012A.a != 'XAB'") [CallAnd []; CallOr []; CallNot []]) = Some (Some m)
    /\ field_moves singleton_moves false m).
  { eexists. split; [vm_compute; reflexivity|]. case_moves. }
  destruct H as (m & Hm & M).
  apply (C139_filter main_env None no_opts (lit "012A.a != 'XAB'") false [lit "c.dat"] case_world (mkConfig false None) m false
    (main_line "1" (lit "xab") umlaut ++ main_line "2" (lit "Xab") umlaut ++ main_line "3" (lit "y") umlaut)); try reflexivity.
  - exact sample_lower_of_parts.
  - eapply RunSpec.se_missing; reflexivity.
  - exact Hm.
  - exact M.
  - eexists. split; [vm_compute; reflexivity|reflexivity].
  - eexists. split; [vm_compute; reflexivity|reflexivity].
Qed.

(** "^" and "== 1" for a number of fields are on neither side. *)
Theorem C139_xor_refuted : exists e cfg w t1, lower_of_parts (oracles_for e no_opts)
  /\ run_writes e cfg w (sifted no_opts (lit "012A.a == 'xab' ^ 012A.a == 'XAB'") false [lit "c.dat"]) t1 /\ t1 <> []
  /\ run_writes e cfg w (sifted (ignoring no_opts) (lit "012A.a == 'xab' ^ 012A.a == 'XAB'") false [lit "c.dat"]) [].
Proof.
  exists main_env, None, case_world. eexists. split; [exact sample_lower_of_parts|]. split; [eexists; split; [vm_compute; reflexivity|reflexivity]|].
  split; [discriminate|]. eexists. split; [vm_compute; reflexivity|]. symmetry. apply app_nil_r.
Qed.
Print Assumptions C139_xor_refuted.

Definition number_world : world :=
  mkWorld [(lit "c.dat", lit "003@ " ++ [31] ++ lit "01" ++ [30] ++ lit "012A " ++ [31] ++ lit "ax" ++ [30] ++ lit "012A " ++ [31] ++ lit "aX" ++ [30; 10])] [] [].

Theorem C139_number_refuted : exists e cfg w t1, lower_of_parts (oracles_for e no_opts)
  /\ run_writes e cfg w (sifted no_opts (lit "#012A{ a == 'x' } == 1") false [lit "c.dat"]) t1 /\ t1 <> []
  /\ run_writes e cfg w (sifted (ignoring no_opts) (lit "#012A{ a == 'x' } == 1") false [lit "c.dat"]) [].
Proof.
  exists main_env, None, number_world. eexists. split; [exact sample_lower_of_parts|]. split; [eexists; split; [vm_compute; reflexivity|reflexivity]|].
  split; [discriminate|]. eexists. split; [vm_compute; reflexivity|]. symmetry. apply app_nil_r.
Qed.
Print Assumptions C139_number_refuted.

(** ** C140: a lower threshold finds at least as much

    An expression in which "=*" stands under no "!" matches with a lower --strsim-threshold whatever it matches with a
    higher one; if it stands under "!" only, it is the other way round. *)
Theorem C140_match : forall O O' ci, no_stricter O O' -> forall up m r, field_moves (similar_moves O ci) up m ->
  exists b b', rm_is_match O ci m r = Some b /\ rm_is_match O' ci m r = Some b' /\ moved up b b'.
Proof. exact similar_side. Qed.
Print Assumptions C140_match.

Theorem C140_filter : forall e cfg o n W invert names w c m up t1 t2, by_degree e -> n <= o_threshold o -> o_limit o = 0 -> o_source o = None ->
  RunSpec.settings e (mkInvocation cfg (sifted o W invert names)) w c ->
  fst (builder_run (oracles_for e o) (translit e (cf_normalization c)) StateParser.fresh W [CallAnd (o_and o); CallOr (o_or o); CallNot (o_not o)]) = Some (Some m) ->
  field_moves (similar_moves (oracles_for e o) (o_ci o)) up m ->
  run_writes e cfg w (sifted o W invert names) t1 -> run_writes e cfg w (sifted (at_threshold n o) W invert names) t2 ->
  exists t', if xorb up invert then dealt t1 t' t2 else dealt t2 t' t1.
Proof. exact run_threshold. Qed.
Print Assumptions C140_filter.

(** texts of the same length are similar to half *)
Definition degree_oracles (n : N) : oracles :=
  mkOracles (fun b => b) (fun _ a b => n <? (if bytes_eqb a b then 100 else if Nat.eqb (length a) (length b) then 50 else 0)) (fun _ _ => true) (fun _ _ => true) (fun _ _ _ => false).

Definition degree_env : env :=
  mkEnv toy_enc toy_dec all_writable (fun _ => true) degree_oracles (fun n => n) (fun _ => compose) sample_sha sample_lossy
    sample_text (fun _ => false) sample_hash (fun b => b) (fun _ b => Some [(lit "ppn", [Some b])])
    (fun _ x => flat_map (fun row => fst row) (snd x)) (fun x => x) (fun x => x) (fun x => x) (fun x => x) (fun x => x) (fun x => x)
    (fun z => Z.to_N z) (fun _ _ => true) (fun _ _ => true) (fun _ => None) (fun _ => None) sample_from_toml (Some (lit "home.toml")).

Lemma degree_sample : by_degree degree_env.
Proof.
  intros n n' Hn. repeat split. intros ci a b H. cbn in *. apply N.ltb_lt in H. apply N.ltb_lt. eapply N.le_lt_trans; [exact Hn|exact H].
Qed.

(** the first two records with 40, the first only with 80 *)
Example C140_sample : exists t', dealt (main_line "1" (lit "xab") umlaut) t' (main_line "1" (lit "xab") umlaut ++ main_line "2" (lit "Xab") umlaut).
Proof.
  assert (H : exists m, fst (builder_run (oracles_for degree_env no_opts) (translit degree_env None) StateParser.fresh (lit "012A.a =* 'xab' && !012A{ b == 'q' }") [CallAnd []; CallOr []; CallNot []]) = Some (Some m)
    /\ field_moves (similar_moves (oracles_for degree_env no_opts) false) true m).
  { eexists. split; [vm_compute; reflexivity|]. apply fi_and; [apply fi_subfields, sub_one, si_similar|]. apply fi_not, fi_subfields, sub_one. apply si_relation; [discriminate|reflexivity]. }
  destruct H as (m & Hm & M).
  apply (C140_filter degree_env None no_opts 40 (lit "012A.a =* 'xab' && !012A{ b == 'q' }") false [lit "c.dat"] case_world (mkConfig false None) m true
    (main_line "1" (lit "xab") umlaut) (main_line "1" (lit "xab") umlaut ++ main_line "2" (lit "Xab") umlaut)); try reflexivity.
  - exact degree_sample.
  - vm_compute. discriminate.
  - eapply RunSpec.se_missing; reflexivity.
  - exact Hm.
  - exact M.
  - eexists. split; [vm_compute; reflexivity|reflexivity].
  - eexists. split; [vm_compute; reflexivity|reflexivity].
Qed.

(** * Properties of the order of the inputs *)

From Coq Require Import String Permutation.
From Verif Require Import Bytes BaseProofs RecordModel MatcherModel BuilderModel CliModel CsvModel CsvSpec ConvertModel OptionsModel IoModel TableModel DiskModel MainModel MainSpec PipeSpec
  TallySpec ReorderSpec ReorderProofs PropertiesDisk PropertiesMain PropertiesFront PropertiesRecordwise PropertiesTally.

(** ** C145: count, frequency and describe do not depend on the order of their inputs

    When the command succeeds, it succeeds for every other order of the inputs and leaves exactly the same files and the same text on stdout.
    Inputs may be named several times, and stdin may be among them, also several times.  The hash maps may be iterated in other orders. *)
Theorem C145_count : forall e cfg o append output m names names' w w', Permutation names names' ->
  run e (mkInvocation cfg (KCount o append output m names)) w = Some (CEnded 0, w') ->
  run e (mkInvocation cfg (KCount o append output m names')) w = Some (CEnded 0, w').
Proof. exact run_count_reorder. Qed.
Print Assumptions C145_count.

Theorem C145_frequency : forall e fr ta cfg o q unique num threshold reverse nf tsv output names names' w w', (forall x, Permutation (e_freq_order e x) x) ->
  (forall x, Permutation (fr x) x) -> o_limit o = 0 -> Permutation names names' ->
  run e (mkInvocation cfg (KFrequency o q unique num threshold reverse nf tsv output names)) w = Some (CEnded 0, w') ->
  run (reordered e fr ta) (mkInvocation cfg (KFrequency o q unique num threshold reverse nf tsv output names')) w = Some (CEnded 0, w').
Proof. exact run_frequency_reorder. Qed.
Print Assumptions C145_frequency.

Theorem C145_describe : forall e fr ta cfg o discard keep csv tsv output names names' w w', (forall x, Permutation (e_tag_order e x) x) ->
  (forall x, Permutation (ta x) x) -> o_limit o = 0 -> Permutation names names' ->
  run e (mkInvocation cfg (KDescribe o discard keep csv tsv output names)) w = Some (CEnded 0, w') ->
  run (reordered e fr ta) (mkInvocation cfg (KDescribe o discard keep csv tsv output names')) w = Some (CEnded 0, w').
Proof. exact run_describe_reorder. Qed.
Print Assumptions C145_describe.

(** stdin and a file that is read twice *)
Definition one_order : list bytes := [lit "-"; lit "b.dat"; lit "b.dat"].
Definition other_order : list bytes := [lit "b.dat"; lit "b.dat"; lit "-"].

Lemma orders : Permutation one_order other_order.
Proof. apply (Permutation_app_comm [lit "-"] [lit "b.dat"; lit "b.dat"]). Qed.

Example C145_sample :
  (forall x : ftable, Permutation (e_freq_order main_env x) x) /\ (forall x : tag_counts, Permutation (e_tag_order main_env x) x)
  /\ (exists w', run main_env (mkInvocation None (KCount no_opts false None MSubfields one_order)) wise_world = Some (CEnded 0, w')
      /\ run main_env (mkInvocation None (KCount no_opts false None MSubfields other_order)) wise_world = Some (CEnded 0, w'))
  /\ (exists w', run main_env (mkInvocation None (tallied no_opts tally_query false one_order)) wise_world = Some (CEnded 0, w')
      /\ run (reordered main_env (@rev _) (@rev _)) (mkInvocation None (tallied no_opts tally_query false other_order)) wise_world = Some (CEnded 0, w'))
  /\ (exists w', run main_env (mkInvocation None (KDescribe no_opts None None true false None one_order)) wise_world = Some (CEnded 0, w')
      /\ run (reordered main_env (@rev _) (@rev _)) (mkInvocation None (KDescribe no_opts None None true false None other_order)) wise_world = Some (CEnded 0, w')).
Proof.
  assert (H1 : forall x : ftable, Permutation (e_freq_order main_env x) x) by (intros x; apply Permutation_refl).
  assert (H2 : forall x : tag_counts, Permutation (e_tag_order main_env x) x) by (intros x; apply Permutation_refl).
  split; [exact H1|]. split; [exact H2|]. split; [|split].
  - eexists. split; [vm_compute; reflexivity|]. apply (C145_count main_env None no_opts false None MSubfields one_order other_order wise_world _ orders). vm_compute. reflexivity.
  - eexists. split; [vm_compute; reflexivity|]. apply (C145_frequency main_env (@rev _) (@rev _) None no_opts tally_query false 0 0 false None false None one_order other_order wise_world _ H1 (fun x => Permutation_sym (Permutation_rev x)) eq_refl orders). vm_compute. reflexivity.
  - eexists. split; [vm_compute; reflexivity|]. apply (C145_describe main_env (@rev _) (@rev _) None no_opts None None true false None one_order other_order wise_world _ H2 (fun x => Permutation_sym (Permutation_rev x)) eq_refl orders). vm_compute. reflexivity.
Qed.

(** With --limit the order matters. *)
Theorem C145_limit_refuted : ~ (forall e cfg o q names names' w w', (forall x, Permutation (e_freq_order e x) x) -> Permutation names names' ->
  run e (mkInvocation cfg (tallied o q false names)) w = Some (CEnded 0, w') ->
  run e (mkInvocation cfg (tallied o q false names')) w = Some (CEnded 0, w')).
Proof.
  intros H.
  assert (E : run main_env (mkInvocation None (tallied (mkFileOpts false 1 false 80 [] [] None None None [] [] []) tally_query false other_order)) wise_world
    = Some (CEnded 0, mkWorld (w_disk wise_world) (w_stdin wise_world) (lit "oldxz,,1" ++ [10]))).
  { apply (H main_env _ _ _ one_order other_order _ _ (fun x => Permutation_refl x) orders). vm_compute. reflexivity. }
  vm_compute in E. discriminate E.
Qed.
Print Assumptions C145_limit_refuted.

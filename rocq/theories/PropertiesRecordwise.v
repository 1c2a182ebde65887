(** * Properties of commands that go record by record *)

From Coq Require Import String.
From Verif Require Import Bytes BaseProofs RecordModel MatcherModel BuilderModel CliModel CsvModel ConvertModel OptionsModel IoModel DiskModel MainModel QuerySpec MainSpec PipeSpec PartsSpec
  RecordwiseSpec RecordwiseProofs PropertiesDisk PropertiesMain PropertiesFront.

(** ** C136: commands that go record by record can be run in parts

    "pica COMMAND FILES1; pica COMMAND FILES2; ..." writes to stdout what "pica COMMAND FILES1 FILES2 ..." writes, for
    concat without --unique, convert to PICA+, import, plain or binary, explode, filter, print, and select without
    --unique and --header, if the runs for the parts come to their ends. *)

(** Only the first part may read stdin. *)
Theorem C136_parts : forall e cfg k w names ts, recordwise k -> expression_free k -> select_ready e k -> names <> [] ->
  Forall2 (fun ns t => run_writes e cfg w (with_inputs ns k) t) names ts -> ~ In (lit "-") (concat (tl names)) ->
  run e (mkInvocation cfg (with_inputs (concat names) k)) w = Some (CEnded 0, mkWorld (w_disk w) (w_stdin w) (w_stdout w ++ concat ts)).
Proof. exact run_recordwise. Qed.
Print Assumptions C136_parts.

(** invalid reads the lines itself, and ends with status 0 if reading fails with the error for a broken pipe. *)
Theorem C136_invalid : forall e, pipes_whole e -> forall cfg w names ts, names <> [] ->
  Forall2 (fun ns t => run_writes e cfg w (KInvalid None ns) t) names ts -> ~ In (lit "-") (concat (tl names)) ->
  run e (mkInvocation cfg (KInvalid None (concat names))) w = Some (CEnded 0, mkWorld (w_disk w) (w_stdin w) (w_stdout w ++ concat ts)).
Proof. exact run_invalid. Qed.
Print Assumptions C136_invalid.

(** The numbers of records, fields and subfields of the parts add up. *)
Theorem C136_count : forall e cfg o append m w names ns, (m = MRecords \/ m = MFields \/ m = MSubfields) -> names <> [] ->
  Forall2 (fun files n => run_writes e cfg w (KCount o append None m files) (dec n ++ [LF])) names ns -> ~ In (lit "-") (concat (tl names)) ->
  run e (mkInvocation cfg (KCount o append None m (concat names))) w
  = Some (CEnded 0, mkWorld (w_disk w) (w_stdin w) (w_stdout w ++ dec (fold_right N.add 0 ns) ++ [LF])).
Proof. exact run_count. Qed.
Print Assumptions C136_count.

(** ** Samples *)

Definition wise_files : list (list bytes) := [[lit "-"; lit "b.dat"]; [lit "b.dat"]; []].
Definition wise_world : world := mkWorld (w_disk main_world) (main_line "3" (lit "xz") []) (lit "old").

Definition wise_filter : command :=
  KFilter no_opts (mkFilterOnly (lit "012A.a =^ 'x'") None false (Some (lit "012A")) None) false false None None [].
Definition wise_explode : command := KExplode no_opts None None ExplodeModel.LMain false None [].
Definition wise_select : command :=
  KSelect no_opts (mkColumns (lit "003@.0, 012A{ a, b }") (lit "|") false false None) false false None QNecessary false false None [].
Definition wise_convert : command := KConvert false TPlus TPlain None [].

Ltac wise := repeat constructor; eexists; (split; [vm_compute; reflexivity|]); reflexivity.

Lemma wise_filter_sample : exists ts, Forall2 (fun ns t => run_writes main_env None wise_world (with_inputs ns wise_filter) t) wise_files ts
  /\ ts = [lit "012A " ++ [31] ++ lit "axz" ++ [31] ++ lit "b" ++ [30; 10] ++ lit "012A " ++ [31] ++ lit "ax" ++ [31] ++ lit "b" ++ umlaut ++ [30; 10];
           lit "012A " ++ [31] ++ lit "ax" ++ [31] ++ lit "b" ++ umlaut ++ [30; 10]; []].
Proof. eexists. split; [|reflexivity]. wise. Qed.

Example C136_filter_sample : exists ts, length (concat ts) = 41%nat
  /\ run main_env (mkInvocation None (with_inputs [lit "-"; lit "b.dat"; lit "b.dat"] wise_filter)) wise_world
     = Some (CEnded 0, mkWorld (w_disk wise_world) (w_stdin wise_world) (lit "old" ++ concat ts)).
Proof.
  destruct wise_filter_sample as (ts & H & Ets). exists ts. split; [rewrite Ets; reflexivity|].
  apply (C136_parts main_env None wise_filter wise_world wise_files ts); try (repeat split; fail).
  - intros o f append gzip output tee names E. injection E as <- <- <- <- <- <- <-. left. reflexivity.
  - discriminate.
  - exact H.
  - intros [X|[]]. discriminate.
Qed.

Example C136_wise_samples :
  (exists ts, Forall2 (fun ns t => run_writes main_env None wise_world (with_inputs ns wise_explode) t) wise_files ts /\ length (concat ts) = 114%nat)
  /\ (exists ts, Forall2 (fun ns t => run_writes main_env None wise_world (with_inputs ns wise_select) t) wise_files ts
      /\ concat ts = lit "3,xz," ++ [10] ++ lit "1,x," ++ umlaut ++ [10] ++ lit "2,y," ++ umlaut ++ [10] ++ lit "1,x," ++ umlaut ++ [10] ++ lit "2,y," ++ umlaut ++ [10])
  /\ (exists ts, Forall2 (fun ns t => run_writes main_env None wise_world (with_inputs ns wise_convert) t) wise_files ts /\ length (concat ts) = 109%nat)
  /\ recordwise wise_explode /\ recordwise wise_select /\ recordwise wise_convert /\ select_ready main_env wise_select.
Proof.
  split; [eexists; split; [wise|vm_compute; reflexivity]|]. split; [eexists; split; [wise|vm_compute; reflexivity]|].
  split; [eexists; split; [wise|vm_compute; reflexivity]|]. repeat split; try discriminate; try (apply sample_compile); intros; reflexivity.
Qed.

(** line "bad" twice *)
Example C136_invalid_sample : pipes_whole main_env /\
  run main_env (mkInvocation None (KInvalid None [lit "a.dat"; lit "b.dat"; lit "a.dat"])) wise_world
  = Some (CEnded 0, mkWorld (w_disk wise_world) (w_stdin wise_world) (lit "old" ++ lit "bad" ++ [10] ++ lit "bad" ++ [10])).
Proof.
  assert (Hp : pipes_whole main_env).
  { intros b k. cbn. unfold toy_dec. intros H E. subst k. destruct b as [|x b]; [destruct H as [H|[]]; discriminate|].
    repeat match goal with H : In _ (match ?x with _ => _ end) |- _ => destruct x end; first [destruct H as [H|[]]; discriminate|destruct H]. }
  split; [exact Hp|]. apply (C136_invalid main_env Hp None wise_world [[lit "a.dat"; lit "b.dat"]; [lit "a.dat"]] [lit "bad" ++ [10]; lit "bad" ++ [10]]).
  - discriminate.
  - wise.
  - intros [X|[]]. discriminate.
Qed.

Example C136_count_sample :
  run main_env (mkInvocation None (KCount no_opts false None MSubfields [lit "-"; lit "b.dat"; lit "b.dat"])) wise_world
  = Some (CEnded 0, mkWorld (w_disk wise_world) (w_stdin wise_world) (lit "old" ++ lit "15" ++ [10])).
Proof.
  apply (C136_count main_env None no_opts false MSubfields wise_world [[lit "-"; lit "b.dat"]; [lit "b.dat"]] [9; 6]).
  - right. right. reflexivity.
  - discriminate.
  - wise.
  - intros [X|[]]. discriminate.
Qed.

(** Not so for the other commands, for instance convert to JSON, select with a header, and filter with a limit. *)
Definition wise_others : list command :=
  [KConvert false TPlus TJson None [];
   KSelect no_opts (mkColumns (lit "003@.0") (lit "|") false false (Some (lit "id"))) false false None QNecessary false false None [];
   KFilter (mkFileOpts false 1 false 80 [] [] None None None [] [] []) (mkFilterOnly (lit "003@?") None false None None) false false None None []].

Theorem C136_others_refuted : Forall (fun k => exists e cfg w a b ta tb w2,
    run_writes e cfg w (with_inputs a k) ta /\ run_writes e cfg w (with_inputs b k) tb /\ ~ In (lit "-") b
    /\ run e (mkInvocation cfg (with_inputs (a ++ b) k)) w = Some (CEnded 0, w2) /\ w_stdout w2 <> w_stdout w ++ ta ++ tb) wise_others.
Proof.
  repeat (apply Forall_cons; [exists main_env, None, main_world, [lit "b.dat"], [lit "b.dat"]; do 3 eexists;
    (split; [eexists; split; [vm_compute; reflexivity|reflexivity]|]); (split; [eexists; split; [vm_compute; reflexivity|reflexivity]|]);
    (split; [intros [X|[]]; discriminate|]); (split; [vm_compute; reflexivity|]); vm_compute; discriminate|]).
  constructor.
Qed.
Print Assumptions C136_others_refuted.

(** * Properties of explode *)

From Coq Require Import String.
From Verif Require Import Bytes RecordModel RecordSpec TagOccModel ByteRecordModel ByteRecordSpec ReaderModel
  MatcherModel PathModel QuerySpec CliModel CliSpec CliChunkProofs ConvertCounterexamples ExplodeModel ExplodeSpec
  ExplodeProofs ExplodeRunProofs PropertiesMatcher PropertiesCli.

(** C36: the parts of a record.  [exploded] contains the case of the statement,
    [libraries -> usual_parts], and describes the parts of records in any order. *)
Theorem C36_parts : forall l fields, Forall valid_field fields ->
  exists parts, process l fields = Some parts /\ exploded l fields parts.
Proof. exact process_exploded. Qed.
Print Assumptions C36_parts.

(** C36: one part per library *)
Theorem C36_local_level : forall main libs fields, libraries main libs fields ->
  process_local fields = Some (map (fun l => main ++ fst l ++ snd l) libs).
Proof. exact process_local_usual. Qed.
Print Assumptions C36_local_level.

(** C36: one part per copy *)
Theorem C36_copy_level : forall main libs fields, libraries main libs fields ->
  exists parts, process_copy fields = Some parts /\ usual_parts LCopy main libs parts.
Proof. exact process_copy_usual. Qed.
Print Assumptions C36_copy_level.

(** C36: nothing is invented; no part is empty *)
Theorem C36_nothing_invented : forall l fields parts, fields <> [] -> exploded l fields parts ->
  forall p, In p parts -> p <> [] /\ forall f, In f p -> In f fields.
Proof. exact exploded_In. Qed.
Print Assumptions C36_nothing_invented.

(** C36: in whatever order the fields are, at local level each local and copy
    field is in exactly one part, at copy level each copy field *)
Theorem C36_nothing_lost : forall l fields parts, exploded l fields parts ->
  exists fs, Selected (fun f => match l with LMain => True | LLocal => ~ at_level LMain f | LCopy => at_level LCopy f end) fields fs
    /\ Selected (fun f => match l with LMain => True | LLocal => ~ at_level LMain f | LCopy => at_level LCopy f end) (concat parts) fs.
Proof. exact exploded_keeps. Qed.
Print Assumptions C36_nothing_lost.

(** C36: runs.  The options apply to the parts, the limit counts them; no part
    makes the program panic. *)
Theorem C36_run : forall O Od skip c files, opts_wf O Od (ex_opts c) ->
  exists all partss sel parts e0 e texts, reads skip files all e0
    /\ Forall2 (fun r ps => exploded (ex_level c) (br_record r) ps) all partss
    /\ picks (opts_hold O Od (ex_opts c)) (fun p => p) (concat partss) sel
    /\ limited (fo_limit (ex_opts c)) sel e0 parts e
    /\ Forall2 (part_text c) parts texts
    /\ explode_run O Od skip c files = Some (ended (N.of_nat (length parts), concat texts) e).
Proof. exact explode_exact. Qed.
Print Assumptions C36_run.

(** two libraries, the first with two copies *)
Definition ex_main := [cx_field "003@" None (lit "1"); cx_field "021A" None (lit "t")].
Definition ex_libs :=
  [([cx_field "101@" None (lit "A")],
    [cx_field "203@" (Some (lit "01")) (lit "1"); cx_field "209A" (Some (lit "01")) (lit "s"); cx_field "203@" (Some (lit "02")) (lit "2")]);
   ([cx_field "101@" None (lit "B")], [cx_field "203@" (Some (lit "01")) (lit "3")])].

Example C36_sample : libraries ex_main ex_libs (ex_main ++ concat (map (fun l => fst l ++ snd l) ex_libs)).
Proof.
  split; [reflexivity|]. split.
  - apply Forall_cons; [|apply Forall_cons; [|apply Forall_nil]]; eexists; reflexivity.
  - split.
    + apply Forall_cons; [|apply Forall_cons; [|apply Forall_nil]]; (split; [|split; [|discriminate]]); cbn [fst snd];
        repeat (apply Forall_cons; [eexists; reflexivity|]); apply Forall_nil.
    + apply (proj1 (chain_iff _ tellable ex_libs)). split; [split; discriminate|exact I].
Qed.

Example C36_sample_parts : process_copy (ex_main ++ concat (map (fun l => fst l ++ snd l) ex_libs))
  = Some [ex_main ++ [cx_field "101@" None (lit "A"); cx_field "203@" (Some (lit "01")) (lit "1"); cx_field "209A" (Some (lit "01")) (lit "s")];
          ex_main ++ [cx_field "101@" None (lit "A"); cx_field "203@" (Some (lit "02")) (lit "2")];
          ex_main ++ [cx_field "101@" None (lit "B"); cx_field "203@" (Some (lit "01")) (lit "3")]].
Proof. vm_compute. reflexivity. Qed.

(** C36: the order alone does not make the statement true: a library without
    copies is merged with the next one, at copy level its fields go to the
    copies of the next one *)
Theorem C36_library_without_copies_refuted : exists main libs fields,
  Forall valid_field fields
  /\ fields = main ++ concat (map (fun l => fst l ++ snd l) libs)
  /\ Forall (at_level LMain) main
  /\ Forall (fun l => Forall (at_level LLocal) (fst l) /\ Forall (at_level LCopy) (snd l) /\ fst l <> []) libs
  /\ (forall parts, process_local fields = Some parts -> ~ usual_parts LLocal main libs parts)
  /\ (forall parts, process_copy fields = Some parts -> ~ usual_parts LCopy main libs parts).
Proof. exact library_without_copies. Qed.
Print Assumptions C36_library_without_copies_refuted.

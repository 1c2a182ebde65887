(** * Properties of what print shows *)

From Coq Require Import String.
From Verif Require Import Bytes BaseProofs RecordModel CliModel OptionsModel IoModel DiskModel MainModel MainSpec PipeSpec
  PartsSpec ShownSpec ShownProofs PropertiesDisk PropertiesMain.

(** ** C144: what print shows determines the records

    When two inputs whose records contain no dollar sign are shown alike by "pica print", they consist of the same records: "pica cat"
    writes the same bytes for both.  The environments, configurations and worlds of the two may differ. *)
Theorem C144_shown : forall e e' cfg cfg' skip skip' names names' w w' a a' t,
  run_writes e cfg w (concat_part skip None names) a -> run_writes e' cfg' w' (concat_part skip' None names') a' -> ~ In 36 a -> ~ In 36 a' ->
  run_writes e cfg w (printed skip names) t -> run_writes e' cfg' w' (printed skip' names') t -> a = a'.
Proof. exact run_shown. Qed.
Print Assumptions C144_shown.

(** a record with one subfield and a record with two *)
Definition shown_world : world :=
  mkWorld [(lit "a.dat", lit "012A/01 " ++ [31] ++ lit "ax $b y" ++ [30; 10]);
           (lit "b.dat", lit "012A/01 " ++ [31] ++ lit "ax" ++ [31] ++ lit "by" ++ [30; 10]);
           (lit "c.dat", lit "bad" ++ [10] ++ lit "012A/01 " ++ [31] ++ lit "ax" ++ [31] ++ lit "by" ++ [30; 10])] [] [].

(** With dollar signs the text does not determine the records. *)
Theorem C144_dollar_refuted : ~ (forall e cfg skip names names' w a a' t,
  run_writes e cfg w (concat_part skip None names) a -> run_writes e cfg w (concat_part skip None names') a' ->
  run_writes e cfg w (printed skip names) t -> run_writes e cfg w (printed skip names') t -> a = a').
Proof.
  intros H.
  assert (E : lit "012A/01 " ++ [31] ++ lit "ax $b y" ++ [30; 10] = lit "012A/01 " ++ [31] ++ lit "ax" ++ [31] ++ lit "by" ++ [30; 10]).
  { apply (H main_env None false [lit "a.dat"] [lit "b.dat"] shown_world _ _ (lit "012A/01 $a x $b y" ++ [10; 10])).
    all: eexists; split; [vm_compute; reflexivity|reflexivity]. }
  discriminate E.
Qed.
Print Assumptions C144_dollar_refuted.

(** b.dat and, skipping its first line, c.dat *)
Example C144_sample : let a := lit "012A/01 " ++ [31] ++ lit "ax" ++ [31] ++ lit "by" ++ [30; 10] in let t := lit "012A/01 $a x $b y" ++ [10; 10] in
  run_writes main_env None shown_world (concat_part false None [lit "b.dat"]) a /\ run_writes main_env None shown_world (concat_part true None [lit "c.dat"]) a
  /\ ~ In 36 a /\ run_writes main_env None shown_world (printed false [lit "b.dat"]) t /\ run_writes main_env None shown_world (printed true [lit "c.dat"]) t.
Proof.
  cbv zeta. split; [|split; [|split; [|split]]]; [eexists; split; [vm_compute; reflexivity|reflexivity]..| | |].
  - intros H. cbv in H. repeat (destruct H as [H|H]; [discriminate|]). exact H.
  - eexists. split; [vm_compute; reflexivity|reflexivity].
  - eexists. split; [vm_compute; reflexivity|reflexivity].
Qed.

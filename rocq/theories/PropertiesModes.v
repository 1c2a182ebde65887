(** * Properties of the formats of count *)

From Coq Require Import String.
From Verif Require Import Bytes BaseProofs RecordModel MatcherModel BuilderModel CliModel CliSpec ConvertModel OptionsModel IoModel DiskModel QuerySpec TableModel MainModel MainSpec PipeSpec
  PartsSpec ModesProofs PropertiesDisk PropertiesMain PropertiesFront PropertiesRecordwise PropertiesFewer.

(** ** C156: the formats of count tell the same numbers

    If count succeeds with one format, there are three numbers such that it succeeds with every format and writes these numbers in this format.
    It writes nothing in any format if it ends quietly because reading an input fails like a closed pipe. *)
Theorem C156_modes : forall e cfg w o append m names t, run_writes e cfg w (KCount o append None m names) t ->
  (t = [] /\ forall m', run_writes e cfg w (KCount o append None m' names) [])
  \/ exists r f s, count_text m r f s t /\ forall m', exists t', count_text m' r f s t' /\ run_writes e cfg w (KCount o append None m' names) t'.
Proof. exact run_modes. Qed.
Print Assumptions C156_modes.

Example C156_sample :
  run_writes main_env None fewer_world (KCount no_opts false None MPlain [lit "b.dat"])
    (lit "records: 3" ++ [10] ++ lit "fields: 6" ++ [10] ++ lit "subfields: 9" ++ [10])
  /\ run_writes main_env None fewer_world (KCount no_opts false None (MCsv false) [lit "b.dat"]) (lit "records,fields,subfields" ++ [10] ++ lit "3,6,9" ++ [10])
  /\ run_writes main_env None fewer_world (KCount no_opts false None MFields [lit "b.dat"]) (lit "6" ++ [10]).
Proof. split; [|split]; (eexists; split; [vm_compute; reflexivity|vm_compute; reflexivity]). Qed.

(** * Properties of the tables of hash *)

From Coq Require Import String.
From Verif Require Import Bytes BaseProofs RecordModel MatcherModel BuilderModel CliModel ConvertModel CsvModel CsvSpec OptionsModel IoModel DiskModel QuerySpec TableModel PrepareModel CheckModel OptionsModel MainModel MainSpec PipeSpec
  PartsSpec DigestProofs PropertiesDisk PropertiesMain PropertiesFront PropertiesRecordwise PropertiesFewer.

(** ** C153: --tsv and --header of hash change how the rows are written and the first row

    If hash succeeds, it succeeds with every delimiter and every header with the same number of cells; the first row has the trimmed cells
    of the header, and the other rows are the same. *)
Theorem C153_digests : forall e cfg w o tsv1 tsv2 h1 h2 names t, length (split_on 44 h1) = length (split_on 44 h2) ->
  (forall v, e_numeric e v = true -> Forall (plain_byte 44) v /\ Forall (plain_byte 9) v) ->
  run_writes e cfg w (KHash o None tsv1 h1 names) t ->
  exists rows t', csv_rows (if tsv1 : bool then 9 else 44) (map str_trim (split_on 44 h1) :: rows) t
    /\ csv_rows (if tsv2 : bool then 9 else 44) (map str_trim (split_on 44 h2) :: rows) t'
    /\ run_writes e cfg w (KHash o None tsv2 h2 names) t'.
Proof. exact run_digests. Qed.
Print Assumptions C153_digests.

Example C153_sample :
  run_writes main_env None fewer_world (KHash no_opts None false (lit "ppn,hash") [lit "b.dat"])
    (lit "ppn,hash" ++ [10] ++ lit "1,17" ++ [10] ++ lit "2,15" ++ [10] ++ lit "1,17" ++ [10])
  /\ run_writes main_env None fewer_world (KHash no_opts None true (lit "id , sum") [lit "b.dat"])
       (lit "id" ++ [9] ++ lit "sum" ++ [10] ++ lit "1" ++ [9] ++ lit "17" ++ [10] ++ lit "2" ++ [9] ++ lit "15" ++ [10] ++ lit "1" ++ [9] ++ lit "17" ++ [10])
  /\ length (split_on 44 (lit "ppn,hash")) = length (split_on 44 (lit "id , sum")).
Proof. split; [|split; [|reflexivity]]; (eexists; split; [vm_compute; reflexivity|vm_compute; reflexivity]). Qed.

(** Not with another number of cells: hash fails at the first record. *)
Theorem C153_cells_refuted : ~ (forall e cfg w o h1 h2 names t,
  run_writes e cfg w (KHash o None false h1 names) t -> exists t', run_writes e cfg w (KHash o None false h2 names) t').
Proof.
  intros H. destruct (H main_env None fewer_world no_opts (lit "ppn,hash") (lit "ppn") [lit "b.dat"]
    (lit "ppn,hash" ++ [10] ++ lit "1,17" ++ [10] ++ lit "2,15" ++ [10] ++ lit "1,17" ++ [10])) as (t' & w1 & R & _).
  - eexists. split; [vm_compute; reflexivity|vm_compute; reflexivity].
  - vm_compute in R. discriminate R.
Qed.
Print Assumptions C153_cells_refuted.

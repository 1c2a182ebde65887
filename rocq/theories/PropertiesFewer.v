(** * Properties of select that leaves out rows *)

From Coq Require Import String.
From Verif Require Import Bytes BaseProofs RecordModel MatcherModel BuilderModel CliModel ConvertModel CsvModel CsvSpec OptionsModel IoModel DiskModel QuerySpec TableModel MainModel MainSpec PipeSpec
  PartsSpec FewerSpec FewerProofs PropertiesDisk PropertiesMain PropertiesFront PropertiesRecordwise.

(** ** C149: --no-empty-columns and --unique leave out rows and change nothing else

    If select succeeds, it succeeds with --no-empty-columns and writes exactly the rows without an empty cell. *)
Theorem C149_no_empty : forall e cfg w o q s squash merge quote tsv names t, quote <> QNever ->
  (forall v, e_numeric e v = true -> Forall (plain_byte (if tsv : bool then 9 else 44)) v) ->
  run_writes e cfg w (KSelect o (mkColumns q s squash merge None) false false None quote tsv false None names) t ->
  exists rows t', csv_rows (if tsv then 9 else 44) rows t /\ csv_rows (if tsv then 9 else 44) (filter full rows) t'
    /\ run_writes e cfg w (KSelect o (mkColumns q s squash merge None) false true None quote tsv false None names) t'.
Proof. exact run_thinned. Qed.
Print Assumptions C149_no_empty.

(** If select succeeds, it succeeds with --unique and writes the rows with some left out; if different rows have different hashes, then
    it writes every row once. *)
Theorem C149_unique : forall e cfg w o q s squash merge n quote tsv names t, quote <> QNever ->
  (forall v, e_numeric e v = true -> Forall (plain_byte (if tsv : bool then 9 else 44)) v) ->
  run_writes e cfg w (KSelect o (mkColumns q s squash merge None) false n None quote tsv false None names) t ->
  exists rows rows' t', csv_rows (if tsv then 9 else 44) rows t /\ csv_rows (if tsv then 9 else 44) rows' t' /\ sublist rows' rows
    /\ ((forall x y, e_hash e x = e_hash e y -> x = y) -> NoDup rows' /\ incl rows rows')
    /\ run_writes e cfg w (KSelect o (mkColumns q s squash merge None) true n None quote tsv false None names) t'.
Proof. exact run_uniqued. Qed.
Print Assumptions C149_unique.

(** two records, the second without the second column, and the first once more *)
Definition fewer_world : world :=
  mkWorld [(lit "b.dat", main_line "1" (lit "x") umlaut ++ main_line "2" (lit "y") [] ++ main_line "1" (lit "x") umlaut)] [] (lit "old").
Definition fewer_select (unique no_empty : bool) : command :=
  KSelect no_opts (mkColumns (lit "003@.0, 012A.b") (lit "|") false false None) unique no_empty None QNecessary false false None [lit "b.dat"].

Example C149_sample :
  run_writes main_env None fewer_world (fewer_select false false) (lit "1," ++ umlaut ++ [10] ++ lit "2," ++ [10] ++ lit "1," ++ umlaut ++ [10])
  /\ run_writes main_env None fewer_world (fewer_select false true) (lit "1," ++ umlaut ++ [10] ++ lit "1," ++ umlaut ++ [10])
  /\ run_writes main_env None fewer_world (fewer_select true false) (lit "1," ++ umlaut ++ [10] ++ lit "2," ++ [10])
  /\ (forall v, e_numeric main_env v = true -> Forall (plain_byte 44) v).
Proof.
  split; [|split; [|split]]. 1-3: (eexists; split; [vm_compute; reflexivity|vm_compute; reflexivity]).
  intros v H. vm_compute in H. discriminate H.
Qed.

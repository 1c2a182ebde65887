(** * Specification of rows and how often they occur *)

From Coq Require Import Sorted.
From Verif Require Import Bytes CliModel CsvModel DiskModel QuerySpec TableSpec MainModel OptionsModel.

(** "pica select Q" and "pica frequency Q" with the options [o] and, for a table with tabs, --tsv *)
Definition listed (o : file_opts) (q : columns) (tsv : bool) (names : list bytes) : command :=
  KSelect o q false false None QNecessary tsv false None names.
Definition tallied (o : file_opts) (q : columns) (tsv : bool) (names : list bytes) : command :=
  KFrequency o q false 0 0 false None tsv None names.

(** Every row once, with the number of times it occurs; frequent rows first, rows that occur equally often in lexicographic order *)
Definition tally (rows : list (list bytes)) (l : list (list bytes * N)) : Prop :=
  StronglySorted (ranks false) l
  /\ forall k n, In (k, n) l <-> In k rows /\ n = N.of_nat (count_occ row_dec rows k).

(** * Properties of frequency --unique *)

From Coq Require Import String Permutation.
From Verif Require Import Bytes BaseProofs RecordModel MatcherModel BuilderModel CliModel ConvertModel CsvModel CsvSpec OptionsModel IoModel DiskModel QuerySpec TableModel MainModel MainSpec PipeSpec
  PartsSpec OnceProofs PropertiesDisk PropertiesMain PropertiesFront PropertiesRecordwise PropertiesFewer.

(** ** C155: frequency --unique lists the same values, each at least once and no more often

    There are values with two numbers, the first of which are the rows without --unique in some order, and the second of which are the rows
    with it; the second number is at least 1 and at most the first. *)
Theorem C155_once : forall e cfg w o q s squash merge reverse nf tsv names t, (forall x, Permutation (e_freq_order e x) x) ->
  (forall v, e_numeric e v = true -> Forall (plain_byte (if tsv : bool then 9 else 44)) v) ->
  run_writes e cfg w (KFrequency o (mkColumns q s squash merge None) false 0 0 reverse nf tsv None names) t ->
  exists rows rows' t' l, csv_rows (if tsv then 9 else 44) rows t /\ csv_rows (if tsv then 9 else 44) rows' t'
    /\ Permutation rows (map (fun z => fst z ++ [dec (fst (snd z))]) l) /\ Permutation rows' (map (fun z => fst z ++ [dec (snd (snd z))]) l)
    /\ Forall (fun z : list bytes * (N * N) => 1 <= snd (snd z) <= fst (snd z)) l
    /\ run_writes e cfg w (KFrequency o (mkColumns q s squash merge None) true 0 0 reverse nf tsv None names) t'.
Proof. exact run_once. Qed.
Print Assumptions C155_once.

(** two records, the first with a value twice *)
Definition once_world : world :=
  mkWorld [(lit "b.dat", lit "012A " ++ [31] ++ lit "ax" ++ [30] ++ lit "012A " ++ [31] ++ lit "ax" ++ [30; 10] ++ main_line "2" (lit "y") [])] [] (lit "old").
Definition once_frequency (unique : bool) : command :=
  KFrequency no_opts (mkColumns (lit "012A.a") (lit "|") false false None) unique 0 0 false None false None [lit "b.dat"].

Example C155_sample :
  run_writes main_env None once_world (once_frequency false) (lit "x,2" ++ [10] ++ lit "y,1" ++ [10])
  /\ run_writes main_env None once_world (once_frequency true) (lit "x,1" ++ [10] ++ lit "y,1" ++ [10])
  /\ (forall x : ftable, Permutation (e_freq_order main_env x) x) /\ (forall v, e_numeric main_env v = true -> Forall (plain_byte 44) v).
Proof.
  split; [|split; [|split]]; [eexists; split; [vm_compute; reflexivity|vm_compute; reflexivity]|eexists; split; [vm_compute; reflexivity|vm_compute; reflexivity]| |].
  - intros x. apply Permutation_refl.
  - intros v X. discriminate X.
Qed.

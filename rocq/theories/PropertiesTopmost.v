(** * Properties of frequency with fewer rows *)

From Coq Require Import String.
From Verif Require Import Bytes BaseProofs RecordModel MatcherModel BuilderModel CliModel ConvertModel CsvModel CsvSpec OptionsModel IoModel DiskModel QuerySpec TableModel MainModel MainSpec PipeSpec
  PartsSpec TopmostProofs PropertiesDisk PropertiesMain PropertiesFront PropertiesRecordwise PropertiesFewer.

(** ** C150: -n and --threshold of frequency cut off rows

    If frequency succeeds without a number of rows, it succeeds with the number and writes the first rows. *)
Theorem C150_num : forall e cfg w o q s squash merge unique num threshold reverse nf tsv names t, 0 < num ->
  (forall v, e_numeric e v = true -> Forall (plain_byte (if tsv : bool then 9 else 44)) v) ->
  run_writes e cfg w (KFrequency o (mkColumns q s squash merge None) unique 0 threshold reverse nf tsv None names) t ->
  exists rows t', csv_rows (if tsv then 9 else 44) rows t /\ csv_rows (if tsv then 9 else 44) (firstn (N.to_nat num) rows) t'
    /\ run_writes e cfg w (KFrequency o (mkColumns q s squash merge None) unique num threshold reverse nf tsv None names) t'.
Proof. exact run_num. Qed.
Print Assumptions C150_num.

(** Without --reverse the threshold leaves out exactly the rows with a smaller number in the last cell. *)
Theorem C150_threshold : forall e cfg w o q s squash merge unique threshold nf tsv names t,
  (forall v, e_numeric e v = true -> Forall (plain_byte (if tsv : bool then 9 else 44)) v) ->
  run_writes e cfg w (KFrequency o (mkColumns q s squash merge None) unique 0 0 false nf tsv None names) t ->
  exists l t', csv_rows (if tsv then 9 else 44) (map (fun x => fst x ++ [dec (snd x)]) l) t
    /\ csv_rows (if tsv then 9 else 44) (map (fun x => fst x ++ [dec (snd x)]) (filter (fun x => threshold <=? snd x) l)) t'
    /\ run_writes e cfg w (KFrequency o (mkColumns q s squash merge None) unique 0 threshold false nf tsv None names) t'.
Proof. exact run_threshold. Qed.
Print Assumptions C150_threshold.

Definition topmost (num threshold : N) (reverse : bool) : command :=
  KFrequency no_opts (mkColumns (lit "003@.0") (lit "|") false false None) false num threshold reverse None false None [lit "b.dat"].

Example C150_sample :
  run_writes main_env None fewer_world (topmost 0 0 false) (lit "1,2" ++ [10] ++ lit "2,1" ++ [10])
  /\ run_writes main_env None fewer_world (topmost 1 0 false) (lit "1,2" ++ [10])
  /\ run_writes main_env None fewer_world (topmost 0 2 false) (lit "1,2" ++ [10])
  /\ (forall v, e_numeric main_env v = true -> Forall (plain_byte 44) v).
Proof. split; [|split; [|split; [|intros v X; discriminate X]]]; (eexists; split; [vm_compute; reflexivity|vm_compute; reflexivity]). Qed.

(** Not so with --reverse: the row in front is below the threshold, and the rows behind it are lost with it. *)
Theorem C150_reverse_refuted : ~ (forall e cfg w o c threshold names t t',
  run_writes e cfg w (KFrequency o c false 0 threshold false None false None names) t ->
  run_writes e cfg w (KFrequency o c false 0 threshold true None false None names) t' ->
  t <> [] -> t' <> []).
Proof.
  intros H.
  refine (H main_env None fewer_world no_opts (mkColumns (lit "003@.0") (lit "|") false false None) 2 [lit "b.dat"] (lit "1,2" ++ [10]) [] _ _ _ eq_refl).
  - eexists. split; vm_compute; reflexivity.
  - eexists. split; vm_compute; reflexivity.
  - discriminate.
Qed.
Print Assumptions C150_reverse_refuted.

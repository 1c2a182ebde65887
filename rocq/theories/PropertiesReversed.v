(** * Properties of frequency --reverse *)

From Coq Require Import String Sorted Permutation.
From Verif Require Import Bytes BaseProofs RecordModel MatcherModel BuilderModel CliModel ConvertModel CsvModel CsvSpec CsvProofs OptionsModel IoModel DiskModel QuerySpec TableModel MainModel MainSpec PipeSpec
  PartsSpec ReversedProofs PropertiesDisk PropertiesMain PropertiesFront PropertiesRecordwise PropertiesFewer PropertiesTopmost.

(** ** C151: --reverse of frequency changes the order of the rows and nothing else

    Without the option the numbers in the last cells go down, with it they go up. *)
Theorem C151_reverse : forall e cfg w o q s squash merge unique nf tsv names t,
  (forall v, e_numeric e v = true -> Forall (plain_byte (if tsv : bool then 9 else 44)) v) ->
  run_writes e cfg w (KFrequency o (mkColumns q s squash merge None) unique 0 0 false nf tsv None names) t ->
  exists l l' t', csv_rows (if tsv then 9 else 44) (map (fun x => fst x ++ [dec (snd x)]) l) t
    /\ csv_rows (if tsv then 9 else 44) (map (fun x => fst x ++ [dec (snd x)]) l') t'
    /\ Permutation l l' /\ StronglySorted (fun x y => snd y <= snd x) l /\ StronglySorted (fun x y => snd x <= snd y) l'
    /\ run_writes e cfg w (KFrequency o (mkColumns q s squash merge None) unique 0 0 true nf tsv None names) t'.
Proof. exact run_reversed. Qed.
Print Assumptions C151_reverse.

Example C151_sample :
  run_writes main_env None fewer_world (topmost 0 0 false) (lit "1,2" ++ [10] ++ lit "2,1" ++ [10])
  /\ run_writes main_env None fewer_world (topmost 0 0 true) (lit "2,1" ++ [10] ++ lit "1,2" ++ [10]).
Proof. split; (eexists; split; [vm_compute; reflexivity|vm_compute; reflexivity]). Qed.

(** The order is not the opposite one: rows with the same number are in the order of their cells both times. *)
Theorem C151_opposite_refuted : ~ (forall e cfg w o c names t t',
  run_writes e cfg w (KFrequency o c false 0 0 false None false None names) t ->
  run_writes e cfg w (KFrequency o c false 0 0 true None false None names) t' ->
  forall rows rows', csv_rows 44 rows t -> csv_rows 44 rows' t' -> rows' = rev rows).
Proof.
  intros H. set (t := lit "x,1" ++ [10] ++ lit "y,1" ++ [10]). set (rows := [[lit "x"; lit "1"]; [lit "y"; lit "1"]]).
  assert (R : csv_rows 44 rows t).
  { refine (csv_text_rows (fun _ => false) QNecessary 44 _ _ rows _); [discriminate|intros v X; discriminate X|repeat constructor; discriminate]. }
  specialize (H main_env None (mkWorld [(lit "c.dat", main_line "1" (lit "x") [] ++ main_line "2" (lit "y") [])] [] []) no_opts (mkColumns (lit "012A.a") (lit "|") false false None) [lit "c.dat"] t t).
  enough (X : rows = rev rows) by discriminate X.
  refine (H _ _ rows rows R R); (eexists; split; [vm_compute; reflexivity|vm_compute; reflexivity]).
Qed.
Print Assumptions C151_opposite_refuted.

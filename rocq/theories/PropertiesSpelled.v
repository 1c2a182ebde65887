(** * Properties of tables with transliterated cells *)

From Coq Require Import String.
From Verif Require Import Bytes BaseProofs RecordModel MatcherModel BuilderModel CliModel ConvertModel CsvModel CsvSpec CsvProofs OptionsModel IoModel DiskModel QuerySpec TableModel MainModel MainSpec PipeSpec
  PartsSpec SpelledProofs PropertiesDisk PropertiesMain PropertiesFront PropertiesRecordwise PropertiesFewer.

(** ** C154: --translit changes the cells of a table one by one

    If select succeeds, it succeeds with --translit and writes the same rows with every cell in the normal form, after replacing what is not UTF-8;
    also with --unique and --no-empty-columns. *)
Theorem C154_select : forall e cfg w o q s squash merge unique no_empty nf quote tsv names t, quote <> QNever ->
  (forall v, e_numeric e v = true -> Forall (plain_byte (if tsv : bool then 9 else 44)) v) ->
  run_writes e cfg w (KSelect o (mkColumns q s squash merge None) unique no_empty None quote tsv false None names) t ->
  exists rows t', csv_rows (if tsv then 9 else 44) rows t /\ csv_rows (if tsv then 9 else 44) (map (map (fun v => e_nf e nf (e_lossy e v))) rows) t'
    /\ run_writes e cfg w (KSelect o (mkColumns q s squash merge None) unique no_empty (Some nf) quote tsv false None names) t'.
Proof. exact run_spelled. Qed.
Print Assumptions C154_select.

(** The same holds for frequency, the numbers stay. *)
Theorem C154_frequency : forall e cfg w o q s squash merge unique num threshold reverse nf tsv names t,
  (forall v, e_numeric e v = true -> Forall (plain_byte (if tsv : bool then 9 else 44)) v) ->
  run_writes e cfg w (KFrequency o (mkColumns q s squash merge None) unique num threshold reverse None tsv None names) t ->
  exists l t', csv_rows (if tsv then 9 else 44) (map (fun x => fst x ++ [dec (snd x)]) l) t
    /\ csv_rows (if tsv then 9 else 44) (map (fun x => map (e_nf e nf) (fst x) ++ [dec (snd x)]) l) t'
    /\ run_writes e cfg w (KFrequency o (mkColumns q s squash merge None) unique num threshold reverse (Some nf) tsv None names) t'.
Proof. exact run_freq_spelled. Qed.
Print Assumptions C154_frequency.

(** two records with the same letter in two spellings *)
Definition spelled_world : world :=
  mkWorld [(lit "b.dat", main_line "1" umlaut [] ++ main_line "2" decomposed [])] [] (lit "old").
Definition spelled_select (unique : bool) (nf : option norm_form) : command :=
  KSelect no_opts (mkColumns (lit "012A.a") (lit "|") false false None) unique false nf QNecessary false false None [lit "b.dat"].
Definition spelled_frequency (nf : option norm_form) : command :=
  KFrequency no_opts (mkColumns (lit "012A.a") (lit "|") false false None) false 0 0 false nf false None [lit "b.dat"].

Example C154_sample :
  run_writes main_env None spelled_world (spelled_select false None) (umlaut ++ [10] ++ decomposed ++ [10])
  /\ run_writes main_env None spelled_world (spelled_select false (Some Nfc)) (umlaut ++ [10] ++ umlaut ++ [10])
  /\ run_writes main_env None spelled_world (spelled_frequency None) (decomposed ++ lit ",1" ++ [10] ++ umlaut ++ lit ",1" ++ [10])
  /\ run_writes main_env None spelled_world (spelled_frequency (Some Nfc)) (umlaut ++ lit ",1" ++ [10] ++ umlaut ++ lit ",1" ++ [10]).
Proof. split; [|split; [|split]]; (eexists; split; [vm_compute; reflexivity|vm_compute; reflexivity]). Qed.

(** So the rows of select --unique need not be different if --translit is given ... *)
Theorem C154_unique_refuted : ~ (forall e cfg w o c nf names t rows,
  run_writes e cfg w (KSelect o c true false (Some nf) QNecessary false false None names) t -> csv_rows 44 rows t -> NoDup rows).
Proof.
  intros H. assert (N : NoDup [[umlaut]; [umlaut]]).
  { refine (H main_env None spelled_world no_opts (mkColumns (lit "012A.a") (lit "|") false false None) Nfc [lit "b.dat"] (umlaut ++ [10] ++ umlaut ++ [10]) _ _ _).
    - eexists. split; [vm_compute; reflexivity|vm_compute; reflexivity].
    - refine (csv_text_rows (fun _ => false) QNecessary 44 _ _ [[umlaut]; [umlaut]] _); [discriminate|intros v X; discriminate X|repeat constructor; discriminate]. }
  inversion N as [|? ? N1 _]. apply N1. left. reflexivity.
Qed.
Print Assumptions C154_unique_refuted.

(** ... and frequency --translit counts spellings, not normalised values. *)
Theorem C154_counts_refuted : ~ (forall e cfg w o c nf names t rows,
  run_writes e cfg w (KFrequency o c false 0 0 false (Some nf) false None names) t -> csv_rows 44 rows t -> NoDup rows).
Proof.
  intros H. assert (N : NoDup [[umlaut; lit "1"]; [umlaut; lit "1"]]).
  { refine (H main_env None spelled_world no_opts (mkColumns (lit "012A.a") (lit "|") false false None) Nfc [lit "b.dat"] (umlaut ++ lit ",1" ++ [10] ++ umlaut ++ lit ",1" ++ [10]) _ _ _).
    - eexists. split; [vm_compute; reflexivity|vm_compute; reflexivity].
    - refine (csv_text_rows (fun _ => false) QNecessary 44 _ _ [[umlaut; lit "1"]; [umlaut; lit "1"]] _); [discriminate|intros v X; discriminate X|repeat constructor; discriminate]. }
  inversion N as [|? ? N1 _]. apply N1. left. reflexivity.
Qed.
Print Assumptions C154_counts_refuted.

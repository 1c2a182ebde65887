(** * Properties of delimiters and quotes of tables *)

From Coq Require Import String.
From Verif Require Import Bytes BaseProofs RecordModel MatcherModel BuilderModel CliModel ConvertModel CsvModel CsvSpec OptionsModel IoModel DiskModel QuerySpec TableModel MainModel MainSpec PipeSpec
  PartsSpec StyledProofs PropertiesDisk PropertiesMain PropertiesFront PropertiesRecordwise PropertiesFewer.

(** ** C152: --tsv and --quote-style of select change how the rows are written and nothing else

    If select succeeds with one delimiter and one style of quotes, it succeeds with any other and writes a text that reads as the same rows;
    with or without a header and the other options. *)
Theorem C152_styles : forall e cfg w o q s squash merge h unique no_empty nf q1 q2 tsv1 tsv2 names t, q1 <> QNever -> q2 <> QNever ->
  (forall v, e_numeric e v = true -> Forall (plain_byte 44) v /\ Forall (plain_byte 9) v) ->
  run_writes e cfg w (KSelect o (mkColumns q s squash merge h) unique no_empty nf q1 tsv1 false None names) t ->
  exists rows t', csv_rows (if tsv1 : bool then 9 else 44) rows t /\ csv_rows (if tsv2 : bool then 9 else 44) rows t'
    /\ run_writes e cfg w (KSelect o (mkColumns q s squash merge h) unique no_empty nf q2 tsv2 false None names) t'.
Proof. exact run_styled. Qed.
Print Assumptions C152_styles.

(** The same holds for the delimiter of frequency. *)
Theorem C152_frequency : forall e cfg w o q s squash merge h unique num threshold reverse nf tsv1 tsv2 names t,
  (forall v, e_numeric e v = true -> Forall (plain_byte 44) v /\ Forall (plain_byte 9) v) ->
  run_writes e cfg w (KFrequency o (mkColumns q s squash merge h) unique num threshold reverse nf tsv1 None names) t ->
  exists rows t', csv_rows (if tsv1 : bool then 9 else 44) rows t /\ csv_rows (if tsv2 : bool then 9 else 44) rows t'
    /\ run_writes e cfg w (KFrequency o (mkColumns q s squash merge h) unique num threshold reverse nf tsv2 None names) t'.
Proof. exact run_freq_styled. Qed.
Print Assumptions C152_frequency.

Example C152_frequency_sample : forall tsv,
  run_writes main_env None fewer_world (KFrequency no_opts (mkColumns (lit "003@.0") (lit "|") false false (Some (lit "id, n"))) false 0 0 false None tsv None [lit "b.dat"])
    (lit "id" ++ [if tsv : bool then 9 else 44] ++ lit "n" ++ [10] ++ lit "1" ++ [if tsv then 9 else 44] ++ lit "2" ++ [10] ++ lit "2" ++ [if tsv then 9 else 44] ++ lit "1" ++ [10]).
Proof. intros []; (eexists; split; [vm_compute; reflexivity|vm_compute; reflexivity]). Qed.

(** a cell with a comma, which needs quotes unless tabs separate the cells *)
Definition styled_world : world :=
  mkWorld [(lit "b.dat", main_line "1" (lit "x,y") umlaut)] [] (lit "old").
Definition styled_select (q : quotes) (tsv : bool) : command :=
  KSelect no_opts (mkColumns (lit "003@.0, 012A.a") (lit "|") false false None) false false None q tsv false None [lit "b.dat"].

Example C152_sample :
  run_writes main_env None styled_world (styled_select QNecessary false) (lit "1," ++ [34] ++ lit "x,y" ++ [34; 10])
  /\ run_writes main_env None styled_world (styled_select QNecessary true) (lit "1" ++ [9] ++ lit "x,y" ++ [10])
  /\ run_writes main_env None styled_world (styled_select QAlways true) ([34] ++ lit "1" ++ [34; 9; 34] ++ lit "x,y" ++ [34; 10])
  /\ (forall v, e_numeric main_env v = true -> Forall (plain_byte 44) v /\ Forall (plain_byte 9) v).
Proof.
  split; [|split; [|split]]. 1-3: (eexists; split; [vm_compute; reflexivity|vm_compute; reflexivity]).
  intros v H. vm_compute in H. discriminate H.
Qed.

(** The style never has to be left out: a cell with a comma in it reads as two cells. *)
Theorem C152_never_refuted : exists t,
  run_writes main_env None styled_world (styled_select QNever false) t /\ csv_rows 44 [[lit "1"; lit "x"; lit "y"]] t.
Proof.
  exists (lit "1,x,y" ++ [10]). split; [eexists; split; vm_compute; reflexivity|].
  refine (CsvProofs.csv_text_rows (fun _ => false) QNecessary 44 _ _ [[lit "1"; lit "x"; lit "y"]] _); [discriminate|intros v X; discriminate X|repeat constructor; discriminate].
Qed.
Print Assumptions C152_never_refuted.

(** * Properties of select with a header *)

From Coq Require Import String.
From Verif Require Import Bytes BaseProofs RecordModel MatcherModel BuilderModel CliModel ConvertModel CsvModel CsvSpec OptionsModel CheckModel IoModel DiskModel QuerySpec TableModel PrepareModel MainModel MainSpec PipeSpec
  PartsSpec TitledProofs PropertiesDisk PropertiesMain PropertiesFront PropertiesRecordwise.

(** ** C148: a header is one row in front

    For a header there is a text, which reads as the row of its trimmed cells, such that every select that succeeds with this header
    succeeds without it and writes the same after this text; also with --limit, --unique and the other options. *)
Theorem C148_header : forall e quote tsv h, exists line,
  (quote <> QNever -> (forall v, e_numeric e v = true -> Forall (plain_byte (if tsv : bool then 9 else 44)) v) ->
     csv_rows (if tsv then 9 else 44) [map str_trim (split_on 44 h)] line)
  /\ forall cfg w o q s squash merge unique no_empty nf names t,
       run_writes e cfg w (KSelect o (mkColumns q s squash merge (Some h)) unique no_empty nf quote tsv false None names) t ->
       exists t', t = line ++ t' /\ run_writes e cfg w (KSelect o (mkColumns q s squash merge None) unique no_empty nf quote tsv false None names) t'.
Proof. exact run_titled. Qed.
Print Assumptions C148_header.

(** Whether it succeeds depends on the number of the cells of the header only. *)
Theorem C148_cells : forall e cfg w o q s squash merge unique no_empty nf quote tsv h1 h2 names t,
  length (split_on 44 h1) = length (split_on 44 h2) ->
  run_writes e cfg w (KSelect o (mkColumns q s squash merge (Some h1)) unique no_empty nf quote tsv false None names) t ->
  exists t', run_writes e cfg w (KSelect o (mkColumns q s squash merge (Some h2)) unique no_empty nf quote tsv false None names) t'.
Proof. exact run_retitled. Qed.
Print Assumptions C148_cells.

(** a header of three cells *)
Example C148_sample : run_writes main_env None main_world
    (KSelect no_opts (mkColumns (lit "003@.0, 012A{ a, b }") (lit "|") false false (Some (lit "id, a ,b"))) false false None QNecessary false false None [lit "b.dat"])
    (lit "id,a,b" ++ [10] ++ lit "1,x," ++ umlaut ++ [10] ++ lit "2,y," ++ umlaut ++ [10])
  /\ run_writes main_env None main_world
    (KSelect no_opts (mkColumns (lit "003@.0, 012A{ a, b }") (lit "|") false false None) false false None QNecessary false false None [lit "b.dat"])
    (lit "1,x," ++ umlaut ++ [10] ++ lit "2,y," ++ umlaut ++ [10]).
Proof. split; (eexists; split; [vm_compute; reflexivity|vm_compute; reflexivity]). Qed.

(** Not the other way round: with a header of another number of cells than the rows the run fails. *)
Theorem C148_converse_refuted : ~ (forall e cfg w o q s h names t,
  run_writes e cfg w (KSelect o (mkColumns q s false false None) false false None QNecessary false false None names) t ->
  exists t', run_writes e cfg w (KSelect o (mkColumns q s false false (Some h)) false false None QNecessary false false None names) t').
Proof.
  intros H. destruct C148_sample as [_ S]. destruct (H _ _ _ _ _ _ (lit "id") _ _ S) as (t & w1 & R & _). vm_compute in R. discriminate R.
Qed.
Print Assumptions C148_converse_refuted.

(** The same for frequency, which writes nothing at all if reading fails (a broken pipe ends it with status 0). *)
Theorem C148_frequency : forall e tsv h, exists line,
  ((forall v, e_numeric e v = true -> Forall (plain_byte (if tsv : bool then 9 else 44)) v) ->
     csv_rows (if tsv then 9 else 44) [map str_trim (split_on 44 h)] line)
  /\ forall cfg w o q s squash merge unique num threshold reverse nf names t,
       run_writes e cfg w (KFrequency o (mkColumns q s squash merge (Some h)) unique num threshold reverse nf tsv None names) t ->
       exists t', (t = line ++ t' \/ t = [] /\ t' = [])
         /\ run_writes e cfg w (KFrequency o (mkColumns q s squash merge None) unique num threshold reverse nf tsv None names) t'.
Proof. exact run_freq_titled. Qed.
Print Assumptions C148_frequency.

Example C148_frequency_sample : run_writes main_env None main_world
    (KFrequency no_opts (mkColumns (lit "012A.b") (lit "|") false false (Some (lit "b , n"))) false 1 0 false None true None [lit "b.dat"])
    (lit "b" ++ [9] ++ lit "n" ++ [10] ++ umlaut ++ [9] ++ lit "2" ++ [10])
  /\ run_writes main_env None main_world
    (KFrequency no_opts (mkColumns (lit "012A.b") (lit "|") false false None) false 1 0 false None true None [lit "b.dat"])
    (umlaut ++ [9] ++ lit "2" ++ [10]).
Proof. split; (eexists; split; [vm_compute; reflexivity|vm_compute; reflexivity]). Qed.

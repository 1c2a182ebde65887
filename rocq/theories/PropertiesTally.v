(** * Properties of rows and how often they occur *)

From Coq Require Import String Permutation.
From Verif Require Import Bytes BaseProofs RecordModel MatcherModel BuilderModel CliModel CsvModel CsvSpec ConvertModel OptionsModel IoModel DiskModel QuerySpec TableSpec MainModel MainSpec PipeSpec
  PartsSpec PrepareSpec TallySpec TallyProofs PropertiesDisk PropertiesMain PropertiesFront PropertiesRecordwise.

(** ** C143: frequency counts the rows that select lists

    The text of "pica select Q" is a table, and "pica frequency Q" with the same options lists each of its rows once, with the number of
    times it stands in the table, frequent rows first. *)
Theorem C143_tally : forall e cfg o q tsv names w t, (forall x, Permutation (e_freq_order e x) x) ->
  regexes_compile (oracles_for e o) (o_ci o) -> regexes_compile (default_oracles e) false -> co_header q = None -> o_limit o = 0 ->
  run_writes e cfg w (listed o q tsv names) t ->
  exists rows l tf, tally rows l /\ csv_rows (if tsv then 9 else 44) rows t
    /\ csv_rows (if tsv then 9 else 44) (map (fun x => map (e_lossy e) (fst x) ++ [dec (snd x)]) l) tf
    /\ run_writes e cfg w (tallied o q tsv names) tf.
Proof. exact run_tally. Qed.
Print Assumptions C143_tally.

Definition tally_query : MainModel.columns := mkColumns (lit "012A{ a, b }") (lit "|") false false None.

(** the first file is read twice *)
Lemma tally_listed : run_writes main_env None wise_world (listed no_opts tally_query false [lit "-"; lit "b.dat"; lit "b.dat"])
  (lit "xz," ++ [10] ++ lit "x," ++ umlaut ++ [10] ++ lit "y," ++ umlaut ++ [10] ++ lit "x," ++ umlaut ++ [10] ++ lit "y," ++ umlaut ++ [10]).
Proof. eexists. split; [vm_compute; reflexivity|reflexivity]. Qed.

Example C143_sample : exists rows l tf, tally rows l
  /\ csv_rows 44 (map (fun x => map (e_lossy main_env) (fst x) ++ [dec (snd x)]) l) tf
  /\ run_writes main_env None wise_world (tallied no_opts tally_query false [lit "-"; lit "b.dat"; lit "b.dat"]) tf.
Proof.
  destruct (C143_tally main_env None no_opts tally_query false _ wise_world _ (fun x => Permutation_refl x) (sample_compile _) (sample_compile no_opts) eq_refl eq_refl tally_listed)
    as (rows & l & tf & H1 & _ & H3 & H4). exists rows, l, tf. split; [exact H1|]. split; [exact H3|exact H4].
Qed.

Example C143_table : run_writes main_env None wise_world (tallied no_opts tally_query false [lit "-"; lit "b.dat"; lit "b.dat"])
  (lit "x," ++ umlaut ++ lit ",2" ++ [10] ++ lit "y," ++ umlaut ++ lit ",2" ++ [10] ++ lit "xz,,1" ++ [10]).
Proof. eexists. split; [vm_compute; reflexivity|reflexivity]. Qed.

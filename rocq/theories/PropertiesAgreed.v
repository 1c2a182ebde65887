(** * Properties of commands that choose the records which filter chooses *)

From Coq Require Import String.
From Verif Require Import Bytes BaseProofs RecordModel MatcherModel BuilderModel CliModel CsvModel ConvertModel OptionsModel IoModel DiskModel MainModel QuerySpec MainSpec PipeSpec
  LimitSpec PartsSpec DealtSpec AgreedSpec AgreedProofs PropertiesDisk PropertiesMain PropertiesFront PropertiesRecordwise.

(** ** C141: explode main, slice and count choose what filter chooses

    With "--where W" and the same other options "pica explode main" and "pica slice" write what "pica filter W" writes, byte for byte. *)
Theorem C141_explode : forall e cfg o W names w t, o_where o = Some W -> o_limit o = 0 ->
  run_writes e cfg w (sifted o W false names) t -> run_writes e cfg w (exploded_main o names) t.
Proof. exact run_agreed_explode. Qed.
Print Assumptions C141_explode.

(** slice counts records in a machine word; [all] are the valid records of the inputs *)
Theorem C141_slice : forall e cfg o W names w t, o_where o = Some W -> o_limit o = 0 ->
  run_writes e cfg w (sifted o W false names) t ->
  forall all, run_writes e cfg w (concat_part (o_skip o) None names) all -> N.of_nat (length all) <= usize_max ->
  run_writes e cfg w (sliced o names) t.
Proof. exact run_agreed_slice. Qed.
Print Assumptions C141_slice.

(** "pica count" with --records, --fields or --subfields prints how many line ends, record separators or unit separators are in what filter writes. *)
Theorem C141_count : forall e cfg o W names w t, o_where o = Some W -> o_limit o = 0 ->
  run_writes e cfg w (sifted o W false names) t ->
  run_writes e cfg w (counted o MRecords names) (dec (bytes_in 10 t) ++ [10])
  /\ run_writes e cfg w (counted o MFields names) (dec (bytes_in 30 t) ++ [10])
  /\ run_writes e cfg w (counted o MSubfields names) (dec (bytes_in 31 t) ++ [10]).
Proof. exact run_agreed_counts. Qed.
Print Assumptions C141_count.

Definition agreed_opts : file_opts := mkFileOpts false 0 false 80 [] [] None None (Some (lit "012A.a =^ 'x'")) [] [] [].

Lemma agreed_sample : run_writes main_env None wise_world (sifted agreed_opts (lit "012A.a =^ 'x'") false [lit "b.dat"; lit "-"])
  (main_line "1" (lit "x") umlaut ++ main_line "3" (lit "xz") []).
Proof. eexists. split; [vm_compute; reflexivity|reflexivity]. Qed.

Example C141_sample :
  run_writes main_env None wise_world (exploded_main agreed_opts [lit "b.dat"; lit "-"]) (main_line "1" (lit "x") umlaut ++ main_line "3" (lit "xz") [])
  /\ run_writes main_env None wise_world (sliced agreed_opts [lit "b.dat"; lit "-"]) (main_line "1" (lit "x") umlaut ++ main_line "3" (lit "xz") [])
  /\ run_writes main_env None wise_world (counted agreed_opts MRecords [lit "b.dat"; lit "-"]) (lit "2" ++ [10])
  /\ run_writes main_env None wise_world (counted agreed_opts MFields [lit "b.dat"; lit "-"]) (lit "4" ++ [10])
  /\ run_writes main_env None wise_world (counted agreed_opts MSubfields [lit "b.dat"; lit "-"]) (lit "6" ++ [10]).
Proof.
  split; [exact (C141_explode main_env None agreed_opts _ _ wise_world _ eq_refl eq_refl agreed_sample)|]. split.
  - assert (H : run_writes main_env None wise_world (concat_part (o_skip agreed_opts) None [lit "b.dat"; lit "-"])
      (main_line "1" (lit "x") umlaut ++ main_line "2" (lit "y") umlaut ++ main_line "3" (lit "xz") [])) by (eexists; split; [vm_compute; reflexivity|reflexivity]).
    apply (C141_slice main_env None agreed_opts _ _ wise_world _ eq_refl eq_refl agreed_sample _ H). intros X. vm_compute in X. discriminate.
  - exact (C141_count main_env None agreed_opts _ _ wise_world _ eq_refl eq_refl agreed_sample).
Qed.

(** ** C142: sample takes lines of what filter writes

    Whatever the random numbers are; if there are no more records than asked for, sample writes what filter writes. *)
Theorem C142_sample : forall e cfg o W names w t, o_where o = Some W -> o_limit o = 0 ->
  run_writes e cfg w (sifted o W false names) t ->
  forall draw size, exists t', run_writes e cfg w (sampled o draw size names) t' /\ lines_drawn size t t' /\ (bytes_in 10 t <= size -> t' = t).
Proof. exact run_agreed_sample. Qed.
Print Assumptions C142_sample.

Example C142_all : forall draw, run_writes main_env None wise_world (sampled agreed_opts draw 2 [lit "b.dat"; lit "-"])
  (main_line "1" (lit "x") umlaut ++ main_line "3" (lit "xz") []).
Proof.
  intros draw. destruct (C142_sample main_env None agreed_opts _ _ wise_world _ eq_refl eq_refl agreed_sample draw 2) as (t' & H & _ & E).
  rewrite E in H; [exact H|]. vm_compute. discriminate.
Qed.

Example C142_one : run_writes main_env None wise_world (sampled agreed_opts (fun _ => 0) 1 [lit "b.dat"; lit "-"]) (main_line "3" (lit "xz") []).
Proof. eexists. split; [vm_compute; reflexivity|reflexivity]. Qed.

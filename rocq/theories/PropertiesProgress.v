(** * Properties of the progress bar *)

From Coq Require Import String.
From Verif Require Import Bytes RecordModel RecordSpec ByteRecordModel ByteRecordSpec ReaderModel MatcherModel CliModel CliSpec CliProofs
  CliChunkProofs ProgressModel ProgressSpec ProgressProofs PropertiesMatcher PropertiesCli.

(** ** C131: the progress bar counts the lines that have been read

    With --progress the numbers shown are the number of the records and of the invalid lines read so far, and the
    progress bar changes nothing else. *)

(** The progress changes neither what is written nor how the run ends. *)
Theorem C131_unchanged : forall S skip (body : S -> byte_record -> step S) files s p,
  option_map without_progress (files_loop (shown_result skip (fun s => s) body) (s, p) files)
  = files_loop (on_result skip body) s files.
Proof. exact shown_without. Qed.
Print Assumptions C131_unchanged.

Theorem C131_slice_unchanged : forall O O' skip start length o files s p,
  option_map without_progress (files_loop (shown_result skip (slice_skip length) (slice_body O O' start o)) (s, p) files)
  = files_loop (slice_step O O' skip start length o) s files.
Proof. exact slice_without. Qed.
Print Assumptions C131_slice_unchanged.

Theorem C131_concat_unchanged : forall O sha lossy skip unique files s p,
  option_map without_progress (files_loop (concat_shown O sha lossy skip unique) (s, p) files)
  = files_loop (on_result skip (concat_body O sha lossy unique)) s files.
Proof. exact concat_without. Qed.
Print Assumptions C131_concat_unchanged.

(** All commands but concat and invalid: the lines up to the end of the run, with the record the run ended at, are
    counted.  The line that is no record and ends the run is not. *)
Theorem C131_counts : forall S skip on_skip (body : S -> byte_record -> step S) files ls s x q,
  input_lines files ls -> files_loop (shown_result skip on_skip body) (s, progress_new) files = Some x ->
  last_progress x = Some q ->
  exists done rest v i, ls = done ++ rest /\ tally done v i /\ counts q v i /\ ends_at skip x done rest.
Proof. exact shown_counts. Qed.
Print Assumptions C131_counts.

(** invalid counts all lines, and writes what it writes without the progress. *)
Theorem C131_invalid : forall files ls, input_lines files ls ->
  exists out q v i, invalid_run_shown files progress_new = Some (out, q) /\ invalid_run files = Some out
    /\ tally ls v i /\ counts q v i.
Proof. exact invalid_counts. Qed.
Print Assumptions C131_invalid.

(** the two numbers are all lines *)
Theorem C131_total : forall ls v i, tally ls v i -> v + i = N.of_nat (length ls).
Proof. exact tally_total. Qed.
Print Assumptions C131_total.

(** concat counts the records it has written: with --unique the others are not counted, neither as records nor as
    invalid lines.  Missing for the full claim: the duplicates, see [C131_refuted]. *)
Theorem C131_concat_partial : forall O sha lossy skip unique files ls x q,
  input_lines files ls -> files_loop (concat_shown O sha lossy skip unique) ([], [], [], progress_new) files = Some x ->
  last_progress x = Some q ->
  exists done rest v i kept, ls = done ++ rest /\ tally done v i
    /\ counts q (N.of_nat (length kept)) i /\ N.of_nat (length kept) <= v
    /\ (unique = None -> N.of_nat (length kept) = v)
    /\ (exists sn' t', without_progress x = Next (sn', concat kept, t')
        \/ exists e, without_progress x = Fail (sn', concat kept, t') e) /\ ends_at skip x done rest
    /\ exists dropped, Split (map snd done) kept dropped.
Proof. exact concat_counts. Qed.
Print Assumptions C131_concat_partial.

(** The numbers are shown in decimal, in groups of three digits. *)
Theorem C131_message : forall p k, exists a b c, in_groups (pg_records p) a /\ in_groups (pg_invalid p) b /\ in_groups k c
  /\ progress_message p k = a ++ lit " records, " ++ b ++ lit " invalid | " ++ c ++ lit " records/s".
Proof. exact message_parts. Qed.
Print Assumptions C131_message.

(** No text stands for two numbers. *)
Theorem C131_numbers : forall n m t, in_groups n t -> in_groups m t -> n = m.
Proof. exact groups_value. Qed.
Print Assumptions C131_numbers.

(** ** Samples *)

Lemma sample_tally : exists ls, input_lines sample_files ls /\ tally ls 4 2.
Proof.
  destruct (input_lines_exists sample_files) as [ls Hl]. exists ls. split; [exact Hl|].
  destruct (invalid_counts _ _ Hl) as (out & q & v & i & E & _ & Ht & Hc).
  assert (Hv := tally_total _ _ _ Ht).
  assert (Hlen : length ls = 6%nat).
  { assert (X := files_loop_fold _ (fun (n : nat) (_ : byte_record + read_error) => Next (Datatypes.S n)) _ _ Hl 0%nat).
    assert (Y : forall l n, fold_steps (fun (n : nat) (_ : byte_record + read_error) => Next (Datatypes.S n)) n l = Next (length l + n)%nat).
    { induction l as [|a l IH]; intros n; [reflexivity|]. cbn [fold_steps length]. rewrite IH. f_equal. lia. }
    rewrite Y, map_length in X.
    assert (Z : files_loop (fun (n : nat) (_ : byte_record + read_error) => Next (Datatypes.S n)) 0%nat sample_files = Some (Next 6%nat))
      by (vm_compute; reflexivity).
    rewrite Z in X. injection X as X. lia. }
  assert (Eq : q = mkProgress 4 2).
  { assert (X : option_map snd (invalid_run_shown sample_files progress_new) = Some (mkProgress 4 2)) by (vm_compute; reflexivity).
    rewrite E in X. cbn in X. congruence. }
  subst q. destruct Hc as [H1 H2]. cbn [pg_records pg_invalid] in H1, H2. rewrite Hlen in Hv.
  rewrite N.mod_small in H1 by (revert Hv; cbn; lia). rewrite N.mod_small in H2 by (revert Hv; cbn; lia). subst. exact Ht.
Qed.

(** The full claim does not hold: with --unique only the records written are counted.  Of six lines, four of them
    records, the progress tells three records and two invalid lines. *)
Theorem C131_refuted : exists O sha lossy unique files ls x q,
  input_lines files ls /\ files_loop (concat_shown O sha lossy true unique) ([], [], [], progress_new) files = Some (Next x)
  /\ snd x = q /\ tally ls 4 2 /\ counts q 3 2 /\ ~ counts q 4 2.
Proof.
  destruct sample_tally as (ls & Hl & Ht).
  exists sample_oracles, sample_sha, sample_lossy, (Some SIdn), sample_files, ls. do 2 eexists.
  split; [exact Hl|]. split; [vm_compute; reflexivity|]. split; [reflexivity|]. split; [exact Ht|].
  split; [split; reflexivity|]. intros [X _]. discriminate X.
Qed.
Print Assumptions C131_refuted.

(** slice of the first two records stops at the third, the fourth line *)
Example C131_counts_sample :
  exists x, files_loop (shown_result true (slice_skip 0) (slice_body sample_oracles sample_oracles 0 open_opts))
      (mkSlice 2 0 0 [], progress_new) sample_files = Some (Halt x)
  /\ sl_out (fst x) = sample_line "1" "x" ++ sample_line "2" "y" /\ counts (snd x) 3 1.
Proof. eexists. split; [vm_compute; reflexivity|]. split; [reflexivity|split; reflexivity]. Qed.

Example C131_message_sample : progress_message (mkProgress 1234567 890) 1000 = lit "1,234,567 records, 890 invalid | 1,000 records/s".
Proof. vm_compute. reflexivity. Qed.

(** * Properties of the commands reading and writing records

    [reads] says which records a run sees and with which error it ends,
    [selects] which of them a command works on (CliSpec.v). *)

From Coq Require Import String.
From Verif Require Import Bytes RecordModel RecordSpec RecordProofs TagOccModel Utf8Spec ByteRecordModel
  ByteRecordSpec ReaderModel MatcherModel StateParser MatcherParserModel MatcherSpec PathModel QuerySpec
  CliModel CliSpec CliProofs CliCommandProofs CliOutputProofs CliRangeProofs CliChunkProofs CliListProofs
  CliCounterexamples SampleSpec SampleProofs PropertiesMatcher.

(** ** Sample inputs *)

Definition sample_line (id extra : string) : bytes :=
  lit "003@ " ++ [31] ++ lit "0" ++ lit id ++ [30] ++ lit "012A " ++ [31] ++ lit "a" ++ lit extra ++ [30; 10].
Definition sample_rec (id extra : string) : byte_record :=
  mkBR (Some (sample_line id extra))
    [ mkField (lit "003@") None [mkSubfield 48 (lit id)];
      mkField (lit "012A") None [mkSubfield 97 (lit extra)] ].
Definition sample_files : list (bytes * bytes) :=
  [ (lit "a.dat", sample_line "1" "x" ++ lit "bad" ++ [10] ++ sample_line "2" "y");
    (lit "-", sample_line "1" "z" ++ sample_line "3" "x" ++ lit "tail") ].

(** what a run sees of the sample files *)
Ltac prove_line :=
  match goal with
  | |- record_text _ _ => apply record_accept_iff; vm_compute; reflexivity
  | |- forall r, ~ record_text r _ =>
      let r := fresh "r" in let H := fresh "H" in
      intros r H; apply record_accept_iff in H; vm_compute in H; discriminate
  end.

Lemma sample_input_lines : input_lines sample_files
  [ (lit "a.dat", 1, sample_line "1" "x"); (lit "a.dat", 2, lit "bad" ++ [10]);
    (lit "a.dat", 3, sample_line "2" "y");
    (lit "<stdin>", 1, sample_line "1" "z"); (lit "<stdin>", 2, sample_line "3" "x");
    (lit "<stdin>", 3, lit "tail") ].
Proof.
  assert (NI : forall l : bytes, forallb (fun c => negb (c =? 10)) l = true -> ~ In 10 l).
  { intros l H Hin. rewrite forallb_forall in H. apply H in Hin. discriminate. }
  apply (il_file (lit "a.dat") _ _ (lit "a.dat")
           [sample_line "1" "x"; lit "bad" ++ [10]; sample_line "2" "y"]
           [(lit "a.dat", 1, sample_line "1" "x"); (lit "a.dat", 2, lit "bad" ++ [10]);
            (lit "a.dat", 3, sample_line "2" "y")]).
  - right. split; [discriminate|reflexivity].
  - apply (lines_cons (removelast (sample_line "1" "x"))); [apply NI; reflexivity|].
    apply (lines_cons (lit "bad")); [apply NI; reflexivity|].
    apply (lines_cons (removelast (sample_line "2" "y")) []); [apply NI; reflexivity|]. constructor.
  - repeat constructor.
  - apply (il_file (lit "-") _ _ (lit "<stdin>")
             [sample_line "1" "z"; sample_line "3" "x"; lit "tail"]
             [(lit "<stdin>", 1, sample_line "1" "z"); (lit "<stdin>", 2, sample_line "3" "x");
              (lit "<stdin>", 3, lit "tail")] []).
    + left. split; reflexivity.
    + apply (lines_cons (removelast (sample_line "1" "z"))); [apply NI; reflexivity|].
      apply (lines_cons (removelast (sample_line "3" "x"))); [apply NI; reflexivity|].
      constructor; [discriminate|apply NI; reflexivity].
    + repeat constructor.
    + constructor.
Qed.

Example sample_reads_skip : reads true sample_files
  [sample_rec "1" "x"; sample_rec "2" "y"; sample_rec "1" "z"; sample_rec "3" "x"] None.
Proof.
  eexists. split; [exact sample_input_lines|].
  apply seen_record; [prove_line|]. apply seen_skip; [reflexivity|prove_line|].
  apply seen_record; [prove_line|]. apply seen_record; [prove_line|]. apply seen_record; [prove_line|].
  apply seen_skip; [reflexivity|prove_line|]. constructor.
Qed.
Example sample_reads_fail : reads false sample_files [sample_rec "1" "x"] (Some (EParse 2 (Some (lit "a.dat")))).
Proof.
  eexists. split; [exact sample_input_lines|].
  apply seen_record; [prove_line|]. apply seen_fail; [reflexivity|prove_line].
Qed.

Definition sample_sha (b : bytes) : bytes := [N.of_nat (length b)].
Definition sample_lossy (b : bytes) : bytes := b.

(** what a run sees is determined by the input, and so is what it works on *)
Theorem C12_reads_unique : forall skip files recs e, reads skip files recs e ->
  forall recs' e', reads skip files recs' e' -> recs = recs' /\ e = e'.
Proof. exact reads_fun. Qed.
Print Assumptions C12_reads_unique.
Theorem C38_selects_unique : forall O Od skip o files recs e, selects O Od skip o files recs e ->
  forall recs' e', selects O Od skip o files recs' e' -> recs = recs' /\ e = e'.
Proof. exact selects_fun. Qed.
Print Assumptions C38_selects_unique.

(** ** concat, invalid *)

(** C12: the output and the tee output are the valid lines, up to the error if
    there is one *)
Theorem C12_concat : forall O sha lossy skip files,
  exists recs e out, reads skip files recs e /\ lines_of recs out
    /\ concat_run O sha lossy skip None files = Some (ended ([], out, out) e).
Proof. exact concat_plain. Qed.
Print Assumptions C12_concat.

Example C12_sample :
  let out := sample_line "1" "x" in
  concat_run sample_oracles sample_sha sample_lossy false None sample_files
  = Some (Failed ([], out, out) (EParse 2 (Some (lit "a.dat")))).
Proof. vm_compute. reflexivity. Qed.

(** C13 *)
Theorem C13_complement : forall O sha lossy files,
  exists ls valid invalid,
    input_lines files ls
    /\ Split (map snd ls) valid invalid
    /\ Forall (fun l => exists r, record_text r l) valid
    /\ Forall (fun l => forall r, ~ record_text r l) invalid
    /\ concat_run O sha lossy true None files = Some (Done ([], concat valid, concat valid))
    /\ invalid_run files = Some (concat invalid).
Proof. exact invalid_complement. Qed.
Print Assumptions C13_complement.

Example C13_sample : invalid_run sample_files = Some (lit "bad" ++ [10] ++ lit "tail").
Proof. vm_compute. reflexivity. Qed.

(** C50 *)
Theorem C50_unique : forall O sha lossy st skip files recs e,
  reads skip files recs e -> Forall (has_key sha lossy st) recs ->
  exists kept seen out, firsts (key_of sha lossy st) [] recs kept /\ lines_of kept out
    /\ concat_run O sha lossy skip (Some st) files = Some (ended (seen, out, out) e)
    /\ forall skip' name, exists seen',
         concat_run O sha lossy skip' (Some st) [(name, out)] = Some (Done (seen', out, out)).
Proof. exact unique_exact. Qed.
Print Assumptions C50_unique.

(** exactly one record per key that occurs *)
Theorem C50_kept_keys : forall sha lossy st recs kept, firsts (key_of sha lossy st) [] recs kept ->
  forall k, k <> [] -> (exists r, In r recs /\ key_of sha lossy st r k) ->
  exists pre r post, kept = pre ++ r :: post /\ key_of sha lossy st r k
    /\ Forall (fun r' => ~ key_of sha lossy st r' k) (pre ++ post).
Proof. exact firsts_one_per_key. Qed.
Print Assumptions C50_kept_keys.

(** the failure: with the idn strategy a record without identifier panics *)
Theorem C50_missing_key_panics : forall O sha lossy st skip files recs e,
  reads skip files recs e -> ~ Forall (has_key sha lossy st) recs ->
  concat_run O sha lossy skip (Some st) files = Some Panicked.
Proof. exact unique_panic. Qed.
Print Assumptions C50_missing_key_panics.

Example C50_sample :
  Forall (has_key sample_sha sample_lossy SHash)
    [sample_rec "1" "x"; sample_rec "2" "y"; sample_rec "1" "z"; sample_rec "3" "x"]
  /\ exists seen, concat_run sample_oracles sample_sha sample_lossy true (Some SIdn) sample_files
     = let out := sample_line "1" "x" ++ sample_line "2" "y" ++ sample_line "3" "x" in
       Some (Done (seen, out, out)).
Proof.
  split; [|eexists; vm_compute; reflexivity].
  assert (H : forall a x, has_key sample_sha sample_lossy SHash (sample_rec a x)).
  { intros a x. eexists; eexists; split; [reflexivity|apply hex_string_ok]. }
  repeat (constructor; [apply H|]). constructor.
Qed.

(** ** Allow and deny lists *)

(** C39 *)
Theorem C39_lists : forall Od fs r, fset_wf Od fs ->
  exists b, filter_set_check Od fs r = Some b /\ (b = true <-> admitted Od fs r).
Proof. exact filter_set_exact. Qed.
Print Assumptions C39_lists.

Theorem C39_empty_allow_list : forall Od fs r, fset_wf Od fs -> fset_allow fs = Some [] ->
  filter_set_check Od fs r = Some false.
Proof. exact filter_set_empty_allow. Qed.
Print Assumptions C39_empty_allow_list.

(** the sets are the unions of the identifier columns of the given tables *)
Theorem C39_build : forall source name allow deny fs,
  filter_set_build source name allow deny = Some fs ->
  listed allow name (fset_allow fs) /\ listed deny name (fset_deny fs)
  /\ fset_path fs = match source with Some p => p | None => ppn_path end.
Proof. exact filter_set_build_lists. Qed.
Print Assumptions C39_build.

Theorem C39_build_fails : forall source name allow deny,
  filter_set_build source name allow deny = None <->
  exists t, In t (allow ++ deny) /\ forall cells, ~ id_column t name cells.
Proof. exact filter_set_build_fails. Qed.
Print Assumptions C39_build_fails.

Definition sample_table (vs : list (option bytes)) : table := [(lit "name", [Some (lit "9")]); (lit "ppn", vs)].

Example C39_sample : exists fs,
  filter_set_build None None
    [sample_table [Some (lit "1")]; sample_table [None; Some (lit "2")]] [sample_table [Some (lit "2")]] = Some fs
  /\ fset_wf sample_oracles fs
  /\ map (fun r => filter_set_check sample_oracles fs (br_record r))
       [sample_rec "1" "x"; sample_rec "2" "x"; sample_rec "3" "x"] = [Some true; Some false; Some false].
Proof. eexists. split; [vm_compute; reflexivity|]. split; [exact I|]. vm_compute. reflexivity. Qed.

(** ** filter *)

(** C38 *)
Theorem C38_filter : forall O Od skip c files, filter_wf O Od c ->
  exists all e0 sel recs e texts,
    reads skip files all e0
    /\ chosen (filter_holds O Od c) all sel
    /\ limited (fc_limit c) sel e0 recs e
    /\ Forall2 (edited_text c) recs texts
    /\ filter_run O Od skip c files
       = Some (ended (N.of_nat (length recs), concat texts, concat texts) e).
Proof. exact filter_exact. Qed.
Print Assumptions C38_filter.

(** inverted and not inverted: each admitted record in exactly one of the two *)
Theorem C38_invert : forall O Od skip c files, filter_wf O Od c -> fc_limit c = 0 ->
  exists all e adm recs1 recs2 texts1 texts2,
    reads skip files all e
    /\ chosen (admitted Od (fc_fset c)) all adm
    /\ Split adm recs1 recs2
    /\ Forall2 (edited_text c) recs1 texts1
    /\ Forall2 (edited_text c) recs2 texts2
    /\ filter_run O Od skip (with_invert c true) files
       = Some (ended (N.of_nat (length recs1), concat texts1, concat texts1) e)
    /\ filter_run O Od skip (with_invert c false) files
       = Some (ended (N.of_nat (length recs2), concat texts2, concat texts2) e).
Proof. exact filter_invert. Qed.
Print Assumptions C38_invert.

(** without edits the line itself is written *)
Theorem C38_unedited : forall c r t, from_line r -> fc_discard c = [] -> fc_keep c = [] ->
  edited_text c r t -> br_raw r = Some t.
Proof. exact unedited_text. Qed.
Print Assumptions C38_unedited.

(** the input files: with an expression file the argument in the place of the
    expression is the first input file *)
Theorem C38_input_files : forall arg names,
  filter_names false arg names = names
  /\ filter_names true [] names = names
  /\ (arg <> [] -> filter_names true arg [lit "-"] = [arg])
  /\ (arg <> [] -> names <> [lit "-"] -> filter_names true arg names = arg :: names).
Proof. exact filter_names_ok. Qed.
Print Assumptions C38_input_files.

Example C38_sample : exists m,
  field_matcher_new sample_oracles fresh (lit "012A.a == 'x'") = (Some (Some m), fresh)
  /\ let c := mkFilter (mkFSet None None ppn_path) m false false [] [] 0 in
     filter_wf sample_oracles sample_oracles c
     /\ filter_run sample_oracles sample_oracles true c sample_files
        = (let out := sample_line "1" "x" ++ sample_line "3" "x" in Some (Done (2, out, out)))
     /\ filter_run sample_oracles sample_oracles true (with_invert c true) sample_files
        = (let out := sample_line "2" "y" ++ sample_line "1" "z" in Some (Done (2, out, out))).
Proof. eexists. split; [vm_compute; reflexivity|]. split; [vm_compute; repeat split|]. split; vm_compute; reflexivity. Qed.

(** ** count *)

(** C49: a limit is ignored *)
Theorem C49_count : forall O Od skip o files, opts_wf O Od o ->
  exists all sel e, reads skip files all e /\ chosen (opts_hold O Od o) all sel
    /\ count_run O Od skip o files
       = Some (ended (N.of_nat (length sel), N.of_nat (length (flat_map br_record sel)),
                      N.of_nat (length (flat_map f_subfields (flat_map br_record sel)))) e).
Proof. exact count_exact. Qed.
Print Assumptions C49_count.

Theorem C49_additive : forall O Od skip o a b x1 y1 z1 x2 y2 z2,
  count_run O Od skip o a = Some (Done (x1, y1, z1)) ->
  count_run O Od skip o b = Some (Done (x2, y2, z2)) ->
  count_run O Od skip o (a ++ b) = Some (Done (x1 + x2, y1 + y2, z1 + z2)).
Proof. exact count_additive. Qed.
Print Assumptions C49_additive.

(** what is written *)
Theorem C49_output : forall m r f s, count_text m r f s (count_output m (r, f, s)).
Proof. exact count_output_ok. Qed.
Print Assumptions C49_output.

Example C49_output_sample :
  count_output (MCsv false) (4, 18, 205) = lit "records,fields,subfields" ++ [10] ++ lit "4,18,205" ++ [10].
Proof. vm_compute. reflexivity. Qed.

Example C49_sample :
  count_run sample_oracles sample_oracles true open_opts [hd ([], []) sample_files] = Some (Done (2, 4, 4))
  /\ count_run sample_oracles sample_oracles true open_opts (tl sample_files) = Some (Done (2, 4, 4))
  /\ count_run sample_oracles sample_oracles true open_opts sample_files = Some (Done (4, 8, 8)).
Proof. vm_compute. repeat split. Qed.

(** ** hash *)

(** C62 *)
Theorem C62_hash : forall O Od sha lossy skip o files, opts_wf O Od o ->
  exists recs e rows, selects O Od skip o files recs e
    /\ Forall2 (hash_row sha lossy) recs rows
    /\ hash_run O Od sha lossy skip o files = Some (ended (N.of_nat (length recs), rows) e).
Proof. exact hash_exact. Qed.
Print Assumptions C62_hash.

Example C62_sample :
  hash_run sample_oracles sample_oracles sample_sha sample_lossy true open_opts [hd ([], []) sample_files]
  = Some (Done (2, [[lit "1"; lit "13"]; [lit "2"; lit "13"]])).
Proof. vm_compute. reflexivity. Qed.

(** ** print *)

(** C58, print: if the values of the selected records are UTF-8 *)
Theorem C58_print_partial : forall O Od tr skip o files all e0, opts_wf O Od o ->
  reads skip files all e0 ->
  Forall (fun r => opts_hold O Od o (br_record r) -> utf8_record (br_record r)) all ->
  exists recs e texts, selects O Od skip o files recs e
    /\ Forall2 (printed_record tr) recs texts
    /\ print_run O Od tr skip o files = Some (ended (N.of_nat (length recs), concat texts) e).
Proof. exact print_exact. Qed.
Print Assumptions C58_print_partial.

(** an accepted record with a value that is not UTF-8 makes print panic *)
Theorem C58_print_refuted : exists r l, record_text r l /\
  forall O Od tr skip name, print_run O Od tr skip open_opts [(name, l)] = Some Panicked.
Proof. exact print_panics. Qed.
Print Assumptions C58_print_refuted.

Example C58_sample :
  print_run sample_oracles sample_oracles (fun b => b) false open_opts [(lit "f", sample_line "1" "x")]
  = Some (Done (1, lit "003@ $0 1" ++ [10] ++ lit "012A $a x" ++ [10; 10])).
Proof. vm_compute. reflexivity. Qed.

(** ** sample *)

(** C34: whatever the random choices *)
Theorem C34_without_replacement_partial : forall O Od draw size skip o files, opts_wf O Od o ->
  exists recs e, selects O Od skip o files recs e
    /\ ((exists err, e = Some err /\ sample_run O Od draw size skip o files = Some (Failed [] err))
        \/ (e = None /\ exists sample out, drawn size recs sample /\ lines_of sample out
              /\ sample_run O Od draw size skip o files = Some (Done out))).
Proof. exact sample_exact. Qed.
Print Assumptions C34_without_replacement_partial.

(** the draw is not fair: of two records the first is never chosen.  [draw n] is
    a value of [random_range(0..n)]. *)
Theorem C34_fairness_refuted : exists r1 r2 l1 l2, record_text r1 l1 /\ record_text r2 l2 /\ l1 <> l2 /\
  forall O Od draw skip name, (forall n, 0 < n -> draw n < n) ->
    sample_run O Od draw 1 skip open_opts [(name, l1 ++ l2)] = Some (Done l2).
Proof. exact sample_unfair. Qed.
Print Assumptions C34_fairness_refuted.

(** the exact chances, for records that differ: of the equally likely outcomes of
    the draws, the share [(size - 1) / (m - 1)] samples a given one of the first
    [size] records and the share [size / (m - 1)] a given later one *)
Theorem C34_chances : forall O Od size skip o files recs j r, opts_wf O Od o ->
  selects O Od skip o files recs None -> NoDup recs ->
  (0 < size < length recs)%nat -> nth_error recs j = Some r ->
  exists hits,
    picks (fun v => exists sample out, drawn (N.of_nat size) recs sample /\ lines_of sample out
             /\ sample_run O Od (draw_of size v) (N.of_nat size) skip o files = Some (Done out) /\ In r sample)
      (fun v => v) (all_draws size (length recs - size)) hits
    /\ ((length recs - 1) * length hits
        = (if Nat.ltb j size then size - 1 else size) * length (all_draws size (length recs - size)))%nat.
Proof. exact sample_chances. Qed.
Print Assumptions C34_chances.

(** two of four records: six outcomes; two sample the first, four the last *)
Example C34_chances_sample :
  let recs := [sample_rec "1" "x"; sample_rec "2" "y"; sample_rec "1" "z"; sample_rec "3" "x"] in
  selects sample_oracles sample_oracles true open_opts sample_files recs None /\ NoDup recs
  /\ all_draws 2 2 = [[0; 0]; [0; 1]; [0; 2]; [1; 0]; [1; 1]; [1; 2]]%nat
  /\ sample_run sample_oracles sample_oracles (draw_of 2 [1; 2]%nat) 2 true open_opts sample_files
     = Some (Done (sample_line "1" "x" ++ sample_line "1" "z"))
  /\ sample_run sample_oracles sample_oracles (draw_of 2 [1; 1]%nat) 2 true open_opts sample_files
     = Some (Done (sample_line "1" "x" ++ sample_line "3" "x")).
Proof.
  cbv zeta. split; [|split; [|split; [|split]]]; try (vm_compute; reflexivity).
  - do 3 eexists. split; [exact sample_reads_skip|]. split.
    + repeat (apply (picks_yes (fun r => opts_hold _ _ open_opts (br_record r)) (fun r => r));
              [apply open_opts_hold|]). constructor.
    + left. split; [left; reflexivity|split; reflexivity].
  - repeat constructor; cbn [In]; intros H; repeat destruct H as [H|H]; try discriminate H; exact H.
Qed.

Example C34_sample :
  sample_run sample_oracles sample_oracles (fun n => n - 1) 2 true open_opts sample_files
  = Some (Done (sample_line "1" "x" ++ sample_line "1" "z")).
Proof. vm_compute. reflexivity. Qed.

(** ** slice *)

(** C35 for --end, an open end, and for --length if no lines are skipped *)
Theorem C35_range_partial : forall O Od skip start end_ len stop o files, opts_wf O Od o ->
  slice_stop start end_ len stop -> len = 0 \/ skip = false ->
  exists all e0 sel range e1 recs e out,
    reads skip files all e0 /\ chosen (opts_hold O Od o) all sel
    /\ index_range start stop sel range
    /\ slice_error start stop sel e0 e1
    /\ limited (fo_limit o) range e1 recs e
    /\ lines_of recs out
    /\ slice_run O Od skip start end_ len o files = Some (ended out e).
Proof. exact slice_exact. Qed.
Print Assumptions C35_range_partial.

Theorem C35_length_with_skip_refuted : exists inputs recs,
  reads true inputs recs None /\
  forall O Od, exists out,
    slice_run O Od true 0 0 1 open_opts inputs = Some (Done out)
    /\ ~ exists range, index_range 0 1 recs range /\ lines_of range out.
Proof. exact slice_length_skip. Qed.
Print Assumptions C35_length_with_skip_refuted.

(** What --length does when lines are skipped: from [start] on, the record
    number n (from 0) is written as long as n is less than the length plus the
    number of invalid lines before the record, wherever these lines are. *)
Theorem C35_length_with_skip_partial : forall O Od start len o files ls sel, opts_wf O Od o -> 0 < len ->
  input_lines files ls -> start + len + N.of_nat (length ls) <= 18446744073709551615 ->
  marked (opts_hold O Od o) 0 ls sel ->
  exists range recs out, lengthened start len sel range
    /\ limited (fo_limit o) (map fst range) None recs None /\ lines_of recs out
    /\ slice_run O Od true start 0 len o files = Some (Done out).
Proof. exact slice_lengthened. Qed.
Print Assumptions C35_length_with_skip_partial.
Theorem C35_marked_partial : forall O Od o, opts_wf O Od o -> forall ls k, exists sel, marked (opts_hold O Od o) k ls sel.
Proof. exact marked_exists. Qed.
Print Assumptions C35_marked_partial.
Theorem C35_lengthened_unique_partial : forall start len sel a b,
  lengthened start len sel a -> lengthened start len sel b -> a = b.
Proof. exact lengthened_fun. Qed.
Print Assumptions C35_lengthened_unique_partial.

(** a length that reaches past the largest number gives nothing *)
Theorem C35_overflow_refuted : forall O Od start len o files, opts_wf O Od o ->
  start <= 18446744073709551615 -> len <= 18446744073709551615 -> 18446744073709551615 < start + len ->
  exists e, slice_run O Od false start 0 len o files = Some (ended [] e).
Proof. exact slice_overflow. Qed.
Print Assumptions C35_overflow_refuted.

Example C35_overflow_sample :
  slice_run sample_oracles sample_oracles false 1 0 18446744073709551615 open_opts
    [(lit "f", sample_line "1" "x" ++ sample_line "2" "y")] = Some (Done [])
  /\ slice_run sample_oracles sample_oracles false 1 0 18446744073709551614 open_opts
    [(lit "f", sample_line "1" "x" ++ sample_line "2" "y")] = Some (Done (sample_line "2" "y")).
Proof. split; vm_compute; reflexivity. Qed.

(** an invalid line before the start lengthens the range *)
Example C35_lengthened_sample :
  slice_run sample_oracles sample_oracles true 1 0 1 open_opts
    [(lit "f", lit "bad" ++ [10] ++ sample_line "1" "x" ++ sample_line "2" "y" ++ sample_line "3" "z" ++ sample_line "4" "z")]
  = Some (Done (sample_line "2" "y" ++ sample_line "3" "z"))
  /\ lengthened 1 1 [(sample_rec "1" "x", 1); (sample_rec "2" "y", 1); (sample_rec "3" "z", 1); (sample_rec "4" "z", 1)]
       [(sample_rec "2" "y", 1); (sample_rec "3" "z", 1)].
Proof.
  split; [vm_compute; reflexivity|]. exists [(sample_rec "1" "x", 1)], [(sample_rec "4" "z", 1)].
  split; [reflexivity|]. split; [reflexivity|]. split.
  - intros a x b E. destruct a as [|a1 [|a2 [|a3 a]]]; injection E; intros; subst; cbn; try lia; try discriminate.
  - intros x b E. injection E as <- <-. cbn. lia.
Qed.

Example C35_sample :
  slice_run sample_oracles sample_oracles true 1 3 0 open_opts sample_files
  = Some (Done (sample_line "2" "y" ++ sample_line "1" "z")).
Proof. vm_compute. reflexivity. Qed.

(** ** split *)

(** C32 for up to 2^32 records and a template with a placeholder *)
Theorem C32_chunks_partial : forall O Od template size skip o inputs recs e, opts_wf O Od o ->
  has_braces template -> 1 <= size ->
  selects O Od skip o inputs recs e -> N.of_nat (length recs) <= 4294967296 ->
  exists chunks fs, chunked size recs chunks /\ chunk_files template chunks fs
    /\ split_run O Od template size skip o inputs = Some (ended fs e).
Proof. exact split_exact. Qed.
Print Assumptions C32_chunks_partial.

(** with one more record the chunk before the last is too short *)
Theorem C32_many_records_refuted : forall O Od skip template r name, has_braces template -> one_line r ->
  exists recs out,
    Forall (fun r' => r' = r) recs /\ N.of_nat (length recs) = 4294967297 /\ lines_of recs out
    /\ selects O Od skip open_opts [(name, out)] recs None
    /\ ~ exists chunks fs, chunked 3 recs chunks /\ chunk_files template chunks fs
           /\ split_run O Od template 3 skip open_opts [(name, out)] = Some (Done fs).
Proof. exact split_truncates. Qed.
Print Assumptions C32_many_records_refuted.

(** without placeholder a chunk overwrites the one before *)
Theorem C32_template_refuted : exists inputs recs,
  reads true inputs recs None /\ (length recs = 2)%nat /\
  forall O Od, exists text, split_run O Od (lit "out") 1 true open_opts inputs = Some (Done [(lit "out", text)])
    /\ exists r, In r recs /\ br_raw r = Some text.
Proof. exact split_overwrites. Qed.
Print Assumptions C32_template_refuted.

Example C32_sample : has_braces (lit "{}.dat") /\ one_line (sample_rec "1" "x")
  /\ split_run sample_oracles sample_oracles (lit "{}.dat") 3 true open_opts sample_files
     = Some (Done [(lit "1.dat", sample_line "3" "x");
                   (lit "0.dat", sample_line "1" "x" ++ sample_line "2" "y" ++ sample_line "1" "z")]).
Proof.
  split; [exists [], (lit ".dat"); reflexivity|]. split; [|vm_compute; reflexivity].
  exists (removelast (sample_line "1" "x")). split; [reflexivity|]. split.
  - assert (E : forallb (fun c => negb (c =? 10)) (removelast (sample_line "1" "x")) = true) by reflexivity.
    intros Hin. rewrite forallb_forall in E. apply E in Hin. discriminate.
  - apply record_accept_iff. vm_compute. reflexivity.
Qed.

(** ** partition *)

(** C33: the content written for each value; the limit counts writes *)
Theorem C33_partition : forall O Od p skip o inputs, opts_wf O Od o -> opt_sm_wf O (fo_ci o) (p_sub p) ->
  exists all e0 sel wss ws e fs,
    reads skip inputs all e0 /\ chosen (opts_hold O Od o) all sel
    /\ Forall2 (record_writes O (fo_ci o) p) sel wss
    /\ limited (fo_limit o) (concat wss) e0 ws e
    /\ value_files ws fs
    /\ partition_run O Od p skip o inputs = Some (ended fs e).
Proof. exact partition_exact. Qed.
Print Assumptions C33_partition.

Theorem C33_by_value : forall O Od p skip o inputs, opts_wf O Od o -> opt_sm_wf O (fo_ci o) (p_sub p) ->
  fo_limit o = 0 ->
  exists all e sel fs,
    reads skip inputs all e /\ chosen (opts_hold O Od o) all sel
    /\ partition_run O Od p skip o inputs = Some (ended fs e)
    /\ NoDup (map fst fs)
    /\ forall v text, In (v, text) fs <->
         exists recs, chosen (has_value O (fo_ci o) p v) sel recs /\ recs <> [] /\ lines_of recs text.
Proof. exact partition_by_value. Qed.
Print Assumptions C33_by_value.

Theorem C33_file_names : forall (lossy : bytes -> bytes) template v w,
  has_braces template -> lossy v = v -> lossy w = w ->
  partition_name lossy template v = partition_name lossy template w -> v = w.
Proof. exact partition_names. Qed.
Print Assumptions C33_file_names.

Example C33_sample : exists p,
  path_new sample_oracles fresh (lit "012A.a") = (Some (Some p), fresh)
  /\ opt_sm_wf sample_oracles false (p_sub p)
  /\ partition_run sample_oracles sample_oracles p true open_opts sample_files
     = Some (Done [(lit "x", sample_line "1" "x" ++ sample_line "3" "x"); (lit "y", sample_line "2" "y");
                   (lit "z", sample_line "1" "z")]).
Proof. eexists. split; [vm_compute; reflexivity|]. split; [exact I|]. vm_compute. reflexivity. Qed.

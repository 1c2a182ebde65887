(** * Properties of the commands writing tables

    [selects] says which records of the inputs a command works on and with which
    error the run ends (CliSpec.v), [query_rows] what a query yields for a
    record (TableSpec.v, QuerySpec.v). *)

From Coq Require Import String Sorted Permutation.
From Verif Require Import Bytes RecordModel RecordSpec TagOccModel ByteRecordModel ByteRecordSpec
  ReaderModel MatcherModel StateParser MatcherParserModel MatcherSpec PathModel FmtModel QueryModel QuerySpec
  CliModel CliSpec CliChunkProofs TableModel TableSpec TableProofs FrequencyProofs DescribeProofs
  PropertiesMatcher PropertiesQuery PropertiesCli.

(** ** select *)

(** C52: which rows are written, in which order; rows are compared by hash *)
Theorem C52_select : forall O Od T lossy hash c skip o files,
  opts_wf O Od o -> query_wf O (se_qo c) (se_query c) ->
  header_fits (se_header c) (query_columns (se_query c)) ->
  exists recs e rss out, selects O Od skip o files recs e
    /\ Forall2 (query_rows O T (se_qo c) (se_query c)) recs rss
    /\ select_writes hash (se_unique c) (se_no_empty c) (concat rss) out
    /\ select_run O Od T lossy hash c skip o files
       = Some (ended (header_rows (se_header c)
                      ++ map (fun row => match se_nf c with
                                         | None => row
                                         | Some nf => map (fun v => nf (lossy v)) row
                                         end) out, false) e).
Proof. exact select_exact. Qed.
Print Assumptions C52_select.

(** if no two rows of the run collide, --unique writes each distinct row at its
    first occurrence *)
Theorem C52_unique_partial : forall hash no_empty rows out,
  select_writes hash true no_empty rows out ->
  (forall a b, In a rows -> In b rows -> hash a = hash b -> a = b) ->
  exists kept, picks (fun r => considered no_empty r /\ ~ blank r) (fun r => r) rows kept
    /\ first_of_each eq [] kept out.
Proof. exact unique_rows. Qed.
Print Assumptions C52_unique_partial.

(** that is, the same set of rows, none of them twice *)
Theorem C52_unique_set : forall A (dec : forall a b : A, {a = b} + {a <> b}) (l out : list A),
  first_of_each eq [] l out -> NoDup out /\ forall x, In x out <-> In x l.
Proof.
  intros A dec l out H. destruct (foe_set A dec [] l out H) as [H1 H2]. split; [exact H1|].
  intros x. rewrite H2. cbn. tauto.
Qed.
Print Assumptions C52_unique_set.

(** whatever the 64-bit hash is, some run with --unique loses a row *)
Theorem C52_unique_refuted : forall O Od T lossy hash, (forall row, hash row < 18446744073709551616) ->
  exists c files recs rss a b,
    se_unique c = true /\ query_wf O (se_qo c) (se_query c)
    /\ selects O Od false open_opts files recs None
    /\ Forall2 (query_rows O T (se_qo c) (se_query c)) recs rss
    /\ concat rss = [a; b] /\ a <> b /\ ~ blank a /\ ~ blank b
    /\ select_run O Od T lossy hash c false open_opts files = Some (Done ([a], false)).
Proof. exact unique_collision. Qed.
Print Assumptions C52_unique_refuted.

(** a hash for the examples: injective on the rows that occur *)
Definition sample_hash (row : list bytes) : N :=
  fold_left (fun h v => fold_left (fun h c => h * 257 + c + 1) v (h * 257)) row 0.

Example C52_sample : exists q,
  query_new sample_oracles fresh (lit "012A.a") = (Some (Some q), fresh)
  /\ query_wf sample_oracles (sample_options false false) q /\ query_columns q = 1%nat
  /\ (let c := mkSelect q (sample_options false false) true true (Some [lit "v"]) None in
      header_fits (se_header c) (query_columns (se_query c))
      /\ select_run sample_oracles sample_oracles sample_text sample_lossy sample_hash c true open_opts sample_files
         = Some (Done ([[lit "v"]; [lit "x"]; [lit "y"]; [lit "z"]], false))).
Proof.
  eexists. split; [vm_compute; reflexivity|]. split; [|split; [reflexivity|split]].
  - split; [discriminate|]. repeat constructor. discriminate.
  - intros h H. injection H as <-. reflexivity.
  - vm_compute. reflexivity.
Qed.

(** ** frequency *)

(** C37, descending: all rows reaching the threshold (the first --limit of them)
    with their frequencies *)
Theorem C37_frequency : forall O Od T lossy order c skip o files,
  (forall t, Permutation (order t) t) ->
  opts_wf O Od o -> query_wf O (fq_qo c) (fq_query c) ->
  header_fits (fq_header c) (query_columns (fq_query c) + 1) -> fq_reverse c = false ->
  exists recs e rss l reaching listed rows, selects O Od skip o files recs e
    /\ Forall2 (query_rows O T (fq_qo c) (fq_query c)) recs rss
    /\ frequencies (fq_unique c) false rss l
    /\ picks (fun e => fq_threshold c <= snd e) (fun e => e) l reaching
    /\ first_num (fq_num c) reaching listed
    /\ Forall2 (written_frequency (fun v => fq_nf c (lossy v))) listed rows
    /\ freq_run O Od T lossy order c skip o files
       = Some (match e with
               | None => Done (header_rows (fq_header c) ++ rows, false)
               | Some err => Failed ([], false) err
               end).
Proof. exact freq_exact_desc. Qed.
Print Assumptions C37_frequency.

(** C37, ascending: the same if every row reaches the threshold, nothing
    otherwise *)
Theorem C37_reverse_partial : forall O Od T lossy order c skip o files,
  (forall t, Permutation (order t) t) ->
  opts_wf O Od o -> query_wf O (fq_qo c) (fq_query c) ->
  header_fits (fq_header c) (query_columns (fq_query c) + 1) -> fq_reverse c = true ->
  exists recs e rss l listed rows, selects O Od skip o files recs e
    /\ Forall2 (query_rows O T (fq_qo c) (fq_query c)) recs rss
    /\ frequencies (fq_unique c) true rss l
    /\ (Forall (fun e => fq_threshold c <= snd e) l -> first_num (fq_num c) l listed)
    /\ (~ Forall (fun e => fq_threshold c <= snd e) l -> listed = [])
    /\ Forall2 (written_frequency (fun v => fq_nf c (lossy v))) listed rows
    /\ freq_run O Od T lossy order c skip o files
       = Some (match e with
               | None => Done (header_rows (fq_header c) ++ rows, false)
               | Some err => Failed ([], false) err
               end).
Proof. exact freq_exact_asc. Qed.
Print Assumptions C37_reverse_partial.

(** a header with another number of names: the run ends with an error (the flag)
    unless there is no row to write, and only the header is complete *)
Theorem C37_header : forall O Od T lossy order c skip o files h,
  (forall t, Permutation (order t) t) ->
  opts_wf O Od o -> query_wf O (fq_qo c) (fq_query c) ->
  fq_header c = Some h -> length h <> (query_columns (fq_query c) + 1)%nat ->
  exists recs e rss l, selects O Od skip o files recs e
    /\ Forall2 (query_rows O T (fq_qo c) (fq_query c)) recs rss
    /\ frequencies (fq_unique c) (fq_reverse c) rss l
    /\ freq_run O Od T lossy order c skip o files
       = Some (match e with
               | None => Done ([h], match l with [] => false | first :: _ => fq_threshold c <=? snd first end)
               | Some err => Failed ([], false) err
               end).
Proof. intros O Od T lossy order c. exact (freq_header_refused O Od T lossy order c). Qed.
Print Assumptions C37_header.

(** the table is determined by the query results *)
Theorem C37_determined : forall unique reverse rss l k,
  frequencies unique reverse rss l -> frequencies unique reverse rss k -> l = k.
Proof. exact frequencies_fun. Qed.
Print Assumptions C37_determined.

(** the iteration order of the hash map does not show *)
Theorem C37_order_independent : forall O Od T lossy order order' c skip o files,
  (forall t, Permutation (order t) t) -> (forall t, Permutation (order' t) t) ->
  opts_wf O Od o -> query_wf O (fq_qo c) (fq_query c) ->
  header_fits (fq_header c) (query_columns (fq_query c) + 1) ->
  freq_run O Od T lossy order c skip o files = freq_run O Od T lossy order' c skip o files.
Proof. exact freq_order_free. Qed.
Print Assumptions C37_order_independent.

(** with --reverse a row reaching the threshold can be missing *)
Theorem C37_reverse_threshold_refuted : forall O Od T lossy order, (forall t, Permutation (order t) t) ->
  exists c files recs rss k,
    query_wf O (fq_qo c) (fq_query c) /\ fq_num c = 0 /\ fq_reverse c = true
    /\ selects O Od false open_opts files recs None
    /\ Forall2 (query_rows O T (fq_qo c) (fq_query c)) recs rss
    /\ ~ blank k /\ fq_threshold c <= N.of_nat (frequency (fq_unique c) rss k)
    /\ freq_run O Od T lossy order c false open_opts files = Some (Done ([], false)).
Proof. exact freq_reverse_loses. Qed.
Print Assumptions C37_reverse_threshold_refuted.

Example C37_sample : exists q,
  query_new sample_oracles fresh (lit "012A.a") = (Some (Some q), fresh)
  /\ query_wf sample_oracles (sample_options false false) q
  /\ (forall t : ftable, Permutation (rev t) t)
  /\ freq_run sample_oracles sample_oracles sample_text sample_lossy (@rev _)
       (mkFreq q (sample_options false false) false 0 1 false None (fun v => v)) true open_opts sample_files
     = Some (Done ([[lit "x"; lit "2"]; [lit "y"; lit "1"]; [lit "z"; lit "1"]], false))
  /\ freq_run sample_oracles sample_oracles sample_text sample_lossy (@rev _)
       (mkFreq q (sample_options false false) false 2 1 true None (fun v => v)) true open_opts sample_files
     = Some (Done ([[lit "y"; lit "1"]; [lit "z"; lit "1"]], false))
  /\ freq_run sample_oracles sample_oracles sample_text sample_lossy (@rev _)
       (mkFreq q (sample_options false false) false 0 1 false (Some [lit "v"]) (fun v => v)) true open_opts sample_files
     = Some (Done ([[lit "v"]], true)).
Proof.
  eexists. split; [vm_compute; reflexivity|]. split; [|split; [|repeat split; vm_compute; reflexivity]].
  - split; [discriminate|]. repeat constructor. discriminate.
  - intros t. symmetry. apply Permutation_rev.
Qed.

(** ** describe *)

(** C53: the table of the fields left in the selected records *)
Theorem C53_describe : forall O Od order discard keep skip o files,
  (forall t, Permutation (order t) t) -> opts_wf O Od o ->
  exists recs e fss codes rows, selects O Od skip o files recs e
    /\ Forall2 (edited_fields discard keep) recs fss
    /\ describes (concat fss) codes rows
    /\ describe_run O Od order discard keep skip o files
       = Some (match e with None => Done (codes, rows) | Some err => Failed ([], []) err end).
Proof. exact describe_exact. Qed.
Print Assumptions C53_describe.

Theorem C53_determined : forall fs codes rows codes' rows',
  describes fs codes rows -> describes fs codes' rows' -> codes = codes' /\ rows = rows'.
Proof. exact describes_fun. Qed.
Print Assumptions C53_determined.

Theorem C53_order_independent : forall O Od order order' discard keep skip o files,
  (forall t, Permutation (order t) t) -> (forall t, Permutation (order' t) t) -> opts_wf O Od o ->
  describe_run O Od order discard keep skip o files = describe_run O Od order' discard keep skip o files.
Proof. exact describe_order_free. Qed.
Print Assumptions C53_order_independent.

Example C53_sample : describe_run sample_oracles sample_oracles (@rev _) [] [] true open_opts sample_files
  = Some (Done ([48; 97], [(lit "003@", [4; 0]); (lit "012A", [0; 4])])).
Proof. vm_compute. reflexivity. Qed.

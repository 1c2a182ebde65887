(** * Properties of the CSV text written by select, frequency, hash and check *)

From Coq Require Import String Permutation.
From Verif Require Import Bytes RecordModel RecordSpec ByteRecordModel ByteRecordSpec ReaderModel MatcherModel
  StateParser MatcherParserModel MatcherSpec PathModel FmtModel QueryModel QuerySpec CliModel CliSpec TableModel TableSpec
  CheckModel CheckSpec CliCounterexamples CliChunkProofs CsvModel CsvSpec CsvProofs PropertiesMatcher PropertiesQuery PropertiesCli PropertiesTable
  PropertiesCheck.

(** C74: the text written for a table reads as this table, for every quote style
    but "never" *)
Theorem C74_text : forall numeric quote delim rows, quote <> QNever ->
  (forall v, numeric v = true -> Forall (plain_byte delim) v) ->
  Forall (fun row => row <> []) rows -> csv_rows delim rows (csv_text numeric quote delim rows).
Proof. exact (fun numeric quote delim rows Hq Hn H => csv_text_rows numeric quote delim Hq Hn rows H). Qed.
Print Assumptions C74_text.

(** and as no other *)
Theorem C74_unambiguous : forall delim rows rows' text, separates delim ->
  csv_rows delim rows text -> csv_rows delim rows' text -> rows = rows'.
Proof. exact (fun delim rows rows' text Hd H H' => csv_unique delim Hd rows text H rows' H'). Qed.
Print Assumptions C74_unambiguous.

(** with --quote-style=never different tables have the same text *)
Theorem C74_never_refuted : forall numeric, exists rows rows', rows <> rows' /\ length rows = length rows'
  /\ csv_text numeric QNever 44 rows = csv_text numeric QNever 44 rows'.
Proof. exact csv_never. Qed.
Print Assumptions C74_never_refuted.

(** the output of select *)
Theorem C74_select : forall numeric quote tsv O Od T lossy hash c skip o files,
  quote <> QNever -> (forall v, numeric v = true -> Forall (plain_byte (if tsv : bool then 9 else 44)) v) ->
  opts_wf O Od o -> query_wf O (se_qo c) (se_query c) ->
  header_fits (se_header c) (query_columns (se_query c)) -> se_header c <> Some [] ->
  exists recs e rss out text, selects O Od skip o files recs e
    /\ Forall2 (query_rows O T (se_qo c) (se_query c)) recs rss
    /\ select_writes hash (se_unique c) (se_no_empty c) (concat rss) out
    /\ csv_rows (if tsv then 9 else 44)
         (header_rows (se_header c)
          ++ map (fun row => match se_nf c with
                             | None => row
                             | Some nf => map (fun v => nf (lossy v)) row
                             end) out) text
    /\ table_text numeric quote tsv (select_run O Od T lossy hash c skip o files) = Some (ended (text, false) e).
Proof. exact select_text. Qed.
Print Assumptions C74_select.

(** the output of frequency *)
Theorem C74_frequency : forall tsv O Od T lossy order c skip o files,
  (forall t, Permutation (order t) t) ->
  opts_wf O Od o -> query_wf O (fq_qo c) (fq_query c) ->
  header_fits (fq_header c) (query_columns (fq_query c) + 1) ->
  exists recs e rss l reached listed rows text, selects O Od skip o files recs e
    /\ Forall2 (query_rows O T (fq_qo c) (fq_query c)) recs rss
    /\ frequencies (fq_unique c) (fq_reverse c) rss l
    /\ reaching (fq_reverse c) (fq_threshold c) l reached
    /\ first_num (fq_num c) reached listed
    /\ Forall2 (written_frequency (fun v => fq_nf c (lossy v))) listed rows
    /\ csv_rows (if tsv : bool then 9 else 44) (header_rows (fq_header c) ++ rows) text
    /\ table_text (fun _ => false) QNecessary tsv (freq_run O Od T lossy order c skip o files)
       = Some (match e with None => Done (text, false) | Some err => Failed ([], false) err end).
Proof. exact frequency_text. Qed.
Print Assumptions C74_frequency.

(** the output of hash, with its header *)
Theorem C74_hash : forall tsv O Od sha lossy header skip o files, opts_wf O Od o -> length header = 2%nat ->
  exists recs e rows text, selects O Od skip o files recs e
    /\ Forall2 (hash_row sha lossy) recs rows
    /\ csv_rows (if tsv : bool then 9 else 44) (header :: rows) text
    /\ table_text (fun _ => false) QNecessary tsv (hash_csv_run O Od sha lossy header skip o files)
       = Some (ended (text, false) e).
Proof. exact hash_text. Qed.
Print Assumptions C74_hash.

(** a header with another number of names: the first record ends the run with an
    error (the flag), only the header is complete *)
Theorem C74_hash_header : forall O Od sha lossy header skip o files, opts_wf O Od o -> length header <> 2%nat ->
  exists recs e, selects O Od skip o files recs e
    /\ hash_csv_run O Od sha lossy header skip o files
       = Some (match recs with [] => ended ([header], false) e | _ => Done ([header], true) end).
Proof. exact hash_csv_header. Qed.
Print Assumptions C74_hash_header.

Example C74_sample_rows :
  let rows := [[lit "a,b"; []]; [[]; lit "say ""x"""]; [lit "1"; [10; 13]]] in
  csv_text (fun _ => false) QNecessary 44 rows
  = lit """a,b""," ++ [10] ++ lit ",""say """"x""""""" ++ [10] ++ lit "1," ++ [34; 10; 13; 34; 10]
  /\ csv_text (fun _ => false) QNecessary 9 [[[]]; [lit "a,b"]] = lit """""" ++ [10] ++ lit "a,b" ++ [10]
  /\ csv_text (bytes_eqb (lit "1")) QNonNumeric 44 [[lit "1"; lit "x"]] = lit "1,""x""" ++ [10]
  /\ csv_rows 44 rows (csv_text (fun _ => false) QNecessary 44 rows) /\ separates 44.
Proof.
  cbv zeta. split; [vm_compute; reflexivity|]. split; [vm_compute; reflexivity|]. split; [vm_compute; reflexivity|].
  split; [|repeat split; discriminate]. apply C74_text; [discriminate|discriminate|]. repeat constructor; discriminate.
Qed.

Example C74_sample : exists q,
  query_new sample_oracles fresh (lit "003@.0, 012A.a") = (Some (Some q), fresh)
  /\ (let c := mkSelect q (sample_options false false) false true (Some [lit "id"; lit "a ""title"""]) None in
      table_text (fun _ => false) QNecessary true
        (select_run sample_oracles sample_oracles sample_text sample_lossy sample_hash c true open_opts
           [hd ([], []) sample_files])
      = Some (Done (lit "id" ++ [9] ++ lit """a """"title""""""" ++ [10] ++ lit "1" ++ [9] ++ lit "x" ++ [10]
                    ++ lit "2" ++ [9] ++ lit "y" ++ [10], false)))
  /\ table_text (fun _ => false) QNecessary false
       (hash_csv_run sample_oracles sample_oracles sample_sha sample_lossy [lit "ppn"; lit "hash"] true open_opts
          [hd ([], []) sample_files])
     = Some (Done (lit "ppn,hash" ++ [10] ++ lit "1,13" ++ [10] ++ lit "2,13" ++ [10], false)).
Proof. eexists. split; [vm_compute; reflexivity|]. split; vm_compute; reflexivity. Qed.

(** ** The reports of check *)

(** C75: the report of a run, by the name of the output *)
Theorem C75_report : forall path Od T lossy, (forall v, lossy v = [] <-> v = []) ->
  forall freq_order, (forall l, Permutation (freq_order l) l) ->
  forall unseen_order, (forall l, Permutation (unseen_order l) l) ->
  forall O skip o sets files, opts_wf O Od o -> Forall (set_wf Od) sets ->
  exists recs e rowss finals text, selects O Od skip o files recs e
    /\ Forall2 (fun r rows => exists parts, Forall2 (set_rows Od T lossy (br_record r)) sets parts /\ rows = concat parts)
         recs rowss
    /\ Forall2 (set_final Od T lossy (map br_record recs)) sets finals
    /\ report path (concat rowss ++ match e with None => concat finals | Some _ => [] end) text
    /\ check_output path (check_run Od T lossy freq_order unseen_order O skip o sets files) = Some (ended text e).
Proof. exact check_text. Qed.
Print Assumptions C75_report.

(** the report tells its rows apart, up to missing identifiers and messages being
    written like empty ones *)
Theorem C75_unambiguous : forall path rows rows' text, report path rows text -> report path rows' text ->
  ~ named path (lit ".txt") -> map report_row rows = map report_row rows'.
Proof. exact report_unique. Qed.
Print Assumptions C75_unambiguous.

Example C75_sample :
  let run := check_run sample_oracles sample_text sample_lossy (fun l => l) (fun l => l) sample_oracles false open_opts
    [mkRuleSet None false [ck_link; ck_allow]]
    [(lit "a.dat", ck_line "1" "2" ++ ck_line "2" "1" ++ ck_line "3" "8")] in
  check_output None run = Some (Done (lit "ppn,rule,level,message" ++ [10] ++ lit "3,A,info,8" ++ [10] ++ lit "3,L,error,8" ++ [10]))
  /\ check_output (Some (lit "r.txt")) run = Some (Done (lit "3" ++ [10] ++ lit "3" ++ [10]))
  /\ check_output (Some (lit "r.tsv")) (Some (Done [])) = Some (Done []).
Proof. cbv zeta. split; [|split]; vm_compute; reflexivity. Qed.

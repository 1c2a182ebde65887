(** * Tables as CSV text

    Model of the csv crate's writer (csv-core 0.1, an external library, written
    from its documentation and behaviour) as far as the commands use it, of hash
    with its header, and of the report writers of check. *)

From Coq Require Import String.
From Verif Require Import Bytes Winnow RecordModel ByteRecordModel ReaderModel MatcherModel PathModel
  Utf8Model CliModel TableModel CheckModel.

(** /repo/crates/pica-cli/src/commands/select.rs:16-35 Quotes, csv::QuoteStyle *)
Inductive quotes := QAlways | QNecessary | QNonNumeric | QNever.

Section Csv.
  (** [str::parse::<f64>] or [str::parse::<i128>] succeeds *)
  Variable numeric : bytes -> bool.

  (** csv_core::Writer, [requires_quotes] for the terminator "\n": the delimiter,
      the quote and both line end characters *)
  Definition needs_quotes (delim : byte) (cell : bytes) : bool :=
    existsb (fun b => (b =? delim) || (b =? 34) || (b =? 13) || (b =? 10)) cell.

  (** csv_core::Writer::should_quote *)
  Definition should_quote (q : quotes) (delim : byte) (cell : bytes) : bool :=
    match q with
    | QAlways => true
    | QNever => false
    | QNonNumeric => negb (numeric cell)
    | QNecessary => needs_quotes delim cell
    end.

  (** csv_core::Writer::field; quotes are doubled *)
  Definition csv_cell (q : quotes) (delim : byte) (cell : bytes) : bytes :=
    if should_quote q delim cell
    then 34 :: flat_map (fun b => if b =? 34 then [34; 34] else [b]) cell ++ [34]
    else cell.

  (** csv_core::Writer::delimiter between the cells *)
  Fixpoint csv_cells (q : quotes) (delim : byte) (row : list bytes) : bytes :=
    match row with
    | [] => []
    | [c] => csv_cell q delim c
    | c :: row' => csv_cell q delim c ++ delim :: csv_cells q delim row'
    end.

  (** csv_core::Writer::terminator: an empty line is written as two quotes *)
  Definition csv_line (q : quotes) (delim : byte) (row : list bytes) : bytes :=
    match csv_cells q delim row with
    | [] => [34; 34; 10]
    | t => t ++ [10]
    end.

  Definition csv_text (q : quotes) (delim : byte) (rows : list (list bytes)) : bytes :=
    flat_map (csv_line q delim) rows.

  (** [.delimiter(if self.tsv { b'\t' } else { b',' })],
      /repo/crates/pica-cli/src/commands/select.rs:154-155, frequency.rs:144-145,
      hash.rs:60-61 *)
  Definition csv_delim (tsv : bool) : byte := if tsv then 9 else 44.

  (** the text written in a run that wrote the given rows; in [Failed] runs the
      writer is flushed when dropped.  If the flag tells that a row was refused,
      the beginning of this row, without line end, is left out here: the csv crate
      counts the fields when it is to end the line. *)
  Definition table_text (q : quotes) (tsv : bool) (x : option (ending (list (list bytes) * bool)))
    : option (ending (bytes * bool)) :=
    finish_with (fun s => Some (csv_text q (csv_delim tsv) (fst s), snd s))
      (fun s => (csv_text q (csv_delim tsv) (fst s), snd s)) x.

  (** ** hash *)

  Variables O Od : oracles.
  Variable sha : bytes -> bytes.
  Variable lossy : bytes -> bytes.

  (** /repo/crates/pica-cli/src/commands/hash.rs:77-112 with the CSV writer:
      count, rows written (beginning with the header), whether a row was refused *)
  Definition hash_csv_body (o : filter_opts) : N * list (list bytes) * bool -> byte_record ->
      step (N * list (list bytes) * bool) :=
    guarded (opts_select O Od o) (fun s r =>
      let '(count, rows, _) := s in
      match record_ppn O (br_record r) with
      | None => Panic
      | Some ppn =>
          let row := [lossy (match ppn with Some p => p | None => [] end); hex_string (br_sha256 sha r)] in
          match csv_write rows row with
          | None => Halt (count, rows, true)
          | Some rows' =>
              let s' := (count + 1, rows', false) in
              if limit_reached (fo_limit o) (count + 1) then Halt s' else Next s'
          end
      end).

  (** /repo/crates/pica-cli/src/commands/hash.rs:43-121 Hash::execute, given the
      fields of the header (64-64), split at commas and trimmed *)
  Definition hash_csv_run (header : list bytes) (skip : bool) (o : filter_opts) (files : list (bytes * bytes))
    : option (ending (list (list bytes) * bool)) :=
    finish_with (fun s => Some (snd (fst s), snd s)) (fun s => (snd (fst s), snd s))
      (run_loop (on_result skip (hash_csv_body o)) (0, [header], false) files).
End Csv.

(** ** The reports of check *)

(** [Option::unwrap_or_default] *)
Definition or_empty (x : option bytes) : bytes := match x with Some b => b | None => [] end.

(** the header csv::Writer::serialize writes before the first row: the names of
    the members of Record, /repo/crates/pica-cli/src/commands/check/writer/mod.rs:10-15 *)
Definition report_header : list bytes := [lit "ppn"; lit "rule"; lit "level"; lit "message"].

(** csv::Writer::serialize of a row: [None] is an empty field *)
Definition report_cells (r : check_row) : list bytes :=
  [or_empty (row_ppn r); row_rule r; row_level r; or_empty (row_message r)].

(** /repo/crates/pica-cli/src/commands/check/writer/mod.rs:25-58 CsvWriter: the
    text after writing the rows; the header comes with the first row *)
Definition report_table (delim : byte) (rows : list check_row) : bytes :=
  match rows with
  | [] => []
  | _ => csv_text (fun _ => false) QNecessary delim (report_header :: map report_cells rows)
  end.

(** /repo/crates/pica-cli/src/commands/check/writer/mod.rs:60-88 TxtWriter *)
Definition report_list (rows : list check_row) : bytes :=
  csv_text (fun _ => false) QNecessary 44 (map (fun r => [or_empty (row_ppn r)]) rows).

(** /repo/crates/pica-cli/src/commands/check/writer/mod.rs:90-130 Writer: the
    kind of report by the name of the output file ([None] is stdout); a name that
    is not UTF-8 counts as empty *)
Definition report_text (path : option bytes) (rows : list check_row) : bytes :=
  let name := match path with Some p => if utf8_valid p then p else [] | None => [] end in
  if ends_with name (lit ".txt") then report_list rows
  else if ends_with name (lit ".tsv") then report_table 9 rows
  else report_table 44 rows.

(** /repo/crates/pica-cli/src/commands/check/mod.rs:49-150 Check::execute: the
    text of the report; the writer is flushed when dropped *)
Definition check_output (path : option bytes) (x : option (ending (list check_row))) : option (ending bytes) :=
  finish_with (fun rows => Some (report_text path rows)) (report_text path) x.

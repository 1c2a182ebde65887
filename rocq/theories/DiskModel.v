(** * Commands with the files they read and write

    The commands from the opening of the output to its closing, with a disk:
    which files are opened when, and what is in them in the end.  Model of the
    [execute] functions of /repo/crates/pica-cli/src/commands on top of
    [PrepareModel.v] (what is checked before the records are read) and
    [IoModel.v] (the loop over the records).

    Simplifications: a file has one name (no links, no "./a" for "a"), opening
    an output fails or succeeds depending on its name, and writing does not fail
    (for that see [WriteModel.v]).  All that is written arrives when the output
    is closed; this differs from the program if an input that is also an output
    comes after another input, or if two outputs are the same file.  Allow and
    deny lists and rules are arguments, not files (for rules see [RuleModel.v]).  What is in the outputs after
    a panic is not modelled. *)

From Coq Require Import String.
From Verif Require Import Bytes Winnow RecordModel TagOccModel Utf8Model ByteRecordModel ReaderModel
  MatcherModel StateParser MatcherParserModel BuilderModel PathModel FmtModel QueryModel CliModel TableModel
  ExplodeModel CheckModel CsvModel OptionsModel PrepareModel IoModel IoSpec WriteSpec.

(** names of files with their contents *)
Definition disk := list (bytes * bytes).

Fixpoint disk_get (d : disk) (n : bytes) : option bytes :=
  match d with
  | [] => None
  | (m, c) :: d' => if bytes_eqb m n then Some c else disk_get d' n
  end.
Fixpoint disk_set (d : disk) (n c : bytes) : disk :=
  match d with
  | [] => [(n, c)]
  | (m, c') :: d' => if bytes_eqb m n then (m, c) :: d' else (m, c') :: disk_set d' n c
  end.

(** the disk, what is to come from stdin, what has been written to stdout *)
Record world := mkWorld { w_disk : disk; w_stdin : bytes; w_stdout : bytes }.

Definition with_disk (w : world) (d : disk) : world := mkWorld d (w_stdin w) (w_stdout w).

(** [path.extension().and_then(OsStr::to_str) == Some("gz")], as in
    /repo/src/reader.rs:104-108 and /repo/src/writer.rs:50-52: what follows the
    last dot in the last component, unless this dot is its first byte (names
    with a slash at the end are not considered) *)
Definition gz_name (n : bytes) : bool :=
  let name := last (split_on 47 n) [] in
  ends_with name (lit ".gz") && (3 <? N.of_nat (length name)).

(** an output: its name ([None] is stdout), whether it is appended to, whether
    it is compressed *)
Record output := mkOut { out_name : option bytes; out_append : bool; out_gz : bool }.

(** /repo/src/writer.rs:38-80 from_path, from_path_or_stdout *)
Definition builder_output (b : writer_builder) (name : option bytes) : output :=
  mkOut name (wb_append b)
    (wb_gzip b || match name with Some n => gz_name n | None => false end).

(** how a command ends: with an error before the first record is read, with a
    panic, or else with an exit status *)
Inductive command_end :=
| CRefused
| CPanicked
| CEnded (status : N).

Section Disk.
  (** compressing (one member of a gzip file), and what reading a file through
      [GzDecoder] gives *)
  Variable gz_enc : bytes -> bytes.
  Variable gz_dec : bytes -> list piece.
  (** whether an output with this name can be opened *)
  Variable writable : bytes -> bool.

  (** what reading gives if no read fails *)
  Definition whole (c : bytes) : list piece := match c with [] => [] | _ => [PData c] end.

  (** /repo/src/reader.rs:98-119 ReaderBuilder::from_path for all inputs: stdin
      is used up by the first use, a missing file cannot be opened *)
  Fixpoint inputs (d : disk) (stdin : bytes) (names : list bytes) : list (bytes * (list piece + io_kind)) :=
    match names with
    | [] => []
    | n :: rest =>
        if bytes_eqb n (lit "-") then (n, inl (whole stdin)) :: inputs d [] rest
        else (n, match disk_get d n with
                 | None => inr OtherKind
                 | Some c => inl (if gz_name n then gz_dec c else whole c)
                 end) :: inputs d stdin rest
    end.

  (** [OpenOptions::new().write(true).create(true).truncate(!append).append(append)],
      e.g. /repo/src/writer.rs:43-48, and [File::create] *)
  Definition open_output (o : output) (d : disk) : option disk :=
    match out_name o with
    | None => Some d
    | Some n =>
        if writable n then
          Some (disk_set d n
            (if out_append o then match disk_get d n with Some c => c | None => [] end else []))
        else None
    end.

  (** closing an output to which [text] has been written *)
  Definition close_output (o : output) (text : bytes) (w : world) : world :=
    let data := if out_gz o then gz_enc text else text in
    match out_name o with
    | None => mkWorld (w_disk w) (w_stdin w) (w_stdout w ++ data)
    | Some n =>
        with_disk w (disk_set (w_disk w) n
          (match disk_get (w_disk w) n with Some c => c | None => [] end ++ data))
    end.

  Definition close_all (outs : list (output * bytes)) (w : world) : world :=
    fold_left (fun w x => close_output (fst x) (snd x) w) outs w.

  (** Opens the outputs one after the other, then goes on with [k].  If one
      cannot be opened, those before it are closed. *)
  Fixpoint open_all (opened : list output) (outs : list output) (w : world)
      (k : world -> option (command_end * world)) : option (command_end * world) :=
    match outs with
    | [] => k w
    | o :: rest =>
        match open_output o (w_disk w) with
        | None => Some (CRefused, close_all (map (fun o => (o, [])) opened) w)
        | Some d => open_all (opened ++ [o]) rest (with_disk w d) k
        end
    end.

  (** The result of a check before the records are read; [x] is [None] if fuel
      ran out.  If it fails, the outputs that are open are closed. *)
  Definition prepared {A} (outs : list output) (x : option (option A)) (w : world)
      (k : A -> option (command_end * world)) : option (command_end * world) :=
    match x with
    | None => None
    | Some None => Some (CRefused, close_all (map (fun o => (o, [])) outs) w)
    | Some (Some a) => k a
    end.

  (** The loop over the records and the end of the command.  An output comes
      with its text if the loop ends, and its text if the loop fails; [bad] tells
      whether a row was refused after the end of the loop. *)
  Definition process_all {S} (outs : list (output * ((S -> bytes) * (S -> bytes)))) (bad : S -> bool) on_skip
      (body : S -> byte_record -> io_ending S) skip (s : S) (names : list bytes) (w : world)
    : option (command_end * world) :=
    match io_files_loop on_skip body skip s (inputs (w_disk w) (w_stdin w) names) with
    | None => None
    | Some x =>
        match x, main_status x with
        | IDone s', Some n | IStopped s', Some n =>
            Some (CEnded (if bad s' then 2 else n),
                  close_all (map (fun o => (fst o, fst (snd o) s')) outs) w)
        | IFailed s' _, Some n => Some (CEnded n, close_all (map (fun o => (fst o, snd (snd o) s')) outs) w)
        | _, _ => Some (CPanicked, w)
        end
    end.

  Variables O Od : oracles.
  Variable transform : bytes -> bytes.

  (** *** filter *)

  (** /repo/crates/pica-cli/src/commands/filter.rs:165-173: what is checked
      before the outputs are opened *)
  Definition filter_first (a : filter_args) : option (option unit) :=
    match fst (source_parse Od fresh (fa_source a)) with
    | None => None
    | Some None => Some None
    | Some (Some source) =>
        match parse_predicates (fa_discard a), parse_predicates (fa_keep a),
              filter_set_build source (fa_column a) (fa_allow a) (fa_deny a) with
        | Some _, Some _, Some _ => Some (Some tt)
        | _, _, _ => Some None
        end
    end.

  (** /repo/crates/pica-cli/src/commands/filter.rs:190-207: the file of the
      expression must exist *)
  Definition expr_there (a : filter_args) (d : disk) : bool :=
    match fa_expr_file a with
    | Some n => match disk_get d n with Some _ => true | None => false end
    | None => true
    end.

  (** a file as text; only used for the file of the expression *)
  Definition content_of (d : disk) (n : bytes) : bytes :=
    match disk_get d n with Some c => c | None => [] end.

  (** /repo/crates/pica-cli/src/commands/filter.rs:161-273 Filter::execute *)
  Definition filter_on_disk (a : filter_args) (append gzip : bool) (output : option bytes) (tee : option bytes)
      (w : world) : option (command_end * world) :=
    prepared [] (filter_first a) w (fun _ =>
    match wb_run wb_new [CAppend append; CGzip gzip] with
    | None => Some (CPanicked, w)
    | Some b =>
        let outs := builder_output b output :: match tee with Some n => [builder_output b (Some n)] | None => [] end in
        open_all [] outs w (fun w1 =>
        prepared outs (if expr_there a (w_disk w1)
                       then fst (filter_prepare O Od transform (content_of (w_disk w1)) a) else Some None) w1
          (fun c =>
        let text (s : filter_state) := snd (fst s) in
        let tee_text (s : filter_state) := snd s in
        process_all
          ((builder_output b output, (text, text))
             :: match tee with Some n => [(builder_output b (Some n), (tee_text, tee_text))] | None => [] end)
          (fun _ => false) (fun s => s) (fun s r => as_io (filter_body O Od c s r)) (fa_skip a) (0, [], [])
          (filter_names (match fa_expr_file a with Some _ => true | None => false end) (fa_filter a) (fa_names a))
          w1))
    end).

  (** *** concat *)

  Variable sha : bytes -> bytes.
  Variable lossy : bytes -> bytes.

  (** /repo/crates/pica-cli/src/commands/concat.rs:90-151 Concat::execute *)
  Definition concat_on_disk (append : bool) (output tee : option bytes) (unique : option strategy) (skip : bool)
      (names : list bytes) (w : world) : option (command_end * world) :=
    match wb_run wb_new [CAppend append] with
    | None => Some (CPanicked, w)
    | Some b =>
        let outs := builder_output b output :: match tee with Some n => [builder_output b (Some n)] | None => [] end in
        open_all [] outs w (fun w1 =>
        let text (s : concat_state) := snd (fst s) in
        let tee_text (s : concat_state) := snd s in
        process_all
          ((builder_output b output, (text, text))
             :: match tee with Some n => [(builder_output b (Some n), (tee_text, tee_text))] | None => [] end)
          (fun _ => false) (fun s => s) (fun s r => as_io (concat_body O sha lossy unique s r)) skip ([], [], []) names w1)
    end.

  (** *** Commands that open their output first *)

  (** /repo/crates/pica-cli/src/commands/count.rs:62-151 Count::execute *)
  Definition count_on_disk (a : opts_args) (append : bool) (output : option bytes) (m : count_mode) (skip : bool)
      (names : list bytes) (w : world) : option (command_end * world) :=
    let out := mkOut output append false in
    open_all [] [out] w (fun w1 =>
    prepared [out] (fst (opts_prepare O Od transform a)) w1 (fun o =>
    process_all [(out, (count_output m, fun _ => []))] (fun _ => false) (fun s => s) (fun s r => as_io (count_body O Od o s r)) skip
      (0, 0, 0) names w1)).

  (** /repo/crates/pica-cli/src/commands/explode.rs:145-255 Explode::execute *)
  Definition explode_on_disk (a : opts_args) (discard keep : option bytes) (l : level) (gzip : bool)
      (output : option bytes) (skip : bool) (names : list bytes) (w : world) : option (command_end * world) :=
    prepared [] (Some (match parse_predicates discard, parse_predicates keep with
                       | Some d, Some k => Some (d, k) | _, _ => None end)) w (fun dk =>
    match wb_run wb_new [CGzip gzip] with
    | None => Some (CPanicked, w)
    | Some b =>
        let out := builder_output b output in
        open_all [] [out] w (fun w1 =>
        prepared [out] (fst (opts_prepare O Od transform a)) w1 (fun o =>
        process_all [(out, (@snd N bytes, @snd N bytes))] (fun _ => false) (fun s => s)
          (fun s r => as_io (explode_body O Od (mkExplode l o (snd dk) (fst dk)) s r)) skip (0, []) names w1))
    end).

  Variable T : text_fns.
  (** the unspecified orders of the hash maps of check, see [CheckModel.v] *)
  Variable rule_order : list (bytes * N) -> list (bytes * N).
  Variable link_order : list (bytes * list bytes) -> list (bytes * list bytes).

  (** /repo/crates/pica-cli/src/commands/check/mod.rs:49-150 Check::execute;
      [rules] is [None] if a rule set cannot be read or the filter for rules is
      invalid (63-80) *)
  Definition check_on_disk (a : opts_args) (rules : option (list rule_set)) (output : option bytes) (skip : bool)
      (names : list bytes) (w : world) : option (command_end * world) :=
    let out := mkOut output false false in
    let text (s : check_state) := report_text output (snd s) in
    open_all [] [out] w (fun w1 =>
    prepared [out] (fst (opts_prepare O Od transform a)) w1 (fun o =>
    prepared [out] (Some rules) w1 (fun sets =>
    process_all [(out, (fun s => report_text output (snd s ++ sets_finish lossy link_order (snd (fst s))), text))] (fun _ => false) (fun s => s)
      (fun s r => as_io (check_body Od T lossy rule_order O o s r)) skip (0, sets, []) names w1))).

  (** *** Commands that open their output last *)

  Variable numeric : bytes -> bool.
  Variable hash : list bytes -> N.
  Variable freq_order : ftable -> ftable.

  (** /repo/crates/pica-cli/src/commands/hash.rs:43-121 Hash::execute *)
  Definition hash_on_disk (a : opts_args) (output : option bytes) (tsv : bool) (header : bytes) (skip : bool)
      (names : list bytes) (w : world) : option (command_end * world) :=
    prepared [] (fst (opts_prepare O Od transform a)) w (fun o =>
    let out := mkOut output false false in
    let text (s : N * list (list bytes) * bool) := csv_text numeric QNecessary (csv_delim tsv) (snd (fst s)) in
    open_all [] [out] w (fun w1 =>
    process_all [(out, (text, text))] (fun _ => false) (fun s => s)
      (fun s r => with_refused snd (hash_csv_body O Od sha lossy o s r)) skip
      (0, [map str_trim (split_on 44 header)], false) names w1)).

  (** /repo/crates/pica-cli/src/commands/print.rs:37-117 Print::execute;
      [nf] is the normalization of the values *)
  Definition print_on_disk (a : opts_args) (nf : bytes -> bytes) (output : option bytes) (skip : bool) (names : list bytes) (w : world)
    : option (command_end * world) :=
    prepared [] (fst (opts_prepare O Od transform a)) w (fun o =>
    let out := mkOut output false false in
    open_all [] [out] w (fun w1 =>
    process_all [(out, (@snd N bytes, @snd N bytes))] (fun _ => false) (fun s => s) (fun s r => as_io (print_body O Od nf o s r)) skip
      (0, []) names w1)).

  (** /repo/crates/pica-cli/src/commands/slice.rs:84-164 Slice::execute *)
  Definition slice_on_disk (a : opts_args) (gzip append : bool) (output : option bytes) (start end_ length : N)
      (skip : bool) (names : list bytes) (w : world) : option (command_end * world) :=
    prepared [] (fst (opts_prepare O Od transform a)) w (fun o =>
    match wb_run wb_new [CGzip gzip; CAppend append] with
    | None => Some (CPanicked, w)
    | Some b =>
        let out := builder_output b output in
        open_all [] [out] w (fun w1 =>
        process_all [(out, (sl_out, sl_out))] (fun _ => false) (slice_on_skip length)
          (fun s r => as_io (slice_body O Od start o s r)) skip (mkSlice (slice_end start end_ length) 0 0 [])
          names w1)
    end).

  (** /repo/crates/pica-cli/src/commands/sample.rs:47-128 Sample::execute; the
      [unwrap] of line 120 cannot fail, see [sample_write] *)
  Definition sample_on_disk (a : opts_args) (gzip : bool) (output : option bytes) (draw : N -> N) (size : N)
      (skip : bool) (names : list bytes) (w : world) : option (command_end * world) :=
    prepared [] (fst (opts_prepare O Od transform a)) w (fun o =>
    match wb_run wb_new [CGzip gzip] with
    | None => Some (CPanicked, w)
    | Some b =>
        let out := builder_output b output in
        let text (s : sample_state) := match sample_write (snd s) with Some t => t | None => [] end in
        open_all [] [out] w (fun w1 =>
        process_all [(out, (text, fun _ => []))] (fun _ => false) (fun s => s)
          (fun s r => as_io (sample_body O Od draw size o s r)) skip
          (0, []) names w1)
    end).

  (** /repo/crates/pica-cli/src/commands/select.rs:129-240 Select::execute *)
  Definition select_on_disk (a : table_args) (unique no_empty : bool) (nf : option (bytes -> bytes)) (q : quotes)
      (tsv append : bool) (output : option bytes) (skip : bool) (names : list bytes) (w : world)
    : option (command_end * world) :=
    prepared [] (fst (table_prepare O Od transform a)) w (fun oq =>
    let out := mkOut output append false in
    let c := mkSelect (snd oq) (table_options a) unique no_empty (table_header a) nf in
    let text (s : select_state) := csv_text numeric q (csv_delim tsv) (sel_rows s) in
    open_all [] [out] w (fun w1 =>
    process_all [(out, (text, text))] (fun _ => false) (fun s => s)
      (fun s r => with_refused sel_failed (select_body O Od T lossy hash c (fst oq) s r)) skip
      (mkSel 0 [] (csv_header (se_header c)) false) names w1)).

  (** /repo/crates/pica-cli/src/commands/frequency.rs:112-242
      Frequency::execute *)
  Definition freq_on_disk (a : table_args) (unique : bool) (num threshold : N) (reverse : bool)
      (nf : bytes -> bytes) (tsv : bool) (output : option bytes) (skip : bool) (names : list bytes) (w : world)
    : option (command_end * world) :=
    prepared [] (fst (table_prepare O Od transform a)) w (fun oq =>
    let out := mkOut output false false in
    let c := mkFreq (snd oq) (table_options a) unique num threshold reverse (table_header a) nf in
    let text (s : N * ftable) := csv_text numeric QNecessary (csv_delim tsv)
                                   (fst (freq_output lossy freq_order c (snd s))) in
    open_all [] [out] w (fun w1 =>
    process_all [(out, (text, fun _ => []))] (fun s => snd (freq_output lossy freq_order c (snd s))) (fun s => s)
      (fun s r => as_io (freq_body O Od T c (fst oq) s r)) skip
      (0, []) names w1)).
End Disk.

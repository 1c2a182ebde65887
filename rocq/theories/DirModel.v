(** * Commands with many outputs, and the remaining commands, with their files

    Continues [DiskModel.v] with split and partition, which open outputs while
    they read, and with convert, describe and invalid.  The simplifications of
    [DiskModel.v] apply: a file has one name, and what is written to an output
    arrives when it is closed.  An input is read as it is when it is opened.
    Directories are not modelled: whether the output directory exists or can be
    created is an argument. *)

From Coq Require Import String.
From Verif Require Import Bytes Winnow RecordModel TagOccModel Utf8Model ByteRecordModel ReaderModel
  MatcherModel StateParser MatcherParserModel BuilderModel PathModel FmtModel QueryModel CliModel TableModel
  CheckModel ConvertModel OptionsModel PrepareModel IoModel IoSpec DiskModel.

(** [std::path::Path::join] on Unix, used in
    /repo/crates/pica-cli/src/commands/split.rs:77-80 and partition.rs:124: an
    absolute path replaces the directory *)
Definition path_join (dir p : bytes) : bytes :=
  match p with
  | 47 :: _ => p
  | _ => match dir with
         | [] => p
         | _ => if ends_with dir [47] then dir ++ p else dir ++ 47 :: p
         end
  end.

(** [self.template.unwrap_or(..)],
    /repo/crates/pica-cli/src/commands/split.rs:63-67, partition.rs:71-75 *)
Definition template_or (template : option bytes) (gzip : bool) : bytes :=
  match template with
  | Some t => t
  | None => if gzip then lit "{}.dat.gz" else lit "{}.dat"
  end.

(** writing at the beginning of a file *)
Definition overwrite (data old : bytes) : bytes := data ++ skipn (length data) old.

(** [continue] unless the record is selected, see [guarded] *)
Definition io_guarded {S} (sel : record -> option bool) (body : S -> byte_record -> io_ending S)
    (s : S) (r : byte_record) : io_ending S :=
  match sel (br_record r) with
  | None => IPanicked
  | Some false => IDone s
  | Some true => body s r
  end.

Section Dir.
  Variable gz_enc : bytes -> bytes.
  Variable gz_dec : bytes -> list piece.
  Variable writable : bytes -> bool.

  (** An output that was not opened to append is closed.  Its writer is at the
      position where it began, also if the file has been changed since by another
      writer. *)
  Definition flushed (o : output) (text : bytes) (d : disk) : disk :=
    let data := if out_gz o then gz_enc text else text in
    match out_name o with
    | None => d
    | Some n => disk_set d n (overwrite data (match disk_get d n with Some c => c | None => [] end))
    end.

  (** ['outer: for filename in self.filenames { .. }] of [IoModel.v], where every
      input is opened on the disk as it is then *)
  Fixpoint live_files_loop {S} (view : S -> disk) (body : S -> byte_record -> io_ending S) (skip : bool)
      (s : S) (stdin : bytes) (names : list bytes) : option (io_ending S) :=
    match names with
    | [] => Some (IDone s)
    | n :: rest =>
        match io_files_loop (fun s => s) body skip s (inputs gz_dec (view s) stdin [n]) with
        | Some (IDone s') => live_files_loop view body skip s' (if bytes_eqb n (lit "-") then [] else stdin) rest
        | other => other
        end
    end.

  (** the end of the loop and the end of the command; [close] closes what is open *)
  Definition live_end {S} (close : S -> disk) (x : option (io_ending S)) (w : world) : option (command_end * world) :=
    match x with
    | None => None
    | Some x =>
        match x, main_status x with
        | IDone s, Some n | IStopped s, Some n | IFailed s _, Some n => Some (CEnded n, with_disk w (close s))
        | _, _ => Some (CPanicked, w)
        end
    end.

  Variables O Od : oracles.
  Variable transform : bytes -> bytes.

  (** *** split *)

  (** the writer of a chunk, /repo/crates/pica-cli/src/commands/split.rs:75-80
      and 113-120; without append [WriterBuilder::gzip] does not panic *)
  Definition chunk_output (gzip : bool) (outdir template : bytes) (k : N) : output :=
    builder_output (mkWB false gzip) (Some (path_join outdir (replace_braces (dec k) template))).

  (** chunk number, number of records, the open writer with what was written to
      it, the disk *)
  Record dsplit := mkDSplit { ds_chunks : N; ds_count : N; ds_open : option (output * bytes); ds_disk : disk }.

  (** [writer.finish()], or the end of its life *)
  Definition split_close (s : dsplit) : disk :=
    match ds_open s with Some (o, text) => flushed o text (ds_disk s) | None => ds_disk s end.

  (** /repo/crates/pica-cli/src/commands/split.rs:93-128, see [split_body] *)
  Definition split_disk_body (gzip : bool) (outdir template : bytes) (size : N) (o : filter_opts)
    : dsplit -> byte_record -> io_ending dsplit :=
    io_guarded (opts_select O Od o) (fun s r =>
      let write s1 :=
        let s2 := mkDSplit (ds_chunks s1) (ds_count s1 + 1)
                    (option_map (fun x => (fst x, snd x ++ br_write r)) (ds_open s1)) (ds_disk s1) in
        if limit_reached (fo_limit o) (ds_count s2) then IStopped s2 else IDone s2 in
      if (0 <? ds_count s) && (u32 (ds_count s) mod size =? 0) then
        let d := split_close s in
        let chunks := u32 (ds_chunks s + 1) in
        let out := chunk_output gzip outdir template chunks in
        match open_output writable out d with
        | None => IFailed (mkDSplit chunks (ds_count s) None d) (CIo OtherKind)
        | Some d' => write (mkDSplit chunks (ds_count s) (Some (out, [])) d')
        end
      else write s).

  (** /repo/crates/pica-cli/src/commands/split.rs:51-138 Split::execute;
      [dir_ok]: the output directory exists or can be created (69-71) *)
  Definition split_on_disk (a : opts_args) (gzip : bool) (outdir : bytes) (dir_ok : bool) (template : option bytes)
      (size : N) (skip : bool) (names : list bytes) (w : world) : option (command_end * world) :=
    prepared gz_enc [] (fst (opts_prepare O Od transform a)) w (fun o =>
    if dir_ok then
      let t := template_or template gzip in
      let out := chunk_output gzip outdir t 0 in
      match open_output writable out (w_disk w) with
      | None => Some (CRefused, w)
      | Some d =>
          live_end split_close
            (live_files_loop ds_disk (split_disk_body gzip outdir t size o) skip
               (mkDSplit 0 0 (Some (out, [])) d) (w_stdin w) names) w
      end
    else Some (CRefused, w)).

  (** *** partition *)

  Variable lossy : bytes -> bytes.
  (** the unspecified order of the hash map of the writers *)
  Variable writer_order : list (bytes * bytes) -> list (bytes * bytes).

  (** the writer of a value, /repo/crates/pica-cli/src/commands/partition.rs:118-127 *)
  Definition value_output (gzip : bool) (outdir template v : bytes) : output :=
    builder_output (mkWB false gzip) (Some (path_join outdir (partition_name lossy template v))).

  (** number of writes and writers by value, see [partition_state]; the disk *)
  Definition dpart : Type := partition_state * disk.

  (** /repo/crates/pica-cli/src/commands/partition.rs:113-143: the inner loop, see
      [partition_values]; [None] if an output cannot be opened *)
  Fixpoint part_disk_values (open : bytes -> disk -> option disk) (limit : N) (data : bytes) (vs : list bytes)
      (s : dpart) : dpart * option bool :=
    match vs with
    | [] => (s, Some false)
    | v :: vs' =>
        let opened := if existsb (fun w => bytes_eqb (fst w) v) (snd (fst s)) then Some (snd s) else open v (snd s) in
        match opened with
        | None => (s, None)
        | Some d =>
            let s' := ((fst (fst s) + 1, writer_write v data (snd (fst s))), d) in
            if limit_reached limit (fst (fst s')) then (s', Some true)
            else part_disk_values open limit data vs' s'
        end
    end.

  (** /repo/crates/pica-cli/src/commands/partition.rs:95-144, see
      [partition_body] *)
  Definition partition_disk_body (gzip : bool) (outdir template : bytes) (p : path) (o : filter_opts)
    : dpart -> byte_record -> io_ending dpart :=
    io_guarded (opts_select O Od o) (fun s r =>
      match record_path O (fo_ci o) p (br_record r) with
      | None => IPanicked
      | Some values =>
          match part_disk_values (fun v => open_output writable (value_output gzip outdir template v)) (fo_limit o)
                  (br_write r) (dedup (sort_values values)) s with
          | (s', Some true) => IStopped s'
          | (s', Some false) => IDone s'
          | (s', None) => IFailed s' (CIo OtherKind)
          end
      end).

  (** /repo/crates/pica-cli/src/commands/partition.rs:148-151, or the end of the
      life of the writers *)
  Definition partition_close (gzip : bool) (outdir template : bytes) (s : dpart) : disk :=
    fold_left (fun d x => flushed (value_output gzip outdir template (fst x)) (snd x) d)
      (writer_order (snd (fst s))) (snd s).

  (** /repo/crates/pica-cli/src/commands/partition.rs:59-155 Partition::execute;
      the path is given as parsed *)
  Definition partition_on_disk (a : opts_args) (p : path) (gzip : bool) (outdir : bytes) (dir_ok : bool)
      (template : option bytes) (skip : bool) (names : list bytes) (w : world) : option (command_end * world) :=
    prepared gz_enc [] (fst (opts_prepare O Od transform a)) w (fun o =>
    if dir_ok then
      let t := template_or template gzip in
      live_end (partition_close gzip outdir t)
        (live_files_loop snd (partition_disk_body gzip outdir t p o) skip ((0, []), w_disk w) (w_stdin w) names) w
    else Some (CRefused, w)).

  (** *** convert *)

  (** quick_xml's escape, see [ConvertModel.v] *)
  Variable esc : bytes -> bytes.

  (** the output of convert: only the writer of PICA+ looks at the name,
      /repo/crates/pica-cli/src/commands/convert/mod.rs:83-92; the others use
      [File::create], e.g. binary.rs:18-27 *)
  Definition convert_output (to : format) (name : option bytes) : output :=
    match to with
    | TPlus => builder_output wb_new name
    | _ => mkOut name false false
    end.

  (** /repo/crates/pica-cli/src/commands/convert/mod.rs:73-118 Convert::execute *)
  Definition convert_on_disk (from to : format) (output : option bytes) (skip : bool) (names : list bytes) (w : world)
    : option (command_end * world) :=
    match from with
    | TPlus =>
        let out := convert_output to output in
        open_all gz_enc writable [] [out] w (fun w1 =>
        process_all gz_enc gz_dec [(out, (fun s => snd s ++ conv_close to, @snd N bytes))] (fun _ => false) (fun s => s)
          (fun s r => as_io (convert_body lossy esc to s r)) skip (0, conv_open to) names w1)
    | _ => Some (CRefused, w)
    end.

  (** *** invalid *)

  (** /repo/crates/pica-cli/src/commands/invalid.rs:66-94 Invalid::execute; the
      inputs are opened by its own function, 33-52, which agrees with the one of
      the library *)
  Definition invalid_on_disk (output : option bytes) (names : list bytes) (w : world) : option (command_end * world) :=
    let out := mkOut output false false in
    open_all gz_enc writable [] [out] w (fun w1 =>
    match io_invalid_run (inputs gz_dec (w_disk w1) (w_stdin w1) names) [] with
    | None => None
    | Some x =>
        match x, main_status x with
        | IDone t, Some n | IStopped t, Some n | IFailed t _, Some n => Some (CEnded n, close_output gz_enc out t w1)
        | _, _ => Some (CPanicked, w1)
        end
    end).

  (** *** describe *)

  Variable tag_order : tag_counts -> tag_counts.
  (** how the table is written, /repo/crates/pica-cli/src/commands/describe.rs:148-191:
      as text for the terminal, as TSV, as CSV, or as an IPC file *)
  Inductive frame_format := FTerminal | FTsv | FCsv | FIpc.
  (** the writers of polars *)
  Variable frame_text : frame_format -> list N * list (bytes * list N) -> bytes.

  (** /repo/crates/pica-cli/src/commands/describe.rs:148-184: the order of the
      arms *)
  Definition describe_format (csv tsv : bool) (output : option bytes) : frame_format :=
    match output with
    | None => FTerminal
    | Some n => if ends_with n (lit ".tsv") || tsv then FTsv
                else if ends_with n (lit ".csv") || csv then FCsv
                else FIpc
    end.

  (** /repo/crates/pica-cli/src/commands/describe.rs:48-195 Describe::execute; the
      output is opened when all records have been read *)
  Definition describe_on_disk (a : opts_args) (discard keep : option bytes) (csv tsv : bool) (output : option bytes)
      (skip : bool) (names : list bytes) (w : world) : option (command_end * world) :=
    prepared gz_enc [] (Some (match parse_predicates discard, parse_predicates keep with
                              | Some d, Some k => Some (d, k) | _, _ => None end)) w (fun dk =>
    prepared gz_enc [] (fst (opts_prepare O Od transform a)) w (fun o =>
    match io_files_loop (fun s => s) (fun s r => as_io (describe_body O Od (fst dk) (snd dk) o s r)) skip (0, [])
            (inputs gz_dec (w_disk w) (w_stdin w) names) with
    | None => None
    | Some x =>
        match x, main_status x with
        | IDone s, Some n | IStopped s, Some n =>
            let out := mkOut output false false in
            match open_output writable out (w_disk w) with
            | None => Some (CEnded 2, w)
            | Some d => Some (CEnded n, close_output gz_enc out
                                          (frame_text (describe_format csv tsv output) (describe_table tag_order (snd s)))
                                          (with_disk w d))
            end
        | IFailed _ _, Some n => Some (CEnded n, w)
        | _, _ => Some (CPanicked, w)
        end
    end)).
End Dir.

(** * The record loop of the command line tools, and the commands writing records

    Model of /repo/crates/pica-cli/src.  Not modelled: argument parsing (clap),
    the progress bar, I/O errors, compression of the output (an output is the
    uncompressed byte string written).  The disjunction
    [opts.skip_invalid || config.skip_invalid] every command starts with is the
    parameter [skip].  64-bit counters are unbounded numbers unless said
    otherwise. *)

From Coq Require Import String Decimal.
From Verif Require Import Bytes Winnow RecordModel TagOccModel Utf8Model ByteRecordModel ReaderModel
  MatcherModel PathModel.

(** ** The loop *)

(** what the body of the loop does next: [continue], [break 'outer], [return
    Err(e)], or a panic *)
Inductive step (S : Type) :=
| Next (s : S)
| Halt (s : S)
| Fail (s : S) (e : read_error)
| Panic.
Arguments Next {S}. Arguments Halt {S}. Arguments Fail {S}. Arguments Panic {S}.

(** [while let Some(result) = reader.next_byte_record() { .. }], e.g.
    /repo/crates/pica-cli/src/commands/filter.rs:225-262.  The outer [None] means
    that [fuel] was too small. *)
Fixpoint reader_loop {S} (fuel : nat) (f : S -> byte_record + read_error -> step S) (s : S) (rd : reader)
  : option (step S) :=
  match fuel with
  | O => None
  | Datatypes.S n =>
      match next_byte_record rd with
      | (None, _) => Some (Next s)
      | (Some x, rd') =>
          match f s x with
          | Next s' => reader_loop n f s' rd'
          | other => Some other
          end
      end
  end.

(** ['outer: for filename in self.filenames { .. }], e.g.
    /repo/crates/pica-cli/src/commands/filter.rs:222-263.  An input is a file name
    and the byte stream read from it; opening always succeeds. *)
Fixpoint files_loop {S} (f : S -> byte_record + read_error -> step S) (s : S)
    (files : list (bytes * bytes)) : option (step S) :=
  match files with
  | [] => Some (Next s)
  | (name, content) :: rest =>
      match reader_loop (Datatypes.S (length content)) f s (reader_new content (Some name)) with
      | Some (Next s') => files_loop f s' rest
      | other => other
      end
  end.

(** The arms of the [match result], e.g.
    /repo/crates/pica-cli/src/commands/filter.rs:226-261. *)
Definition on_result {S} (skip : bool) (body : S -> byte_record -> step S) (s : S)
    (x : byte_record + read_error) : step S :=
  match x with
  | inr e => if skip_parse_err e skip then Next s else Fail s e
  | inl r => body s r
  end.

(** How a run ends: the loop was left regularly (the code after it runs), an
    error was returned, or the program panicked.  For [Failed] the state tells
    what had been written; the writers are flushed when dropped. *)
Inductive ending (S : Type) :=
| Done (s : S)
| Failed (s : S) (e : read_error)
| Panicked.
Arguments Done {S}. Arguments Failed {S}. Arguments Panicked {S}.

Definition to_ending {S} (x : step S) : ending S :=
  match x with
  | Next s | Halt s => Done s
  | Fail s e => Failed s e
  | Panic => Panicked
  end.

Definition run_loop {S} (f : S -> byte_record + read_error -> step S) (s : S)
    (files : list (bytes * bytes)) : option (ending S) :=
  do x <- files_loop f s files; Some (to_ending x).

(** the code after the loop *)
Definition finish_with {S T} (g : S -> option T) (h : S -> T) (x : option (ending S)) : option (ending T) :=
  match x with
  | Some (Done s) => Some (match g s with Some t => Done t | None => Panicked end)
  | Some (Failed s e) => Some (Failed (h s) e)
  | Some Panicked => Some Panicked
  | None => None
  end.

(** /repo/crates/pica-cli/src/main.rs:50-63 main: a read error is not a broken
    pipe.  Panics abort (exit status 134 or 101), represented by [None]. *)
Definition exit_code {S} (x : ending S) : option N :=
  match x with Done _ => Some 0 | Failed _ _ => Some 2 | Panicked => None end.

(** [self.filter_opts.limit > 0 && count >= self.filter_opts.limit], e.g.
    /repo/crates/pica-cli/src/commands/filter.rs:257 *)
Definition limit_reached (limit count : N) : bool := (0 <? limit) && (limit <=? count).

(** ** Allow and deny lists *)

(** membership in a [HashSet<BString>] *)
Definition mem_bytes (v : bytes) (l : list bytes) : bool := existsb (bytes_eqb v) l.

(** A table as read by polars: named columns of optional texts.  For files
    ending with "txt" the renaming of the first column to "ppn" has taken place. *)
Definition table := list (bytes * list (option bytes)).

(** [df.column(name)] *)
Fixpoint column (t : table) (name : bytes) : option (list (option bytes)) :=
  match t with
  | [] => None
  | (n, cells) :: t' => if bytes_eqb n name then Some cells else column t' name
  end.

(** /repo/crates/pica-cli/src/utils.rs:142-157 *)
Definition list_column (t : table) (name : option bytes) : option (list (option bytes)) :=
  match name with
  | Some n => column t n
  | None => match column t (lit "ppn") with Some c => Some c | None => column t (lit "idn") end
  end.

(** [filter_map(|idn| idn.map(BString::from))], utils.rs:164 *)
Definition present (cells : list (option bytes)) : list bytes :=
  flat_map (fun c => match c with Some v => [v] | None => [] end) cells.

(** /repo/crates/pica-cli/src/utils.rs:98-169 read_filter_list, without reading
    the files; [None] is the error for a missing column.  The set is
    represented by a list. *)
Fixpoint read_tables (ts : list table) (name : option bytes) : option (list bytes) :=
  match ts with
  | [] => Some []
  | t :: ts' =>
      do c <- list_column t name;
      do rest <- read_tables ts' name;
      Some (present c ++ rest)
  end.
Definition read_filter_list (ts : list table) (name : option bytes) : option (option (list bytes)) :=
  match ts with
  | [] => Some None
  | _ => do l <- read_tables ts name; Some (Some l)
  end.

(** /repo/crates/pica-cli/src/utils.rs:171-176 FilterSet; the options are always
    the default ones. *)
Record filter_set := mkFSet {
  fset_allow : option (list bytes);
  fset_deny : option (list bytes);
  fset_path : path }.

(** /repo/crates/pica-cli/src/utils.rs:69-82 FilterSetBuilder::build *)
Definition filter_set_build (source : option path) (name : option bytes) (allow deny : list table)
  : option filter_set :=
  do a <- read_filter_list allow name;
  do d <- read_filter_list deny name;
  Some (mkFSet a d (match source with Some p => p | None => ppn_path end)).

(** /repo/crates/pica-cli/src/utils.rs:180-198 FilterSet::check; [Od] are the
    external functions with the default options; [None] if evaluating the path
    panics. *)
Definition filter_set_check (Od : oracles) (fs : filter_set) (r : record) : option bool :=
  do values <- record_path Od false (fset_path fs) r;
  if (match fset_deny fs with
      | Some deny => existsb (fun v => mem_bytes v deny) values
      | None => false
      end) then Some false
  else if (match fset_allow fs with
           | Some allow =>
               negb (existsb (fun v => mem_bytes v allow) values)
               || (match allow with [] => true | _ => false end)
           | None => false
           end) then Some false
  else Some true.

(** ** Options shared by most commands

    /repo/crates/pica-cli/src/cli.rs:46-143 FilterOpts, after building the filter
    set and the matcher. *)
Record filter_opts := mkOpts {
  fo_fset : filter_set;
  fo_matcher : option field_matcher;
  fo_ci : bool;
  fo_limit : N }.

Section Commands.
  (** [O]: external functions with the similarity threshold of the command,
      [Od]: with the default threshold *)
  Variables O Od : oracles.

  (** The two tests at the beginning of the loop body, e.g.
      /repo/crates/pica-cli/src/commands/count.rs:103-111 (the same in hash,
      sample, slice, split, partition, select, frequency, describe, check). *)
  Definition opts_select (o : filter_opts) (r : record) : option bool :=
    do b <- filter_set_check Od (fo_fset o) r;
    if b then
      match fo_matcher o with
      | Some m => rm_is_match O (fo_ci o) m r
      | None => Some true
      end
    else Some false.

  (** /repo/crates/pica-cli/src/commands/print.rs:69-77: the same two tests in
      the other order *)
  Definition opts_select_print (o : filter_opts) (r : record) : option bool :=
    do b <- (match fo_matcher o with
             | Some m => rm_is_match O (fo_ci o) m r
             | None => Some true
             end);
    if b then filter_set_check Od (fo_fset o) r else Some false.

  (** [continue] unless the record is selected *)
  Definition guarded {S} (sel : record -> option bool) (body : S -> byte_record -> step S)
      (s : S) (r : byte_record) : step S :=
    match sel (br_record r) with
    | None => Panic
    | Some false => Next s
    | Some true => body s r
    end.

  (** *** filter *)

  (** /repo/crates/pica-cli/src/commands/filter.rs:18-158 Filter, after
      preparation *)
  Record filter_cmd := mkFilter {
    fc_fset : filter_set;
    fc_matcher : field_matcher;
    fc_ci : bool;
    fc_invert : bool;
    fc_discard : list (tag_matcher * occ_matcher);
    fc_keep : list (tag_matcher * occ_matcher);
    fc_limit : N }.

  (** count, output, output of the tee writer *)
  Definition filter_state : Type := N * bytes * bytes.

  (** /repo/crates/pica-cli/src/commands/filter.rs:235-246 *)
  Definition filter_select (c : filter_cmd) (r : record) : option bool :=
    do b <- filter_set_check Od (fc_fset c) r;
    if b then
      do m <- rm_is_match O (fc_ci c) (fc_matcher c) r;
      Some (if fc_invert c then negb m else m)
    else Some false.

  (** /repo/crates/pica-cli/src/commands/filter.rs:232-260 *)
  Definition filter_body (c : filter_cmd) : filter_state -> byte_record -> step filter_state :=
    guarded (filter_select c) (fun s r =>
      let '(count, out, tee) := s in
      let r' := br_keep (fc_keep c) (br_discard (fc_discard c) r) in
      let s' := (count + 1, out ++ br_write r', tee ++ br_write r') in
      if limit_reached (fc_limit c) (count + 1) then Halt s' else Next s').

  (** /repo/crates/pica-cli/src/commands/filter.rs:161-273 Filter::execute *)
  Definition filter_run (skip : bool) (c : filter_cmd) (files : list (bytes * bytes))
    : option (ending filter_state) :=
    run_loop (on_result skip (filter_body c)) (0, [], []) files.

  (** /repo/crates/pica-cli/src/commands/filter.rs:190-207: with an expression
      file the first positional argument is a file name *)
  Definition filter_names (expr_file : bool) (filter_arg : bytes) (names : list bytes) : list bytes :=
    if expr_file && negb (bytes_eqb filter_arg []) then
      if list_eqb bytes_eqb names [lit "-"] then [filter_arg] else filter_arg :: names
    else names.

  (** *** count *)

  (** records, fields, subfields *)
  Definition count_state : Type := N * N * N.

  (** /repo/crates/pica-cli/src/commands/count.rs:113-119; the limit is not used *)
  Definition count_body (o : filter_opts) : count_state -> byte_record -> step count_state :=
    guarded (opts_select o) (fun s r =>
      let '(records, fields, subfields) := s in
      Next (records + 1,
            fields + N.of_nat (length (br_record r)),
            subfields + fold_right N.add 0
              (map (fun f => N.of_nat (length (f_subfields f))) (br_record r)))).

  Definition count_run (skip : bool) (o : filter_opts) (files : list (bytes * bytes))
    : option (ending count_state) :=
    run_loop (on_result skip (count_body o)) (0, 0, 0) files.

  (** *** hash *)

  Variable sha : bytes -> bytes.
  (** [BStr::to_string]: lossy decoding *)
  Variable lossy : bytes -> bytes.

  (** one digit of [{b:02x}] *)
  Definition hex_digit (n : N) : byte := if n <? 10 then 48 + n else 87 + n.
  (** [fold(String::new(), |out, b| write!(out, "{b:02x}"))],
      /repo/crates/pica-cli/src/commands/hash.rs:90-96, concat.rs:81-84 *)
  Definition hex_string (b : bytes) : bytes :=
    flat_map (fun c => [hex_digit (c / 16); hex_digit (c mod 16)]) b.

  (** /repo/crates/pica-cli/src/commands/hash.rs:77-112: count and rows written *)
  Definition hash_body (o : filter_opts) : N * list (list bytes) -> byte_record ->
      step (N * list (list bytes)) :=
    guarded (opts_select o) (fun s r =>
      let '(count, rows) := s in
      match record_ppn O (br_record r) with
      | None => Panic
      | Some ppn =>
          let row := [lossy (match ppn with Some p => p | None => [] end); hex_string (br_sha256 sha r)] in
          let s' := (count + 1, rows ++ [row]) in
          if limit_reached (fo_limit o) (count + 1) then Halt s' else Next s'
      end).

  (** /repo/crates/pica-cli/src/commands/hash.rs:43-121 Hash::execute, without
      the header row and the CSV encoding *)
  Definition hash_run (skip : bool) (o : filter_opts) (files : list (bytes * bytes)) :=
    run_loop (on_result skip (hash_body o)) (0, []) files.

  (** *** concat *)

  (** /repo/crates/pica-cli/src/commands/concat.rs:68-74 Strategy *)
  Inductive strategy := SIdn | SHash.

  (** /repo/crates/pica-cli/src/commands/concat.rs:77-87 record_key; [None] is
      the panic of [expect("ppn")] *)
  Definition record_key (st : strategy) (r : byte_record) : option bytes :=
    match st with
    | SIdn => do p <- record_ppn O (br_record r); do v <- p; Some (lossy v)
    | SHash => Some (hex_string (br_sha256 sha r))
    end.

  (** keys seen, output, output of the tee writer *)
  Definition concat_state : Type := list bytes * bytes * bytes.

  (** /repo/crates/pica-cli/src/commands/concat.rs:119-138 *)
  Definition concat_body (unique : option strategy) (s : concat_state) (r : byte_record)
    : step concat_state :=
    let '(seen, out, tee) := s in
    let write seen' := Next (seen', out ++ br_write r, tee ++ br_write r) in
    match unique with
    | None => write seen
    | Some st =>
        match record_key st r with
        | None => Panic
        | Some key =>
            if mem_bytes key seen || bytes_eqb key [] then Next s else write (key :: seen)
        end
    end.

  (** /repo/crates/pica-cli/src/commands/concat.rs:90-151 Concat::execute *)
  Definition concat_run (skip : bool) (unique : option strategy) (files : list (bytes * bytes))
    : option (ending concat_state) :=
    run_loop (on_result skip (concat_body unique)) ([], [], []) files.

  (** *** sample *)

  (** [v[i] = x] *)
  Fixpoint list_set {A} (l : list A) (i : nat) (x : A) : list A :=
    match l, i with
    | [], _ => []
    | _ :: l', 0%nat => x :: l'
    | y :: l', Datatypes.S i' => y :: list_set l' i' x
    end.

  (** count and reservoir *)
  Definition sample_state : Type := N * list bytes.

  (** /repo/crates/pica-cli/src/commands/sample.rs:96-113.  [draw count] is the
      value of [rng.random_range(0..count)] drawn when [count] records have been
      read; at most one value is drawn per value of [count]. *)
  Definition sample_body (draw : N -> N) (size : N) (o : filter_opts)
    : sample_state -> byte_record -> step sample_state :=
    guarded (opts_select o) (fun s r =>
      let '(count, reservoir) := s in
      let data := br_write r in
      let reservoir' :=
        if count <? size then reservoir ++ [data]
        else if draw count <? size then list_set reservoir (N.to_nat (draw count)) data
        else reservoir in
      let s' := (count + 1, reservoir') in
      if limit_reached (fo_limit o) (count + 1) then Halt s' else Next s').

  (** /repo/crates/pica-cli/src/commands/sample.rs:119-122; [None] is the
      [unwrap] of a parse error *)
  Fixpoint sample_write (reservoir : list bytes) : option bytes :=
    match reservoir with
    | [] => Some []
    | data :: rest =>
        do r <- br_from_bytes data;
        do out <- sample_write rest;
        Some (br_write r ++ out)
    end.

  (** /repo/crates/pica-cli/src/commands/sample.rs:47-128 Sample::execute *)
  Definition sample_run (draw : N -> N) (size : N) (skip : bool) (o : filter_opts)
      (files : list (bytes * bytes)) : option (ending bytes) :=
    finish_with (fun s => sample_write (snd s)) (fun _ => [])
      (run_loop (on_result skip (sample_body draw size o)) (0, []) files).

  (** *** slice *)

  (** [usize::MAX] on 64-bit platforms *)
  Definition usize_max : N := 18446744073709551615.

  (** end of the range, i, count, output *)
  Record slice_state := mkSlice { sl_end : N; sl_i : N; sl_count : N; sl_out : bytes }.

  (** /repo/crates/pica-cli/src/commands/slice.rs:100-106; [start + length] wraps
      around in a release build *)
  Definition slice_end (start end_ length : N) : N :=
    if 0 <? end_ then end_ else if 0 <? length then (start + length) mod (usize_max + 1) else usize_max.

  (** /repo/crates/pica-cli/src/commands/slice.rs:125-156 *)
  Definition slice_body (start : N) (o : filter_opts) : slice_state -> byte_record -> step slice_state :=
    fun s r =>
    match opts_select o (br_record r) with
    | None => Panic
    | Some false => Next s
    | Some true =>
        if (start <=? sl_i s) && (sl_i s <? sl_end s) then
          let s' := mkSlice (sl_end s) (sl_i s) (sl_count s + 1) (sl_out s ++ br_write r) in
          if limit_reached (fo_limit o) (sl_count s + 1) then Halt s'
          else Next (mkSlice (sl_end s) (sl_i s + 1) (sl_count s + 1) (sl_out s ++ br_write r))
        else if sl_i s <? start then Next (mkSlice (sl_end s) (sl_i s + 1) (sl_count s) (sl_out s))
        else Halt s
    end.

  (** /repo/crates/pica-cli/src/commands/slice.rs:116-157: skipped lines move the
      end of the range if a length was given *)
  Definition slice_step (skip : bool) (start length : N) (o : filter_opts) (s : slice_state)
      (x : byte_record + read_error) : step slice_state :=
    match x with
    | inr e =>
        if skip_parse_err e skip then
          if (0 <? length) && (sl_end s <? usize_max)
          then Next (mkSlice (sl_end s + 1) (sl_i s) (sl_count s) (sl_out s))
          else Next s
        else Fail s e
    | inl r => slice_body start o s r
    end.

  (** /repo/crates/pica-cli/src/commands/slice.rs:84-164 Slice::execute *)
  Definition slice_run (skip : bool) (start end_ length : N) (o : filter_opts)
      (files : list (bytes * bytes)) : option (ending bytes) :=
    finish_with (fun s => Some (sl_out s)) sl_out
      (run_loop (slice_step skip start length o) (mkSlice (slice_end start end_ length) 0 0 []) files).

  (** *** split *)

  (** [u32::to_string] *)
  Fixpoint uint_bytes (u : Decimal.uint) : bytes :=
    match u with
    | Nil => []
    | D0 u => 48 :: uint_bytes u | D1 u => 49 :: uint_bytes u | D2 u => 50 :: uint_bytes u
    | D3 u => 51 :: uint_bytes u | D4 u => 52 :: uint_bytes u | D5 u => 53 :: uint_bytes u
    | D6 u => 54 :: uint_bytes u | D7 u => 55 :: uint_bytes u | D8 u => 56 :: uint_bytes u
    | D9 u => 57 :: uint_bytes u
    end.
  Definition dec (n : N) : bytes := uint_bytes (N.to_uint n).

  (** [str::replace("{}", x)] *)
  Fixpoint replace_braces (x t : bytes) : bytes :=
    match t with
    | 123 :: ((125 :: t') as u) => x ++ replace_braces x t'
    | c :: t' => c :: replace_braces x t'
    | [] => []
    end.

  (** Files by name.  [file_create]: [File::create] of
      /repo/src/writer.rs:38-57 without append: an existing file is truncated. *)
  Definition files := list (bytes * bytes).
  Definition file_create (name : bytes) (fs : files) : files :=
    (name, []) :: filter (fun f => negb (bytes_eqb (fst f) name)) fs.
  Definition file_append (name data : bytes) (fs : files) : files :=
    map (fun f => if bytes_eqb (fst f) name then (fst f, snd f ++ data) else f) fs.
  Definition file_content (name : bytes) (fs : files) : option bytes :=
    option_map snd (find (fun f => bytes_eqb (fst f) name) fs).

  (** chunk number, number of records, files written (the writer is the file of
      the chunk number) *)
  Record split_state := mkSplit { sp_chunks : N; sp_count : N; sp_files : files }.

  Definition u32 (n : N) : N := n mod 4294967296.

  (** /repo/crates/pica-cli/src/commands/split.rs:105-128; [count as u32]
      truncates, and so does [chunks += 1] in a release build.  [n.is_multiple_of(k)]
      with [k >= 1]. *)
  Definition split_body (template : bytes) (size : N) (o : filter_opts)
    : split_state -> byte_record -> step split_state :=
    guarded (opts_select o) (fun s r =>
      let s1 :=
        if (0 <? sp_count s) && (u32 (sp_count s) mod size =? 0) then
          let chunks := u32 (sp_chunks s + 1) in
          mkSplit chunks (sp_count s) (file_create (replace_braces (dec chunks) template) (sp_files s))
        else s in
      let s2 := mkSplit (sp_chunks s1) (sp_count s1 + 1)
                  (file_append (replace_braces (dec (sp_chunks s1)) template) (br_write r) (sp_files s1)) in
      if limit_reached (fo_limit o) (sp_count s2) then Halt s2 else Next s2).

  (** /repo/crates/pica-cli/src/commands/split.rs:51-138 Split::execute; the
      files are those in the output directory written by the run *)
  Definition split_run (template : bytes) (size : N) (skip : bool) (o : filter_opts)
      (inputs : list (bytes * bytes)) : option (ending files) :=
    finish_with (fun s => Some (sp_files s)) sp_files
      (run_loop (on_result skip (split_body template size o))
         (mkSplit 0 0 (file_create (replace_braces (dec 0) template) [])) inputs).

  (** *** partition *)

  (** [values.sort_unstable(); values.dedup()]: any sorting algorithm gives the
      same result for byte strings *)
  Fixpoint insert_value (v : bytes) (l : list bytes) : list bytes :=
    match l with
    | [] => [v]
    | w :: l' => if bytes_leb v w then v :: l else w :: insert_value v l'
    end.
  Definition sort_values (l : list bytes) : list bytes := fold_right insert_value [] l.
  Fixpoint dedup (l : list bytes) : list bytes :=
    match l with
    | v :: ((w :: _) as l') => if bytes_eqb v w then dedup l' else v :: dedup l'
    | _ => l
    end.

  (** the writers by value with what was written, and the number of writes *)
  Definition partition_state : Type := N * list (bytes * bytes).

  (** [writers.entry(value)] with the insertion of a new writer, and the write *)
  Definition writer_write (v data : bytes) (ws : list (bytes * bytes)) : list (bytes * bytes) :=
    if existsb (fun w => bytes_eqb (fst w) v) ws then
      map (fun w => if bytes_eqb (fst w) v then (fst w, snd w ++ data) else w) ws
    else ws ++ [(v, data)].

  (** /repo/crates/pica-cli/src/commands/partition.rs:113-143: the inner loop; the
      flag tells whether ['outer] is left *)
  Fixpoint partition_values (limit : N) (data : bytes) (vs : list bytes) (s : partition_state)
    : partition_state * bool :=
    match vs with
    | [] => (s, false)
    | v :: vs' =>
        let s' := (fst s + 1, writer_write v data (snd s)) in
        if limit_reached limit (fst s') then (s', true) else partition_values limit data vs' s'
    end.

  (** /repo/crates/pica-cli/src/commands/partition.rs:95-144 *)
  Definition partition_body (p : path) (o : filter_opts)
    : partition_state -> byte_record -> step partition_state :=
    guarded (opts_select o) (fun s r =>
      match record_path O (fo_ci o) p (br_record r) with
      | None => Panic
      | Some values =>
          let (s', stop) := partition_values (fo_limit o) (br_write r) (dedup (sort_values values)) s in
          if stop then Halt s' else Next s'
      end).

  (** /repo/crates/pica-cli/src/commands/partition.rs:59-155 Partition::execute:
      the content written through the writer of each value *)
  Definition partition_run (p : path) (skip : bool) (o : filter_opts) (inputs : list (bytes * bytes))
    : option (ending (list (bytes * bytes))) :=
    finish_with (fun s => Some (snd s)) snd
      (run_loop (on_result skip (partition_body p o)) (0, []) inputs).

  (** the file of a value, /repo/crates/pica-cli/src/commands/partition.rs:118-124 *)
  Definition partition_name (template v : bytes) : bytes := replace_braces (lossy v) template.

  (** *** print *)

  (** the text of a subfield and a field,
      /repo/crates/pica-cli/src/commands/print.rs:81-98; [translit] is the chosen
      normalization; [None] is the [unwrap] of [to_str] *)
  Variable translit : bytes -> bytes.

  Fixpoint print_subfields (l : list subfield) : option bytes :=
    match l with
    | [] => Some []
    | s :: l' =>
        if utf8_valid (sf_value s) then
          do rest <- print_subfields l';
          Some ([SP; 36; sf_code s; SP] ++ translit (sf_value s) ++ rest)
        else None
    end.
  Fixpoint print_fields (l : list field) : option bytes :=
    match l with
    | [] => Some []
    | f :: l' =>
        do sub <- print_subfields (f_subfields f);
        do rest <- print_fields l';
        Some (f_tag f ++ (match f_occ f with Some o => write_occ o | None => [] end) ++ sub ++ [LF] ++ rest)
    end.

  (** /repo/crates/pica-cli/src/commands/print.rs:67-108; text written before a
      panic is not recorded *)
  Definition print_body (o : filter_opts) : N * bytes -> byte_record -> step (N * bytes) :=
    guarded (opts_select_print o) (fun s r =>
      let '(count, out) := s in
      match print_fields (br_record r) with
      | None => Panic
      | Some text =>
          let s' := (count + 1, out ++ text ++ [LF]) in
          if limit_reached (fo_limit o) (count + 1) then Halt s' else Next s'
      end).

  (** /repo/crates/pica-cli/src/commands/print.rs:37-117 Print::execute *)
  Definition print_run (skip : bool) (o : filter_opts) (inputs : list (bytes * bytes)) :=
    run_loop (on_result skip (print_body o)) (0, []) inputs.
End Commands.

(** ** invalid *)

(** /repo/crates/pica-cli/src/commands/invalid.rs:73-87 for one file; [None] if
    [fuel] is too small *)
Fixpoint invalid_file (fuel : nat) (i : bytes) : option bytes :=
  match fuel with
  | O => None
  | S n =>
      match read_until_lf i with
      | ([], _) => Some []
      | (buf, rest) =>
          do out <- invalid_file n rest;
          Some (match br_from_bytes buf with Some _ => out | None => buf ++ out end)
      end
  end.

(** /repo/crates/pica-cli/src/commands/invalid.rs:66-94 Invalid::execute *)
Fixpoint invalid_run (inputs : list (bytes * bytes)) : option bytes :=
  match inputs with
  | [] => Some []
  | (_, content) :: rest =>
      do a <- invalid_file (S (length content)) content;
      do b <- invalid_run rest;
      Some (a ++ b)
  end.

(** ** Output of count *)

(** which of the flags is given *)
Inductive count_mode := MRecords | MFields | MSubfields | MCsv (no_header : bool) | MTsv (no_header : bool) | MPlain.

(** /repo/crates/pica-cli/src/commands/count.rs:125-145 *)
Definition count_output (m : count_mode) (s : N * N * N) : bytes :=
  let '(r, f, sf) := s in
  match m with
  | MRecords => dec r ++ [LF]
  | MFields => dec f ++ [LF]
  | MSubfields => dec sf ++ [LF]
  | MCsv nh =>
      (if nh then [] else lit "records,fields,subfields" ++ [LF])
      ++ dec r ++ lit "," ++ dec f ++ lit "," ++ dec sf ++ [LF]
  | MTsv nh =>
      (if nh then [] else lit "records" ++ [9] ++ lit "fields" ++ [9] ++ lit "subfields" ++ [LF])
      ++ dec r ++ [9] ++ dec f ++ [9] ++ dec sf ++ [LF]
  | MPlain =>
      lit "records: " ++ dec r ++ [LF] ++ lit "fields: " ++ dec f ++ [LF]
      ++ lit "subfields: " ++ dec sf ++ [LF]
  end.

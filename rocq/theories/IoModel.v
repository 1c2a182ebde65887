(** * Reading in pieces, and failing reads

    A refinement of the reader of [ReaderModel.v] and the loops of
    [CliModel.v]: the source is what successive calls of [Read::read] return, so
    it comes in pieces of any size and any call may fail.  Opening an input may
    fail as well.  Model of /repo/src/reader.rs, the loops of
    /repo/crates/pica-cli/src/commands and /repo/crates/pica-cli/src/main.rs. *)

From Coq Require Import String.
From Verif Require Import Bytes Winnow RecordModel Utf8Model ByteRecordModel ReaderModel CliModel.

(** [std::io::ErrorKind], as far as it makes a difference *)
Inductive io_kind := BrokenPipe | OtherKind.

(** What one call of [Read::read] returns: a number of bytes (zero bytes mean
    that the end is reached), the error [Interrupted], or another error. *)
Inductive piece :=
| PData (b : bytes)
| PInterrupted
| PError (k : io_kind).

(** [std::io::BufReader]: the bytes in the buffer and the coming results of
    [read]; after the last of them the end is reached for good.  The capacity of
    the buffer bounds the pieces and is otherwise left out. *)
Record source := mkSource { so_buf : bytes; so_reads : list piece }.

(** [memchr(b'\n')]: the bytes up to the newline, and the rest *)
Fixpoint split_lf (b : bytes) : option (bytes * bytes) :=
  match b with
  | [] => None
  | c :: r =>
      if c =? LF then Some ([c], r)
      else match split_lf r with Some (x, y) => Some (c :: x, y) | None => None end
  end.

(** the loop of [std::io::BufRead::read_until] once the buffer is used up; [acc]
    is what it has appended to the vector *)
Fixpoint read_more (reads : list piece) (acc : bytes) : (bytes + io_kind) * source :=
  match reads with
  | [] => (inl acc, mkSource [] [])
  | PInterrupted :: rs => read_more rs acc
  | PError k :: rs => (inr k, mkSource [] rs)
  | PData [] :: rs => (inl acc, mkSource [] rs)
  | PData d :: rs =>
      match split_lf d with
      | Some (x, y) => (inl (acc ++ x), mkSource y rs)
      | None => read_more rs (acc ++ d)
      end
  end.

(** [std::io::BufRead::read_until(b'\n')] *)
Definition io_read_until (s : source) : (bytes + io_kind) * source :=
  match split_lf (so_buf s) with
  | Some (x, y) => (inl x, mkSource y (so_reads s))
  | None => read_more (so_reads s) (so_buf s)
  end.

(** /repo/src/reader.rs:14-21 ReadPicaError *)
Inductive pica_error :=
| PE (e : read_error)
| PEIo (k : io_kind).

(** /repo/src/reader.rs:27-29 skip_parse_err *)
Definition pica_skip (e : pica_error) (skip_invalid : bool) : bool :=
  match e with PE (EParse _ _) => skip_invalid | _ => false end.

(** /repo/src/reader.rs:122-127 Reader.  [buf] is cleared by every call. *)
Record io_reader := mkIoReader { io_inner : source; io_source : option bytes; io_line : N }.

(** /repo/src/reader.rs:131-145 Reader::new *)
Definition io_reader_new (reads : list piece) (name : option bytes) : io_reader :=
  mkIoReader (mkSource [] reads) (rd_source (reader_new [] name)) 0.

(** /repo/src/reader.rs:206-229 next_byte_record *)
Definition io_next_byte_record (rd : io_reader)
  : option (byte_record + pica_error) * io_reader :=
  let line := io_line rd + 1 in
  let (result, inner) := io_read_until (io_inner rd) in
  let rd' := mkIoReader inner (io_source rd) line in
  match result with
  | inr k => (Some (inr (PEIo k)), rd')
  | inl [] => (None, rd')
  | inl buf =>
      match br_from_bytes buf with
      | Some r => (Some (inl r), rd')
      | None => (Some (inr (PE (EParse line (io_source rd)))), rd')
      end
  end.

(** /repo/src/reader.rs:260-273 next_string_record *)
Definition io_next_string_record (rd : io_reader)
  : option (byte_record + pica_error) * io_reader :=
  let line := io_line rd in
  match io_next_byte_record rd with
  | (Some (inl r), rd') =>
      match sr_try_from r with
      | Some r' => (Some (inl r'), rd')
      | None => (Some (inr (PE (EUtf8 line))), rd')
      end
  | (Some (inr e), rd') => (Some (inr e), rd')
  | (None, rd') => (None, rd')
  end.

(** /repo/crates/pica-cli/src/error.rs:22-44 CliError: the cases that can occur
    once a command has started to read and write *)
Inductive cli_error :=
| CReadPica (e : pica_error)
| CIo (k : io_kind)
| CCsv
| CCheck.

(** how the loop or the whole command ends; see [step] and [ending] in
    CliModel.v *)
Inductive io_ending (S : Type) :=
| IDone (s : S)
| IStopped (s : S)
| IFailed (s : S) (e : cli_error)
| IPanicked.
Arguments IDone {S}. Arguments IStopped {S}. Arguments IFailed {S}. Arguments IPanicked {S}.

(** number of bytes to come *)
Definition piece_size (p : piece) : nat := match p with PData d => length d | _ => 0%nat end.
Definition source_size (s : source) : nat :=
  (length (so_buf s) + fold_right (fun p n => piece_size p + n) 0 (so_reads s))%nat.

Section Loop.
  Context {S : Type}.
  (** what a command does for a skipped line (slice.rs:117-122 moves the end of
      its range, the others do nothing) and for a record ([IDone] means that the
      loop goes on) *)
  Variable on_skip : S -> S.
  Variable body : S -> byte_record -> io_ending S.
  Variable skip : bool.

  (** [while let Some(result) = reader.next_byte_record() { .. }] with the arms
      of the [match], e.g. /repo/crates/pica-cli/src/commands/filter.rs:225-262.
      [IDone] if the reader is at its end, [IStopped] after [break 'outer]; the
      outer [None] means that [fuel] was too small. *)
  Fixpoint io_reader_loop (fuel : nat) (s : S) (rd : io_reader) : option (io_ending S) :=
    match fuel with
    | O => None
    | Datatypes.S n =>
        match io_next_byte_record rd with
        | (None, _) => Some (IDone s)
        | (Some (inr e), rd') =>
            if pica_skip e skip then io_reader_loop n (on_skip s) rd'
            else Some (IFailed s (CReadPica e))
        | (Some (inl r), rd') =>
            match body s r with
            | IDone s' => io_reader_loop n s' rd'
            | other => Some other
            end
        end
    end.

  (** ['outer: for filename in self.filenames { .. }], e.g.
      /repo/crates/pica-cli/src/commands/filter.rs:222-263.  An input is a name
      with what reading gives, or the error of opening it
      ([ReaderBuilder::new().from_path(path)?], the error of [File::open]
      becomes [CliError::IO]). *)
  Fixpoint io_files_loop (s : S) (files : list (bytes * (list piece + io_kind)))
    : option (io_ending S) :=
    match files with
    | [] => Some (IDone s)
    | (name, inr k) :: _ => Some (IFailed s (CIo k))
    | (name, inl reads) :: rest =>
        let rd := io_reader_new reads (Some name) in
        match io_reader_loop (Datatypes.S (source_size (io_inner rd))) s rd with
        | Some (IDone s') => io_files_loop s' rest
        | other => other
        end
    end.
End Loop.

(** /repo/crates/pica-cli/src/main.rs:50-63 main: the exit status; [None] is a
    panic *)
Definition main_status {S} (x : io_ending S) : option N :=
  match x with
  | IDone _ | IStopped _ => Some 0
  | IFailed _ (CIo BrokenPipe) => Some 0
  | IFailed _ _ => Some 2
  | IPanicked => None
  end.

(** /repo/crates/pica-cli/src/commands/slice.rs:117-122: what slice does for a
    skipped line *)
Definition slice_on_skip (length : N) (s : slice_state) : slice_state :=
  if (0 <? length) && (sl_end s <? usize_max)
  then mkSlice (sl_end s + 1) (sl_i s) (sl_count s) (sl_out s)
  else s.

(** /repo/crates/pica-cli/src/commands/invalid.rs:71-88: the loops of the
    command invalid, which calls [read_until] itself; its errors become
    [CliError::IO].  The first component is what has been written. *)
Fixpoint io_invalid_file (fuel : nat) (src : source) (out : bytes) : option (io_ending bytes) :=
  match fuel with
  | O => None
  | S n =>
      match io_read_until src with
      | (inr k, _) => Some (IFailed out (CIo k))
      | (inl [], _) => Some (IDone out)
      | (inl buf, src') =>
          io_invalid_file n src' (match br_from_bytes buf with Some _ => out | None => out ++ buf end)
      end
  end.
Fixpoint io_invalid_run (files : list (bytes * (list piece + io_kind))) (out : bytes)
  : option (io_ending bytes) :=
  match files with
  | [] => Some (IDone out)
  | (_, inr k) :: _ => Some (IFailed out (CIo k))
  | (_, inl reads) :: rest =>
      let src := mkSource [] reads in
      match io_invalid_file (S (source_size src)) src out with
      | Some (IDone out') => io_invalid_run rest out'
      | other => other
      end
  end.

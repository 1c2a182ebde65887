(** * Reader and writer

    Model of /repo/src/reader.rs and /repo/src/writer.rs.  The source is a byte
    string (no I/O errors); buffering and I/O errors are in [IoModel.v]. *)

From Coq Require Import String.
From Verif Require Import Bytes Winnow RecordModel Utf8Model ByteRecordModel.

(** [BufRead::read_until(b'\n')] from a source with remaining bytes [i]:
    the bytes read, including the newline if there is one, and the rest. *)
Fixpoint read_until_lf (i : bytes) : bytes * bytes :=
  match i with
  | [] => ([], [])
  | c :: r => if c =? LF then ([c], r) else let (a, b) := read_until_lf r in (c :: a, b)
  end.

(** /repo/src/reader.rs:14-21 ReadPicaError, without the I/O case; the message
    is represented by the line number and the source name it contains. *)
Inductive read_error :=
| EParse (line : N) (source : option bytes)
| EUtf8 (line : N).

(** /repo/src/reader.rs:122-127 Reader; [inner] is the remaining input, [buf]
    holds no information between calls and is left out. *)
Record reader := mkReader { rd_inner : bytes; rd_source : option bytes; rd_line : N }.

(** /repo/src/reader.rs:131-145 Reader::new *)
Definition reader_new (input : bytes) (source : option bytes) : reader :=
  mkReader input
    (match source with
     | Some s => Some (if bytes_eqb s (lit "-") then lit "<stdin>" else s)
     | None => None
     end) 0.

(** /repo/src/reader.rs:206-229 next_byte_record *)
Definition next_byte_record (rd : reader)
  : option (byte_record + read_error) * reader :=
  let line := rd_line rd + 1 in
  let (buf, rest) := read_until_lf (rd_inner rd) in
  let rd' := mkReader rest (rd_source rd) line in
  match buf with
  | [] => (None, rd')
  | _ =>
      match br_from_bytes buf with
      | Some r => (Some (inl r), rd')
      | None => (Some (inr (EParse line (rd_source rd))), rd')
      end
  end.

(** /repo/src/reader.rs:260-273 next_string_record *)
Definition next_string_record (rd : reader)
  : option (byte_record + read_error) * reader :=
  let line := rd_line rd in
  match next_byte_record rd with
  | (Some (inl r), rd') =>
      match sr_try_from r with
      | Some r' => (Some (inl r'), rd')
      | None => (Some (inr (EUtf8 line)), rd')
      end
  | (Some (inr e), rd') => (Some (inr e), rd')
  | (None, rd') => (None, rd')
  end.

(** /repo/src/reader.rs:27-29 skip_parse_err *)
Definition skip_parse_err (e : read_error) (skip_invalid : bool) : bool :=
  match e with EParse _ _ => skip_invalid | _ => false end.

(** The idiom [while let Some(result) = reader.next_byte_record()]: all results
    of a reader until the first [None].  [fuel] bounds the number of calls; the
    outer [None] means it was too small. *)
Fixpoint drain_fuel {A} (next : reader -> option A * reader) (fuel : nat) (rd : reader)
  : option (list A * reader) :=
  match fuel with
  | O => None
  | S n =>
      match next rd with
      | (None, rd') => Some ([], rd')
      | (Some x, rd') =>
          match drain_fuel next n rd' with
          | Some (l, rd'') => Some (x :: l, rd'')
          | None => None
          end
      end
  end.
Definition drain {A} (next : reader -> option A * reader) (rd : reader)
  : option (list A * reader) :=
  drain_fuel next (S (length (rd_inner rd))) rd.

(** /repo/src/writer.rs:25-28 WriterBuilder *)
Record writer_builder := mkWB { wb_append : bool; wb_gzip : bool }.
(** /repo/src/writer.rs:32-34 WriterBuilder::new *)
Definition wb_new : writer_builder := mkWB false false.
(** /repo/src/writer.rs:90-94 WriterBuilder::gzip; [None] is the failed assert. *)
Definition wb_set_gzip (yes : bool) (w : writer_builder) : option writer_builder :=
  if negb yes || xorb yes (wb_append w) then Some (mkWB (wb_append w) yes) else None.
(** /repo/src/writer.rs:107-111 WriterBuilder::append; [None] is the failed assert. *)
Definition wb_set_append (yes : bool) (w : writer_builder) : option writer_builder :=
  if negb yes || xorb yes (wb_gzip w) then Some (mkWB yes (wb_gzip w)) else None.

(** Sequences of builder calls (/repo/src/writer.rs:90-111); [None] is a panic. *)
Inductive wb_call := CGzip (yes : bool) | CAppend (yes : bool).

Definition wb_step (w : writer_builder) (c : wb_call) : option writer_builder :=
  match c with CGzip y => wb_set_gzip y w | CAppend y => wb_set_append y w end.

Fixpoint wb_run (w : writer_builder) (cs : list wb_call) : option writer_builder :=
  match cs with
  | [] => Some w
  | c :: cs' => match wb_step w c with Some w' => wb_run w' cs' | None => None end
  end.

(** A gzip file is modelled as the sequence of its members' contents; a plain
    file by its bytes. *)
Inductive file_content :=
| FPlain (b : bytes)
| FGzip (members : list bytes).

(** The kind of writer /repo/src/writer.rs:50-56 chooses: gzip flag or
    extension ".gz". *)
Definition wb_kind (w : writer_builder) (ext_gz : bool) : bool := wb_gzip w || ext_gz.

(** /repo/src/writer.rs:38-57 from_path followed by write_byte_record for each
    record (:156-161, :212-217) and finish: the content of the file afterwards.
    The previous content (if any) is kept iff [append] (truncate/append flags,
    :46-47).  Appending a plain stream to a gzip file or vice versa mixes both
    formats and is not representable ([None]). *)
Definition write_file (w : writer_builder) (ext_gz : bool) (old : option file_content)
    (recs : list byte_record) : option file_content :=
  let data := flat_map br_write recs in
  let base := if wb_append w then old else None in
  if wb_kind w ext_gz then
    match base with
    | None => Some (FGzip [data])
    | Some (FGzip ms) => Some (FGzip (ms ++ [data]))
    | Some (FPlain []) => Some (FGzip [data])
    | Some (FPlain _) => None
    end
  else
    match base with
    | None => Some (FPlain data)
    | Some (FPlain b) => Some (FPlain (b ++ data))
    | Some (FGzip _) => None
    end.

(** /repo/src/reader.rs:98-119 ReaderBuilder::from_path: the byte stream the
    reader sees.  [flate2::read::GzDecoder] decodes the first member only;
    [None] when a file is not in the expected format. *)
Definition read_file (ext_gz : bool) (f : file_content) : option bytes :=
  match ext_gz, f with
  | true, FGzip (m :: _) => Some m
  | true, FGzip [] => None
  | true, FPlain _ => None
  | false, FPlain b => Some b
  | false, FGzip _ => None
  end.

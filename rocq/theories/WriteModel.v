(** * Writing in pieces, and failing writes

    The commands with an output that accepts data in pieces of any size and can
    fail at any moment.  Model of /repo/src/writer.rs, the writers of
    /repo/crates/pica-cli/src/commands and /repo/crates/pica-cli/src/main.rs, on
    top of [IoModel.v].  Left out: compressed outputs, and the buffer of stdout
    (what it has accepted counts as written). *)

From Coq Require Import String.
From Verif Require Import Bytes Winnow RecordModel ByteRecordModel ReaderModel CliModel IoModel.

(** What one call of [Write::write] returns: the number of bytes accepted (at
    most), the error [Interrupted], or another error. *)
Inductive wres :=
| WTake (n : nat)
| WInterrupted
| WError (k : io_kind).

(** A file or pipe: what has been written, the coming results of [write], and
    what happens afterwards ([None]: all is accepted, [Some]: this error for
    good). *)
Record sink := mkSink { sk_data : bytes; sk_writes : list wres; sk_dead : option io_kind }.

(** The loop of [std::io::Write::write_all] and [BufWriter::flush_buf]: writes
    [b]; error, what is left of [b], and the sink.  Accepting zero bytes is the
    error [WriteZero]. *)
Fixpoint push (ws : list wres) (dead : option io_kind) (data b : bytes) : option io_kind * bytes * sink :=
  match b with
  | [] => (None, [], mkSink data ws dead)
  | _ =>
      match ws with
      | [] => match dead with
              | None => (None, [], mkSink (data ++ b) [] None)
              | Some k => (Some k, b, mkSink data [] dead)
              end
      | WInterrupted :: ws' => push ws' dead data b
      | WError k :: ws' => (Some k, b, mkSink data ws' dead)
      | WTake 0 :: ws' => (Some OtherKind, b, mkSink data ws' dead)
      | WTake n :: ws' => push ws' dead (data ++ firstn n b) (skipn n b)
      end
  end.
Definition sink_push (s : sink) (b : bytes) := push (sk_writes s) (sk_dead s) (sk_data s) b.

(** ** std::io::BufWriter *)

Record bufwriter := mkBuf { bw_buf : bytes; bw_sink : sink }.

(** [BufWriter::flush_buf]; what could not be written stays in the buffer *)
Definition bw_flush (w : bufwriter) : option io_kind * bufwriter :=
  let '(e, rest, s) := sink_push (bw_sink w) (bw_buf w) in (e, mkBuf rest s).

(** [BufWriter::write_all] with a buffer of [cap] bytes *)
Definition bw_write (cap : nat) (w : bufwriter) (b : bytes) : option io_kind * bufwriter :=
  let spare w := (cap - length (bw_buf w))%nat in
  if Nat.ltb (length b) (spare w) then (None, mkBuf (bw_buf w ++ b) (bw_sink w))
  else
    let (e, w) := if Nat.ltb (spare w) (length b) then bw_flush w else (None, w) in
    match e with
    | Some k => (Some k, w)
    | None =>
        if Nat.leb cap (length b) then
          let '(e, _, s) := sink_push (bw_sink w) b in (e, mkBuf (bw_buf w) s)
        else (None, mkBuf (bw_buf w ++ b) (bw_sink w))
    end.

(** dropping the writer: the buffer is written, errors are ignored *)
Definition bw_drop (w : bufwriter) : bytes := sk_data (bw_sink (snd (bw_flush w))).

(** ** Writers of a command *)

(** the result of a call of a writer *)
Inductive put_result (W : Type) :=
| PutOk (w : W)
| PutErr (w : W) (e : cli_error)
| PutPanic.
Arguments PutOk {W}. Arguments PutErr {W}. Arguments PutPanic {W}.

(** successive calls of [write_all], up to the first error *)
Fixpoint bw_write_list (cap : nat) (w : bufwriter) (cs : list bytes) : option io_kind * bufwriter :=
  match cs with
  | [] => (None, w)
  | c :: cs' =>
      match bw_write cap w c with
      | (Some k, w') => (Some k, w')
      | (None, w') => bw_write_list cap w' cs'
      end
  end.

(** The output and the tee output, e.g.
    /repo/crates/pica-cli/src/commands/filter.rs:251-254: the same bytes are
    written to one after the other, up to the first error.  [cut] is how
    [ByteRecord::write_to] and so on divide them into calls of [write_all]. *)
Fixpoint bw_put_each (cap : nat) (cut : bytes -> list bytes) (ws : list bufwriter) (b : bytes)
  : option io_kind * list bufwriter :=
  match ws with
  | [] => (None, [])
  | w :: ws' =>
      match bw_write_list cap w (cut b) with
      | (Some k, w') => (Some k, w' :: ws')
      | (None, w') => let (e, ws'') := bw_put_each cap cut ws' b in (e, w' :: ws'')
      end
  end.

(** [ByteRecordWrite::finish] (/repo/src/writer.rs:164-167) of the tee output and
    then of the output (filter.rs:265-270, concat.rs:143-148) *)
Fixpoint bw_finish_each (ws : list bufwriter) : option io_kind * list bufwriter :=
  match ws with
  | [] => (None, [])
  | w :: ws' =>
      match bw_finish_each ws' with
      | (Some k, ws'') => (Some k, w :: ws'')
      | (None, ws'') => let (e, w') := bw_flush w in (e, w' :: ws'')
      end
  end.

(** [?] on an [io::Result]: the error becomes [CliError::IO] *)
Definition io_put {W} (x : option io_kind * W) : put_result W :=
  match x with (None, w) => PutOk w | (Some k, w) => PutErr w (CIo k) end.

(** how a process ends: with a status and the contents of its outputs, or by a
    panic, which aborts (/repo/Cargo.toml:58-60) *)
Inductive process_end :=
| Exited (status : N) (contents : list bytes)
| Aborted.

Section Run.
  Context {S W : Type}.
  (** what a command has written when it is in a state *)
  Variable out : S -> bytes.
  (** what it writes after the loop *)
  Variable at_end : S -> bytes.
  Variable put : W -> bytes -> put_result W.
  Variable finish : W -> put_result W.
  (** dropping the writers *)
  Variable close : W -> list bytes.

  (** the bytes written for a record *)
  Definition fresh (s s' : S) : bytes := skipn (length (out s)) (out s').

  (** the loop body with its writer *)
  Definition writing (body : S -> byte_record -> io_ending S) (x : S * W) (r : byte_record)
    : io_ending (S * W) :=
    let then_ s' (k : W -> io_ending (S * W)) :=
      match put (snd x) (fresh (fst x) s') with
      | PutOk w => k w
      | PutErr w e => IFailed (s', w) e
      | PutPanic => IPanicked
      end in
    match body (fst x) r with
    | IDone s' => then_ s' (fun w => IDone (s', w))
    | IStopped s' => then_ s' (fun w => IStopped (s', w))
    | IFailed s' e => then_ s' (fun w => IFailed (s', w) e)
    | IPanicked => IPanicked
    end.

  (** what follows the loop, and [main] *)
  Definition exit_with (e : cli_error) (w : W) : process_end :=
    match main_status (IFailed tt e) with
    | Some n => Exited n (close w)
    | None => Aborted
    end.
  Definition run_end (x : io_ending (S * W)) : process_end :=
    match x with
    | IDone (s, w) | IStopped (s, w) =>
        match put w (at_end s) with
        | PutPanic => Aborted
        | PutErr w' e => exit_with e w'
        | PutOk w' =>
            match finish w' with
            | PutPanic => Aborted
            | PutErr w'' e => exit_with e w''
            | PutOk w'' => Exited 0 (close w'')
            end
        end
    | IFailed (_, w) e => exit_with e w
    | IPanicked => Aborted
    end.

  (** a command: what is written before the loop, the loop, the end *)
  Definition write_run (on_skip : S -> S) (body : S -> byte_record -> io_ending S) (skip : bool)
      (s : S) (w : W) (files : list (bytes * (list piece + io_kind))) : option process_end :=
    match put w (out s) with
    | PutPanic => Some Aborted
    | PutErr w' e => Some (exit_with e w')
    | PutOk w' =>
        option_map run_end
          (io_files_loop (fun x => (on_skip (fst x), snd x)) (writing body) skip (s, w') files)
    end.
End Run.

(** the commands with record writers, and print, convert except to XML *)
Definition record_run {S} (cap : nat) (cut : bytes -> list bytes) (out at_end : S -> bytes) on_skip body skip
    (s : S) (sinks : list sink) files : option process_end :=
  write_run out at_end (fun ws b => io_put (bw_put_each cap cut ws b)) (fun ws => io_put (bw_finish_each ws))
    (map bw_drop) on_skip body skip s (map (mkBuf []) sinks) files.

(** ** Tables: the writer of the external crate csv *)

(** its buffer and the sink *)
Record csvwriter := mkCsv { cw_buf : bytes; cw_sink : sink }.

(** [csv::Writer::flush_buf]: if [write_all] fails the buffer stays as it is *)
Definition cw_flush (w : csvwriter) : option io_kind * csvwriter :=
  match sink_push (cw_sink w) (cw_buf w) with
  | (None, _, s) => (None, mkCsv [] s)
  | (Some k, _, s) => (Some k, mkCsv (cw_buf w) s)
  end.

(** Writing bytes: they are moved to the buffer, which is flushed whenever it is
    full.  When that is the case depends on the fields; here it is left open: the
    bytes come in pieces, each with a mark whether it is followed by a flush. *)
Fixpoint cw_write (w : csvwriter) (ps : list (bytes * bool)) : option io_kind * csvwriter :=
  match ps with
  | [] => (None, w)
  | (p, flush) :: ps' =>
      let w1 := mkCsv (cw_buf w ++ p) (cw_sink w) in
      if flush then
        match cw_flush w1 with
        | (Some k, w2) => (Some k, w2)
        | (None, w2) => cw_write w2 ps'
        end
      else cw_write w1 ps'
  end.

(** dropping the writer flushes it *)
Definition cw_drop (w : csvwriter) : bytes := sk_data (cw_sink (snd (cw_flush w))).

(** Which error of [CliError] an error of the writer becomes: [write_record]
    gives [csv::Error], [flush] an [io::Error]
    (/repo/crates/pica-cli/src/commands/select.rs:212-237, hash.rs:99-118,
    frequency.rs:228-239); in check both become [CliError::Check]
    (/repo/crates/pica-cli/src/commands/check/writer/mod.rs:17-23,
    error.rs:33-34). *)
Inductive table_command := TableCommand | CheckCommand.
Definition row_error (c : table_command) (k : io_kind) : cli_error :=
  match c with TableCommand => CCsv | CheckCommand => CCheck end.
Definition flush_error (c : table_command) (k : io_kind) : cli_error :=
  match c with TableCommand => CIo k | CheckCommand => CCheck end.

(** the commands select, hash, frequency and check (to stdout) *)
Definition table_run {S} (c : table_command) (cut : bytes -> bytes -> list (bytes * bool))
    (out at_end : S -> bytes) on_skip body skip (s : S) (sk : sink) files : option process_end :=
  write_run out at_end
    (fun w b => match cw_write w (cut (cw_buf w) b) with
                | (None, w') => PutOk w'
                | (Some k, w') => PutErr w' (row_error c k)
                end)
    (fun w => match cw_flush w with
              | (None, w') => PutOk w'
              | (Some k, w') => PutErr w' (flush_error c k)
              end)
    (fun w => [cw_drop w]) on_skip body skip s (mkCsv [] sk) files.

(** ** XML *)

(** /repo/crates/pica-cli/src/commands/convert/xml.rs:16-102: every error of
    writing is unwrapped, and [finish] does not flush the buffer *)
Definition xml_run {S} (cap : nat) (cut : bytes -> list bytes) (out at_end : S -> bytes) on_skip body skip
    (s : S) (sk : sink) files : option process_end :=
  write_run out at_end
    (fun w b => match bw_write_list cap w (cut b) with (None, w') => PutOk w' | (Some _, _) => PutPanic end)
    PutOk (fun w => [bw_drop w]) on_skip body skip s (mkBuf [] sk) files.

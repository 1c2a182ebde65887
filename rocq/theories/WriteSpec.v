(** * Specification of writing in pieces and of failing writes *)

From Verif Require Import Bytes RecordModel ByteRecordModel ReaderModel CliModel IoModel IoSpec WriteModel.

Definition is_prefix (a b : bytes) : Prop := exists c, b = a ++ c.

(** [s] can fail with an error of kind [k] *)
Definition can_fail (s : sink) (k : io_kind) : Prop :=
  In (WError k) (sk_writes s) \/ sk_dead s = Some k \/ (k = OtherKind /\ In (WTake 0) (sk_writes s)).

(** a command adds to what it has written *)
Definition appends {S} (out : S -> bytes) (on_skip : S -> S) (body : S -> byte_record -> io_ending S) : Prop :=
  (forall s, out (on_skip s) = out s)
  /\ (forall s r, match body s r with
                  | IDone s' | IStopped s' | IFailed s' _ => is_prefix (out s) (out s')
                  | IPanicked => True
                  end).

(** everything that is to be written in a run that does not panic *)
Definition whole_output {S} (out at_end : S -> bytes) (x : io_ending S) (t : bytes) : Prop :=
  match x with
  | IDone s | IStopped s => t = out s ++ at_end s
  | IFailed s _ => t = out s
  | IPanicked => False
  end.

(** how bytes are divided into calls *)
Definition divides (cut : bytes -> list bytes) : Prop := forall b, concat (cut b) = b.

(** a sink that fails for good: after an error no data is accepted any more *)
Definition steady (s : sink) : Prop := ~ In (WTake 0) (sk_writes s) /\ forall k, ~ In (WError k) (sk_writes s).


(** As [as_io], for commands that write rows: [CsvModel.v] stops at a row that the
    CSV writer refuses and notes it, which the command returns as [csv::Error]
    (/repo/crates/pica-cli/src/commands/hash.rs:98-103, select.rs:208-222,
    error.rs:36-37). *)
Definition with_refused {S} (refused : S -> bool) (x : step S) : io_ending S :=
  match x with
  | Halt s => if refused s then IFailed s CCsv else IStopped s
  | other => as_io other
  end.

(** * Specification of reading in pieces and of failing reads *)

From Verif Require Import Bytes RecordModel ByteRecordModel ReaderModel CliModel IoModel.

(** results of [read] that amount to the bytes [d]: pieces that are not empty,
    with interruptions in between *)
Inductive delivers : list piece -> bytes -> Prop :=
| dl_end : delivers [] []
| dl_interrupted : forall rs d, delivers rs d -> delivers (PInterrupted :: rs) d
| dl_data : forall p rs d, p <> [] -> delivers rs d -> delivers (PData p :: rs) (p ++ d).

(** an input that can be opened and read to its end, and its content *)
Definition intact (f : bytes * (list piece + io_kind)) (g : bytes * bytes) : Prop :=
  fst f = fst g /\ exists rs, snd f = inl rs /\ delivers rs (snd g).

(** [c] is the part of [d] up to its last newline *)
Definition complete_lines (d c : bytes) : Prop :=
  exists p, d = c ++ p /\ ~ In 10 p /\ (c = [] \/ exists c', c = c' ++ [10]).

(** the end of a loop over inputs that cannot fail, among those of a loop over
    inputs that can *)
Definition as_io {S} (x : step S) : io_ending S :=
  match x with
  | Next s => IDone s
  | Halt s => IStopped s
  | Fail s e => IFailed s (CReadPica (PE e))
  | Panic => IPanicked
  end.

(** The loop body [f] of [CliModel.v], as a function of a record and of what to
    do with a line that is skipped; it fails at other lines. *)
Definition loop_body {S} (f : S -> byte_record + read_error -> step S) (on_skip : S -> S)
    (body : S -> byte_record -> io_ending S) (skip : bool) : Prop :=
  (forall s r, body s r = as_io (f s (inl r)))
  /\ (forall s n src, f s (inr (EParse n src)) = if skip then Next (on_skip s) else Fail s (EParse n src))
  /\ (forall s n, f s (inr (EUtf8 n)) = Fail s (EUtf8 n)).

(** the loop [x] over the inputs before a fault, then the fault *)
Definition then_fails {S} (e : cli_error) (x : step S) : io_ending S :=
  match x with
  | Next s => IFailed s e
  | other => as_io other
  end.

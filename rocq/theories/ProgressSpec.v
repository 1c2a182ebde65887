(** * Specification of the progress bar *)

From Coq Require Import String.
From Verif Require Import Bytes RecordModel RecordSpec ByteRecordModel ReaderModel CliModel CliSpec ProgressModel.

(** how many of the lines are records, and how many are none *)
Inductive tally : list (bytes * N * bytes) -> N -> N -> Prop :=
| tally_nil : tally [] 0 0
| tally_record : forall s n l r ls v i, record_text r l -> tally ls v i -> tally ((s, n, l) :: ls) (v + 1) i
| tally_invalid : forall s n l ls v i, (forall r, ~ record_text r l) -> tally ls v i -> tally ((s, n, l) :: ls) v (i + 1).

(** the counters are 64 bits wide *)
Definition counts (p : progress) (v i : N) : Prop :=
  pg_records p = v mod 18446744073709551616 /\ pg_invalid p = i mod 18446744073709551616.

(** the end without the progress *)
Definition without_progress {S} (x : step (S * progress)) : step S :=
  match x with
  | Next s => Next (fst s)
  | Halt s => Halt (fst s)
  | Fail s e => Fail (fst s) e
  | Panic => Panic
  end.

(** the last progress *)
Definition last_progress {S} (x : step (S * progress)) : option progress :=
  match x with Next s | Halt s | Fail s _ => Some (snd s) | Panic => None end.

(** Where a run ends: after all lines; at a record, which is counted; or at a line that is
    none, which is not counted. *)
Inductive ends_at {S} (skip : bool) : step S -> list (bytes * N * bytes) -> list (bytes * N * bytes) -> Prop :=
| ea_all : forall s done, ends_at skip (Next s) done []
| ea_record : forall x done src n l r rest, record_text r l -> (forall s, x <> Next s) -> ends_at skip x (done ++ [(src, n, l)]) rest
| ea_invalid : forall s done src n l rest, skip = false -> (forall r, ~ record_text r l) ->
    ends_at skip (Fail s (EParse n (Some src))) done ((src, n, l) :: rest).

(** a decimal number in groups of three digits *)
Definition in_groups (n : N) (t : bytes) : Prop :=
  exists first groups, decimal n (first ++ concat groups) /\ (1 <= length first <= 3)%nat
    /\ Forall (fun g => length g = 3%nat) groups /\ t = first ++ flat_map (fun g => 44 :: g) groups.

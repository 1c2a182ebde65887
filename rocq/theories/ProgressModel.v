(** * Model of the progress bar

    /repo/crates/pica-cli/src/progress.rs.  The bar itself (spinner, elapsed time,
    records per second) belongs to the crate indicatif and is left out; modelled are
    the counters and the message that is put together from them. *)

From Coq Require Import String.
From Verif Require Import Bytes RecordModel TagOccModel ByteRecordModel ReaderModel MatcherModel Winnow CliModel.

(** /repo/crates/pica-cli/src/progress.rs:3-7 Progress *)
Record progress := mkProgress { pg_records : N; pg_invalid : N }.

(** /repo/crates/pica-cli/src/progress.rs:10-29 Progress::new *)
Definition progress_new : progress := mkProgress 0 0.

(** /repo/crates/pica-cli/src/progress.rs:34-38: [+= 1] of a u64, without overflow checks
    (release profile) *)
Definition u64_inc (n : N) : N := (n + 1) mod 18446744073709551616.

(** /repo/crates/pica-cli/src/progress.rs:32-40 Progress::update: the counters *)
Definition progress_update (invalid : bool) (p : progress) : progress :=
  if invalid then mkProgress (pg_records p) (u64_inc (pg_invalid p))
  else mkProgress (u64_inc (pg_records p)) (pg_invalid p).

(** [HumanCount] in /repo/crates/pica-cli/src/progress.rs:42-49, of the crate indicatif,
    whose source is not in /repo; modelled after its documentation: a comma behind each digit with a
    multiple of three of digits behind it *)
Fixpoint comma_digits (ds : bytes) : bytes :=
  match ds with
  | [] => []
  | c :: ds' =>
      let pos := N.of_nat (length ds') in
      c :: (if (0 <? pos) && (pos mod 3 =? 0) then [44] else []) ++ comma_digits ds'
  end.
Definition human_count (n : N) : bytes := comma_digits (dec n).

(** /repo/crates/pica-cli/src/progress.rs:42-49 Progress::update: the message;
    [per_sec] is measured by indicatif *)
Definition progress_message (p : progress) (per_sec : N) : bytes :=
  human_count (pg_records p) ++ lit " records, " ++ human_count (pg_invalid p) ++ lit " invalid | "
  ++ human_count per_sec ++ lit " records/s".

(** the state of a loop with the variable [progress], e.g.
    /repo/crates/pica-cli/src/commands/filter.rs:163 *)
Definition step_with {S} (p : progress) (x : step S) : step (S * progress) :=
  match x with
  | Next s => Next (s, p)
  | Halt s => Halt (s, p)
  | Fail s e => Fail (s, p) e
  | Panic => Panic
  end.

(** The arms of the [match result] with the progress: /repo/crates/pica-cli/src/commands/
    check/mod.rs:107-114, count.rs:94-101, describe.rs:71-78, explode.rs:175-182,
    filter.rs:226-233, frequency.rs:153-160, hash.rs:71-78, partition.rs:89-96,
    print.rs:61-68, sample.rs:77-84, select.rs:168-175, slice.rs:116-126, split.rs:86-93.
    convert/mod.rs:100-109 counts a record after it has been written; its writers to
    memory do not fail, so that this makes no difference here.  [on_skip] is what a
    skipped line does otherwise (slice.rs:118-123). *)
Definition shown_result {S} (skip : bool) (on_skip : S -> S) (body : S -> byte_record -> step S)
    (s : S * progress) (x : byte_record + read_error) : step (S * progress) :=
  match x with
  | inr e => if skip_parse_err e skip then Next (on_skip (fst s), progress_update true (snd s)) else Fail s e
  | inl r => step_with (progress_update false (snd s)) (body (fst s) r)
  end.

(** /repo/crates/pica-cli/src/commands/slice.rs:119-121: what a skipped line does in slice *)
Definition slice_skip (length : N) (s : slice_state) : slice_state :=
  if (0 <? length) && (sl_end s <? usize_max) then mkSlice (sl_end s + 1) (sl_i s) (sl_count s) (sl_out s) else s.

Section Concat.
  Variable O : oracles.
  Variable sha : bytes -> bytes.
  Variable lossy : bytes -> bytes.

  (** /repo/crates/pica-cli/src/commands/concat.rs:113-138: concat counts a record when
      it has been written *)
  Definition concat_shown (skip : bool) (unique : option strategy) (s : concat_state * progress) (x : byte_record + read_error)
    : step (concat_state * progress) :=
    match x with
    | inr e => if skip_parse_err e skip then Next (fst s, progress_update true (snd s)) else Fail s e
    | inl r =>
        let '(seen, out, tee, p) := s in
        let write seen' := Next (seen', out ++ br_write r, tee ++ br_write r, progress_update false p) in
        match unique with
        | None => write seen
        | Some st =>
            match record_key O sha lossy st r with
            | None => Panic
            | Some key => if mem_bytes key seen || bytes_eqb key [] then Next s else write (key :: seen)
            end
        end
    end.
End Concat.

(** /repo/crates/pica-cli/src/commands/invalid.rs:73-87 for one file; [None] if [fuel] is
    too small *)
Fixpoint invalid_file_shown (fuel : nat) (i : bytes) (p : progress) : option (bytes * progress) :=
  match fuel with
  | O => None
  | S n =>
      match read_until_lf i with
      | ([], _) => Some ([], p)
      | (buf, rest) =>
          match br_from_bytes buf with
          | Some _ => invalid_file_shown n rest (progress_update false p)
          | None => do x <- invalid_file_shown n rest (progress_update true p); Some (buf ++ fst x, snd x)
          end
      end
  end.

(** /repo/crates/pica-cli/src/commands/invalid.rs:66-94 Invalid::execute *)
Fixpoint invalid_run_shown (inputs : list (bytes * bytes)) (p : progress) : option (bytes * progress) :=
  match inputs with
  | [] => Some ([], p)
  | (_, content) :: rest =>
      do a <- invalid_file_shown (S (length content)) content p;
      do b <- invalid_run_shown rest (snd a);
      Some (fst a ++ fst b, snd b)
  end.

(** * explode

    Model of /repo/crates/pica-cli/src/commands/explode.rs. *)

From Verif Require Import Bytes Winnow RecordModel TagOccModel ByteRecordModel ReaderModel MatcherModel PathModel
  CliModel.

(** /repo/src/primitives/tag.rs:17-22 Level *)
Inductive level := LMain | LLocal | LCopy.

(** /repo/src/primitives/field.rs:211-213 level, src/primitives/tag.rs:125-132
    level; [None] is the panic of [unreachable!] (or of the index). *)
Definition field_level (f : field) : option level :=
  match f_tag f with
  | [] => None
  | c :: _ =>
      if c =? 48 then Some LMain else if c =? 49 then Some LLocal else if c =? 50 then Some LCopy else None
  end.

(** [iter.peek()] with [next.level() == Level::Local],
    /repo/crates/pica-cli/src/commands/explode.rs:89-91, 128-130 *)
Definition next_is_local (rest : list field) : option bool :=
  match rest with
  | [] => Some false
  | next :: _ => do l <- field_level next; Some (match l with LLocal => true | _ => false end)
  end.

(** /repo/crates/pica-cli/src/commands/explode.rs:46-65 push_record!; the
    variant without [local] is the one with an empty [local]. *)
Definition push_record (records : list (list field)) (main local acc : list field) : list (list field) :=
  match acc with
  | [] => records
  | _ => records ++ [main ++ local ++ acc]
  end.

(** /repo/crates/pica-cli/src/commands/explode.rs:67-72 process_main *)
Definition process_main (fields : list field) : option (list (list field)) := Some [fields].

(** The loop of /repo/crates/pica-cli/src/commands/explode.rs:82-99; [fields] are
    those not yet taken from the iterator. *)
Fixpoint local_loop (fields main acc : list field) (records : list (list field)) : option (list (list field)) :=
  match fields with
  | [] => Some (push_record records main [] acc)
  | cur :: rest =>
      do l <- field_level cur;
      match l with
      | LMain => local_loop rest (main ++ [cur]) acc records
      | LLocal => local_loop rest main (acc ++ [cur]) records
      | LCopy =>
          do b <- next_is_local rest;
          if b then local_loop rest main [] (push_record records main [] (acc ++ [cur]))
          else local_loop rest main (acc ++ [cur]) records
      end
  end.

(** /repo/crates/pica-cli/src/commands/explode.rs:74-101 process_local *)
Definition process_local (fields : list field) : option (list (list field)) := local_loop fields [] [] [].

(** [count != cur.occurrence()] *)
Definition occ_differ (a b : option bytes) : bool :=
  match a, b with
  | None, None => false
  | Some x, Some y => negb (bytes_eqb x y)
  | _, _ => true
  end.

(** The loop of /repo/crates/pica-cli/src/commands/explode.rs:113-140 *)
Fixpoint copy_loop (fields main local copy : list field) (count : option bytes) (records : list (list field))
  : option (list (list field)) :=
  match fields with
  | [] => Some (push_record records main local copy)
  | cur :: rest =>
      do l <- field_level cur;
      match l with
      | LMain => copy_loop rest (main ++ [cur]) local copy count records
      | LLocal => copy_loop rest main (local ++ [cur]) copy count records
      | LCopy =>
          let '(records, count, copy) :=
            if occ_differ count (f_occ cur) then (push_record records main local copy, f_occ cur, [])
            else (records, count, copy) in
          let copy := copy ++ [cur] in
          do b <- next_is_local rest;
          if b then copy_loop rest main [] [] None (push_record records main local copy)
          else copy_loop rest main local copy count records
      end
  end.

(** /repo/crates/pica-cli/src/commands/explode.rs:103-142 process_copy *)
Definition process_copy (fields : list field) : option (list (list field)) := copy_loop fields [] [] [] None [].

(** /repo/crates/pica-cli/src/commands/explode.rs:165-169 *)
Definition process (l : level) : list field -> option (list (list field)) :=
  match l with LMain => process_main | LLocal => process_local | LCopy => process_copy end.

(** a [for] loop *)
Fixpoint for_each {S A} (f : S -> A -> step S) (s : S) (l : list A) : step S :=
  match l with
  | [] => Next s
  | x :: l' => match f s x with Next s' => for_each f s' l' | other => other end
  end.

(** /repo/crates/pica-cli/src/commands/explode.rs:185-190 *)
Definition part_data (fields : list field) : bytes := flat_map write_field fields ++ [10].

Section Explode.
  Variables O Od : oracles.

  (** /repo/crates/pica-cli/src/commands/explode.rs:12-44 Explode, after
      preparation *)
  Record explode_cmd := mkExplode {
    ex_level : level;
    ex_opts : filter_opts;
    ex_keep : list (tag_matcher * occ_matcher);
    ex_discard : list (tag_matcher * occ_matcher) }.

  (** count and output *)
  Definition explode_state : Type := N * bytes.

  (** /repo/crates/pica-cli/src/commands/explode.rs:184-245.  The closures of
      lines 205-235 are those of [ByteRecord::keep] and [ByteRecord::discard]
      (src/record.rs:119-177). *)
  Definition explode_part (c : explode_cmd) (s : explode_state) (part : list field) : step explode_state :=
    match br_from_bytes (part_data part) with
    | None => Panic
    | Some r =>
        guarded (opts_select O Od (ex_opts c)) (fun s r =>
          let '(count, out) := s in
          let s' := (count + 1, out ++ br_write (br_discard (ex_discard c) (br_keep (ex_keep c) r))) in
          if limit_reached (fo_limit (ex_opts c)) (count + 1) then Halt s' else Next s') s r
    end.

  (** /repo/crates/pica-cli/src/commands/explode.rs:181-246 *)
  Definition explode_body (c : explode_cmd) (s : explode_state) (r : byte_record) : step explode_state :=
    match process (ex_level c) (br_record r) with
    | None => Panic
    | Some parts => for_each (explode_part c) s parts
    end.

  (** /repo/crates/pica-cli/src/commands/explode.rs:145-255 Explode::execute *)
  Definition explode_run (skip : bool) (c : explode_cmd) (files : list (bytes * bytes))
    : option (ending explode_state) :=
    run_loop (on_result skip (explode_body c)) (0, []) files.
End Explode.

(** * Many outputs that accept data in pieces and can fail

    split and partition with outputs as in [WriteModel.v]: any call of [write] can
    accept a part of the data or fail, and so can the opening of any output.  Left out:
    compressed outputs, and two outputs with the same path (every output that is opened
    is a file or pipe of its own). *)

From Coq Require Import String.
From Verif Require Import Bytes Winnow RecordModel ByteRecordModel ReaderModel MatcherModel PathModel CliModel
  OptionsModel IoModel WriteModel DiskModel DirModel.

(** how the process ends: its status and the contents of what it has opened, or a
    panic, see [process_end] *)
Inductive many_end (C : Type) :=
| MExited (status : N) (contents : C)
| MAborted.
Arguments MExited {C}. Arguments MAborted {C}.

(** /repo/crates/pica-cli/src/main.rs:50-63 main *)
Definition many_exit {C} (e : cli_error) (contents : C) : many_end C :=
  match main_status (IFailed tt e) with Some n => MExited n contents | None => MAborted end.

Section Many.
  (** the size of the buffers, and how [ByteRecord::write_to] divides its bytes into
      calls, see [WriteModel.v] *)
  Variable cap : nat.
  Variable cut : bytes -> list bytes.
  (** the call of [OpenOptions::open] in /repo/src/writer.rs:46-51, by the number of
      outputs opened before and the path: a file or pipe, or an error *)
  Variable opening : nat -> bytes -> sink + io_kind.
  Variables O Od : oracles.

  (** an open output with its path *)
  Definition output_at : Type := bytes * bufwriter.
  (** the end of its life *)
  Definition at_last (x : output_at) : bytes * bytes := (fst x, bw_drop (snd x)).

  (** ** split *)

  (** chunk number, number of records, the chunks before with their contents, and
      the chunk that is being written *)
  Record wsplit := mkWSplit { wp_chunks : N; wp_count : N; wp_done : list (bytes * bytes); wp_open : output_at }.

  (** /repo/crates/pica-cli/src/commands/split.rs:77-80 and 116-121 *)
  Definition chunk_path (outdir template : bytes) (k : N) : bytes := path_join outdir (replace_braces (dec k) template).

  (** [writer.write_byte_record(record)?] and what follows,
      /repo/crates/pica-cli/src/commands/split.rs:123-128 *)
  Definition wsplit_write (o : filter_opts) (s : wsplit) (r : byte_record) : io_ending wsplit :=
    match bw_write_list cap (snd (wp_open s)) (cut (br_write r)) with
    | (Some k, w) => IFailed (mkWSplit (wp_chunks s) (wp_count s) (wp_done s) (fst (wp_open s), w)) (CIo k)
    | (None, w) =>
        let s' := mkWSplit (wp_chunks s) (wp_count s + 1) (wp_done s) (fst (wp_open s), w) in
        if limit_reached (fo_limit o) (wp_count s') then IStopped s' else IDone s'
    end.

  (** /repo/crates/pica-cli/src/commands/split.rs:93-128, see [split_body]: the
      writer before is dropped when the new one is there *)
  Definition wsplit_body (outdir template : bytes) (size : N) (o : filter_opts) : wsplit -> byte_record -> io_ending wsplit :=
    io_guarded (opts_select O Od o) (fun s r =>
      if (0 <? wp_count s) && (u32 (wp_count s) mod size =? 0) then
        match bw_flush (snd (wp_open s)) with
        | (Some k, w) => IFailed (mkWSplit (wp_chunks s) (wp_count s) (wp_done s) (fst (wp_open s), w)) (CIo k)
        | (None, w) =>
            let chunks := u32 (wp_chunks s + 1) in
            let path := chunk_path outdir template chunks in
            match opening (S (length (wp_done s))) path with
            | inr k => IFailed (mkWSplit chunks (wp_count s) (wp_done s) (fst (wp_open s), w)) (CIo k)
            | inl sk =>
                wsplit_write o
                  (mkWSplit chunks (wp_count s) (wp_done s ++ [at_last (fst (wp_open s), w)]) (path, mkBuf [] sk)) r
            end
        end
      else wsplit_write o s r).

  (** the contents of the chunks, in the order in which they were opened *)
  Definition wsplit_contents (s : wsplit) : list (bytes * bytes) := wp_done s ++ [at_last (wp_open s)].

  (** /repo/crates/pica-cli/src/commands/split.rs:132-135 *)
  Definition wsplit_end (x : io_ending wsplit) : many_end (list (bytes * bytes)) :=
    match x with
    | IDone s | IStopped s =>
        match bw_flush (snd (wp_open s)) with
        | (Some k, w) => many_exit (CIo k) (wp_done s ++ [at_last (fst (wp_open s), w)])
        | (None, w) => MExited 0 (wp_done s ++ [at_last (fst (wp_open s), w)])
        end
    | IFailed s e => many_exit e (wsplit_contents s)
    | IPanicked => MAborted
    end.

  (** /repo/crates/pica-cli/src/commands/split.rs:51-138 Split::execute, after the
      preparation of its arguments and of the output directory *)
  Definition split_write (outdir template : bytes) (size : N) (skip : bool) (o : filter_opts)
      (files : list (bytes * (list piece + io_kind))) : option (many_end (list (bytes * bytes))) :=
    let path := chunk_path outdir template 0 in
    match opening 0 path with
    | inr k => Some (many_exit (CIo k) [])
    | inl sk =>
        option_map wsplit_end
          (io_files_loop (fun s => s) (wsplit_body outdir template size o) skip (mkWSplit 0 0 [] (path, mkBuf [] sk)) files)
    end.

  (** ** partition *)

  Variable lossy : bytes -> bytes.

  (** the open outputs by value *)
  Definition outputs : Type := list (bytes * output_at).
  (** number of writes, and the outputs *)
  Definition wpart : Type := N * outputs.

  (** /repo/crates/pica-cli/src/commands/partition.rs:118-124 *)
  Definition value_path (outdir template v : bytes) : bytes := path_join outdir (partition_name lossy template v).

  (** [writers.entry(value.to_vec())] with the insertion of a new writer,
      /repo/crates/pica-cli/src/commands/partition.rs:114-133 *)
  Definition wpart_entry (outdir template v : bytes) (ws : outputs) : outputs + io_kind :=
    if existsb (fun w => bytes_eqb (fst w) v) ws then inl ws
    else
      let path := value_path outdir template v in
      match opening (length ws) path with
      | inl sk => inl (ws ++ [(v, (path, mkBuf [] sk))])
      | inr k => inr k
      end.

  (** [writer.write_byte_record(record)] with the writer of the value *)
  Fixpoint wpart_write (v : bytes) (cs : list bytes) (ws : outputs) : option io_kind * outputs :=
    match ws with
    | [] => (None, [])
    | (u, (p, w)) :: ws' =>
        if bytes_eqb u v then let (e, w') := bw_write_list cap w cs in (e, (u, (p, w')) :: ws')
        else let (e, ws'') := wpart_write v cs ws' in (e, (u, (p, w)) :: ws'')
    end.

  (** /repo/crates/pica-cli/src/commands/partition.rs:113-143: the inner loop, see
      [partition_values]; the flag tells whether ['outer] is left *)
  Fixpoint wpart_values (outdir template : bytes) (limit : N) (data : bytes) (vs : list bytes) (s : wpart)
    : wpart * (bool + io_kind) :=
    match vs with
    | [] => (s, inl false)
    | v :: vs' =>
        match wpart_entry outdir template v (snd s) with
        | inr k => (s, inr k)
        | inl ws =>
            match wpart_write v (cut data) ws with
            | (Some k, ws') => ((fst s, ws'), inr k)
            | (None, ws') =>
                let s' := (fst s + 1, ws') in
                if limit_reached limit (fst s') then (s', inl true) else wpart_values outdir template limit data vs' s'
            end
        end
    end.

  (** /repo/crates/pica-cli/src/commands/partition.rs:95-144, see
      [partition_body] *)
  Definition wpart_body (outdir template : bytes) (p : path) (o : filter_opts) : wpart -> byte_record -> io_ending wpart :=
    io_guarded (opts_select O Od o) (fun s r =>
      match record_path O (fo_ci o) p (br_record r) with
      | None => IPanicked
      | Some values =>
          match wpart_values outdir template (fo_limit o) (br_write r) (dedup (sort_values values)) s with
          | (s', inl true) => IStopped s'
          | (s', inl false) => IDone s'
          | (s', inr k) => IFailed s' (CIo k)
          end
      end).

  (** the unspecified order of the hash map of the writers *)
  Variable writer_order : outputs -> outputs.

  (** [for (_, mut writer) in writers { writer.finish()?; }],
      /repo/crates/pica-cli/src/commands/partition.rs:149-151 *)
  Fixpoint wpart_finish (ws : outputs) : option io_kind * outputs :=
    match ws with
    | [] => (None, [])
    | (v, (p, w)) :: ws' =>
        match bw_flush w with
        | (Some k, w') => (Some k, (v, (p, w')) :: ws')
        | (None, w') => let (e, ws'') := wpart_finish ws' in (e, (v, (p, w')) :: ws'')
        end
    end.

  (** the end of the life of the writers *)
  Definition wpart_contents (ws : outputs) : list (bytes * bytes) := map (fun x => at_last (snd x)) ws.

  (** /repo/crates/pica-cli/src/commands/partition.rs:148-153 *)
  Definition wpart_end (x : io_ending wpart) : many_end (list (bytes * bytes)) :=
    match x with
    | IDone s | IStopped s =>
        match wpart_finish (writer_order (snd s)) with
        | (Some k, ws) => many_exit (CIo k) (wpart_contents ws)
        | (None, ws) => MExited 0 (wpart_contents ws)
        end
    | IFailed s e => many_exit e (wpart_contents (snd s))
    | IPanicked => MAborted
    end.

  (** /repo/crates/pica-cli/src/commands/partition.rs:59-155 Partition::execute,
      after the preparation of its arguments and of the output directory *)
  Definition partition_write (outdir template : bytes) (p : path) (skip : bool) (o : filter_opts)
      (files : list (bytes * (list piece + io_kind))) : option (many_end (list (bytes * bytes))) :=
    option_map wpart_end
      (io_files_loop (fun s => s) (wpart_body outdir template p o) skip (0, []) files).
End Many.

(** * Specification of commands with files *)

From Coq Require Import String.
From Verif Require Import Bytes RecordModel ByteRecordModel ReaderModel CliModel PrepareModel IoModel IoSpec DiskModel.

(** the files that are outputs *)
Definition out_names (outs : list output) : list bytes :=
  flat_map (fun o => match out_name o with Some n => [n] | None => [] end) outs.

(** the name of an output, if it has one *)
Definition named (x : option bytes) : list bytes := match x with Some n => [n] | None => [] end.

(** no files but those listed differ *)
Definition same_but (ns : list bytes) (w w' : world) : Prop :=
  forall n, ~ In n ns -> disk_get (w_disk w') n = disk_get (w_disk w) n.

(** no file is lost, and none loses content *)
Definition only_grown (w w' : world) : Prop :=
  forall n c, disk_get (w_disk w) n = Some c -> exists more, disk_get (w_disk w') n = Some (c ++ more).

(** what was in the file *)
Definition before (w : world) (n : bytes) : bytes :=
  match disk_get (w_disk w) n with Some c => c | None => [] end.

(** what arrives in an output to which a text is written *)
Definition encoded (gz_enc : bytes -> bytes) (o : output) (text : bytes) : bytes :=
  if out_gz o then gz_enc text else text.

(** [w'] is [w] after the given texts have been written to the given outputs *)
Definition received (gz_enc : bytes -> bytes) (outs : list (output * bytes)) (w w' : world) : Prop :=
  same_but (out_names (map fst outs)) w w'
  /\ (forall o t n, In (o, t) outs -> out_name o = Some n ->
        disk_get (w_disk w') n = Some ((if out_append o then before w n else []) ++ encoded gz_enc o t))
  /\ w_stdout w' = w_stdout w
       ++ flat_map (fun x => match out_name (fst x) with None => encoded gz_enc (fst x) (snd x) | Some _ => [] end) outs.

(** A command has processed its inputs, as they were in [w], and written what
    belongs to them. *)
Definition completed {S} (gz_enc : bytes -> bytes) (gz_dec : bytes -> list piece)
    (outs : list (output * ((S -> bytes) * (S -> bytes)))) (bad : S -> bool) on_skip
    (body : S -> byte_record -> io_ending S) skip (s : S) (names : list bytes) (status : N) (w w' : world) : Prop :=
  exists x, io_files_loop on_skip body skip s (inputs gz_dec (w_disk w) (w_stdin w) names) = Some x
    /\ match x with
       | IDone s' | IStopped s' =>
           status = (if bad s' then 2 else 0)
           /\ received gz_enc (map (fun o => (fst o, fst (snd o) s')) outs) w w'
       | IFailed s' _ =>
           main_status x = Some status
           /\ received gz_enc (map (fun o => (fst o, snd (snd o) s')) outs) w w'
       | IPanicked => False
       end.

(** the same files with the same contents *)
Definition same_disk (w w' : world) : Prop := forall n, disk_get (w_disk w') n = disk_get (w_disk w) n.

(** the same arguments with other file names *)
Definition with_names (a : filter_args) (names : list bytes) : filter_args :=
  mkFilterArgs (fa_skip a) (fa_limit a) (fa_invert a) (fa_ci a) (fa_keep a) (fa_discard a) (fa_expr_file a) (fa_allow a)
    (fa_deny a) (fa_column a) (fa_source a) (fa_and a) (fa_or a) (fa_not a) (fa_filter a) names.

(** ** What a later command reads *)

(** Decompressing gives what was compressed.  The [GzDecoder] of flate2 reads one
    member; what follows it in the file is left alone. *)
Definition gz_first (gz_enc : bytes -> bytes) (gz_dec : bytes -> list piece) : Prop :=
  forall t rest, delivers (gz_dec (gz_enc t ++ rest)) t.

(** a file is there, and a command that reads it gets [t] *)
Inductive reads_as (gz_dec : bytes -> list piece) (d : disk) (n : bytes) : bytes -> Prop :=
| ra_plain : forall c, disk_get d n = Some c -> gz_name n = false -> reads_as gz_dec d n c
| ra_gz : forall c t, disk_get d n = Some c -> gz_name n = true -> delivers (gz_dec c) t -> reads_as gz_dec d n t.

(** All inputs are there, and can be read; their contents.  Only the first use of
    stdin gives something. *)
Inductive available (gz_dec : bytes -> list piece) (d : disk) : bytes -> list bytes -> list (bytes * bytes) -> Prop :=
| av_none : forall stdin, available gz_dec d stdin [] []
| av_stdin : forall stdin names cs, available gz_dec d [] names cs ->
    available gz_dec d stdin (lit "-" :: names) ((lit "-", stdin) :: cs)
| av_file : forall stdin n t names cs, n <> lit "-" -> reads_as gz_dec d n t -> available gz_dec d stdin names cs ->
    available gz_dec d stdin (n :: names) ((n, t) :: cs).

(** the status of a command whose loop ended with [e] *)
Definition status_of (e : option read_error) : N := match e with None => 0 | Some _ => 2 end.

(** a name with the extension gz: a last component that ends with ".gz" and does
    not consist of it *)
Definition gz_extension (n : bytes) : Prop :=
  exists dir stem, n = dir ++ stem ++ lit ".gz" /\ stem <> [] /\ ~ In 47 stem /\ (dir = [] \/ exists d, dir = d ++ [47]).

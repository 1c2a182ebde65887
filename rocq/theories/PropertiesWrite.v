(** * Properties of writing in pieces and of failing writes *)

From Coq Require Import String.
From Verif Require Import Bytes Winnow RecordModel ByteRecordModel ReaderModel MatcherModel PathModel QueryModel
  CliModel CliSpec TableModel ExplodeModel ConvertModel CheckModel CsvModel IoModel IoSpec WriteModel WriteSpec
  WriteProofs WriteCommandProofs PropertiesMatcher PropertiesQuery PropertiesCli PropertiesTable PropertiesIo.

(** The commands only add to their outputs: filter, concat, slice, explode,
    print, convert, hash, select and check. *)
Theorem C83_commands :
  (forall O Od c, appends (fun s : filter_state => snd (fst s)) (fun s => s)
     (fun s r => as_io (filter_body O Od c s r)))
  /\ (forall O sha lossy unique, appends (fun s : concat_state => snd (fst s)) (fun s => s)
        (fun s r => as_io (concat_body O sha lossy unique s r)))
  /\ (forall O Od start length o, appends sl_out (slice_on_skip length)
        (fun s r => as_io (slice_body O Od start o s r)))
  /\ (forall O Od c, appends (@snd N bytes) (fun s => s) (fun s r => as_io (explode_body O Od c s r)))
  /\ (forall O Od T o, appends (@snd N bytes) (fun s => s) (fun s r => as_io (print_body O Od T o s r)))
  /\ (forall lossy esc t, appends (@snd N bytes) (fun s => s) (fun s r => as_io (convert_body lossy esc t s r)))
  /\ (forall numeric q delim O Od sha lossy o,
        appends (fun s : N * list (list bytes) * bool => csv_text numeric q delim (snd (fst s))) (fun s => s)
          (fun s r => with_refused snd (hash_csv_body O Od sha lossy o s r)))
  /\ (forall numeric q delim O Od T lossy hash c o,
        appends (fun s : select_state => csv_text numeric q delim (sel_rows s)) (fun s => s)
          (fun s r => with_refused sel_failed (select_body O Od T lossy hash c o s r)))
  /\ (forall path Od T lossy freq_order O o,
        appends (fun s : check_state => report_text path (snd s)) (fun s => s)
          (fun s r => as_io (check_body Od T lossy freq_order O o s r))).
Proof.
  exact (conj filter_appends (conj concat_appends (conj slice_appends (conj explode_appends (conj print_appends
          (conj convert_appends (conj hash_appends (conj select_appends check_appends)))))))).
Qed.
Print Assumptions C83_commands.

(** sample and frequency write nothing before the end *)
Theorem C83_at_end : forall S on_skip body, appends (fun _ : S => []) on_skip body.
Proof. exact at_end_appends. Qed.
Print Assumptions C83_at_end.

(** ** C83: outputs are beginnings of what is to be written *)

Theorem C83_records : forall S cap cut (out at_end : S -> bytes) on_skip body skip,
  divides cut -> appends out on_skip body ->
  forall s sinks files x t, Forall (fun k => sk_data k = []) sinks ->
  io_files_loop on_skip body skip s files = Some x -> whole_output out at_end x t ->
  exists n cs, record_run cap cut out at_end on_skip body skip s sinks files = Some (Exited n cs)
    /\ length cs = length sinks /\ Forall (fun c => is_prefix c t) cs.
Proof.
  exact (fun S cap cut out at_end on_skip body skip Hc Ha s sinks files x t He Hx =>
           record_prefix cap cut out at_end on_skip body skip Hc Ha s sinks files x He Hx t).
Qed.
Print Assumptions C83_records.

(** tables, if the sink fails for good *)
Theorem C83_tables : forall S c cut (out at_end : S -> bytes) on_skip body skip,
  (forall buf b, concat (map fst (cut buf b)) = b) -> appends out on_skip body ->
  forall s sk files x t, sk_data sk = [] ->
  io_files_loop on_skip body skip s files = Some x -> steady sk -> whole_output out at_end x t ->
  exists n out', table_run c cut out at_end on_skip body skip s sk files = Some (Exited n [out'])
    /\ is_prefix out' t.
Proof.
  exact (fun S c cut out at_end on_skip body skip Hc Ha s sk files x t He Hx =>
           table_prefix_steady c cut out at_end on_skip body skip Hc Ha s sk files x He Hx t).
Qed.
Print Assumptions C83_tables.

(** a buffer of [cap] bytes *)
Definition fill (cap : nat) (buf b : bytes) : list (bytes * bool) :=
  let room := (cap - length buf)%nat in
  if Nat.leb room (length b) then [(firstn room b, true); (skipn room b, false)] else [(b, false)].

Lemma fill_all : forall cap buf b, concat (map fst (fill cap buf b)) = b.
Proof.
  intros cap buf b. unfold fill. destruct (Nat.leb _ _); cbn; rewrite app_nil_r; [apply firstn_skipn|reflexivity].
Qed.

(** hash with the usual header *)
Definition hash_state0 : N * list (list bytes) * bool := (0, [[lit "ppn"; lit "hash"]], false).
Definition hash_out (s : N * list (list bytes) * bool) : bytes :=
  csv_text (fun _ => false) QNecessary 44 (snd (fst s)).
(** no restrictions *)
Definition hash_opts : filter_opts := mkOpts (mkFSet None None ppn_path) None false 0.
Definition hash_step (s : N * list (list bytes) * bool) (r : byte_record) : io_ending (N * list (list bytes) * bool) :=
  with_refused snd (hash_csv_body sample_oracles sample_oracles sample_sha sample_lossy hash_opts s r).

(** if the sink recovers, what it had accepted is written again *)
Theorem C83_tables_refuted : exists sk files x t out',
  io_files_loop (fun s => s) hash_step false hash_state0 files = Some x
  /\ whole_output hash_out (fun _ => []) x t /\ sk_data sk = []
  /\ table_run TableCommand (fill (N.to_nat 8192)) hash_out (fun _ => []) (fun s => s) hash_step false
       hash_state0 sk files = Some (Exited 2 [out'])
  /\ ~ is_prefix out' t.
Proof.
  exists (mkSink [] [WTake 3; WError OtherKind] None), [(io_name, inl [])], (IDone hash_state0),
    (hash_out hash_state0), (lit "ppn" ++ hash_out hash_state0).
  split; [vm_compute; reflexivity|]. split; [vm_compute; reflexivity|]. split; [reflexivity|].
  split; [vm_compute; reflexivity|]. intros [c H]. apply (f_equal (firstn 4)) in H. vm_compute in H. discriminate.
Qed.
Print Assumptions C83_tables_refuted.

(** ** C84: success means that the output is complete *)

Theorem C84_records : forall S cap cut (out at_end : S -> bytes) on_skip body skip,
  divides cut -> appends out on_skip body ->
  forall s sinks files x t cs, Forall (fun k => sk_data k = []) sinks ->
  io_files_loop on_skip body skip s files = Some x -> whole_output out at_end x t ->
  record_run cap cut out at_end on_skip body skip s sinks files = Some (Exited 0 cs) ->
  (main_status x = Some 0 /\ cs = repeat t (length sinks))
  \/ (exists sk, In sk sinks /\ can_fail sk BrokenPipe)
  \/ (exists s', x = IFailed s' (CIo BrokenPipe)).
Proof.
  exact (fun S cap cut out at_end on_skip body skip Hc Ha s sinks files x t cs He Hx =>
           record_complete cap cut out at_end on_skip body skip Hc Ha s sinks files x He Hx t cs).
Qed.
Print Assumptions C84_records.

(** for check a broken pipe makes no exception *)
Theorem C84_tables : forall S c cut (out at_end : S -> bytes) on_skip body skip,
  (forall buf b, concat (map fst (cut buf b)) = b) -> appends out on_skip body ->
  forall s sk files x t cs, sk_data sk = [] ->
  io_files_loop on_skip body skip s files = Some x -> whole_output out at_end x t ->
  table_run c cut out at_end on_skip body skip s sk files = Some (Exited 0 cs) ->
  (main_status x = Some 0 /\ cs = [t])
  \/ (c = TableCommand /\ can_fail sk BrokenPipe)
  \/ (exists s', x = IFailed s' (CIo BrokenPipe)).
Proof.
  exact (fun S c cut out at_end on_skip body skip Hc Ha s sk files x t cs He Hx =>
           table_complete c cut out at_end on_skip body skip Hc Ha s sk files x He Hx t cs).
Qed.
Print Assumptions C84_tables.

(** filter, with its tee output *)
Theorem C84_filter : forall cap cut O Od skip c files contents n out tee e sinks,
  divides cut -> Forall2 intact files contents -> Forall (fun k => sk_data k = []) sinks ->
  filter_run O Od skip c contents = Some (ended (n, out, tee) e) ->
  exists st cs,
    record_run cap cut (fun s : filter_state => snd (fst s)) (fun _ => []) (fun s => s)
      (fun s r => as_io (filter_body O Od c s r)) skip (0, [], []) sinks files = Some (Exited st cs)
    /\ length cs = length sinks
    /\ Forall (fun content => is_prefix content out) cs
    /\ (st = 0 -> (e = None /\ cs = repeat out (length sinks)) \/ exists sk, In sk sinks /\ can_fail sk BrokenPipe).
Proof. exact filter_written. Qed.
Print Assumptions C84_filter.

(** convert --to xml: the buffer is written when the writer is dropped, where
    errors are ignored *)
Theorem C84_xml_refuted : exists sk files x t,
  io_files_loop (fun s => s) (fun s r => as_io (convert_body sample_lossy (fun v => v) TXml s r)) false
    (0, conv_open TXml) files = Some x
  /\ whole_output (@snd N bytes) (fun _ => conv_close TXml) x t /\ main_status x = Some 0
  /\ ~ can_fail sk BrokenPipe /\ sk_data sk = []
  /\ xml_run (N.to_nat 8192) (fun b => [b]) (@snd N bytes) (fun _ => conv_close TXml) (fun s => s)
       (fun s r => as_io (convert_body sample_lossy (fun v => v) TXml s r)) false (0, conv_open TXml) sk files
     = Some (Exited 0 [[]])
  /\ t <> [].
Proof.
  exists (mkSink [] [] (Some OtherKind)), [(io_name, inl [PData io_line_1])].
  eexists. eexists. split; [vm_compute; reflexivity|]. split; [reflexivity|]. split; [reflexivity|].
  split; [intros [[]|[H|[H _]]]; discriminate|]. split; [reflexivity|].
  split; [vm_compute; reflexivity|]. vm_compute. discriminate.
Qed.
Print Assumptions C84_xml_refuted.

(** exactly: either a panic, or the status of a run without faults, with a
    beginning of the output *)
Theorem C84_xml : forall S cap cut (out at_end : S -> bytes) on_skip body skip,
  divides cut -> appends out on_skip body ->
  forall s sk files x t y, sk_data sk = [] ->
  io_files_loop on_skip body skip s files = Some x -> whole_output out at_end x t ->
  xml_run cap cut out at_end on_skip body skip s sk files = Some y ->
  (exists n out', main_status x = Some n /\ y = Exited n [out'] /\ is_prefix out' t
     /\ ((forall k, ~ can_fail sk k) -> out' = t))
  \/ ((exists k, can_fail sk k) /\ y = Aborted).
Proof.
  exact (fun S cap cut out at_end on_skip body skip Hc Ha s sk files x t y He Hx =>
           xml_exit cap cut out at_end on_skip body skip Hc Ha s sk files x He Hx t y).
Qed.
Print Assumptions C84_xml.

(** ** C85: a closed pipe is no error *)

Theorem C85_records : forall S cap cut (out at_end : S -> bytes) on_skip body skip,
  divides cut -> appends out on_skip body ->
  forall s sinks files x, Forall (fun k => sk_data k = []) sinks ->
  io_files_loop on_skip body skip s files = Some x ->
  (forall sk k, In sk sinks -> can_fail sk k -> k = BrokenPipe) -> main_status x = Some 0 ->
  exists cs, record_run cap cut out at_end on_skip body skip s sinks files = Some (Exited 0 cs).
Proof. exact @record_broken_pipe. Qed.
Print Assumptions C85_records.

(** a record whose identifier has 9000 digits *)
Definition long_line : bytes := lit "003@ " ++ [31] ++ lit "0" ++ repeat 49 (N.to_nat 9000) ++ [30; 10].

(** tables: not if the pipe is found closed when the buffer of the CSV writer is
    full; and never in check *)
Theorem C85_tables_refuted : forall c, exists sk files x n,
  io_files_loop (fun s => s) hash_step false hash_state0 files = Some x
  /\ main_status x = Some 0 /\ sk_data sk = [] /\ (forall k, can_fail sk k -> k = BrokenPipe)
  /\ table_run c (fill (N.to_nat 8192)) hash_out (fun _ => []) (fun s => s) hash_step false
       hash_state0 sk files = Some (Exited n [[]])
  /\ n = 2.
Proof.
  intros c. exists (mkSink [] [] (Some BrokenPipe)), [(io_name, inl [PData long_line])].
  eexists. eexists. split; [vm_compute; reflexivity|]. split; [reflexivity|]. split; [reflexivity|].
  split; [intros k [[]|[H|[_ []]]]; injection H; auto|].
  destruct c; (split; [vm_compute; reflexivity|reflexivity]).
Qed.
Print Assumptions C85_tables_refuted.

(** convert --to xml panics *)
Theorem C85_xml_refuted : exists sk files x,
  io_files_loop (fun s => s) (fun s r => as_io (convert_body sample_lossy (fun v => v) TXml s r)) false
    (0, conv_open TXml) files = Some x
  /\ main_status x = Some 0 /\ sk_data sk = [] /\ (forall k, can_fail sk k -> k = BrokenPipe)
  /\ xml_run (N.to_nat 8192) (fun b => [b]) (@snd N bytes) (fun _ => conv_close TXml) (fun s => s)
       (fun s r => as_io (convert_body sample_lossy (fun v => v) TXml s r)) false (0, conv_open TXml) sk files
     = Some Aborted.
Proof.
  exists (mkSink [] [] (Some BrokenPipe)), [(io_name, inl [PData long_line])].
  eexists. split; [vm_compute; reflexivity|]. split; [reflexivity|]. split; [reflexivity|].
  split; [intros k [[]|[H|[_ []]]]; injection H; auto|]. vm_compute. reflexivity.
Qed.
Print Assumptions C85_xml_refuted.

(** ** C86: without failing writes the sizes of the writes make no difference *)

Theorem C86_records : forall S cap cut (out at_end : S -> bytes) on_skip body skip,
  divides cut -> appends out on_skip body ->
  forall s sinks files x t, Forall (fun k => sk_data k = []) sinks ->
  io_files_loop on_skip body skip s files = Some x ->
  (forall sk k, In sk sinks -> ~ can_fail sk k) -> whole_output out at_end x t ->
  exists n, main_status x = Some n
    /\ record_run cap cut out at_end on_skip body skip s sinks files = Some (Exited n (repeat t (length sinks))).
Proof.
  exact (fun S cap cut out at_end on_skip body skip Hc Ha s sinks files x t He Hx =>
           record_faultless cap cut out at_end on_skip body skip Hc Ha s sinks files x He Hx t).
Qed.
Print Assumptions C86_records.

Theorem C86_tables : forall S c cut (out at_end : S -> bytes) on_skip body skip,
  (forall buf b, concat (map fst (cut buf b)) = b) -> appends out on_skip body ->
  forall s sk files x t, sk_data sk = [] ->
  io_files_loop on_skip body skip s files = Some x ->
  (forall k, ~ can_fail sk k) -> whole_output out at_end x t ->
  exists n, main_status x = Some n
    /\ table_run c cut out at_end on_skip body skip s sk files = Some (Exited n [t]).
Proof.
  exact (fun S c cut out at_end on_skip body skip Hc Ha s sk files x t He Hx =>
           table_faultless c cut out at_end on_skip body skip Hc Ha s sk files x He Hx t).
Qed.
Print Assumptions C86_tables.

(** ** Samples *)

Definition two_lines : list (bytes * (list piece + io_kind)) := [(io_name, inl [PData (io_line_1 ++ io_line_2)])].
Definition cat_step := fun s r => as_io (concat_body sample_oracles sample_sha sample_lossy None s r).
Definition cat_out (s : concat_state) : bytes := snd (fst s).

Example C83_sample : divides (fun b => [b]) /\ (forall buf b, concat (map fst (fill 10 buf b)) = b).
Proof. split; [intros b; cbn; apply app_nil_r|apply fill_all]. Qed.

(** a disk that is full after 13 bytes: the second output is not written further
    either; a pipe that is closed after 13 bytes; and no fault *)
Example C84_sample :
  record_run 5 (fun b => [b]) cat_out (fun _ => []) (fun s => s) cat_step false ([], [], [])
    [mkSink [] [WTake 4; WInterrupted; WTake 6; WTake 3] (Some OtherKind); mkSink [] [WTake 1] None] two_lines
  = Some (Exited 2 [firstn 13 (io_line_1 ++ io_line_2); io_line_1])
  /\ record_run 5 (fun b => [b]) cat_out (fun _ => []) (fun s => s) cat_step false ([], [], [])
       [mkSink [] [WTake 4; WInterrupted; WTake 6; WTake 3] (Some BrokenPipe); mkSink [] [WTake 1] None] two_lines
     = Some (Exited 0 [firstn 13 (io_line_1 ++ io_line_2); io_line_1])
  /\ record_run 5 (fun b => [b]) cat_out (fun _ => []) (fun s => s) cat_step false ([], [], [])
       [mkSink [] [WTake 4; WInterrupted; WTake 6; WTake 3] None; mkSink [] [WTake 1] None] two_lines
     = Some (Exited 0 [io_line_1 ++ io_line_2; io_line_1 ++ io_line_2]).
Proof. split; [|split]; vm_compute; reflexivity. Qed.

(** * Properties of reading in pieces and of failing reads *)

From Coq Require Import String.
From Verif Require Import Bytes RecordModel ByteRecordModel ByteRecordSpec ReaderModel CliModel CliSpec
  IoModel IoSpec IoProofs.

(** ** C80: the pieces in which an input arrives make no difference *)

(** the loops of all commands but slice, and that of slice *)
Theorem C80_loops : forall S (body : S -> byte_record -> step S) skip,
  loop_body (on_result skip body) (fun s => s) (fun s r => as_io (body s r)) skip.
Proof. exact on_result_body. Qed.
Print Assumptions C80_loops.
Theorem C80_loop_slice : forall O Od skip start length o,
  loop_body (slice_step O Od skip start length o) (slice_on_skip length)
    (fun s r => as_io (slice_body O Od start o s r)) skip.
Proof. exact slice_step_body. Qed.
Print Assumptions C80_loop_slice.

Theorem C80_pieces : forall S (f : S -> byte_record + read_error -> step S) on_skip body skip,
  loop_body f on_skip body skip ->
  forall files contents s, Forall2 intact files contents ->
  io_files_loop on_skip body skip s files = option_map as_io (files_loop f s contents).
Proof. exact @io_intact. Qed.
Print Assumptions C80_pieces.

(** the reader call by call *)
Theorem C80_reader : forall buf rs d name n, delivers rs d ->
  exists x buf' rs' d', delivers rs' d'
    /\ next_byte_record (mkReader (buf ++ d) name n) = (x, mkReader (buf' ++ d') name (n + 1))
    /\ io_next_byte_record (mkIoReader (mkSource buf rs) name n)
       = (match x with
          | None => None
          | Some (inl r) => Some (inl r)
          | Some (inr e) => Some (inr (PE e))
          end, mkIoReader (mkSource buf' rs') name (n + 1)).
Proof. exact io_next_intact. Qed.
Print Assumptions C80_reader.

Theorem C80_invalid : forall files contents, Forall2 intact files contents ->
  exists out, invalid_run contents = Some out /\ io_invalid_run files [] = Some (IDone out).
Proof. exact io_invalid_intact. Qed.
Print Assumptions C80_invalid.

(** 003@ $0 1 as a line *)
Definition io_line_1 : bytes := lit "003@ " ++ [31] ++ lit "01" ++ [30; 10].
Definition io_line_2 : bytes := lit "003@ " ++ [31] ++ lit "02" ++ [30; 10].

Definition io_name : bytes := lit "a.dat".

Example C80_delivers :
  intact (io_name, inl [PData (lit "003@ "); PInterrupted; PData (31 :: lit "01"); PData ([30; 10] ++ io_line_2)])
    (io_name, io_line_1 ++ io_line_2).
Proof.
  split; [reflexivity|]. eexists. split; [reflexivity|].
  change (io_line_1 ++ io_line_2) with (lit "003@ " ++ (31 :: lit "01") ++ ([30; 10] ++ io_line_2) ++ []).
  repeat first [apply dl_end | apply dl_interrupted | apply dl_data; [discriminate|]].
Qed.

(** ** C81: a failing read is not taken for the end of the input *)

(** The lines that are complete before the fault are processed as if there were
    nothing else; what follows the fault, in this input and in the others, makes
    no difference. *)
Theorem C81_read_fails : forall S (f : S -> byte_record + read_error -> step S) on_skip body skip,
  loop_body f on_skip body skip ->
  forall files contents name rs k later rest d c s,
  Forall2 intact files contents -> delivers rs d -> complete_lines d c ->
  io_files_loop on_skip body skip s (files ++ (name, inl (rs ++ PError k :: later)) :: rest)
  = option_map (then_fails (CReadPica (PEIo k))) (files_loop f s (contents ++ [(name, c)])).
Proof. exact @io_read_fails. Qed.
Print Assumptions C81_read_fails.

(** success is reported only if the command was done before the fault (a limit
    was reached) *)
Theorem C81_status : forall S (f : S -> byte_record + read_error -> step S) on_skip body skip,
  loop_body f on_skip body skip ->
  forall files contents name rs k later rest d c s,
  Forall2 intact files contents -> delivers rs d -> complete_lines d c ->
  exists x y, io_files_loop on_skip body skip s (files ++ (name, inl (rs ++ PError k :: later)) :: rest) = Some x
    /\ files_loop f s (contents ++ [(name, c)]) = Some y
    /\ (main_status x = Some 0 <-> exists s', y = Halt s').
Proof. exact io_fault_status. Qed.
Print Assumptions C81_status.

Theorem C81_open_fails : forall S (f : S -> byte_record + read_error -> step S) on_skip body skip,
  loop_body f on_skip body skip ->
  forall files contents name k rest s, Forall2 intact files contents ->
  io_files_loop on_skip body skip s (files ++ (name, inr k) :: rest)
  = option_map (then_fails (CIo k)) (files_loop f s contents).
Proof. exact @io_open_fails. Qed.
Print Assumptions C81_open_fails.

(** concat: its output at that moment, and its error *)
Theorem C81_concat : forall O sha lossy skip files contents name rs k later rest d c,
  Forall2 intact files contents -> delivers rs d -> complete_lines d c ->
  exists recs e out, reads skip (contents ++ [(name, c)]) recs e /\ lines_of recs out
    /\ io_files_loop (fun s => s) (fun s r => as_io (concat_body O sha lossy None s r)) skip ([], [], [])
         (files ++ (name, inl (rs ++ PError k :: later)) :: rest)
       = Some (IFailed ([], out, out)
                 (CReadPica (match e with Some e => PE e | None => PEIo k end))).
Proof. exact io_concat_fails. Qed.
Print Assumptions C81_concat.

Theorem C81_complete_exists : forall d, exists c, complete_lines d c.
Proof. exact complete_exists. Qed.
Print Assumptions C81_complete_exists.

(** invalid: as the others, but the error is a plain I/O error *)
Theorem C81_invalid : forall files contents name rs k later rest d c,
  Forall2 intact files contents -> delivers rs d -> complete_lines d c ->
  exists out, invalid_run (contents ++ [(name, c)]) = Some out
    /\ io_invalid_run (files ++ (name, inl (rs ++ PError k :: later)) :: rest) [] = Some (IFailed out (CIo k)).
Proof. exact io_invalid_read_fails. Qed.
Print Assumptions C81_invalid.
Theorem C81_invalid_open : forall files contents name k rest, Forall2 intact files contents ->
  exists out, invalid_run contents = Some out
    /\ io_invalid_run (files ++ (name, inr k) :: rest) [] = Some (IFailed out (CIo k)).
Proof. exact io_invalid_open_fails. Qed.
Print Assumptions C81_invalid_open.

(** an error of the kind of a broken pipe counts as success, though the input was
    not read to its end *)
Theorem C81_invalid_status : forall (out : bytes) k,
  main_status (IFailed out (CIo k)) = Some (if match k with BrokenPipe => true | OtherKind => false end then 0 else 2).
Proof. exact io_kind_status. Qed.
Print Assumptions C81_invalid_status.

Example C81_sample :
  complete_lines (io_line_1 ++ lit "003@ ") io_line_1
  /\ io_files_loop (fun s => s) (fun s (r : byte_record) => IDone (s + 1)) true 0
       [(io_name, inl [PData (io_line_1 ++ lit "003@ "); PError OtherKind; PData io_line_2])]
     = Some (IFailed 1 (CReadPica (PEIo OtherKind))).
Proof.
  split; [|vm_compute; reflexivity].
  exists (lit "003@ "). split; [reflexivity|]. split.
  - cbn. intuition discriminate.
  - right. exists (lit "003@ " ++ [31] ++ lit "01" ++ [30]). reflexivity.
Qed.

(** ** C82: reading on after a failing read *)

(** what had been read of the current line is lost *)
Theorem C82_partial_line_lost : forall buf rs d k later name n, delivers rs d -> ~ In 10 (buf ++ d) ->
  io_next_byte_record (mkIoReader (mkSource buf (rs ++ PError k :: later)) name n)
  = (Some (inr (PEIo k)), mkIoReader (mkSource [] later) name (n + 1)).
Proof. exact io_next_loses. Qed.
Print Assumptions C82_partial_line_lost.

(** all bytes that the source hands out *)
Fixpoint handed_out (rs : list piece) : bytes :=
  match rs with
  | [] => []
  | PData d :: rs => d ++ handed_out rs
  | _ :: rs => handed_out rs
  end.

(** so a record can come out that is on no line of the input *)
Theorem C82_records_refuted : exists rs k r rd1 rd2 ls raw,
  io_next_byte_record (io_reader_new rs (Some io_name)) = (Some (inr (PEIo k)), rd1)
  /\ io_next_byte_record rd1 = (Some (inl r), rd2)
  /\ is_lines (handed_out rs) ls /\ br_raw r = Some raw /\ ~ In raw ls.
Proof.
  exists [PData (lit "003@ " ++ [31] ++ lit "01" ++ [30]); PError OtherKind; PData io_line_2], OtherKind.
  eexists. eexists. eexists. exists [lit "003@ " ++ [31] ++ lit "01" ++ [30] ++ io_line_2]. exists io_line_2.
  split; [vm_compute; reflexivity|]. split; [vm_compute; reflexivity|].
  split; [|split; [reflexivity|]].
  - apply (lines_cons (lit "003@ " ++ [31] ++ lit "01" ++ [30] ++ lit "003@ " ++ [31] ++ lit "02" ++ [30]) [] []).
    + vm_compute. intuition discriminate.
    + constructor.
  - intros [H|[]]. vm_compute in H. discriminate.
Qed.
Print Assumptions C82_records_refuted.

(** * Properties of split and partition with outputs that can fail *)

From Coq Require Import String Permutation.
From Verif Require Import Bytes Winnow RecordModel ByteRecordModel ReaderModel MatcherModel MatcherSpec PathModel QuerySpec
  CliModel CliSpec CliChunkProofs IoModel IoSpec WriteModel WriteSpec DirModel ManyWriteModel ManyWriteSpec ManyWriteProofs
  PropertiesMatcher PropertiesQuery PropertiesCli PropertiesIo.

(** ** C129: what split and partition leave when an output cannot be opened or written *)

(** split: the chunks that exist are the first ones, all but the last are whole, and
    the last is a beginning of its chunk; success means that all is there, or that a
    pipe was closed; without failures all is there; a closed pipe is no error *)
Theorem C129_split : forall cap cut opening O Od outdir template size skip o files contents recs e,
  divides cut -> new_files opening -> opts_wf O Od o -> 1 <= size ->
  Forall2 intact files contents -> selects O Od skip o contents recs e -> N.of_nat (length recs) <= 4294967296 ->
  exists chunks fs st cs, chunked size recs chunks /\ chunk_texts outdir template chunks fs
    /\ split_write cap cut opening O Od outdir template size skip o files = Some (MExited st cs)
    /\ begun cs fs
    /\ (st = 0 -> (e = None /\ cs = fs) \/ one_fails opening fs BrokenPipe)
    /\ ((forall k, ~ one_fails opening fs k) -> st = status_of e /\ cs = fs)
    /\ ((forall k, one_fails opening fs k -> k = BrokenPipe) -> st = status_of e \/ st = 0).
Proof. exact split_many. Qed.
Print Assumptions C129_split.

(** partition: every file that exists is a beginning of the file of its value; the
    rest as above *)
Theorem C129_partition : forall cap cut opening O Od lossy writer_order outdir template p skip o files contents,
  divides cut -> new_files opening -> (forall l, Permutation (writer_order l) l) ->
  opts_wf O Od o -> opt_sm_wf O (fo_ci o) (p_sub p) -> Forall2 intact files contents ->
  exists all e0 sel wss ws e values fs st cs,
    reads skip contents all e0 /\ chosen (opts_hold O Od o) all sel
    /\ Forall2 (record_writes O (fo_ci o) p) sel wss
    /\ limited (fo_limit o) (concat wss) e0 ws e
    /\ value_files ws values /\ value_texts outdir template lossy values fs
    /\ partition_write cap cut opening O Od lossy writer_order outdir template p skip o files = Some (MExited st cs)
    /\ all_begun cs fs
    /\ (st = 0 -> (e = None /\ Permutation cs fs) \/ one_fails opening fs BrokenPipe)
    /\ ((forall k, ~ one_fails opening fs k) -> st = status_of e /\ Permutation cs fs)
    /\ ((forall k, one_fails opening fs k -> k = BrokenPipe) -> st = status_of e \/ st = 0).
Proof. exact partition_many. Qed.
Print Assumptions C129_partition.

(** ** Samples *)

Definition mw_files : list (bytes * (list piece + io_kind)) := [(io_name, inl [PData (io_line_1 ++ io_line_2)])].
Definition mw_open (dead : option io_kind) (i : nat) (n : bytes) : sink + io_kind :=
  match i with O => inl (mkSink [] [WTake 4; WInterrupted] None) | _ => inl (mkSink [] [WTake 3] dead) end.
Definition mw_refuse (i : nat) (n : bytes) : sink + io_kind :=
  match i with O => inl (mkSink [] [] None) | _ => inr OtherKind end.
Definition mw_split opening :=
  split_write 5 (fun b => [b]) opening sample_oracles sample_oracles (lit "out") (lit "{}.dat") 1 false open_opts mw_files.
Definition mw_partition opening :=
  partition_write 5 (fun b => [b]) opening sample_oracles sample_oracles sample_lossy (@rev _) (lit "out") (lit "{}.dat")
    ppn_path false open_opts mw_files.

Example C129_hypotheses : divides (fun b => [b]) /\ (forall d, new_files (mw_open d)) /\ new_files mw_refuse
  /\ opts_wf sample_oracles sample_oracles open_opts /\ opt_sm_wf sample_oracles (fo_ci open_opts) (p_sub ppn_path)
  /\ (forall l : outputs, Permutation (rev l) l).
Proof.
  split; [intros b; cbn; apply app_nil_r|].
  split; [intros d [|i] n s H; injection H as <-; reflexivity|].
  split; [intros [|i] n s H; [injection H as <-; reflexivity|discriminate]|].
  split; [apply open_opts_wf|]. split; [exact I|]. intros l. apply Permutation_sym, Permutation_rev.
Qed.

(** no failure; a full disk; a closed pipe; an output that cannot be opened *)
Example C129_split_sample :
  mw_split (mw_open None) = Some (MExited 0 [(lit "out/0.dat", io_line_1); (lit "out/1.dat", io_line_2)])
  /\ mw_split (mw_open (Some OtherKind)) = Some (MExited 2 [(lit "out/0.dat", io_line_1); (lit "out/1.dat", firstn 3 io_line_2)])
  /\ mw_split (mw_open (Some BrokenPipe)) = Some (MExited 0 [(lit "out/0.dat", io_line_1); (lit "out/1.dat", firstn 3 io_line_2)])
  /\ mw_split mw_refuse = Some (MExited 2 [(lit "out/0.dat", io_line_1)]).
Proof. repeat split; vm_compute; reflexivity. Qed.

Example C129_partition_sample :
  mw_partition (mw_open None) = Some (MExited 0 [(lit "out/2.dat", io_line_2); (lit "out/1.dat", io_line_1)])
  /\ mw_partition (mw_open (Some OtherKind)) = Some (MExited 2 [(lit "out/1.dat", io_line_1); (lit "out/2.dat", firstn 3 io_line_2)])
  /\ mw_partition (mw_open (Some BrokenPipe)) = Some (MExited 0 [(lit "out/1.dat", io_line_1); (lit "out/2.dat", firstn 3 io_line_2)])
  /\ mw_partition mw_refuse = Some (MExited 2 [(lit "out/1.dat", io_line_1)]).
Proof. repeat split; vm_compute; reflexivity. Qed.

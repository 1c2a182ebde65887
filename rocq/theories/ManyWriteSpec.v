(** * Specification of many outputs that can fail *)

From Coq Require Import String Permutation.
From Verif Require Import Bytes Winnow RecordModel ByteRecordModel ReaderModel PathModel CliModel CliSpec IoModel IoSpec
  WriteModel WriteSpec DirModel.

(** an output that can be opened begins empty *)
Definition new_files (opening : nat -> bytes -> sink + io_kind) : Prop :=
  forall i n s, opening i n = inl s -> sk_data s = [].

(** what opening gave can be the origin of an error of kind [k], at once or later *)
Definition failing (x : sink + io_kind) (k : io_kind) : Prop :=
  match x with inl s => can_fail s k | inr k' => k' = k end.

(** files with their contents: one of them can fail with an error of kind [k] when
    they are opened in this order *)
Definition one_fails (opening : nat -> bytes -> sink + io_kind) (fs : list (bytes * bytes)) (k : io_kind) : Prop :=
  exists i p t, nth_error fs i = Some (p, t) /\ failing (opening i p) k.

(** the first of the files, the last of them perhaps not to its end *)
Definition begun (contents fs : list (bytes * bytes)) : Prop :=
  contents = []
  \/ exists full p c t rest, contents = full ++ [(p, c)] /\ fs = full ++ (p, t) :: rest /\ is_prefix c t.

(** the first of the files in some order, each perhaps not to its end *)
Definition all_begun (contents fs : list (bytes * bytes)) : Prop :=
  exists cs some rest, Permutation contents cs /\ fs = some ++ rest
    /\ Forall2 (fun c f => fst c = fst f /\ is_prefix (snd c) (snd f)) cs some.

(** the files of the chunks, in order: named after the number, with the lines *)
Definition chunk_texts (outdir template : bytes) (chunks : list (list byte_record)) (fs : list (bytes * bytes)) : Prop :=
  length fs = length chunks
  /\ forall k c, nth_error chunks k = Some c ->
       exists num name text, decimal (N.of_nat k) num /\ filled num template name /\ lines_of c text
         /\ nth_error fs k = Some (path_join outdir name, text).

(** the files of the values: named after the value *)
Definition value_texts (outdir template : bytes) (lossy : bytes -> bytes) (values fs : list (bytes * bytes)) : Prop :=
  Forall2 (fun v f => exists name, filled (lossy (fst v)) template name /\ f = (path_join outdir name, snd v)) values fs.

(** the status of a run without failing outputs *)
Definition status_of (e : option read_error) : N := match e with None => 0 | Some _ => 2 end.

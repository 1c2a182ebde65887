(** * Specification of commands with many outputs *)

From Coq Require Import String.
From Verif Require Import Bytes RecordModel MatcherModel PathModel ByteRecordModel CliModel CliSpec PrepareModel IoModel IoSpec DiskModel DirModel DiskSpec.

(** [n] is what the path [p] means, seen from the directory [dir]: an absolute
    path is left alone, another one follows the directory and a slash *)
Inductive joined (dir p : bytes) : bytes -> Prop :=
| jn_absolute : forall q, p = 47 :: q -> joined dir p p
| jn_empty : (forall q, p <> 47 :: q) -> dir = [] -> joined dir p p
| jn_slash : forall d, (forall q, p <> 47 :: q) -> dir = d ++ [47] -> joined dir p (dir ++ p)
| jn_plain : (forall q, p <> 47 :: q) -> dir <> [] -> (forall d, dir <> d ++ [47]) -> joined dir p (dir ++ [47] ++ p).

(** [n] names a file directly in the directory [dir] *)
Definition in_dir (dir n : bytes) : Prop := exists name, ~ In 47 name /\ joined dir name n.

(** the name of a file, given the text that is put into the template: the
    default templates are "{}.dat" and, with --gzip, "{}.dat.gz" *)
Definition file_for (template : option bytes) (gzip : bool) (dir x n : bytes) : Prop :=
  exists t name, t = match template with
                     | Some t => t
                     | None => if gzip then lit "{}.dat.gz" else lit "{}.dat"
                     end
    /\ filled x t name /\ joined dir name n.

(** the template has a placeholder; the default ones do *)
Definition placeholder (template : option bytes) : Prop := forall t, template = Some t -> has_braces t.

(** the file of the chunk number [k] *)
Definition chunk_file (template : option bytes) (gzip : bool) (dir : bytes) (k : N) (n : bytes) : Prop :=
  exists num, decimal k num /\ file_for template gzip dir num n.

(** the file [n] has the content [text], compressed with --gzip or if its name
    has the extension gz *)
Definition holds (gz_enc : bytes -> bytes) (gzip : bool) (w : world) (n text : bytes) : Prop :=
  exists z : bool, (z = true <-> gzip = true \/ gz_extension n)
    /\ disk_get (w_disk w) n = Some (if z then gz_enc text else text).

(** [w'] is [w] with the given files, and these only *)
Definition only_files (gz_enc : bytes -> bytes) (gzip : bool) (fs : list (bytes * bytes)) (w w' : world) : Prop :=
  (forall n text, In (n, text) fs -> holds gz_enc gzip w' n text)
  /\ same_but (map fst fs) w w'
  /\ w_stdout w' = w_stdout w.

(** the files of the chunks, in order *)
Definition chunk_texts (template : option bytes) (gzip : bool) (dir : bytes) (chunks : list (list byte_record))
    (fs : list (bytes * bytes)) : Prop :=
  length fs = length chunks /\ NoDup (map fst fs)
  /\ forall k c n text, nth_error chunks k = Some c -> nth_error fs k = Some (n, text) ->
       chunk_file template gzip dir (N.of_nat k) n /\ lines_of c text.

(** after partition: the file of a value that occurs holds the lines of the
    records with the value, and no other file has changed *)
Definition sorted_out (gz_enc : bytes -> bytes) (O : oracles) (lossy : bytes -> bytes) (template : option bytes) (gzip : bool)
    (dir : bytes) (ci : bool) (p : path) (sel : list byte_record) (w w' : world) : Prop :=
  (forall v n recs text, file_for template gzip dir (lossy v) n ->
     chosen (has_value O ci p v) sel recs -> recs <> [] -> lines_of recs text -> holds gz_enc gzip w' n text)
  /\ (forall n, (forall v r, In r sel -> has_value O ci p v (br_record r) -> ~ file_for template gzip dir (lossy v) n) ->
        disk_get (w_disk w') n = disk_get (w_disk w) n)
  /\ w_stdout w' = w_stdout w.

(** the format in which describe writes its table: --tsv or a name that ends
    with ".tsv" comes first *)
Inductive table_format (csv tsv : bool) : option bytes -> frame_format -> Prop :=
| tf_terminal : table_format csv tsv None FTerminal
| tf_tsv : forall n, tsv = true \/ (exists stem, n = stem ++ lit ".tsv") -> table_format csv tsv (Some n) FTsv
| tf_csv : forall n, tsv = false -> (forall stem, n <> stem ++ lit ".tsv") ->
    csv = true \/ (exists stem, n = stem ++ lit ".csv") -> table_format csv tsv (Some n) FCsv
| tf_ipc : forall n, tsv = false -> (forall stem, n <> stem ++ lit ".tsv") ->
    csv = false -> (forall stem, n <> stem ++ lit ".csv") -> table_format csv tsv (Some n) FIpc.

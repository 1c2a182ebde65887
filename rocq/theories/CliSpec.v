(** * Specification of the record loop and the commands

    What a run sees of its input files, which records are selected, and what
    the outputs are.  Independent of the loops of [CliModel.v]. *)

From Coq Require Import String Sorted.
From Verif Require Import Bytes RecordModel RecordSpec TagOccModel ByteRecordModel ByteRecordSpec Utf8Spec
  MatcherModel MatcherSpec PathModel QuerySpec ReaderModel CliModel.

(** ** Input *)

(** the name of an input in error messages *)
Definition shown_name (name s : bytes) : Prop :=
  (name = lit "-" /\ s = lit "<stdin>") \/ (name <> lit "-" /\ s = name).

(** lines with source and number, counted from [n] *)
Inductive numbered (s : bytes) : N -> list bytes -> list (bytes * N * bytes) -> Prop :=
| num_nil : forall n, numbered s n [] []
| num_cons : forall n l ls out, numbered s (n + 1) ls out -> numbered s n (l :: ls) ((s, n, l) :: out).

(** all lines of the inputs, in order *)
Inductive input_lines : list (bytes * bytes) -> list (bytes * N * bytes) -> Prop :=
| il_nil : input_lines [] []
| il_file : forall name content rest s ls nls more,
    shown_name name s -> is_lines content ls -> numbered s 1 ls nls -> input_lines rest more ->
    input_lines ((name, content) :: rest) (nls ++ more).

(** The valid records among the lines up to the first invalid line that is not
    skipped, and the error at that line. *)
Inductive seen (skip : bool) : list (bytes * N * bytes) -> list byte_record -> option read_error -> Prop :=
| seen_end : seen skip [] [] None
| seen_record : forall s n l r ls rs e,
    record_text r l -> seen skip ls rs e -> seen skip ((s, n, l) :: ls) (mkBR (Some l) r :: rs) e
| seen_skip : forall s n l ls rs e,
    skip = true -> (forall r, ~ record_text r l) -> seen skip ls rs e ->
    seen skip ((s, n, l) :: ls) rs e
| seen_fail : forall s n l ls,
    skip = false -> (forall r, ~ record_text r l) ->
    seen skip ((s, n, l) :: ls) [] (Some (EParse n (Some s))).

Definition reads (skip : bool) (files : list (bytes * bytes)) (recs : list byte_record)
    (e : option read_error) : Prop :=
  exists ls, input_lines files ls /\ seen skip ls recs e.

(** a run that ends regularly, or with the error *)
Definition ended {S} (s : S) (e : option read_error) : ending S :=
  match e with None => Done s | Some e => Failed s e end.

(** ** Selection *)

(** members of [l] with property [P], in order *)
Definition chosen (P : record -> Prop) (l out : list byte_record) : Prop :=
  picks (fun r => P (br_record r)) (fun r => r) l out.

(** The first [limit] members (all if [limit] is 0).  A run that reaches the
    limit ends regularly without reading on. *)
Definition limited {A} (limit : N) (l : list A) (e : option read_error) (l' : list A)
    (e' : option read_error) : Prop :=
  ((limit = 0 \/ N.of_nat (length l) < limit) /\ l' = l /\ e' = e)
  \/ (0 < limit <= N.of_nat (length l) /\ N.of_nat (length l') = limit
      /\ (exists rest, l = l' ++ rest) /\ e' = None).

Section Select.
  Variables O Od : oracles.

  (** allow and deny lists *)
  Definition admitted (fs : filter_set) (r : record) : Prop :=
    exists vs, path_lists Od false (fset_path fs) r vs
      /\ (forall deny, fset_deny fs = Some deny -> forall v, In v vs -> ~ In v deny)
      /\ (forall allow, fset_allow fs = Some allow -> exists v, In v vs /\ In v allow).

  (** lists and expression *)
  Definition opts_hold (o : filter_opts) (r : record) : Prop :=
    admitted (fo_fset o) r
    /\ (forall m, fo_matcher o = Some m -> fm_holds O (fo_ci o) m r).

  Definition filter_holds (c : filter_cmd) (r : record) : Prop :=
    admitted (fc_fset c) r
    /\ (if fc_invert c then ~ fm_holds O (fc_ci c) (fc_matcher c) r
        else fm_holds O (fc_ci c) (fc_matcher c) r).

  (** regular expressions compile; true of everything parsed, see C59 *)
  Definition fset_wf (fs : filter_set) : Prop := opt_sm_wf Od false (p_sub (fset_path fs)).
  Definition opts_wf (o : filter_opts) : Prop :=
    fset_wf (fo_fset o) /\ (forall m, fo_matcher o = Some m -> fm_wf O (fo_ci o) m).
  Definition filter_wf (c : filter_cmd) : Prop :=
    fset_wf (fc_fset c) /\ fm_wf O (fc_ci c) (fc_matcher c).
End Select.

(** the records a command with the shared options works on *)
Definition selects (O Od : oracles) (skip : bool) (o : filter_opts) (files : list (bytes * bytes))
    (recs : list byte_record) (e : option read_error) : Prop :=
  exists all sel e0, reads skip files all e0
    /\ chosen (opts_hold O Od o) all sel
    /\ limited (fo_limit o) sel e0 recs e.

(** ** Outputs *)

(** the input lines of the records, one after the other *)
Definition lines_of (recs : list byte_record) (out : bytes) : Prop :=
  exists ts, Forall2 (fun r t => br_raw r = Some t) recs ts /\ out = concat ts.

(** a decimal number: digits without superfluous leading zeros *)
Definition decimal (n : N) (t : bytes) : Prop :=
  Forall (fun c => In c digits) t /\ t <> []
  /\ (t = lit "0" \/ hd 0 t <> 48)
  /\ fold_left (fun a d => 10 * a + (d - 48)) t 0 = n.

(** lower-case hexadecimal digits, two for each byte *)
Definition hex_char (v : N) (c : byte) : Prop :=
  (v < 10 /\ c = 48 + v) \/ (10 <= v /\ c = 97 + (v - 10)).
Inductive hex_text : bytes -> bytes -> Prop :=
| hex_nil : hex_text [] []
| hex_cons : forall c b h l t, hex_char (c / 16) h -> hex_char (c mod 16) l -> hex_text b t ->
    hex_text (c :: b) (h :: l :: t).

(** [out] is [t] with every "{}" replaced by [x] *)
Inductive filled (x : bytes) : bytes -> bytes -> Prop :=
| fill_nil : filled x [] []
| fill_here : forall t out, filled x t out -> filled x (lit "{}" ++ t) (x ++ out)
| fill_skip : forall c t out,
    (forall t', c :: t <> lit "{}" ++ t') -> filled x t out -> filled x (c :: t) (c :: out).

(** *** concat --unique *)

(** the records whose key is not empty and did not occur before *)
Inductive firsts (key : byte_record -> bytes -> Prop) (before : list byte_record)
  : list byte_record -> list byte_record -> Prop :=
| firsts_nil : firsts key before [] []
| firsts_yes : forall r k l out,
    key r k -> k <> [] -> (forall r', In r' before -> ~ key r' k) ->
    firsts key (before ++ [r]) l out -> firsts key before (r :: l) (r :: out)
| firsts_no : forall r k l out,
    key r k -> (k = [] \/ exists r', In r' before /\ key r' k) ->
    firsts key (before ++ [r]) l out -> firsts key before (r :: l) out.

(** the keys of the two strategies *)
Definition key_of (sha lossy : bytes -> bytes) (st : strategy) (r : byte_record) (k : bytes) : Prop :=
  match st with
  | SIdn => exists v ids, identifiers (br_record r) (v :: ids) /\ k = lossy v
  | SHash => exists l, br_raw r = Some l /\ hex_text (sha l) k
  end.

(** *** split *)

(** [recs] cut into chunks of [n], in order; a single empty chunk if there is
    no record *)
Definition chunked (n : N) (recs : list byte_record) (chunks : list (list byte_record)) : Prop :=
  concat chunks = recs
  /\ ((recs = [] /\ chunks = [[]])
      \/ exists full last, chunks = full ++ [last]
           /\ Forall (fun c => N.of_nat (length c) = n) full
           /\ 1 <= N.of_nat (length last) <= n).

(** the files are exactly: for each chunk one named after its number, holding
    its lines *)
Definition chunk_files (template : bytes) (chunks : list (list byte_record)) (fs : list (bytes * bytes))
  : Prop :=
  (forall k c, nth_error chunks k = Some c ->
     exists num name text, decimal (N.of_nat k) num /\ filled num template name
       /\ lines_of c text /\ In (name, text) fs)
  /\ length fs = length chunks /\ NoDup (map fst fs).

(** *** partition *)

(** the distinct values in ascending order *)
Definition value_set (vs out : list bytes) : Prop :=
  StronglySorted (fun a b => bytes_cmp a b = Lt) out
  /\ (forall v, In v out <-> In v vs).

(** the writes of a run: each selected record to each of its values *)
Definition record_writes (O : oracles) (ci : bool) (p : path) (r : byte_record)
    (ws : list (bytes * byte_record)) : Prop :=
  exists vs set, path_lists O ci p (br_record r) vs /\ value_set vs set
    /\ ws = map (fun v => (v, r)) set.

(** per value, one file with the lines of the records written to it, in order *)
Definition value_files (ws : list (bytes * byte_record)) (fs : list (bytes * bytes)) : Prop :=
  NoDup (map fst fs)
  /\ (forall v, In v (map fst fs) <-> In v (map fst ws))
  /\ (forall v text, In (v, text) fs ->
        exists recs, picks (fun w => fst w = v) snd ws recs /\ lines_of recs text).

(** *** sample *)

(** a sample without replacement: the records at distinct positions *)
Definition drawn (n : N) (recs sample : list byte_record) : Prop :=
  exists idx : list nat, NoDup idx
    /\ Forall2 (fun i r => nth_error recs i = Some r) idx sample
    /\ N.of_nat (length sample) = N.min n (N.of_nat (length recs)).

(** *** slice *)

(** the records with index from [a] up to, not including, [b] *)
Definition index_range (a b : N) (recs out : list byte_record) : Prop :=
  exists pre post, recs = pre ++ out ++ post
    /\ (out = [] \/ N.of_nat (length pre) = a)
    /\ N.of_nat (length out) = N.min (b - a) (N.of_nat (length recs) - a).

(** *** filter *)

(** the text written for a selected record *)
Definition edited_text (c : filter_cmd) (r : byte_record) (t : bytes) : Prop :=
  exists fs, edits_effect [EDiscard (fc_discard c); EKeep (fc_keep c)] (br_record r) fs
    /\ contents_text fs t.

(** records with a line feed at the end of the line only *)
Definition one_line (r : byte_record) : Prop :=
  exists p, br_raw r = Some (p ++ [10]) /\ ~ In 10 p /\ record_text (br_record r) (p ++ [10]).

(** the record has a key *)
Definition has_key (sha lossy : bytes -> bytes) (st : strategy) (r : byte_record) : Prop :=
  exists k, key_of sha lossy st r k.

(** *** hash *)

(** the row of a record: identifier and digest of the line *)
Definition hash_row (sha lossy : bytes -> bytes) (r : byte_record) (row : list bytes) : Prop :=
  exists ids l digest, identifiers (br_record r) ids /\ br_raw r = Some l
    /\ hex_text (sha l) digest /\ row = [lossy (hd [] ids); digest].

(** *** count *)

(** the output: one number, a table with or without header, or three lines *)
Definition count_table (sep : byte) (no_header : bool) (tr tf ts : bytes) : bytes :=
  (if no_header then [] else lit "records" ++ [sep] ++ lit "fields" ++ [sep] ++ lit "subfields" ++ [10])
  ++ tr ++ [sep] ++ tf ++ [sep] ++ ts ++ [10].
Definition count_text (m : count_mode) (r f s : N) (t : bytes) : Prop :=
  exists tr tf ts, decimal r tr /\ decimal f tf /\ decimal s ts
    /\ t = match m with
           | MRecords => tr ++ [10]
           | MFields => tf ++ [10]
           | MSubfields => ts ++ [10]
           | MCsv no_header => count_table 44 no_header tr tf ts
           | MTsv no_header => count_table 9 no_header tr tf ts
           | MPlain => lit "records: " ++ tr ++ [10] ++ lit "fields: " ++ tf ++ [10]
                       ++ lit "subfields: " ++ ts ++ [10]
           end.

(** *** print *)

(** the printed text of a record *)
Definition printed_subfield (translit : bytes -> bytes) (s : subfield) (t : bytes) : Prop :=
  t = lit " $" ++ [sf_code s] ++ lit " " ++ translit (sf_value s).
Definition printed_field (translit : bytes -> bytes) (f : field) (t : bytes) : Prop :=
  exists ts, Forall2 (printed_subfield translit) (f_subfields f) ts
    /\ t = f_tag f ++ (match f_occ f with Some o => lit "/" ++ o | None => [] end) ++ concat ts ++ [10].
Definition printed_record (translit : bytes -> bytes) (r : byte_record) (t : bytes) : Prop :=
  exists ts, Forall2 (printed_field translit) (br_record r) ts /\ t = concat ts ++ [10].

(** every value is UTF-8 *)
Definition utf8_record (r : record) : Prop :=
  forall f s, In f r -> In s (f_subfields f) -> is_utf8 (sf_value s).

(** the error of the input is reached only if no record past the range is *)
Definition slice_error (start end_ : N) (sel : list byte_record) (e0 e1 : option read_error) : Prop :=
  (N.of_nat (length sel) <= N.max start end_ /\ e1 = e0)
  \/ (N.max start end_ < N.of_nat (length sel) /\ e1 = None).

(** the end of the range *)
Definition slice_stop (start end_ len stop : N) : Prop :=
  (0 < end_ /\ stop = end_)
  \/ (end_ = 0 /\ 0 < len /\ stop = start + len /\ start + len <= 18446744073709551615)
  \/ (end_ = 0 /\ len = 0 /\ stop = 18446744073709551615).

(** the selected records of the lines, each with the number of invalid lines
    before it, counted from [k] *)
Inductive marked (P : record -> Prop) : N -> list (bytes * N * bytes) -> list (byte_record * N) -> Prop :=
| marked_end : forall k, marked P k [] []
| marked_yes : forall k s n l r ls out, record_text r l -> P r -> marked P k ls out ->
    marked P k ((s, n, l) :: ls) ((mkBR (Some l) r, k) :: out)
| marked_no : forall k s n l r ls out, record_text r l -> ~ P r -> marked P k ls out ->
    marked P k ((s, n, l) :: ls) out
| marked_bad : forall k s n l ls out, (forall r, ~ record_text r l) -> marked P (k + 1) ls out ->
    marked P k ((s, n, l) :: ls) out.

(** the range of --length when invalid lines are skipped: every invalid line
    before a record, even one before the range, makes it longer by one *)
Definition lengthened (start len : N) (sel range : list (byte_record * N)) : Prop :=
  exists pre post, sel = pre ++ range ++ post
    /\ N.of_nat (length pre) = N.min start (N.of_nat (length sel))
    /\ (forall a x b, range = a ++ x :: b -> N.of_nat (length a) < len + snd x)
    /\ (forall x b, post = x :: b -> len + snd x <= N.of_nat (length range)).

(** the template has a placeholder *)
Definition has_braces (t : bytes) : Prop := exists a b, t = a ++ lit "{}" ++ b.

(** *** allow and deny lists *)

(** the cells of the first column with the name *)
Definition has_column (t : table) (n : bytes) (cells : list (option bytes)) : Prop :=
  exists pre post, t = pre ++ (n, cells) :: post /\ ~ In n (map fst pre).

(** the column of a list: the named one; without name "ppn", or else "idn" *)
Definition id_column (t : table) (name : option bytes) (cells : list (option bytes)) : Prop :=
  match name with
  | Some n => has_column t n cells
  | None => has_column t (lit "ppn") cells
            \/ (~ In (lit "ppn") (map fst t) /\ has_column t (lit "idn") cells)
  end.

(** the values of the given lists; no list at all is not the same as an empty one *)
Definition listed (ts : list table) (name : option bytes) (l : option (list bytes)) : Prop :=
  (ts = [] /\ l = None)
  \/ (ts <> [] /\ exists vs, l = Some vs
      /\ (forall t, In t ts -> exists cells, id_column t name cells)
      /\ (forall v, In v vs <-> exists t cells, In t ts /\ id_column t name cells /\ In (Some v) cells)).

(** *** partition, by value *)

(** [v] is among the values of the path *)
Definition has_value (O : oracles) (ci : bool) (p : path) (v : bytes) (r : record) : Prop :=
  exists vs, path_lists O ci p r vs /\ In v vs.

(** * Specification of the commands producing tables *)

From Coq Require Import String Sorted.
From Verif Require Import Bytes RecordModel RecordSpec TagOccModel ByteRecordModel ByteRecordSpec
  MatcherModel MatcherSpec PathModel FmtModel QueryModel QuerySpec CliSpec.

(** the rows of a query for a record, see QuerySpec.v *)
Definition query_rows (O : oracles) (T : text_fns) (qo : query_options) (q : query) (r : byte_record)
    (rows : outcome) : Prop :=
  exists ts, Forall2 (fun fr t => final_rows O T qo fr (br_record r) t) (q_fragments q) ts
    /\ rows = lex_product ts.

(** all cells are empty *)
Definition blank (row : list bytes) : Prop := Forall (fun e => e = []) row.

(** a header, if given, has one field per column *)
Definition header_fits (header : option (list bytes)) (columns : nat) : Prop :=
  forall h, header = Some h -> length h = columns.
Definition header_rows (header : option (list bytes)) : list (list bytes) :=
  match header with Some h => [h] | None => [] end.

(** ** select *)

(** the rows a run considers: with --no-empty-columns those without empty cell *)
Definition considered (no_empty : bool) (row : list bytes) : Prop :=
  no_empty = true -> ~ In [] row.

(** the members with no earlier member being the [same] *)
Inductive first_of_each {A} (same : A -> A -> Prop) (before : list A) : list A -> list A -> Prop :=
| foe_nil : first_of_each same before [] []
| foe_new : forall x l out, (forall y, In y before -> ~ same y x) ->
    first_of_each same (before ++ [x]) l out -> first_of_each same before (x :: l) (x :: out)
| foe_old : forall x y l out, In y before -> same y x ->
    first_of_each same (before ++ [x]) l out -> first_of_each same before (x :: l) out.

(** the rows written for the rows of the query, compared by hash under --unique *)
Definition select_writes (hash : list bytes -> N) (unique no_empty : bool) (rows out : outcome) : Prop :=
  exists rows1 rows2,
    picks (considered no_empty) (fun r => r) rows rows1
    /\ (if unique then first_of_each (fun a b => hash a = hash b) [] rows1 rows2 else rows2 = rows1)
    /\ picks (fun r => ~ blank r) (fun r => r) rows2 out.

(** ** frequency *)

Definition row_dec : forall a b : list bytes, {a = b} + {a <> b} := list_eq_dec (list_eq_dec N.eq_dec).

(** how often a row occurs in the results of the records; with --unique, in how
    many of them *)
Definition frequency (unique : bool) (rss : list outcome) (k : list bytes) : nat :=
  list_sum (map (fun rows => let n := count_occ row_dec rows k in if unique then Nat.min 1 n else n) rss).

(** lexicographic order of rows *)
Inductive row_lt : list bytes -> list bytes -> Prop :=
| rl_end : forall y b, row_lt [] (y :: b)
| rl_here : forall x y a b, bytes_cmp x y = Lt -> row_lt (x :: a) (y :: b)
| rl_next : forall x a b, row_lt a b -> row_lt (x :: a) (x :: b).

(** descending (ascending) frequency, then ascending value *)
Definition ranks (reverse : bool) (a b : list bytes * N) : Prop :=
  (if reverse then snd a < snd b else snd b < snd a) \/ (snd a = snd b /\ row_lt (fst a) (fst b)).

(** the rows with a non-empty cell, with their frequencies, in order *)
Definition frequencies (unique reverse : bool) (rss : list outcome) (l : list (list bytes * N)) : Prop :=
  StronglySorted (ranks reverse) l
  /\ forall k n, In (k, n) l <->
       ~ blank k /\ n = N.of_nat (frequency unique rss k) /\ 0 < n.

(** the first [num] members; all if [num] is 0 *)
Definition first_num {A} (num : N) (l out : list A) : Prop :=
  (num = 0 /\ out = l)
  \/ (0 < num /\ N.of_nat (length out) = N.min num (N.of_nat (length l)) /\ exists rest, l = out ++ rest).

(** the rows that may be listed: those that reach the threshold; in ascending order
    all or none *)
Definition reaching {A} (reverse : bool) (threshold : N) (l out : list (A * N)) : Prop :=
  if reverse
  then (Forall (fun e => threshold <= snd e) l /\ out = l) \/ (~ Forall (fun e => threshold <= snd e) l /\ out = [])
  else picks (fun e => threshold <= snd e) (fun e => e) l out.

(** a written row: the texts and the frequency *)
Definition written_frequency (text : bytes -> bytes) (e : list bytes * N) (row : list bytes) : Prop :=
  exists d, decimal (snd e) d /\ row = map text (fst e) ++ [d].

(** ** describe *)

(** number of subfields with the code in fields with the tag *)
Definition occurrences (fs : list field) (t : bytes) (c : N) : nat :=
  list_sum (map (fun f => if list_eq_dec N.eq_dec (f_tag f) t
                          then count_occ N.eq_dec (map sf_code (f_subfields f)) c else 0%nat) fs).

(** the columns are the codes that occur, the rows the tags that occur, both in
    ascending order, and the cells the numbers *)
Definition describes (fs : list field) (codes : list N) (rows : list (bytes * list N)) : Prop :=
  StronglySorted N.lt codes
  /\ (forall c, In c codes <-> exists f s, In f fs /\ In s (f_subfields f) /\ sf_code s = c)
  /\ StronglySorted (fun a b => bytes_cmp (fst a) (fst b) = Lt) rows
  /\ (forall t, In t (map fst rows) <-> exists f, In f fs /\ f_tag f = t)
  /\ (forall t cells, In (t, cells) rows -> cells = map (fun c => N.of_nat (occurrences fs t c)) codes).

(** the fields of a record after --discard and --keep *)
Definition edited_fields (discard keep : list (tag_matcher * occ_matcher)) (r : byte_record)
    (fs : list field) : Prop :=
  edits_effect [EDiscard discard; EKeep keep] (br_record r) fs.

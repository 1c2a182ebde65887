(** * The commands producing tables: select, frequency, describe

    Model of /repo/crates/pica-cli/src/commands/select.rs, frequency.rs and
    describe.rs.  A table is the list of its rows; the CSV encoding (csv crate),
    the data frame (polars) and its output formats are not modelled. *)

From Coq Require Import String.
From Verif Require Import Bytes Winnow RecordModel TagOccModel ByteRecordModel ReaderModel MatcherModel
  PathModel FmtModel QueryModel CliModel.

(** equality of rows *)
Definition row_eqb (a b : list bytes) : bool := list_eqb bytes_eqb a b.

(** [e.is_empty()] *)
Definition is_nil (e : bytes) : bool := match e with [] => true | _ => false end.

(** csv::Writer::write_record with the default [flexible(false)]: [None] is the
    error for a record with another number of fields than the first one (the
    incomplete row the crate leaves in its buffer is not modelled) *)
Definition csv_write (rows : list (list bytes)) (row : list bytes) : option (list (list bytes)) :=
  match rows with
  | first :: _ => if Nat.eqb (length first) (length row) then Some (rows ++ [row]) else None
  | [] => Some [row]
  end.

(** the header written first, if any *)
Definition csv_header (header : option (list bytes)) : list (list bytes) :=
  match header with Some h => [h] | None => [] end.

Section Tables.
  Variables O Od : oracles.
  Variable T : text_fns.
  (** [BStr::to_string] *)
  Variable lossy : bytes -> bytes.

  (** ** select *)

  (** [DefaultHasher]: the 64-bit hash of a row *)
  Variable hash : list bytes -> N.

  (** /repo/crates/pica-cli/src/commands/select.rs:38-109 Select, after
      preparation.  [se_header]: the fields of the header, split at commas and
      trimmed; [se_nf]: the normalization, if any. *)
  Record select_cmd := mkSelect {
    se_query : query;
    se_qo : query_options;
    se_unique : bool;
    se_no_empty : bool;
    se_header : option (list bytes);
    se_nf : option (bytes -> bytes) }.

  (** count, hashes seen, rows written, whether writing a row failed *)
  Record select_state := mkSel {
    sel_count : N;
    sel_seen : list N;
    sel_rows : list (list bytes);
    sel_failed : bool }.

  (** /repo/crates/pica-cli/src/commands/select.rs:208-222 the fields written for
      a row *)
  Definition select_fields (c : select_cmd) (row : list bytes) : list bytes :=
    match se_nf c with
    | None => row
    | Some nf => map (fun s => nf (lossy s)) row
    end.

  (** /repo/crates/pica-cli/src/commands/select.rs:189-223 the loop over the
      rows; it ends early if writing fails *)
  Fixpoint select_loop (c : select_cmd) (rows : outcome) (s : select_state) : select_state :=
    match rows with
    | [] => s
    | row :: rest =>
        if se_no_empty c && existsb is_nil row then select_loop c rest s
        else if se_unique c && existsb (N.eqb (hash row)) (sel_seen s) then select_loop c rest s
        else
          let seen := if se_unique c then hash row :: sel_seen s else sel_seen s in
          if negb (forallb is_nil row) then
            match csv_write (sel_rows s) (select_fields c row) with
            | None => mkSel (sel_count s) seen (sel_rows s) true
            | Some out => select_loop c rest (mkSel (sel_count s) seen out (sel_failed s))
            end
          else select_loop c rest (mkSel (sel_count s) seen (sel_rows s) (sel_failed s))
    end.

  (** /repo/crates/pica-cli/src/commands/select.rs:177-230; the state tells
      whether [Halt] means an error of the CSV writer *)
  Definition select_body (c : select_cmd) (o : filter_opts)
    : select_state -> byte_record -> step select_state :=
    guarded (opts_select O Od o) (fun s r =>
      match record_query O T (se_qo c) (se_query c) (br_record r) with
      | None => Panic
      | Some rows =>
          let s1 := select_loop c rows s in
          if sel_failed s1 then Halt s1
          else
            let s2 := mkSel (sel_count s1 + 1) (sel_seen s1) (sel_rows s1) false in
            if limit_reached (fo_limit o) (sel_count s2) then Halt s2 else Next s2
      end).

  (** /repo/crates/pica-cli/src/commands/select.rs:129-240 Select::execute: the
      rows written and whether a row had the wrong number of fields *)
  Definition select_run (c : select_cmd) (skip : bool) (o : filter_opts) (inputs : list (bytes * bytes))
    : option (ending (list (list bytes) * bool)) :=
    finish_with (fun s => Some (sel_rows s, sel_failed s)) (fun s => (sel_rows s, sel_failed s))
      (run_loop (on_result skip (select_body c o)) (mkSel 0 [] (csv_header (se_header c)) false) inputs).

  (** ** frequency *)

  (** [HashMap<Vec<BString>, u64>], as an association list *)
  Definition ftable := list (list bytes * N).

  (** [*ftable.entry(key).or_insert(0) += 1] *)
  Fixpoint ftable_inc (k : list bytes) (t : ftable) : ftable :=
    match t with
    | [] => [(k, 1)]
    | (k', n) :: t' => if row_eqb k' k then (k', n + 1) :: t' else (k', n) :: ftable_inc k t'
    end.

  (** /repo/crates/pica-cli/src/commands/frequency.rs:28-109 Frequency, after
      preparation *)
  Record freq_cmd := mkFreq {
    fq_query : query;
    fq_qo : query_options;
    fq_unique : bool;
    fq_num : N;
    fq_threshold : N;
    fq_reverse : bool;
    fq_header : option (list bytes);
    fq_nf : bytes -> bytes }.

  (** /repo/crates/pica-cli/src/commands/frequency.rs:174-186; [seen] is cleared
      for each record *)
  Fixpoint freq_loop (unique : bool) (rows : outcome) (seen : list (list bytes)) (t : ftable) : ftable :=
    match rows with
    | [] => t
    | key :: rest =>
        if existsb (fun e => negb (is_nil e)) key then
          if unique && existsb (row_eqb key) seen then freq_loop unique rest seen t
          else freq_loop unique rest (if unique then key :: seen else seen) (ftable_inc key t)
        else freq_loop unique rest seen t
    end.

  (** /repo/crates/pica-cli/src/commands/frequency.rs:162-193 *)
  Definition freq_body (c : freq_cmd) (o : filter_opts) : N * ftable -> byte_record -> step (N * ftable) :=
    guarded (opts_select O Od o) (fun s r =>
      match record_query O T (fq_qo c) (fq_query c) (br_record r) with
      | None => Panic
      | Some rows =>
          let s' := (fst s + 1, freq_loop (fq_unique c) rows [] (snd s)) in
          if limit_reached (fo_limit o) (fst s') then Halt s' else Next s'
      end).

  (** [Ord for Vec<BString>] *)
  Fixpoint row_cmp (a b : list bytes) : comparison :=
    match a, b with
    | [], [] => Eq
    | [], _ => Lt
    | _, [] => Gt
    | x :: a', y :: b' => match bytes_cmp x y with Eq => row_cmp a' b' | c => c end
    end.

  (** /repo/crates/pica-cli/src/commands/frequency.rs:206-216 the two
      comparison functions *)
  Definition freq_cmp (reverse : bool) (a b : list bytes * N) : comparison :=
    match (if reverse then snd a ?= snd b else snd b ?= snd a) with
    | Eq => row_cmp (fst a) (fst b)
    | c => c
    end.

  (** [slice::sort_by], a stable sort *)
  Fixpoint insert_by {A} (cmp : A -> A -> comparison) (x : A) (l : list A) : list A :=
    match l with
    | [] => [x]
    | y :: l' => match cmp x y with Gt => y :: insert_by cmp x l' | _ => x :: l end
    end.
  Definition sort_by {A} (cmp : A -> A -> comparison) (l : list A) : list A :=
    fold_right (insert_by cmp) [] l.

  (** /repo/crates/pica-cli/src/commands/frequency.rs:228-234 the row written *)
  Definition freq_row (c : freq_cmd) (e : list bytes * N) : list bytes :=
    map (fun v => fq_nf c (lossy v)) (fst e) ++ [dec (snd e)].

  (** /repo/crates/pica-cli/src/commands/frequency.rs:219-236 the loop over the
      sorted table: the rows written and whether writing failed *)
  Fixpoint freq_write (c : freq_cmd) (i : N) (l : ftable) (out : list (list bytes))
    : list (list bytes) * bool :=
    match l with
    | [] => (out, false)
    | e :: rest =>
        if (0 <? fq_num c) && (fq_num c <=? i) then (out, false)
        else if snd e <? fq_threshold c then (out, false)
        else match csv_write out (freq_row c e) with
             | None => (out, true)
             | Some out' => freq_write c (i + 1) rest out'
             end
    end.

  (** the unspecified iteration order of a [HashMap] *)
  Variable order : ftable -> ftable.

  (** /repo/crates/pica-cli/src/commands/frequency.rs:197-242 *)
  Definition freq_output (c : freq_cmd) (t : ftable) : list (list bytes) * bool :=
    freq_write c 0 (sort_by (freq_cmp (fq_reverse c)) (order t)) (csv_header (fq_header c)).

  (** /repo/crates/pica-cli/src/commands/frequency.rs:112-242 Frequency::execute;
      if reading fails nothing has been written *)
  Definition freq_run (c : freq_cmd) (skip : bool) (o : filter_opts) (inputs : list (bytes * bytes))
    : option (ending (list (list bytes) * bool)) :=
    finish_with (fun s => Some (freq_output c (snd s))) (fun _ => ([], false))
      (run_loop (on_result skip (freq_body c o)) (0, []) inputs).

  (** ** describe *)

  (** [HashMap<String, HashMap<char, usize>>]; tags are ASCII, so [to_string]
      does not change them *)
  Definition code_counts := list (N * N).
  Definition tag_counts := list (bytes * code_counts).

  (** [subfields.entry(code).and_modify(|e| *e += 1).or_insert(1)] *)
  Fixpoint code_inc (c : N) (t : code_counts) : code_counts :=
    match t with
    | [] => [(c, 1)]
    | (c', n) :: t' => if c' =? c then (c', n + 1) :: t' else (c', n) :: code_inc c t'
    end.

  (** [fields.entry(tag).or_insert(HashMap::new())] and the loop over the
      subfields, /repo/crates/pica-cli/src/commands/describe.rs:93-106 *)
  Fixpoint tag_add (f : field) (t : tag_counts) : tag_counts :=
    match t with
    | [] => [(f_tag f, fold_left (fun m s => code_inc (sf_code s) m) (f_subfields f) [])]
    | (g, m) :: t' =>
        if bytes_eqb g (f_tag f)
        then (g, fold_left (fun m s => code_inc (sf_code s) m) (f_subfields f) m) :: t'
        else (g, m) :: tag_add f t'
    end.

  (** /repo/crates/pica-cli/src/commands/describe.rs:80-113 *)
  Definition describe_body (discard keep : list (tag_matcher * occ_matcher)) (o : filter_opts)
    : N * tag_counts -> byte_record -> step (N * tag_counts) :=
    guarded (opts_select O Od o) (fun s r =>
      let r' := br_keep keep (br_discard discard r) in
      let s' := (fst s + 1, fold_left (fun t f => tag_add f t) (br_record r') (snd s)) in
      if limit_reached (fo_limit o) (fst s') then Halt s' else Next s').

  (** [codes.dedup()] *)
  Fixpoint dedup_codes (l : list N) : list N :=
    match l with
    | v :: ((w :: _) as l') => if v =? w then dedup_codes l' else v :: dedup_codes l'
    | _ => l
    end.

  (** [counts.get( *code ).unwrap_or(&0)] *)
  Fixpoint code_get (c : N) (t : code_counts) : N :=
    match t with
    | [] => 0
    | (c', n) :: t' => if c' =? c then n else code_get c t'
    end.

  (** the unspecified iteration order of the outer [HashMap] *)
  Variable tag_order : tag_counts -> tag_counts.

  (** /repo/crates/pica-cli/src/commands/describe.rs:119-146: the codes naming
      the columns, and the rows sorted by tag.  The cells of a row stay together
      when the data frame is sorted. *)
  Definition describe_table (t : tag_counts) : list N * list (bytes * list N) :=
    let t' := tag_order t in
    let codes := dedup_codes (sort_by N.compare (flat_map (fun e => map fst (snd e)) t')) in
    (codes,
     sort_by (fun a b => bytes_cmp (fst a) (fst b))
       (map (fun e => (fst e, map (fun c => code_get c (snd e)) codes)) t')).

  (** /repo/crates/pica-cli/src/commands/describe.rs:48-195 Describe::execute *)
  Definition describe_run (discard keep : list (tag_matcher * occ_matcher)) (skip : bool) (o : filter_opts)
      (inputs : list (bytes * bytes)) : option (ending (list N * list (bytes * list N))) :=
    finish_with (fun s => Some (describe_table (snd s))) (fun _ => ([], []))
      (run_loop (on_result skip (describe_body discard keep o)) (0, []) inputs).
End Tables.

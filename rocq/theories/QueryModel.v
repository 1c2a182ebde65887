(** * Queries (/repo/src/query.rs) *)

From Coq Require Import String.
From Verif Require Import Bytes Winnow RecordModel TagOccModel Utf8Model StrParserModel
  MatcherModel StateParser MatcherParserModel PathModel FmtModel.

(** /repo/src/query.rs:107-112 Fragment *)
Inductive qfragment :=
| QPath (p : path)
| QLiteral (b : bytes)
| QFormat (f : format).

(** /repo/src/query.rs:20-24 Query *)
Record query := mkQuery { q_fragments : list qfragment; q_raw : bytes }.

(** /repo/src/query.rs:224-244 QueryOptions (strsim_threshold is part of the
    similarity function of [oracles]) *)
Record query_options := mkQueryOptions {
  qo_case_ignore : bool; qo_separator : bytes; qo_squash : bool; qo_merge : bool }.

(** /repo/src/query.rs:309-310 Outcome *)
Definition outcome := list (list bytes).

(** /repo/src/query.rs:374-382 Add, 384-415 Mul *)
Definition o_add (a b : outcome) : outcome := a ++ b.
Definition o_mul (xs ys : outcome) : outcome :=
  match xs, ys with
  | [], _ => ys
  | _, [] => xs
  | _, _ => flat_map (fun x => map (fun y => x ++ y) ys) xs
  end.

(** the loop at query.rs:329-336 joining with the separator *)
Definition join_items (sep : bytes) (items : list bytes) : bytes :=
  snd (fold_left (fun (acc : bool * bytes) item =>
         let '(first, v) := acc in
         (false, (if first then v else v ++ sep) ++ item)) items (true, [])).

(** /repo/src/query.rs:313-339 Outcome::squash (the warning on stderr is not
    modelled) *)
Definition o_squash (sep : bytes) (o : outcome) : outcome := [[join_items sep (concat o)]].

(** the loop at query.rs:343-352: [acc[i] sep e[i]]; [None] is the index
    panic if the second row is shorter *)
Fixpoint merge_rows (sep : bytes) (acc e : list bytes) : option (list bytes) :=
  match acc with
  | [] => Some []
  | x :: acc' =>
      match e with
      | [] => None
      | y :: e' => do rest <- merge_rows sep acc' e'; Some ((x ++ sep ++ y) :: rest)
      end
  end.
(** the [reduce] from the second row on *)
Fixpoint merge_fold (sep : bytes) (acc : list bytes) (rows : outcome) : option (list bytes) :=
  match rows with
  | [] => Some acc
  | e :: rest => do acc' <- merge_rows sep acc e; merge_fold sep acc' rest
  end.
(** /repo/src/query.rs:341-356 Outcome::merge; [None]: [unwrap] of an empty
    outcome *)
Definition o_merge (sep : bytes) (o : outcome) : option outcome :=
  match o with
  | [] => None
  | row :: rest => do m <- merge_fold sep row rest; Some [m]
  end.

Section Query.
  Variable O : oracles.
  Variable T : text_fns.

  (** /repo/src/query.rs:214-222 parse_fragment *)
  Definition parse_qfragment : sparser qfragment :=
    salt (smap QPath (parse_path O))
    (salt (slift (pmap QLiteral parse_string))
          (smap QFormat (parse_format O))).

  (** /repo/src/query.rs:55-66 parse_query *)
  Definition parse_query : sparser query :=
    staken (fun fs raw => mkQuery fs raw) (sseparated1 parse_qfragment (ws (ch 44))).

  (** /repo/src/query.rs:44-52 Query::new *)
  Definition query_new : levels -> bytes -> option (option query) * levels :=
    sparse_all parse_query.

  Variable qo : query_options.

  (** /repo/src/query.rs:161-194: the column of one code group of one field *)
  Definition path_column (codes : bytes) (f : field) : outcome :=
    let values := map sf_value (filter (code_in codes) (f_subfields f)) in
    let o := match values with
             | [] => [[[]]]
             | _ => map (fun v => [v]) values
             end in
    if qo_squash qo then o_squash (qo_separator qo) o else o.

  (** /repo/src/query.rs:115-212 Fragment::query; [None] is a panic *)
  Definition fragment_query (fr : qfragment) (r : record) : option outcome :=
    match fr with
    | QLiteral b => Some [[b]]
    | QFormat fm =>
        do rows <- record_format O T false (qo_case_ignore qo) fm r;
        Some (match rows with [] => [[[]]] | _ => map (fun e => [e]) rows end)
    | QPath p =>
        do fs <- filter_p (tag_occ_sub_match O (qo_case_ignore qo) (p_tag p) (p_occ p) (p_sub p)) r;
        let out := fold_left o_add
          (map (fun f => fold_left o_mul (map (fun codes => path_column codes f) (p_codes p)) [])
             fs) [] in
        Some (match out with
              | [] => [repeat [] (length (p_codes p))]
              | _ => out
              end)
    end.

  (** the map at query.rs:453-460 *)
  Definition fragment_rows (fr : qfragment) (r : record) : option outcome :=
    do o <- fragment_query fr r;
    if qo_merge qo then o_merge (qo_separator qo) o else Some o.

  (** [reduce(|acc, e| acc * e)] after the first fragment *)
  Fixpoint query_fold (acc : outcome) (frs : list qfragment) (r : record) : option outcome :=
    match frs with
    | [] => Some acc
    | fr :: rest => do o <- fragment_rows fr r; query_fold (o_mul acc o) rest r
    end.

  (** /repo/src/query.rs:445-463 RecordRef::query *)
  Definition record_query (q : query) (r : record) : option outcome :=
    match q_fragments q with
    | [] => Some []
    | fr :: rest => do o <- fragment_rows fr r; query_fold o rest r
    end.

  (** /repo/src/query.rs:485-498 StringRecord::query; [lossy] is
      [BString::to_string] (Display), external to the model *)
  Definition string_record_query (lossy : bytes -> bytes) (q : query) (r : record) : option outcome :=
    do o <- record_query q r; Some (map (map lossy) o).
End Query.

(** /repo/src/query.rs:68-83 Display for Query *)
Definition query_display (q : query) : bytes := q_raw q.

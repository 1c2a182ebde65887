(** * Paths (/repo/src/path.rs) *)

From Coq Require Import String.
From Verif Require Import Bytes Winnow RecordModel TagOccModel Utf8Model StrParserModel
  MatcherModel StateParser MatcherParserModel.

(** /repo/src/path.rs:24-31 Path *)
Record path := mkPath {
  p_tag : tag_matcher;
  p_occ : occ_matcher;
  p_sub : option subfield_matcher;
  p_codes : list bytes;
  p_raw : bytes }.

(** /repo/src/path.rs:80-105 parse_path_simple (feature "compat" off) *)
Definition parse_path_simple : parser path := fun i =>
  do (x, r) <- ws (fun i =>
    do (t, r1) <- parse_tag_matcher i;
    do (o, r2) <- parse_occ_matcher r1;
    do (c, r3) <- preceded (ch 46) parse_codes r2;
    Some ((t, o, c), r3)) i;
  let '(t, o, c) := x in Some (mkPath t o None [c] (taken i r), r).

(** /repo/src/path.rs:127-137: the code groups, plain or in parentheses
    ([parse_codes] at 107-119 is [parse_subfield_codes] without "compat") *)
Definition parse_path_codes : parser (list bytes) :=
  let codes := separated1 parse_codes (ws (ch 44)) in
  alt codes (delimited (ws (ch 40)) codes (ws (ch 41))).

Section PathParser.
  Variable O : oracles.

  (** [opt(preceded(ws('|'), parse_subfield_matcher))], path.rs:138 and
      /repo/src/fmt/parser.rs:26 *)
  Definition parse_condition : sparser (option subfield_matcher) :=
    sopt (spreceded (slift (ws (ch 124))) (parse_subfield_matcher O)).

  (** /repo/src/path.rs:121-153 parse_path_curly *)
  Definition parse_path_curly : sparser path :=
    staken (fun x raw => let '(t, o, c, m) := x in mkPath t o m c raw)
      (sws (sbind (slift parse_tag_matcher) (fun t =>
            sbind (slift parse_occ_matcher) (fun o =>
            sdelim (slift (ws (ch 123)))
              (sbind (slift parse_path_codes) (fun c =>
               smap (fun m => (t, o, c, m)) parse_condition))
              (slift (ws (ch 125))))))).

  (** /repo/src/path.rs:155-158 parse_path *)
  Definition parse_path : sparser path := salt (slift parse_path_simple) parse_path_curly.

  (** /repo/src/path.rs:51-55 Path::new *)
  Definition path_new : levels -> bytes -> option (option path) * levels := sparse_all parse_path.

  Variable ci : bool.

  (** /repo/src/path.rs:289-301: is the field addressed by the path? *)
  Definition path_field (p : path) : field -> option bool :=
    tag_occ_sub_match O ci (p_tag p) (p_occ p) (p_sub p).

  (** /repo/src/path.rs:303-312: the selected values of one field *)
  Definition path_values (p : path) (f : field) : list bytes :=
    map sf_value (filter (fun s => existsb (fun codes => code_in codes s) (p_codes p))
                    (f_subfields f)).

  (** /repo/src/path.rs:282-314 RecordRef::path, all values of the iterator;
      [None] if evaluating a subfield matcher panics *)
  Definition record_path (p : path) (r : record) : option (list bytes) :=
    do fs <- filter_p (path_field p) r;
    Some (flat_map (path_values p) fs).

  (** /repo/src/path.rs:230-237 first: the head of the lazy iterator; fields
      after the first value are not looked at *)
  Fixpoint record_first (p : path) (r : record) : option (option bytes) :=
    match r with
    | [] => Some None
    | f :: fs =>
        do b <- path_field p f;
        if b then match path_values p f with v :: _ => Some (Some v) | [] => record_first p fs end
        else record_first p fs
    end.

  (** /repo/src/path.rs:336-347 StringRecord::path: [to_str().unwrap()] *)
  Definition string_record_path (p : path) (r : record) : option (list bytes) :=
    do vs <- record_path p r;
    if forallb utf8_valid vs then Some vs else None.
End PathParser.

(** the path "003@.0" of /repo/src/path.rs:257-262 ppn *)
Definition ppn_path : path :=
  mkPath (TMTag (lit "003@")) OMNone None [lit "0"] (lit "003@.0").
(** /repo/src/path.rs:257-262 ppn *)
Definition record_ppn (O : oracles) (r : record) : option (option bytes) :=
  record_first O false ppn_path r.

(** /repo/src/path.rs:160-177 Display for Path *)
Definition path_display (p : path) : bytes := p_raw p.

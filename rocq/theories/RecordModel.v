(** * PICA+ records: data types, parsers, writers

    Model of /repo/src/primitives/{parse,subfield,tag,occurrence,field,record}.rs.
    These are the borrowed types ([FieldRef]); the owned ones ([Field]) are in
    OwnedModel. *)

From Verif Require Import Bytes Winnow.

(** /repo/src/primitives/subfield.rs:21 (SubfieldCode), :161 (SubfieldValueRef),
    :502 (SubfieldRef).  A subfield code is a Rust [char] that is always an
    ASCII byte when it comes from the parser or the checked constructor. *)
Record subfield := mkSubfield { sf_code : byte; sf_value : bytes }.

(** /repo/src/primitives/tag.rs:40 (TagRef), occurrence.rs:15 (OccurrenceRef),
    field.rs:18-23 (FieldRef) *)
Record field := mkField {
  f_tag : bytes;
  f_occ : option bytes;
  f_subfields : list subfield }.

(** /repo/src/primitives/record.rs:14 (RecordRef) *)
Notation record := (list field) (only parsing).

(** /repo/src/primitives/parse.rs:13-19 parse_subfield_code *)
Definition parse_subfield_code : parser byte := one_of is_alnum.

(** /repo/src/primitives/parse.rs:23-29 parse_subfield_value_ref *)
Definition parse_subfield_value : parser bytes :=
  take_till0 (fun c => (c =? US) || (c =? RS)).

(** /repo/src/primitives/parse.rs:32-38 parse_subfield_ref *)
Definition parse_subfield : parser subfield :=
  pmap (fun cv => mkSubfield (fst cv) (snd cv))
       (preceded (ch US) (pseq parse_subfield_code parse_subfield_value)).

(** /repo/src/primitives/parse.rs:41-54 parse_tag_ref; the four bytes are
    returned as the consumed slice ([take]). *)
Definition parse_tag : parser bytes := fun i =>
  do (a, r1) <- one_of (fun c => (c =? 48) || (c =? 49) || (c =? 50)) i;
  do (b, r2) <- one_of is_digit r1;
  do (c, r3) <- one_of is_digit r2;
  do (d, r4) <- one_of (fun c => is_upper c || (c =? 64)) r3;
  Some ([a; b; c; d], r4).

(** /repo/src/primitives/parse.rs:57-64 parse_occurrence_ref *)
Definition parse_occurrence : parser bytes := take_while_m_n 2 3 is_digit.

(** /repo/src/primitives/parse.rs:66-82 parse_field_ref *)
Definition parse_field : parser field := fun i =>
  do (tag, r1) <- parse_tag i;
  do (occ, r2) <- opt (preceded (ch SLASH) parse_occurrence) r1;
  do (_, r3) <- ch SP r2;
  do (sfs, r4) <- repeat0 parse_subfield r3;
  do (_, r5) <- ch RS r4;
  Some (mkField tag occ sfs, r5).

(** /repo/src/primitives/parse.rs:86-92 parse_record_ref *)
Definition parse_record : parser record :=
  terminated (repeat1 parse_field) (ch LF).

(** /repo/src/primitives/record.rs:69-78 RecordRef::from_bytes *)
Definition record_from_bytes (b : bytes) : option record := parse_all parse_record b.
(** /repo/src/primitives/field.rs:86-95 FieldRef::from_bytes *)
Definition field_from_bytes (b : bytes) : option field := parse_all parse_field b.
(** /repo/src/primitives/subfield.rs:549-557 SubfieldRef::from_bytes *)
Definition subfield_from_bytes (b : bytes) : option subfield := parse_all parse_subfield b.
(** /repo/src/primitives/subfield.rs:234-244 SubfieldValueRef::from_bytes *)
Definition value_from_bytes (b : bytes) : option bytes := parse_all parse_subfield_value b.
(** /repo/src/primitives/tag.rs:104-112 TagRef::from_bytes, :62-64 TagRef::new,
    :252-254 Tag::new *)
Definition tag_from_bytes (b : bytes) : option bytes := parse_all parse_tag b.
(** /repo/src/primitives/occurrence.rs:81-89 OccurrenceRef::from_bytes, :37-39
    OccurrenceRef::new, :179-183 Occurrence::new *)
Definition occ_from_bytes (b : bytes) : option bytes := parse_all parse_occurrence b.

(** /repo/src/primitives/subfield.rs:41-49 SubfieldCode::new *)
Definition code_new (c : byte) : option byte :=
  if negb (is_alnum c) then None else Some c.

(** /repo/src/primitives/subfield.rs:183-194 SubfieldValueRef::new *)
Definition value_new (v : bytes) : option bytes :=
  if mem_byte US v || mem_byte RS v then None else Some v.

(** /repo/src/primitives/subfield.rs:522-530 SubfieldRef::new *)
Definition subfield_new (c : byte) (v : bytes) : option subfield :=
  do v' <- value_new v; do c' <- code_new c; Some (mkSubfield c' v').

(** [iter.map(f).collect::<Result<Vec<_>,_>>()] *)
Fixpoint collect {A B} (f : A -> option B) (l : list A) : option (list B) :=
  match l with
  | [] => Some []
  | x :: l' => do y <- f x; do ys <- collect f l'; Some (y :: ys)
  end.

(** /repo/src/primitives/field.rs:43-68 FieldRef::new (:329-354 Field::new) *)
Definition field_new (tag : bytes) (occ : option bytes) (sfs : list (byte * bytes))
  : option field :=
  do t <- tag_from_bytes tag;
  do o <- (match occ with
           | Some v => do o <- occ_from_bytes v; Some (Some o)
           | None => Some None
           end);
  do s <- collect (fun cv => subfield_new (fst cv) (snd cv)) sfs;
  Some (mkField t o s).

(** /repo/src/primitives/record.rs:41-55 RecordRef::new *)
Definition record_new (fields : list (bytes * option bytes * list (byte * bytes)))
  : option record :=
  collect (fun tos => field_new (fst (fst tos)) (snd (fst tos)) (snd tos)) fields.

(** /repo/src/primitives/subfield.rs:639-642 SubfieldRef::write_to (:750-753) *)
Definition write_subfield (s : subfield) : bytes := [US; sf_code s] ++ sf_value s.

(** /repo/src/primitives/occurrence.rs:126-128 OccurrenceRef::write_to *)
Definition write_occ (o : bytes) : bytes := SLASH :: o.

(** /repo/src/primitives/field.rs:261-275 FieldRef::write_to (:378-392),
    tag.rs:152-154 TagRef::write_to *)
Definition write_field (f : field) : bytes :=
  f_tag f
  ++ (match f_occ f with Some o => write_occ o | None => [] end)
  ++ [SP]
  ++ flat_map write_subfield (f_subfields f)
  ++ [RS].

(** /repo/src/primitives/record.rs:111-114 RecordRef::is_empty *)
Definition record_is_empty (r : record) : bool :=
  match r with [] => true | _ => false end.

(** /repo/src/primitives/record.rs:183-193 RecordRef::write_to (:224-234) *)
Definition write_record (r : record) : bytes :=
  if negb (record_is_empty r) then flat_map write_field r ++ [LF] else [].

(** /repo/src/primitives/record.rs:137-139 RecordRef::retain ([Vec::retain]) *)
Definition record_retain (p : field -> bool) (r : record) : record := filter p r.

(** /repo/src/primitives/tag.rs:17-22 Level, :125-132 TagRef::level; [None] is
    the [unreachable!()] branch or an index out of bounds. *)
Inductive level := LMain | LLocal | LCopy.
Definition tag_level (t : bytes) : option level :=
  match t with
  | 48 :: _ => Some LMain
  | 49 :: _ => Some LLocal
  | 50 :: _ => Some LCopy
  | _ => None
  end.

(** /repo/src/primitives/field.rs:165-169 FieldRef::contains *)
Definition field_contains (f : field) (c : byte) : bool :=
  existsb (fun s => sf_code s =? c) (f_subfields f).

(** /repo/src/primitives/field.rs:191-196 FieldRef::find *)
Definition field_find (f : field) (p : subfield -> bool) : option subfield :=
  find p (f_subfields f).

(** Derived equality of subfields, fields and records
    (/repo/src/primitives/subfield.rs:500, field.rs:16, record.rs:12). *)
Definition subfield_eqb (a b : subfield) : bool :=
  (sf_code a =? sf_code b) && bytes_eqb (sf_value a) (sf_value b).
Fixpoint list_eqb {A} (eqb : A -> A -> bool) (a b : list A) : bool :=
  match a, b with
  | [], [] => true
  | x :: a', y :: b' => eqb x y && list_eqb eqb a' b'
  | _, _ => false
  end.
Definition option_eqb {A} (eqb : A -> A -> bool) (a b : option A) : bool :=
  match a, b with
  | None, None => true
  | Some x, Some y => eqb x y
  | _, _ => false
  end.
Definition field_eqb (a b : field) : bool :=
  bytes_eqb (f_tag a) (f_tag b)
  && option_eqb bytes_eqb (f_occ a) (f_occ b)
  && list_eqb subfield_eqb (f_subfields a) (f_subfields b).
Definition record_eqb : record -> record -> bool := list_eqb field_eqb.

(** * Owned tags, occurrences, subfields, fields and records

    Model of the owned types of
    /repo/src/primitives/{tag,occurrence,subfield,field,record}.rs.  The owned
    types are types of their own here; the borrowed ones are those of
    RecordModel.  The derived [serde] implementations are in SerdeModel. *)

From Coq Require Import String.
From Verif Require Import Bytes Winnow RecordModel.

(** /repo/src/primitives/tag.rs:233 Tag *)
Inductive otag := OTag (b : bytes).
(** /repo/src/primitives/occurrence.rs:156-159 Occurrence *)
Inductive oocc := OOcc (b : bytes).
(** /repo/src/primitives/subfield.rs:316 SubfieldValue *)
Inductive ovalue := OValue (b : bytes).
(** /repo/src/primitives/subfield.rs:672 Subfield; the code is shared with
    the borrowed type *)
Inductive osubfield := OSubfield (c : byte) (v : ovalue).
(** /repo/src/primitives/field.rs:306-310 Field *)
Inductive ofield := OField (t : otag) (o : option oocc) (s : list osubfield).
(** /repo/src/primitives/record.rs:199 Record *)
Inductive orecord := ORecord (fs : list ofield).

(** ** Conversions *)

(** /repo/src/primitives/tag.rs:296-314 From<TagRef> for Tag *)
Definition tag_owned (t : bytes) : otag := OTag t.
(** /repo/src/primitives/occurrence.rs:247-264 From<OccurrenceRef> for Occurrence *)
Definition occ_owned (o : bytes) : oocc := OOcc o.
(** /repo/src/primitives/subfield.rs:358-363 SubfieldValue::from_unchecked *)
Definition value_unchecked (v : bytes) : ovalue := OValue v.
(** /repo/src/primitives/subfield.rs:391-408 From<SubfieldValueRef> for SubfieldValue *)
Definition value_owned (v : bytes) : ovalue := value_unchecked v.
(** /repo/src/primitives/subfield.rs:756-775 From<SubfieldRef> for Subfield *)
Definition subfield_owned (s : subfield) : osubfield := OSubfield (sf_code s) (value_owned (sf_value s)).
(** /repo/src/primitives/field.rs:395-411 From<FieldRef> for Field *)
Definition field_owned (f : field) : ofield :=
  OField (tag_owned (f_tag f)) (option_map occ_owned (f_occ f)) (map subfield_owned (f_subfields f)).
(** /repo/src/primitives/record.rs:237-255 From<RecordRef> for Record *)
Definition record_owned (r : record) : orecord := ORecord (map field_owned r).

(** ** Constructors *)

(** /repo/src/primitives/tag.rs:252-254 Tag::new *)
Definition otag_new (t : bytes) : option otag := do r <- tag_from_bytes t; Some (tag_owned r).
(** /repo/src/primitives/occurrence.rs:179-183 Occurrence::new *)
Definition oocc_new (o : bytes) : option oocc := do r <- occ_from_bytes o; Some (occ_owned r).
(** /repo/src/primitives/subfield.rs:336-338 SubfieldValue::new *)
Definition ovalue_new (v : bytes) : option ovalue := do r <- value_new v; Some (value_owned r).
(** /repo/src/primitives/subfield.rs:688-693 Subfield::new *)
Definition osubfield_new (c : byte) (v : bytes) : option osubfield :=
  do r <- subfield_new c v; Some (subfield_owned r).
(** /repo/src/primitives/field.rs:329-354 Field::new *)
Definition ofield_new (t : bytes) (o : option bytes) (sfs : list (byte * bytes)) : option ofield :=
  do tag <- otag_new t;
  do occ <- (match o with
             | Some v => do x <- oocc_new v; Some (Some x)
             | None => Some None
             end);
  do subs <- collect (fun cv => osubfield_new (fst cv) (snd cv)) sfs;
  Some (OField tag occ subs).

(** ** Comparisons of a borrowed with an owned value *)

(** /repo/src/primitives/tag.rs:354-372 PartialEq<Tag> for TagRef *)
Definition tag_eq_owned (a : bytes) (b : otag) : bool := let (y) := b in bytes_eqb a y.
(** /repo/src/primitives/tag.rs:334-352 PartialEq<TagRef> for Tag *)
Definition otag_eq_ref (a : otag) (b : bytes) : bool := let (x) := a in bytes_eqb x b.
(** /repo/src/primitives/occurrence.rs:285-303 PartialEq<Occurrence> for OccurrenceRef *)
Definition occ_eq_owned (a : bytes) (b : oocc) : bool := let (y) := b in bytes_eqb a y.
(** /repo/src/primitives/subfield.rs:471-489 PartialEq<SubfieldValue> for SubfieldValueRef *)
Definition value_eq_owned (a : bytes) (b : ovalue) : bool := let (y) := b in bytes_eqb a y.
(** /repo/src/primitives/subfield.rs:431-449 PartialEq<SubfieldValueRef> for SubfieldValue *)
Definition ovalue_eq_ref (a : ovalue) (b : bytes) : bool := let (x) := a in bytes_eqb x b.
(** /repo/src/primitives/subfield.rs:778-796 PartialEq<Subfield> for SubfieldRef *)
Definition subfield_eq_owned (a : subfield) (b : osubfield) : bool :=
  let (c, v) := b in (sf_code a =? c) && value_eq_owned (sf_value a) v.

(** [Vec<A> == Vec<B>] *)
Fixpoint vec_eqb {A B} (eqb : A -> B -> bool) (a : list A) (b : list B) : bool :=
  match a, b with
  | [], [] => true
  | x :: a', y :: b' => eqb x y && vec_eqb eqb a' b'
  | _, _ => false
  end.

(** /repo/src/primitives/field.rs:413-426 PartialEq<Field> for FieldRef *)
Definition field_eq_owned (a : field) (b : ofield) : bool :=
  let (t, o, s) := b in
  let occ_eq := match f_occ a, o with
                | Some lhs, Some rhs => occ_eq_owned lhs rhs
                | None, None => true
                | _, _ => false
                end in
  tag_eq_owned (f_tag a) t && occ_eq && vec_eqb subfield_eq_owned (f_subfields a) s.
(** /repo/src/primitives/field.rs:428-433 PartialEq<FieldRef> for Field *)
Definition ofield_eq_ref (a : ofield) (b : field) : bool := field_eq_owned b a.
(** /repo/src/primitives/record.rs:257-261 PartialEq<Record> for RecordRef *)
Definition record_eq_owned (a : record) (b : orecord) : bool :=
  let (fs) := b in vec_eqb field_eq_owned a fs.
(** /repo/src/primitives/record.rs:263-267 PartialEq<RecordRef> for Record *)
Definition orecord_eq_ref (a : orecord) (b : record) : bool :=
  let (fs) := a in vec_eqb ofield_eq_ref fs b.

(** ** Writers *)

(** /repo/src/primitives/tag.rs:291-293 Tag::write_to *)
Definition write_otag (t : otag) : bytes := let (b) := t in b.
(** /repo/src/primitives/occurrence.rs:236-238 Occurrence::write_to.  Display of
    a [BString] replaces what is no UTF-8; an occurrence is ASCII. *)
Definition write_oocc (o : oocc) : bytes := let (b) := o in lit "/" ++ b.
(** /repo/src/primitives/subfield.rs:750-753 Subfield::write_to, :378-380
    SubfieldValue::as_bytes *)
Definition write_osubfield (s : osubfield) : bytes :=
  let (c, v) := s in let (b) := v in [US; c] ++ b.
(** /repo/src/primitives/field.rs:378-392 Field::write_to *)
Definition write_ofield (f : ofield) : bytes :=
  let (t, o, s) := f in
  write_otag t ++ (match o with Some x => write_oocc x | None => [] end)
  ++ [SP] ++ flat_map write_osubfield s ++ [RS].
(** /repo/src/primitives/record.rs:224-234 Record::write_to *)
Definition write_orecord (r : orecord) : bytes :=
  let (fs) := r in
  if negb (match fs with [] => true | _ => false end) then flat_map write_ofield fs ++ [LF] else [].

(** ** Display *)

(** /repo/src/primitives/tag.rs:157-161 Display for TagRef *)
Definition show_tag (t : bytes) : bytes := t.
(** /repo/src/primitives/tag.rs:374-391 Display for Tag *)
Definition show_otag (t : otag) : bytes := let (b) := t in b.
(** /repo/src/primitives/occurrence.rs:149-153 Display for OccurrenceRef *)
Definition show_occ (o : bytes) : bytes := lit "/" ++ o.
(** /repo/src/primitives/occurrence.rs:241-245 Display for Occurrence *)
Definition show_oocc (o : oocc) : bytes := let (b) := o in b.

(** ** Levels *)

(** /repo/src/primitives/tag.rs:24-36 FromStr for Level *)
Definition level_from_str (s : bytes) : option level :=
  if bytes_eqb s (lit "main") then Some LMain
  else if bytes_eqb s (lit "local") then Some LLocal
  else if bytes_eqb s (lit "copy") then Some LCopy
  else None.

(** * Serialisation with serde

    Model of the implementations of [Serialize] and [Deserialize] in /repo/src
    (feature "serde", switched on by /repo/crates/pica-cli/Cargo.toml:29).
    Those of the records and their parts are derived; what the derive macro, the
    standard types and [bstr] (feature "serde", /repo/Cargo.toml:28) do is part
    of the model and described at each definition.  Error values are not
    modelled: a rejected value is [None]. *)

From Coq Require Import String.
From Verif Require Import Bytes Winnow StateParser RecordModel OwnedModel ByteRecordModel TagOccModel
  MatcherModel MatcherParserModel PathModel QueryModel FmtModel.

(** The values of serde's data model that occur.  A flag tells whether bytes
    or strings are lent by the input ([visit_borrowed_bytes],
    [visit_borrowed_str]) or only shown or given away ([visit_bytes],
    [visit_byte_buf], [visit_str], [visit_string]); a serialiser ignores it.
    [SdU8s] is the sequence of numbers a slice of [u8] is serialised as. *)
Inductive sdv :=
| SdNum (n : N)
| SdChar (c : N)
| SdStr (lent : bool) (b : bytes)
| SdBytes (lent : bool) (b : bytes)
| SdU8s (b : bytes)
| SdNone
| SdSome (v : sdv)
| SdNewtype (v : sdv)
| SdVariant (name : bytes)
| SdSeq (l : list sdv)
| SdMap (l : list (bytes * sdv)).

(** ** Serialize *)

(** /repo/src/primitives/subfield.rs:20-21 SubfieldCode *)
Definition ser_code (c : byte) : sdv := SdNewtype (SdChar c).
(** [BStr] and [BString] call [serialize_bytes]; /repo/src/primitives/tag.rs:39-42
    TagRef and :232-233 Tag, occurrence.rs:14-17 OccurrenceRef and :157-159
    Occurrence, subfield.rs:160-163 SubfieldValueRef and :315-316 SubfieldValue
    are newtypes of them *)
Definition ser_text (b : bytes) : sdv := SdNewtype (SdBytes false b).
(** [Option] *)
Definition ser_option {A} (ser : A -> sdv) (o : option A) : sdv :=
  match o with Some x => SdSome (ser x) | None => SdNone end.
(** /repo/src/primitives/subfield.rs:501-506 SubfieldRef: a tuple struct *)
Definition ser_subfield (s : subfield) : sdv := SdSeq [ser_code (sf_code s); ser_text (sf_value s)].
(** /repo/src/primitives/field.rs:17-23 FieldRef *)
Definition ser_field (f : field) : sdv :=
  SdMap [(lit "tag", ser_text (f_tag f)); (lit "occurrence", ser_option ser_text (f_occ f));
         (lit "subfields", SdSeq (map ser_subfield (f_subfields f)))].
(** /repo/src/primitives/record.rs:13-17 RecordRef *)
Definition ser_record (r : record) : sdv := SdNewtype (SdSeq (map ser_field r)).
(** /repo/src/record.rs:14-19 ByteRecord; a [&[u8]] is serialised like a slice of
    anything, as a sequence *)
Definition ser_byte_record (r : byte_record) : sdv :=
  SdMap [(lit "raw_data", ser_option SdU8s (br_raw r)); (lit "record", ser_record (br_record r))].
(** /repo/src/record.rs:305-310 StringRecord *)
Definition ser_string_record (r : byte_record) : sdv := SdNewtype (ser_byte_record r).

(** /repo/src/primitives/subfield.rs:671-672 Subfield *)
Definition ser_osubfield (s : osubfield) : sdv :=
  let (c, v) := s in let (b) := v in SdSeq [ser_code c; ser_text b].
(** /repo/src/primitives/field.rs:305-310 Field *)
Definition ser_ofield (f : ofield) : sdv :=
  let (t, o, s) := f in
  SdMap [(lit "tag", ser_text (write_otag t));
         (lit "occurrence", ser_option (fun o => ser_text (show_oocc o)) o);
         (lit "subfields", SdSeq (map ser_osubfield s))].
(** /repo/src/primitives/record.rs:198-199 Record *)
Definition ser_orecord (r : orecord) : sdv := let (fs) := r in SdNewtype (SdSeq (map ser_ofield fs)).
(** /repo/src/primitives/tag.rs:16-22 Level: unit variants *)
Definition ser_level (l : RecordModel.level) : sdv :=
  SdVariant (match l with
             | RecordModel.LMain => lit "Main"
             | RecordModel.LLocal => lit "Local"
             | RecordModel.LCopy => lit "Copy"
             end).

(** /repo/src/path.rs:178-186 Serialize for Path *)
Definition ser_path (p : path) : sdv := SdStr false (path_display p).
(** /repo/src/query.rs:86-94 Serialize for Query *)
Definition ser_query (q : query) : sdv := SdStr false (query_display q).
(** /repo/src/fmt/mod.rs:374-382 Serialize for Format *)
Definition ser_format (f : format) : sdv := SdStr false (format_display f).
(** /repo/src/matcher/tag.rs:100-108 Serialize for TagMatcher *)
Definition ser_tag_matcher (m : tag_matcher) : sdv := SdStr false (tm_display m).
(** /repo/src/matcher/field/mod.rs:790-798 Serialize for FieldMatcher and
    /repo/src/matcher/record.rs:302-310 for RecordMatcher, which is identified with
    its content *)
Definition ser_field_matcher (m : field_matcher) : sdv := SdStr false (fm_display m).
(** /repo/src/matcher/subfield/mod.rs:1408-1416 Serialize for SubfieldMatcher *)
Definition ser_subfield_matcher (m : subfield_matcher) : sdv := SdStr false (sm_display m).

(** ** Deserialize *)

(** the visitor of a derived newtype; a format without newtypes hands over the
    inner value *)
Definition de_newtype {A} (de : sdv -> option A) (v : sdv) : option A :=
  match v with SdNewtype x => de x | _ => de v end.
(** [char]: [visit_char], [visit_str] of a single character (simplified: of a
    single ASCII character) *)
Definition de_char (v : sdv) : option N :=
  match v with
  | SdChar c => Some c
  | SdStr _ [c] => if c <? 128 then Some c else None
  | _ => None
  end.
(** [&BStr]: [visit_borrowed_bytes] and [visit_borrowed_str], nothing else *)
Definition de_bstr (v : sdv) : option bytes :=
  match v with
  | SdBytes true b | SdStr true b => Some b
  | _ => None
  end.
(** [u8] *)
Definition de_u8 (v : sdv) : option N :=
  match v with SdNum n => if n <? 256 then Some n else None | _ => None end.
(** [BString]: bytes and strings, lent or not, and sequences of [u8] *)
Definition de_bstring (v : sdv) : option bytes :=
  match v with
  | SdBytes _ b | SdStr _ b => Some b
  | SdU8s b => Some b
  | SdSeq l => collect de_u8 l
  | _ => None
  end.
(** [&[u8]]: [visit_borrowed_bytes] and [visit_borrowed_str], nothing else *)
Definition de_slice (v : sdv) : option bytes := de_bstr v.
(** [Option]; a format without options hands over the value itself *)
Definition de_option {A} (de : sdv -> option A) (v : sdv) : option (option A) :=
  match v with
  | SdNone => Some None
  | SdSome x => do y <- de x; Some (Some y)
  | _ => do y <- de v; Some (Some y)
  end.
(** [Vec] *)
Definition de_vec {A} (de : sdv -> option A) (v : sdv) : option (list A) :=
  match v with SdSeq l => collect de l | _ => None end.
(** the visitor of a derived struct, given a map: the value of a key, an error if
    the key comes twice; other keys are ignored *)
Definition entries (k : bytes) (l : list (bytes * sdv)) : list sdv :=
  map snd (filter (fun kv => bytes_eqb (fst kv) k) l).
(** a field of a derived struct: missing is an error *)
Definition de_entry {A} (de : sdv -> option A) (k : bytes) (l : list (bytes * sdv)) : option A :=
  match entries k l with
  | [v] => de v
  | _ => None
  end.
(** a field of type [Option]: missing means [None] *)
Definition de_opt_entry {A} (de : sdv -> option A) (k : bytes) (l : list (bytes * sdv))
  : option (option A) :=
  match entries k l with
  | [] => Some None
  | [v] => de_option de v
  | _ => None
  end.

(** /repo/src/primitives/subfield.rs:20-21 SubfieldCode *)
Definition de_code (v : sdv) : option byte := de_newtype de_char v.
(** TagRef, OccurrenceRef, SubfieldValueRef, as at [ser_text] *)
Definition de_text (v : sdv) : option bytes := de_newtype de_bstr v.
(** Tag, Occurrence, SubfieldValue, as at [ser_text] *)
Definition de_otext (v : sdv) : option bytes := de_newtype de_bstring v.
(** /repo/src/primitives/subfield.rs:501-506 SubfieldRef.  Whether elements may
    follow the second one is decided by the format; here they may not. *)
Definition de_subfield (v : sdv) : option subfield :=
  match v with
  | SdSeq [c; x] => do c' <- de_code c; do x' <- de_text x; Some (mkSubfield c' x')
  | _ => None
  end.
(** /repo/src/primitives/field.rs:17-23 FieldRef: from a map or from a sequence of
    the three fields *)
Definition de_field (v : sdv) : option field :=
  match v with
  | SdMap l =>
      do t <- de_entry de_text (lit "tag") l;
      do o <- de_opt_entry de_text (lit "occurrence") l;
      do s <- de_entry (de_vec de_subfield) (lit "subfields") l;
      Some (mkField t o s)
  | SdSeq [t; o; s] =>
      do t' <- de_text t; do o' <- de_option de_text o; do s' <- de_vec de_subfield s;
      Some (mkField t' o' s')
  | _ => None
  end.
(** /repo/src/primitives/record.rs:13-17 RecordRef *)
Definition de_record (v : sdv) : option record := de_newtype (de_vec de_field) v.
(** /repo/src/record.rs:14-19 ByteRecord *)
Definition de_byte_record (v : sdv) : option byte_record :=
  match v with
  | SdMap l =>
      do d <- de_opt_entry de_slice (lit "raw_data") l;
      do r <- de_entry de_record (lit "record") l;
      Some (mkBR d r)
  | SdSeq [d; r] =>
      do d' <- de_option de_slice d; do r' <- de_record r; Some (mkBR d' r')
  | _ => None
  end.
(** /repo/src/record.rs:305-310 StringRecord *)
Definition de_string_record (v : sdv) : option byte_record := de_newtype de_byte_record v.

(** /repo/src/primitives/subfield.rs:671-672 Subfield *)
Definition de_osubfield (v : sdv) : option osubfield :=
  match v with
  | SdSeq [c; x] => do c' <- de_code c; do x' <- de_otext x; Some (OSubfield c' (OValue x'))
  | _ => None
  end.
(** /repo/src/primitives/field.rs:305-310 Field *)
Definition de_ofield (v : sdv) : option ofield :=
  match v with
  | SdMap l =>
      do t <- de_entry de_otext (lit "tag") l;
      do o <- de_opt_entry de_otext (lit "occurrence") l;
      do s <- de_entry (de_vec de_osubfield) (lit "subfields") l;
      Some (OField (OTag t) (option_map OOcc o) s)
  | SdSeq [t; o; s] =>
      do t' <- de_otext t; do o' <- de_option de_otext o; do s' <- de_vec de_osubfield s;
      Some (OField (OTag t') (option_map OOcc o') s')
  | _ => None
  end.
(** /repo/src/primitives/record.rs:198-199 Record *)
Definition de_orecord (v : sdv) : option orecord :=
  do fs <- de_newtype (de_vec de_ofield) v; Some (ORecord fs).
(** /repo/src/primitives/tag.rs:16-22 Level *)
Definition de_level (v : sdv) : option RecordModel.level :=
  match v with
  | SdVariant b | SdStr _ b =>
      if bytes_eqb b (lit "Main") then Some RecordModel.LMain
      else if bytes_eqb b (lit "Local") then Some RecordModel.LLocal
      else if bytes_eqb b (lit "Copy") then Some RecordModel.LCopy
      else None
  | _ => None
  end.

(** [String] (simplified: from strings only) *)
Definition de_string (v : sdv) : option bytes :=
  match v with SdStr _ b => Some b | _ => None end.
(** /repo/src/path.rs:188-197 Deserialize for Path *)
Definition de_path (O : oracles) (s : levels) (v : sdv) : option (option path) * levels :=
  match de_string v with Some b => path_new O s b | None => (Some None, s) end.
(** /repo/src/query.rs:96-105 Deserialize for Query *)
Definition de_query (O : oracles) (s : levels) (v : sdv) : option (option query) * levels :=
  match de_string v with Some b => query_new O s b | None => (Some None, s) end.
(** /repo/src/fmt/mod.rs:384-393 Deserialize for Format *)
Definition de_format (O : oracles) (s : levels) (v : sdv) : option (option format) * levels :=
  match de_string v with Some b => format_new O s b | None => (Some None, s) end.
(** /repo/src/matcher/tag.rs:110-119 Deserialize for TagMatcher *)
Definition de_tag_matcher (v : sdv) : option tag_matcher :=
  do b <- de_string v; tag_matcher_new b.
(** /repo/src/matcher/field/mod.rs:800-809 Deserialize for FieldMatcher and
    /repo/src/matcher/record.rs:312-321 for RecordMatcher *)
Definition de_field_matcher (O : oracles) (s : levels) (v : sdv) : option (option field_matcher) * levels :=
  match de_string v with Some b => field_matcher_new O s b | None => (Some None, s) end.
(** /repo/src/matcher/subfield/mod.rs:1418-1427 Deserialize for SubfieldMatcher *)
Definition de_subfield_matcher (O : oracles) (s : levels) (v : sdv) : option (option subfield_matcher) * levels :=
  match de_string v with Some b => subfield_matcher_new O s b | None => (Some None, s) end.

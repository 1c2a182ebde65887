(** * convert

    Model of /repo/crates/pica-cli/src/commands/convert. *)

From Coq Require Import String.
From Verif Require Import Bytes Winnow RecordModel Utf8Model ByteRecordModel ReaderModel CliModel.

(** /repo/crates/pica-cli/src/commands/convert/mod.rs:21-28 Format *)
Inductive format := TBinary | TImport | TJson | TPlain | TPlus | TXml.

(** tag and occurrence as the writers start a field, e.g.
    /repo/crates/pica-cli/src/commands/convert/binary.rs:30-35 *)
Definition conv_start (f : field) : bytes :=
  f_tag f ++ (match f_occ f with Some o => write_occ o | None => [] end) ++ [SP].

(** /repo/crates/pica-cli/src/commands/convert/binary.rs:25-45
    BinaryWriter::write_byte_record *)
Definition binary_field (f : field) : bytes :=
  conv_start f ++ flat_map write_subfield (f_subfields f) ++ [30].
Definition binary_record (r : record) : bytes := flat_map binary_field r ++ [29].

(** /repo/crates/pica-cli/src/commands/convert/import.rs:25-48
    ImportWriter::write_byte_record *)
Definition import_field (f : field) : bytes :=
  [30] ++ conv_start f ++ flat_map write_subfield (f_subfields f) ++ [10].
Definition import_record (r : record) : bytes := [39; 29; 10] ++ flat_map import_field r.

(** /repo/crates/pica-cli/src/commands/convert/plain.rs:26-50
    PlainWriter::write_byte_record; [replace(b"$", b"$$")] *)
Definition plain_value (v : bytes) : bytes := flat_map (fun c => if c =? 36 then [36; 36] else [c]) v.
Definition plain_subfield (s : subfield) : bytes := [36; sf_code s] ++ plain_value (sf_value s).
Definition plain_field (f : field) : bytes :=
  conv_start f ++ flat_map plain_subfield (f_subfields f) ++ [10].
Definition plain_record (r : record) : bytes := flat_map plain_field r.

(** ** JSON *)

(** [serde_json::Value], the variants used *)
Inductive json := JNull | JString (s : bytes) | JArray (l : list json).

(** [Display] of [Value] (external crate serde_json, compact formatter): strings
    with the short escapes where there are any, and [\u00xx] for the other
    control characters *)
Definition json_escape (c : byte) : bytes :=
  if c =? 34 then [92; 34]
  else if c =? 92 then [92; 92]
  else if c =? 8 then [92; 98]
  else if c =? 9 then [92; 116]
  else if c =? 10 then [92; 110]
  else if c =? 12 then [92; 102]
  else if c =? 13 then [92; 114]
  else if c <? 32 then lit "\u00" ++ [hex_digit (c / 16); hex_digit (c mod 16)]
  else [c].
Fixpoint json_print (v : json) : bytes :=
  match v with
  | JNull => lit "null"
  | JString s => [34] ++ flat_map json_escape s ++ [34]
  | JArray l =>
      [91] ++ (match l with
               | [] => []
               | x :: l' => json_print x ++ flat_map (fun y => [44] ++ json_print y) l'
               end) ++ [93]
  end.

Section Convert.
  (** [BStr::to_string]: lossy decoding *)
  Variable lossy : bytes -> bytes.
  (** the escaping of texts by the external crate quick_xml *)
  Variable xml_escape : bytes -> bytes.

  (** /repo/crates/pica-cli/src/commands/convert/json.rs:34-59.  [to_string] of an
      occurrence prints the slash
      (/repo/src/primitives/occurrence.rs:149-153). *)
  Definition json_field (f : field) : json :=
    JArray (JString (lossy (f_tag f))
            :: (match f_occ f with Some o => JString (SLASH :: lossy o) | None => JNull end)
            :: flat_map (fun s => [JString [sf_code s]; JString (lossy (sf_value s))]) (f_subfields f)).
  Definition json_record (r : record) : json := JArray (map json_field r).

  (** /repo/crates/pica-cli/src/commands/convert/xml.rs:52-94
      XmlWriter::write_byte_record, with the indentation of quick_xml's writer
      (4 spaces per level, each start and end tag on a new line unless after a
      text).  [None] is the panic of [to_str().unwrap()].  Tags and codes contain
      no character that is escaped. *)
  Definition xml_subfield (s : subfield) : option bytes :=
    if utf8_valid (sf_value s)
    then Some (LF :: lit "            <subfield code=""" ++ [sf_code s] ++ lit """>"
               ++ xml_escape (sf_value s) ++ lit "</subfield>")
    else None.
  Definition xml_field (f : field) : option bytes :=
    do ts <- collect xml_subfield (f_subfields f);
    Some (LF :: lit "        <datafield tag=""" ++ lossy (f_tag f) ++ lit """>" ++ concat ts
          ++ LF :: lit "        </datafield>").
  Definition xml_record (r : record) : option bytes :=
    do ts <- collect xml_field r;
    Some (LF :: lit "    <record>" ++ concat ts ++ LF :: lit "    </record>").

  (** ** The command *)

  (** The writers: what [new] writes, e.g.
      /repo/crates/pica-cli/src/commands/convert/json.rs:22, xml.rs:25-45 *)
  Definition conv_open (t : format) : bytes :=
    match t with
    | TJson => [91]
    | TXml => lit "<?xml version=""1.0"" encoding=""UTF-8""?>" ++ LF
              :: lit "<collection targetNamespace=""info:srw/schema/5/picaXML-v1.0"" "
              ++ lit "xmlns:xs=""http://www.w3.org/2001/XMLSchema"" "
              ++ lit "xmlns=""info:srw/schema/5/picaXML-v1.0"">"
    | _ => []
    end.

  (** [write_byte_record]; [count] is the number of records written before
      (/repo/crates/pica-cli/src/commands/convert/json.rs:61-69) *)
  Definition conv_write (t : format) (count : N) (r : byte_record) : option bytes :=
    match t with
    | TBinary => Some (binary_record (br_record r))
    | TImport => Some (import_record (br_record r))
    | TJson => Some ((if 0 <? count then [44] else []) ++ json_print (json_record (br_record r)))
    | TPlain => Some (plain_record (br_record r))
    | TPlus => Some (br_write r)
    | TXml => xml_record (br_record r)
    end.

  (** [finish], /repo/crates/pica-cli/src/commands/convert/json.rs:72-75,
      xml.rs:96-101 *)
  Definition conv_close (t : format) : bytes :=
    match t with TJson => [93] | TXml => LF :: lit "</collection>" | _ => [] end.

  (** /repo/crates/pica-cli/src/commands/convert/mod.rs:95-112 *)
  Definition convert_body (t : format) (s : N * bytes) (r : byte_record) : step (N * bytes) :=
    match conv_write t (fst s) r with
    | None => Panic
    | Some b => Next (fst s + 1, snd s ++ b)
    end.
  Definition convert_run (t : format) (skip : bool) (files : list (bytes * bytes)) : option (ending bytes) :=
    finish_with (fun s => Some (snd s ++ conv_close t)) snd
      (run_loop (on_result skip (convert_body t)) (0, conv_open t) files).

  (** /repo/crates/pica-cli/src/commands/convert/mod.rs:73-118 Convert::execute;
      [None] is the error for an unsupported input format *)
  Definition convert_execute (from to : format) (skip : bool) (files : list (bytes * bytes))
    : option (option (ending bytes)) :=
    match from with
    | TPlus => Some (convert_run to skip files)
    | _ => None
    end.
End Convert.

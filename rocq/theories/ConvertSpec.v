(** * Specification of the formats written by convert *)

From Coq Require Import String.
From Verif Require Import Bytes RecordModel RecordSpec Utf8Spec ByteRecordModel CliSpec ConvertModel.

(** ** PICA binary and import

    Both frame the text of a field (RecordSpec.v) without its terminator. *)

Definition framed (before after : bytes) (f : field) (t : bytes) : Prop :=
  exists b, field_text f (b ++ [30]) /\ t = before ++ b ++ after.

(** fields terminated by 0x1e, records by 0x1d *)
Definition binary_text (r : record) (t : bytes) : Prop :=
  exists ts, Forall2 (framed [] [30]) r ts /\ t = concat ts ++ [29].

(** a line "'", 0x1d; then a line per field, starting with 0x1e *)
Definition import_text (r : record) (t : bytes) : Prop :=
  exists ts, Forall2 (framed [30] [10]) r ts /\ t = [39; 29; 10] ++ concat ts.

(** ** PICA plain *)

(** values with doubled '$' *)
Inductive doubled : bytes -> bytes -> Prop :=
| dbl_nil : doubled [] []
| dbl_dollar : forall v t, doubled v t -> doubled (36 :: v) (36 :: 36 :: t)
| dbl_other : forall c v t, c <> 36 -> doubled v t -> doubled (c :: v) (c :: t).

Definition plain_subfield_text (s : subfield) (t : bytes) : Prop :=
  exists v, doubled (sf_value s) v /\ t = 36 :: sf_code s :: v.

(** a line per field *)
Definition plain_field_text (f : field) (t : bytes) : Prop :=
  exists o ts, occ_text (f_occ f) o /\ Forall2 plain_subfield_text (f_subfields f) ts
    /\ t = f_tag f ++ o ++ [32] ++ concat ts ++ [10].
Definition plain_text (r : record) (t : bytes) : Prop :=
  exists ts, Forall2 plain_field_text r ts /\ t = concat ts.

(** ** JSON (RFC 8259)

    The part of the grammar without white space, numbers, booleans, objects and
    [\u] escapes from 0x80 on; bytes from 0x80 on stand for themselves (UTF-8). *)

Definition hex_value (c v : N) : Prop :=
  (48 <= c <= 57 /\ v = c - 48) \/ (97 <= c <= 102 /\ v = c - 87) \/ (65 <= c <= 70 /\ v = c - 55).

Inductive json_char : bytes -> byte -> Prop :=
| jc_plain : forall c, 32 <= c -> c <> 34 -> c <> 92 -> json_char [c] c
| jc_short : forall e c,
    In (e, c) [(34, 34); (92, 92); (47, 47); (98, 8); (102, 12); (110, 10); (114, 13); (116, 9)] ->
    json_char [92; e] c
| jc_hex : forall a b va vb, hex_value a va -> hex_value b vb -> 16 * va + vb < 128 ->
    json_char (lit "\u00" ++ [a; b]) (16 * va + vb).

Inductive json_chars : bytes -> bytes -> Prop :=
| jcs_nil : json_chars [] []
| jcs_cons : forall t c ts s, json_char t c -> json_chars ts s -> json_chars (t ++ ts) (c :: s).

(** a text and the value it stands for *)
Inductive json_text : bytes -> json -> Prop :=
| jt_null : json_text (lit "null") JNull
| jt_string : forall t s, json_chars t s -> json_text ([34] ++ t ++ [34]) (JString s)
| jt_empty : json_text [91; 93] (JArray [])
| jt_array : forall t l, json_items t l -> json_text ([91] ++ t ++ [93]) (JArray l)
with json_items : bytes -> list json -> Prop :=
| ji_one : forall t v, json_text t v -> json_items t [v]
| ji_more : forall t v ts l, json_text t v -> json_items ts l -> json_items (t ++ [44] ++ ts) (v :: l).

Scheme json_text_mut := Minimality for json_text Sort Prop
  with json_items_mut := Minimality for json_items Sort Prop.
Combined Scheme json_text_items from json_text_mut, json_items_mut.

(** the value of a field: tag, occurrence with slash or null, codes and values *)
Definition field_json (lossy : bytes -> bytes) (f : field) : json :=
  JArray (JString (f_tag f)
          :: (match f_occ f with Some o => JString ([47] ++ o) | None => JNull end)
          :: flat_map (fun s => [JString [sf_code s]; JString (lossy (sf_value s))]) (f_subfields f)).

(** ** PICA XML

    Elements with white space before the tags; [esc] is the escaping of text. *)

Definition white (w : bytes) : Prop := Forall (fun c => c = 32 \/ c = 10) w.

Definition xml_subfield_text (esc : bytes -> bytes) (s : subfield) (t : bytes) : Prop :=
  exists w, white w
    /\ t = w ++ lit "<subfield code=""" ++ [sf_code s] ++ lit """>" ++ esc (sf_value s) ++ lit "</subfield>".
Definition xml_field_text (esc : bytes -> bytes) (f : field) (t : bytes) : Prop :=
  exists w w' ts, white w /\ white w' /\ Forall2 (xml_subfield_text esc) (f_subfields f) ts
    /\ t = w ++ lit "<datafield tag=""" ++ f_tag f ++ lit """>" ++ concat ts ++ w' ++ lit "</datafield>".
Definition xml_record_text (esc : bytes -> bytes) (r : record) (t : bytes) : Prop :=
  exists w w' ts, white w /\ white w' /\ Forall2 (xml_field_text esc) r ts
    /\ t = w ++ lit "<record>" ++ concat ts ++ w' ++ lit "</record>".
Definition xml_text (esc : bytes -> bytes) (rs : list record) (t : bytes) : Prop :=
  exists w w' ts, white w /\ white w' /\ Forall2 (xml_record_text esc) rs ts
    /\ t = lit "<?xml version=""1.0"" encoding=""UTF-8""?>" ++ w
           ++ lit "<collection targetNamespace=""info:srw/schema/5/picaXML-v1.0"" "
           ++ lit "xmlns:xs=""http://www.w3.org/2001/XMLSchema"" "
           ++ lit "xmlns=""info:srw/schema/5/picaXML-v1.0"">"
           ++ concat ts ++ w' ++ lit "</collection>".

(** ** Runs *)

(** the text of a complete conversion *)
Definition converted (lossy esc : bytes -> bytes) (t : format) (recs : list byte_record) (out : bytes) : Prop :=
  match t with
  | TPlus => lines_of recs out
  | TBinary => exists ts, Forall2 binary_text (map br_record recs) ts /\ out = concat ts
  | TImport => exists ts, Forall2 import_text (map br_record recs) ts /\ out = concat ts
  | TPlain => exists ts, Forall2 plain_text (map br_record recs) ts /\ out = concat ts
  | TJson => json_text out (JArray (map (fun r => JArray (map (field_json lossy) (br_record r))) recs))
  | TXml => xml_text esc (map br_record recs) out
  end.

(** equal but for the occurrences *)
Definition same_but_occ (f g : field) : Prop := f_tag f = f_tag g /\ f_subfields f = f_subfields g.

(** the escaping of XML: injective, without '<' *)
Definition xml_escaping (esc : bytes -> bytes) : Prop :=
  (forall v, ~ In 60 (esc v)) /\ (forall v w, esc v = esc w -> v = w).

(** lossy decoding keeps UTF-8 *)
Definition keeps_utf8 (lossy : bytes -> bytes) : Prop := forall v, is_utf8 v -> lossy v = v.

(** a value ending like a field followed by a record header of PICA import *)
Definition header_like (v : bytes) : Prop := exists p, v = p ++ [10; 39; 29].

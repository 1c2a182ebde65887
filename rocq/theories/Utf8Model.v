(** * UTF-8 validation

    [std::str::from_utf8] and bstr's [to_str] are library functions that are
    not part of /repo; their documented behaviour (the table of well-formed
    byte sequences of the Unicode standard) is modelled here. *)

From Verif Require Import Bytes RecordModel.

Definition is_cont (y : byte) : bool := (128 <=? y) && (y <=? 191).

(** second byte of a three byte sequence *)
Definition second3 (x y : byte) : bool :=
  if x =? 224 then (160 <=? y) && (y <=? 191)
  else if x =? 237 then (128 <=? y) && (y <=? 159)
  else is_cont y.

(** second byte of a four byte sequence *)
Definition second4 (x y : byte) : bool :=
  if x =? 240 then (144 <=? y) && (y <=? 191)
  else if x =? 244 then (128 <=? y) && (y <=? 143)
  else is_cont y.

Fixpoint utf8_valid (b : bytes) : bool :=
  match b with
  | [] => true
  | x :: r =>
      if x <? 128 then utf8_valid r
      else if (194 <=? x) && (x <=? 223) then
        match r with
        | y :: r' => is_cont y && utf8_valid r'
        | _ => false
        end
      else if (224 <=? x) && (x <=? 239) then
        match r with
        | y :: z :: r' => second3 x y && is_cont z && utf8_valid r'
        | _ => false
        end
      else if (240 <=? x) && (x <=? 244) then
        match r with
        | y :: z :: w :: r' => second4 x y && is_cont z && is_cont w && utf8_valid r'
        | _ => false
        end
      else false
  end.

(** [slice::is_ascii] *)
Definition is_ascii (b : bytes) : bool := forallb (fun c => c <? 128) b.

(** /repo/src/primitives/subfield.rs:609-616 SubfieldRef::validate *)
Definition subfield_validate (s : subfield) : bool :=
  if is_ascii (sf_value s) then true else utf8_valid (sf_value s).

(** /repo/src/primitives/field.rs:232-238 FieldRef::validate *)
Definition field_validate (f : field) : bool := forallb subfield_validate (f_subfields f).

(** /repo/src/primitives/record.rs:154-160 RecordRef::validate *)
Definition record_validate (r : record) : bool := forallb field_validate r.

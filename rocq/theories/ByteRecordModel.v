(** * Byte records with cached raw data

    Model of /repo/src/record.rs. *)

From Verif Require Import Bytes Winnow RecordModel TagOccModel Utf8Model.

(** /repo/src/record.rs:16-19 ByteRecord *)
Record byte_record := mkBR { br_raw : option bytes; br_record : record }.

(** /repo/src/record.rs:38-45 ByteRecord::from_bytes *)
Definition br_from_bytes (b : bytes) : option byte_record :=
  do r <- record_from_bytes b; Some (mkBR (Some b) r).

(** /repo/src/record.rs:282-287 From<RecordRef> *)
Definition br_from_record (r : record) : byte_record := mkBR None r.

(** /repo/src/record.rs:68-73 ByteRecord::write_to *)
Definition br_write (r : byte_record) : bytes :=
  match br_raw r with
  | Some data => data
  | None => write_record (br_record r)
  end.

(** [Vec::retain] with a stateful closure ([FnMut]): the answer may depend on
    the fields already visited. *)
Fixpoint retain_mut (f : list field -> field -> bool) (seen l : list field) : list field :=
  match l with
  | [] => []
  | x :: l' =>
      if f seen x then x :: retain_mut f (seen ++ [x]) l'
      else retain_mut f (seen ++ [x]) l'
  end.

(** /repo/src/record.rs:91-94 ByteRecord::retain *)
Definition br_retain (f : list field -> field -> bool) (r : byte_record) : byte_record :=
  mkBR None (retain_mut f [] (br_record r)).

(** The loops of /repo/src/record.rs:125-133 and :167-174 *)
Fixpoint matches_any (preds : list (tag_matcher * occ_matcher)) (f : field) : bool :=
  match preds with
  | [] => false
  | (t, o) :: preds' =>
      if tm_is_match t (f_tag f) && om_is_match o (f_occ f) then true
      else matches_any preds' f
  end.

(** /repo/src/record.rs:119-136 ByteRecord::keep *)
Definition br_keep (preds : list (tag_matcher * occ_matcher)) (r : byte_record) : byte_record :=
  match preds with
  | [] => r
  | _ => br_retain (fun _ f => matches_any preds f) r
  end.

(** /repo/src/record.rs:161-177 ByteRecord::discard *)
Definition br_discard (preds : list (tag_matcher * occ_matcher)) (r : byte_record) : byte_record :=
  match preds with
  | [] => r
  | _ => br_retain (fun _ f => negb (matches_any preds f)) r
  end.

(** /repo/src/record.rs:200-210 ByteRecord::sha256; the digest itself is a
    parameter. *)
Definition br_sha256 (sha : bytes -> bytes) (r : byte_record) : bytes := sha (br_write r).

(** /repo/src/record.rs:222-227 DerefMut followed by RecordRef::retain
    (src/primitives/record.rs:137-139), i.e. [(&mut **rec).retain(f)]: the
    inner record is edited, the cached bytes are not. *)
Definition br_deref_retain (f : list field -> field -> bool) (r : byte_record) : byte_record :=
  mkBR (br_raw r) (retain_mut f [] (br_record r)).

(** /repo/src/record.rs:258-263 PartialEq *)
Definition br_eqb (a b : byte_record) : bool :=
  match br_raw a, br_raw b with
  | Some lhs, Some rhs => bytes_eqb lhs rhs
  | _, _ => record_eqb (br_record a) (br_record b)
  end.

(** /repo/src/record.rs:291-301 Hash: the bytes fed to the hasher *)
Definition br_hash_input (r : byte_record) : bytes :=
  match br_raw r with
  | Some data => data
  | None => br_write r
  end.

(** /repo/src/record.rs:333-336 StringRecord::try_from *)
Definition sr_try_from (r : byte_record) : option byte_record :=
  if record_validate (br_record r) then Some r else None.

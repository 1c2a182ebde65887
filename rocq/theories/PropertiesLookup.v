(** * Properties of lookups in fields and records *)

From Coq Require Import String.
From Verif Require Import Bytes RecordModel RecordSpec QuerySpec LookupProofs PropertiesRecord.

(** C68 *)
Theorem C68_contains : forall f c,
  field_contains f c = true <-> exists s, In s (f_subfields f) /\ sf_code s = c.
Proof. exact contains_iff. Qed.
Print Assumptions C68_contains.

(** the first subfield with the property, with none before it *)
Theorem C68_find : forall f p s, field_find f p = Some s <->
  exists pre post, f_subfields f = pre ++ s :: post /\ p s = true /\ Forall (fun x => p x = false) pre.
Proof. exact find_some. Qed.
Print Assumptions C68_find.
Theorem C68_find_none : forall f p,
  field_find f p = None <-> forall s, In s (f_subfields f) -> p s = false.
Proof. exact find_none_iff. Qed.
Print Assumptions C68_find_none.

(** retain keeps the fields with the property, in order *)
Theorem C68_retain : forall p r out,
  picks (fun f => p f = true) (fun f => f) r out <-> out = record_retain p r.
Proof. exact retain_picks. Qed.
Print Assumptions C68_retain.

(** the level is given by the first character of the tag *)
Theorem C68_level : forall t, valid_tag t -> exists c t' l, t = c :: t' /\ tag_level t = Some l
  /\ (l = LMain <-> c = 48) /\ (l = LLocal <-> c = 49) /\ (l = LCopy <-> c = 50).
Proof. exact level_of_tag. Qed.
Print Assumptions C68_level.

Example C68_sample :
  field_contains (mkField (lit "012A") None [mkSubfield 97 (lit "x"); mkSubfield 97 (lit "y")]) 97 = true
  /\ field_find (mkField (lit "012A") None [mkSubfield 97 (lit "x"); mkSubfield 97 (lit "y")])
       (fun s => sf_code s =? 97) = Some (mkSubfield 97 (lit "x"))
  /\ record_retain (fun f => field_contains f 98) sample_record
     = [mkField (lit "012A") (Some (lit "01")) [mkSubfield 97 (lit "bc"); mkSubfield 98 []]]
  /\ tag_level (lit "101@") = Some LLocal.
Proof. vm_compute. repeat split. Qed.

(** * C78, C79: owned values *)

From Coq Require Import String.
From Verif Require Import Bytes Winnow RecordModel RecordSpec OwnedModel OwnedProofs PropertiesRecord.

(** C78: converting loses nothing *)
Theorem C78_conversion : (forall a b, record_owned a = record_owned b -> a = b)
  /\ (forall o, exists a, o = record_owned a).
Proof. exact owned_bijective. Qed.
Print Assumptions C78_conversion.

(** C78: comparing a borrowed with an owned record, in either order, answers
    whether the owned one is the converted borrowed one *)
Theorem C78_record_comparison : forall r o,
  (record_eq_owned r o = true <-> o = record_owned r) /\ orecord_eq_ref o r = record_eq_owned r o.
Proof. exact comparisons. Qed.
Print Assumptions C78_record_comparison.

Theorem C78_field_comparison : forall f o,
  (field_eq_owned f o = true <-> o = field_owned f) /\ ofield_eq_ref o f = field_eq_owned f o.
Proof. exact field_comparisons. Qed.
Print Assumptions C78_field_comparison.

Theorem C78_part_comparison :
  (forall t o, (tag_eq_owned t o = true <-> o = OTag t) /\ (otag_eq_ref o t = true <-> o = OTag t))
  /\ (forall x o, occ_eq_owned x o = true <-> o = OOcc x)
  /\ (forall v o, (value_eq_owned v o = true <-> o = OValue v) /\ (ovalue_eq_ref o v = true <-> o = OValue v))
  /\ (forall s o, subfield_eq_owned s o = true <-> o = OSubfield (sf_code s) (OValue (sf_value s))).
Proof. exact part_comparisons. Qed.
Print Assumptions C78_part_comparison.

(** C78: an owned record writes what the borrowed one writes *)
Theorem C78_writes_alike : forall r, write_orecord (record_owned r) = write_record r.
Proof. exact write_orecord_owned. Qed.
Print Assumptions C78_writes_alike.

(** C78: a record that was read and converted writes the bytes it was read from *)
Theorem C78_read_write : forall b r, record_from_bytes b = Some r -> write_orecord (record_owned r) = b.
Proof. exact owned_read_write. Qed.
Print Assumptions C78_read_write.

(** C78: what an owned record writes is read as a record equal to it *)
Theorem C78_write_read : forall o r, record_eq_owned r o = true -> r <> [] -> Forall valid_field r ->
  exists r', record_from_bytes (write_orecord o) = Some r' /\ record_eq_owned r' o = true.
Proof. exact owned_write_read. Qed.
Print Assumptions C78_write_read.

Example C78_sample : record_eq_owned sample_record (record_owned sample_record) = true
  /\ sample_record <> [] /\ Forall valid_field sample_record
  /\ write_orecord (record_owned sample_record) = sample_bytes
  /\ record_eq_owned sample_record (ORecord [OField (OTag (lit "003@")) None [OSubfield 48 (OValue (lit "x"))]]) = false.
Proof.
  split; [vm_compute; reflexivity|]. split; [exact (proj1 C02_sample)|]. split; [exact (proj2 C02_sample)|].
  split; vm_compute; reflexivity.
Qed.

(** C78: the constructors of owned values accept exactly the valid parts *)
Theorem C78_constructors :
  (forall t o, otag_new t = Some o <-> o = OTag t /\ valid_tag t)
  /\ (forall x o, oocc_new x = Some o <-> o = OOcc x /\ valid_occ x)
  /\ (forall v o, ovalue_new v = Some o <-> o = OValue v /\ valid_value v)
  /\ (forall c v o, osubfield_new c v = Some o <-> o = OSubfield c (OValue v) /\ valid_code c /\ valid_value v).
Proof. exact part_news. Qed.
Print Assumptions C78_constructors.

Theorem C78_field_constructor : forall t o sfs f, ofield_new t o sfs = Some f <->
  f = OField (OTag t) (option_map OOcc o) (map (fun cv => OSubfield (fst cv) (OValue (snd cv))) sfs)
  /\ valid_tag t /\ (forall x, o = Some x -> valid_occ x)
  /\ Forall (fun cv => valid_code (fst cv) /\ valid_value (snd cv)) sfs.
Proof. exact ofield_new_iff. Qed.
Print Assumptions C78_field_constructor.

Example C78_field_sample : ofield_new (lit "012A") (Some (lit "01")) [(97, lit "b"); (99, lit "d")]
  = Some (OField (OTag (lit "012A")) (Some (OOcc (lit "01"))) [OSubfield 97 (OValue (lit "b")); OSubfield 99 (OValue (lit "d"))])
  /\ ofield_new (lit "012A") (Some (lit "/01")) [] = None /\ ofield_new (lit "012a") None [] = None
  /\ ofield_new (lit "012A") None [(97, [31])] = None /\ ofield_new (lit "012A") None [(35, [])] = None.
Proof. vm_compute. repeat split. Qed.

(** C79: a printed tag reads back as the tag *)
Theorem C79_tags : forall t, valid_tag t ->
  tag_from_bytes (show_tag t) = Some t /\ otag_new (show_otag (tag_owned t)) = Some (tag_owned t)
  /\ show_otag (tag_owned t) = show_tag t.
Proof. exact shown_tags_read_back. Qed.
Print Assumptions C79_tags.

(** C79: a printed owned occurrence reads back.  Missing: borrowed ones, for
    which the statement fails. *)
Theorem C79_occurrences_partial : forall o, valid_occ o -> oocc_new (show_oocc (occ_owned o)) = Some (occ_owned o).
Proof. exact shown_oocc_reads_back. Qed.
Print Assumptions C79_occurrences_partial.

Example C79_case : valid_tag (lit "012A") /\ valid_occ (lit "01").
Proof.
  split; [apply (RecordProofs.tag_from_bytes_iff (lit "012A") (lit "012A"))|
          apply (RecordProofs.occ_from_bytes_iff (lit "01") (lit "01"))]; reflexivity.
Qed.

(** C79: no printed borrowed occurrence reads back *)
Theorem C79_occurrences_refuted : forall o, occ_from_bytes (show_occ o) = None /\ oocc_new (show_occ o) = None.
Proof. exact shown_occ_never_reads. Qed.
Print Assumptions C79_occurrences_refuted.

(** C79: an occurrence and its owned copy compare equal and never print the same *)
Theorem C79_same_text_refuted : forall o,
  occ_eq_owned o (occ_owned o) = true /\ show_occ o <> show_oocc (occ_owned o).
Proof. exact (fun o => conj (proj2 (occ_eq_owned_iff o (occ_owned o)) eq_refl) (shown_occ_differs o)). Qed.
Print Assumptions C79_same_text_refuted.

(** C79: a borrowed occurrence prints what both kinds write into a record *)
Theorem C79_printed_is_written : forall o, show_occ o = write_occ o /\ show_occ o = write_oocc (occ_owned o).
Proof. exact shown_occ_is_written. Qed.
Print Assumptions C79_printed_is_written.

(** C79: the names of the levels *)
Theorem C79_level_names : forall s l, level_from_str s = Some l <->
  (s = lit "main" /\ l = LMain) \/ (s = lit "local" /\ l = LLocal) \/ (s = lit "copy" /\ l = LCopy).
Proof. exact level_from_str_iff. Qed.
Print Assumptions C79_level_names.

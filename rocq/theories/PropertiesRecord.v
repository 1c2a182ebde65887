(** * Properties of records, byte records, reader and writer *)

From Coq Require Import String.
From Verif Require Import Bytes Winnow RecordModel RecordSpec RecordProofs
  TagOccModel TagOccSpec TagOccProofs Utf8Model Utf8Spec Utf8Proofs
  ByteRecordModel ByteRecordSpec ByteRecordProofs ReaderModel ReaderProofs.

(** A sample record: 003@ $0123456789X, 012A/01 with subfields a and b. *)
Definition sample_bytes : bytes :=
  lit "003@ " ++ [31] ++ lit "0123456789X" ++ [30]
  ++ lit "012A/01 " ++ [31] ++ lit "abc" ++ [31] ++ lit "b" ++ [30] ++ [10].
Definition sample_record : record :=
  [ mkField (lit "003@") None [mkSubfield 48 (lit "123456789X")];
    mkField (lit "012A") (Some (lit "01")) [mkSubfield 97 (lit "bc"); mkSubfield 98 []] ].

Theorem C01_parse_write_identity : forall b r,
  record_from_bytes b = Some r -> write_record r = b.
Proof. exact record_parse_write. Qed.
Print Assumptions C01_parse_write_identity.

Example C01_sample : record_from_bytes sample_bytes = Some sample_record.
Proof. vm_compute. reflexivity. Qed.

Theorem C02_write_parse_identity : forall r,
  r <> [] -> Forall valid_field r -> record_from_bytes (write_record r) = Some r.
Proof. exact record_write_parse. Qed.
Print Assumptions C02_write_parse_identity.

Example C02_sample : sample_record <> [] /\ Forall valid_field sample_record.
Proof. exact (record_from_bytes_valid sample_bytes sample_record C01_sample). Qed.

Theorem C03_accepts_exactly_the_grammar : forall b r,
  record_from_bytes b = Some r <-> record_text r b.
Proof. exact record_accept_iff. Qed.
Print Assumptions C03_accepts_exactly_the_grammar.

Theorem C03_rejects_everything_else : forall b,
  record_from_bytes b = None <-> (forall r, ~ record_text r b).
Proof. exact record_reject_iff. Qed.
Print Assumptions C03_rejects_everything_else.

Theorem C03_field_grammar : forall b f, field_from_bytes b = Some f <-> field_text f b.
Proof. exact field_accept_iff. Qed.
Print Assumptions C03_field_grammar.

Example C03_sample : record_text sample_record sample_bytes.
Proof. exact (proj1 (record_accept_iff _ _) C01_sample). Qed.

Example C03_rejects_samples :
  record_from_bytes [] = None
  /\ record_from_bytes [10] = None
  /\ record_from_bytes (removelast sample_bytes) = None
  /\ record_from_bytes (sample_bytes ++ [10]) = None.
Proof. vm_compute. auto. Qed.

Theorem C04_code : forall c c',
  (code_new c = Some c' <-> c' = c /\ valid_code c)
  /\ parse_all parse_subfield_code [c] = code_new c.
Proof. exact (fun c c' => conj (code_new_iff c c') (code_parser_agree c)). Qed.
Print Assumptions C04_code.

Theorem C04_value : forall v v',
  (value_new v = Some v' <-> v' = v /\ valid_value v)
  /\ value_from_bytes v = value_new v.
Proof. exact (fun v v' => conj (value_new_iff v v') (eq_sym (value_new_parser_agree v))). Qed.
Print Assumptions C04_value.

Theorem C04_tag : forall t t', tag_from_bytes t = Some t' <-> t' = t /\ valid_tag t.
Proof. exact tag_from_bytes_iff. Qed.
Print Assumptions C04_tag.

Theorem C04_occurrence : forall o o', occ_from_bytes o = Some o' <-> o' = o /\ valid_occ o.
Proof. exact occ_from_bytes_iff. Qed.
Print Assumptions C04_occurrence.

Theorem C04_subfield : forall c v,
  (forall s, subfield_new c v = Some s <-> s = mkSubfield c v /\ valid_subfield s)
  /\ subfield_new c v = subfield_from_bytes (31 :: c :: v).
Proof. exact (fun c v => conj (subfield_new_iff c v) (subfield_new_parser_agree c v)). Qed.
Print Assumptions C04_subfield.

Theorem C04_field : forall t o sfs f,
  field_new t o sfs = Some f <->
  f = mkField t o (map (fun cv => mkSubfield (fst cv) (snd cv)) sfs) /\ valid_field f.
Proof. exact field_new_iff. Qed.
Print Assumptions C04_field.

Theorem C04_record : forall l r,
  record_new l = Some r <->
  r = map (fun tos => mkField (fst (fst tos)) (snd (fst tos))
             (map (fun cv => mkSubfield (fst cv) (snd cv)) (snd tos))) l
  /\ Forall valid_field r.
Proof. exact record_new_iff. Qed.
Print Assumptions C04_record.

Example C04_sample : exists f, field_new (lit "012A") (Some (lit "01")) [(97, lit "bc"); (98, [])] = Some f
  /\ field_new (lit "012A") (Some (lit "1")) [] = None /\ code_new 33 = None /\ value_new [31] = None.
Proof. eexists. vm_compute. repeat split. Qed.

(** C05 *)
Theorem C05_edited_record_writes_current_fields : forall sha b r es,
  br_from_bytes b = Some r ->
  let r' := fold_left run_edit es r in
  edits_effect es (br_record r) (br_record r')
  /\ contents_text (br_record r') (br_write r')
  /\ br_sha256 sha r' = sha (br_write r').
Proof. exact edited_record_writes_current. Qed.
Print Assumptions C05_edited_record_writes_current_fields.

Example C05_sample :
  exists r, br_from_bytes sample_bytes = Some r
    /\ br_write (fold_left run_edit [EDiscard [(TMTag (lit "003@"), OMNone)]; ERetain (fun _ _ => true)] r)
       = lit "012A/01 " ++ [31] ++ lit "abc" ++ [31] ++ lit "b" ++ [30] ++ [10].
Proof. eexists. vm_compute. repeat split. Qed.

(** Finding: editing through [DerefMut] (RecordRef::retain on the inner
    record) bypasses the cache invalidation and leaves stale bytes. *)
Theorem C05_deref_mut_refuted : exists b r f,
  br_from_bytes b = Some r
  /\ ~ contents_text (br_record (br_deref_retain f r)) (br_write (br_deref_retain f r)).
Proof.
  exists sample_bytes. eexists. exists (fun _ _ => false). split; [vm_compute; reflexivity|].
  intros [[_ H]|H]; [discriminate|]. apply record_text_iff in H. destruct H as [H _]. apply H. reflexivity.
Qed.
Print Assumptions C05_deref_mut_refuted.

(** C06 *)
Theorem C06_eq_is_field_equality : forall a b,
  reachable a -> reachable b -> (br_eqb a b = true <-> br_record a = br_record b).
Proof. exact (fun a b Ha Hb => coherent_eqb a b (coherent_reachable a Ha) (coherent_reachable b Hb)). Qed.
Print Assumptions C06_eq_is_field_equality.

Theorem C06_eq_is_equivalence : forall a b c,
  reachable a -> reachable b -> reachable c ->
  br_eqb a a = true
  /\ br_eqb b a = br_eqb a b
  /\ (br_eqb a b = true -> br_eqb b c = true -> br_eqb a c = true).
Proof. exact reachable_equivalence. Qed.
Print Assumptions C06_eq_is_equivalence.

Theorem C06_equal_iff_same_hash_input : forall sha a b,
  reachable a -> reachable b ->
  (br_eqb a b = true <-> br_hash_input a = br_hash_input b)
  /\ (br_eqb a b = true -> br_sha256 sha a = br_sha256 sha b).
Proof. exact reachable_hash. Qed.
Print Assumptions C06_equal_iff_same_hash_input.

Example C06_sample :
  exists r, br_from_bytes sample_bytes = Some r
    /\ br_eqb r (br_from_record sample_record) = true
    /\ br_raw r <> br_raw (br_from_record sample_record).
Proof. eexists. vm_compute. repeat split. discriminate. Qed.

(** C07 *)
Theorem C07_keep : forall p r,
  (p = [] -> br_keep p r = r)
  /\ (p <> [] -> Selected (field_matched p) (br_record r) (br_record (br_keep p r))).
Proof. exact (fun p r => conj (keep_nil p r) (keep_selected p r)). Qed.
Print Assumptions C07_keep.

Theorem C07_discard : forall p r,
  (p = [] -> br_discard p r = r)
  /\ (p <> [] -> Selected (fun f => ~ field_matched p f) (br_record r) (br_record (br_discard p r))).
Proof. exact (fun p r => conj (discard_nil p r) (discard_selected p r)). Qed.
Print Assumptions C07_discard.

Theorem C07_keep_discard_partition : forall p r, p <> [] ->
  Split (br_record r) (br_record (br_keep p r)) (br_record (br_discard p r)).
Proof. exact keep_discard_split. Qed.
Print Assumptions C07_keep_discard_partition.

Theorem C07_idempotent_commute : forall p q r,
  br_record (br_keep p (br_keep p r)) = br_record (br_keep p r)
  /\ br_record (br_discard p (br_discard p r)) = br_record (br_discard p r)
  /\ br_record (br_keep p (br_discard q r)) = br_record (br_discard q (br_keep p r)).
Proof. exact (fun p q r => conj (keep_idem p r) (conj (discard_idem p r) (keep_discard_comm p q r))). Qed.
Print Assumptions C07_idempotent_commute.

Example C07_sample :
  br_record (br_keep [(TMTag (lit "012A"), OMAny)] (br_from_record sample_record)) = tl sample_record
  /\ br_record (br_discard [(TMTag (lit "012A"), OMAny)] (br_from_record sample_record)) = [hd (mkField [] None []) sample_record].
Proof. vm_compute. auto. Qed.

(** C08, first half; the second half (paths) is in PropertiesQuery.v *)
Theorem C08_string_record_iff_utf8 : forall r,
  (exists s, sr_try_from r = Some s) <->
  forall f s, In f (br_record r) -> In s (f_subfields f) -> is_utf8 (sf_value s).
Proof. exact string_record_iff. Qed.
Print Assumptions C08_string_record_iff_utf8.

Theorem C08_validator_is_utf8 : forall b, utf8_valid b = true <-> is_utf8 b.
Proof. exact utf8_valid_iff. Qed.
Print Assumptions C08_validator_is_utf8.

Example C08_sample : utf8_valid [226; 130; 172] = true /\ utf8_valid [237; 160; 128] = false
  /\ utf8_valid [192; 128] = false /\ utf8_valid [244; 143; 191; 191] = true.
Proof. vm_compute. auto. Qed.

(** C09 *)
Theorem C09_reader_one_result_per_line : forall input source,
  exists ls results rd,
    is_lines input ls /\ concat ls = input
    /\ drain next_byte_record (reader_new input source) = Some (results, rd)
    /\ length results = length ls
    /\ (forall k l, nth_error ls k = Some l ->
          (forall r, record_text r l -> nth_error results k = Some (inl (mkBR (Some l) r)))
          /\ ((forall r, ~ record_text r l) ->
              nth_error results k = Some (inr (EParse (N.of_nat k + 1) (rd_source (reader_new input source))))))
    /\ next_byte_record rd = (None, mkReader [] (rd_source rd) (rd_line rd + 1)).
Proof. exact reader_line_results. Qed.
Print Assumptions C09_reader_one_result_per_line.

Theorem C09_lines_are_unique : forall input ls ls',
  is_lines input ls -> is_lines input ls' -> ls = ls'.
Proof. exact (fun input ls ls' H H' => is_lines_unique input ls H ls' H'). Qed.
Print Assumptions C09_lines_are_unique.

Example C09_sample : exists res rd,
  drain next_byte_record (reader_new (sample_bytes ++ lit "junk" ++ [10] ++ sample_bytes ++ lit "x") None)
  = Some (res, rd)
  /\ map (fun r => match r with inl _ => 0 | inr (EParse n _) => n | inr (EUtf8 n) => n end) res = [0; 2; 0; 4].
Proof. eexists. eexists. split; vm_compute; reflexivity. Qed.

(** C10 *)
Theorem C10_written_records_are_read_back : forall recs source,
  Forall reachable recs ->
  Forall (fun r => br_record r <> [] /\ lf_free (br_record r)) recs ->
  exists data results rd,
    write_file wb_new false None recs = Some (FPlain data)
    /\ read_file false (FPlain data) = Some data
    /\ drain next_byte_record (reader_new data source) = Some (results, rd)
    /\ Forall2 (fun r res => exists r', res = inl r' /\ br_record r' = br_record r) recs results.
Proof. exact write_read_roundtrip. Qed.
Print Assumptions C10_written_records_are_read_back.

(** the same for a new, emptied or empty file, plain or named *.gz *)
Theorem C10_fresh_files_are_read_back : forall w ext_gz old recs source,
  (wb_gzip w = false \/ ext_gz = true) ->
  (wb_append w = false \/ old = None \/ old = Some (FPlain [])) ->
  Forall reachable recs ->
  Forall (fun r => br_record r <> [] /\ lf_free (br_record r)) recs ->
  exists f data results rd,
    write_file w ext_gz old recs = Some f
    /\ read_file ext_gz f = Some data
    /\ drain next_byte_record (reader_new data source) = Some (results, rd)
    /\ Forall2 (fun r res => exists r', res = inl r' /\ br_record r' = br_record r) recs results.
Proof. exact fresh_file_roundtrip. Qed.
Print Assumptions C10_fresh_files_are_read_back.

(** a newline inside a value breaks the round trip *)
Theorem C10_newline_breaks_roundtrip : exists r data results rd,
  reachable r /\ br_record r <> []
  /\ write_file wb_new false None [r] = Some (FPlain data)
  /\ drain next_byte_record (reader_new data None) = Some (results, rd)
  /\ results = [inr (EParse 1 None); inr (EParse 2 None)].
Proof.
  exists (br_from_record [mkField (lit "003@") None [mkSubfield 48 [49; 10; 50]]]).
  do 3 eexists. split.
  { apply reach_record. exact (proj2 (record_from_bytes_valid (lit "003@ " ++ [31; 48; 49; 10; 50; 30; 10]) _ eq_refl)). }
  split; [discriminate|]. split; [reflexivity|]. split; vm_compute; reflexivity.
Qed.
Print Assumptions C10_newline_breaks_roundtrip.

Example C10_sample : reachable (br_from_record sample_record) /\ lf_free sample_record.
Proof.
  split.
  - apply reach_record. exact (proj2 C02_sample).
  - intros f s [<-|[<-|[]]]; cbn; intros H; repeat destruct H as [<-|H]; try contradiction;
      cbn; intros K; repeat destruct K as [K|K]; discriminate || contradiction.
Qed.

(** C11: on every line, a UTF-8 error names the line before; a parse error
    names the line itself. *)
Theorem C11_string_reader_lines : forall input source ls k l,
  is_lines input ls -> nth_error ls k = Some l ->
  exists results rd,
    drain next_string_record (reader_new input source) = Some (results, rd)
    /\ ((forall r, ~ record_text r l) ->
         nth_error results k = Some (inr (EParse (N.of_nat k + 1) (rd_source (reader_new input source)))))
    /\ (forall r, record_text r l ->
         (forall f s, In f r -> In s (f_subfields f) -> is_utf8 (sf_value s)) ->
         nth_error results k = Some (inl (mkBR (Some l) r)))
    /\ (forall r, record_text r l ->
         ~ (forall f s, In f r -> In s (f_subfields f) -> is_utf8 (sf_value s)) ->
         nth_error results k = Some (inr (EUtf8 (N.of_nat k)))).
Proof. exact string_reader_results. Qed.
Print Assumptions C11_string_reader_lines.

(** C09: with the flag set, a caller skips exactly the lines that are no records;
    an invalid encoding is no reason to skip *)
Theorem C09_skipped_lines : forall input source ls k l skip,
  is_lines input ls -> nth_error ls k = Some l ->
  exists results rd,
    drain next_string_record (reader_new input source) = Some (results, rd)
    /\ ((exists e, nth_error results k = Some (inr e) /\ skip_parse_err e skip = true)
        <-> skip = true /\ forall r, ~ record_text r l).
Proof. exact string_reader_skips. Qed.
Print Assumptions C09_skipped_lines.

(** the property itself is refuted: the second line is reported as line 1 *)
Theorem C11_refuted : exists input results rd,
  drain next_string_record (reader_new input None) = Some (results, rd)
  /\ nth_error results 1 = Some (inr (EUtf8 1)).
Proof.
  exists (sample_bytes ++ lit "003@ " ++ [31; 48; 255; 30; 10]). do 2 eexists.
  split; vm_compute; reflexivity.
Qed.
Print Assumptions C11_refuted.

(** C31 *)
Theorem C31_never_gzip_and_append : forall cs w,
  wb_run wb_new cs = Some w -> wb_append w && wb_gzip w = false.
Proof. exact (fun cs w => wb_run_inv cs wb_new w eq_refl). Qed.
Print Assumptions C31_never_gzip_and_append.

Theorem C31_panics_exactly_on_combination : forall cs w c,
  wb_run wb_new cs = Some w ->
  (wb_step w c = None <->
   (c = CGzip true /\ wb_append w = true) \/ (c = CAppend true /\ wb_gzip w = true))
  /\ (forall w', wb_step w c = Some w' ->
        match c with
        | CGzip y => w' = mkWB (wb_append w) y
        | CAppend y => w' = mkWB y (wb_gzip w)
        end).
Proof. exact wb_panics. Qed.
Print Assumptions C31_panics_exactly_on_combination.

Example C31_sample :
  wb_run wb_new [CGzip true; CGzip false; CAppend true] = Some (mkWB true false)
  /\ wb_run wb_new [CGzip true; CAppend true] = None.
Proof. vm_compute. auto. Qed.

(** C57: plain files *)
Theorem C57_append_plain : forall w old recs source,
  wb_append w = true -> wb_gzip w = false ->
  (old = [] \/ exists p, old = p ++ [10]) ->
  Forall reachable recs ->
  Forall (fun r => br_record r <> [] /\ lf_free (br_record r)) recs ->
  exists data before after rd rd',
    write_file w false (Some (FPlain old)) recs = Some (FPlain data)
    /\ read_file false (FPlain data) = Some data
    /\ drain next_byte_record (reader_new old source) = Some (before, rd)
    /\ drain next_byte_record (reader_new data source) = Some (before ++ after, rd')
    /\ Forall2 (fun r res => exists r', res = inl r' /\ br_record r' = br_record r) recs after.
Proof. exact append_plain_roundtrip. Qed.
Print Assumptions C57_append_plain.

(** C57 is refuted for files named *.gz: append is accepted (the builder only
    looks at its gzip flag), a member with what a new file would have is written
    after the others, and the reader stops after the first one, so none of the
    appended records is ever read. *)
Theorem C57_append_gz_refuted : forall w m ms recs,
  wb_append w = true ->
  exists data, write_file wb_new true None recs = Some (FGzip [data])
    /\ write_file w true (Some (FGzip (m :: ms))) recs = Some (FGzip (m :: ms ++ [data]))
    /\ read_file true (FGzip (m :: ms ++ [data])) = Some m.
Proof.
  intros [a g] m ms recs Ha. cbn in Ha. subst a. unfold write_file, wb_kind. cbn.
  rewrite orb_true_r. eexists. repeat split; reflexivity.
Qed.
Print Assumptions C57_append_gz_refuted.

Example C57_sample : wb_run wb_new [CAppend true] = Some (mkWB true false)
  /\ write_file (mkWB true false) true (Some (FGzip [sample_bytes])) [br_from_record sample_record]
     = Some (FGzip [sample_bytes; sample_bytes]).
Proof. vm_compute. auto. Qed.

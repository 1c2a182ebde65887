(** * Properties of serialisation: C126, C127 *)

From Coq Require Import String Permutation.
From Verif Require Import Bytes Winnow StateParser RecordModel RecordSpec OwnedModel ByteRecordModel TagOccModel
  StrParserModel MatcherModel MatcherParserModel MatcherSpec PathModel QueryModel FmtModel Utf8Model GrammarSpec DisplaySpec
  SerdeModel SerdeSpec SerdeProofs
  PropertiesGrammar.

(** C126: an owned record is read back from whatever a format makes of it *)
Theorem C126_owned_partial : forall U r w,
  handed as_any U (ser_orecord r) w -> de_orecord w = Some r.
Proof. exact owned_back. Qed.
Print Assumptions C126_owned_partial.

(** a borrowed record, from a format that lends its byte strings *)
Theorem C126_borrowed_partial : forall U r w,
  handed as_lent U (ser_record r) w -> de_record w = Some r.
Proof. exact borrowed_back. Qed.
Print Assumptions C126_borrowed_partial.

(** a byte record or string record, if it has no raw data, or if the format hands
    a sequence of numbers back as bytes that it lends *)
Theorem C126_byte_record_partial : forall U r w,
  handed as_lent U (ser_byte_record r) w ->
  br_raw r = None \/ (forall b w, U b w -> as_lent b w) ->
  de_byte_record w = Some r /\ de_string_record w = Some r.
Proof. exact byte_record_back. Qed.
Print Assumptions C126_byte_record_partial.
Theorem C126_string_record_partial : forall U r w,
  handed as_lent U (ser_string_record r) w ->
  br_raw r = None \/ (forall b w, U b w -> as_lent b w) -> de_string_record w = Some r.
Proof. exact string_record_back. Qed.
Print Assumptions C126_string_record_partial.

(** levels *)
Theorem C126_level_partial : forall l b,
  de_level (ser_level l) = Some l
  /\ (ser_level l = SdVariant b -> forall lent, de_level (SdStr lent b) = Some l).
Proof. exact level_back. Qed.
Print Assumptions C126_level_partial.

(** paths, queries, tag matchers, and formats without white space around them,
    if they are read in the state in which they were parsed *)
Theorem C126_path_partial : forall O s b p s' lent, path_new O s b = (Some (Some p), s') ->
  exists t, ser_path p = SdStr false t /\ de_path O s (SdStr lent t) = (Some (Some p), s').
Proof. exact path_back. Qed.
Print Assumptions C126_path_partial.
Theorem C126_query_partial : forall O s b q s' lent, query_new O s b = (Some (Some q), s') ->
  exists t, ser_query q = SdStr false t /\ de_query O s (SdStr lent t) = (Some (Some q), s').
Proof. exact query_back. Qed.
Print Assumptions C126_query_partial.
Theorem C126_format_partial : forall O s b f s' lent, trim b = b -> format_new O s b = (Some (Some f), s') ->
  exists t, ser_format f = SdStr false t /\ de_format O s (SdStr lent t) = (Some (Some f), s').
Proof. exact format_back. Qed.
Print Assumptions C126_format_partial.
Theorem C126_tag_matcher_partial : forall b m lent, tag_matcher_new b = Some m ->
  exists t, ser_tag_matcher m = SdStr false t /\ de_tag_matcher (SdStr lent t) = Some m.
Proof. exact tag_matcher_back. Qed.
Print Assumptions C126_tag_matcher_partial.

(** matchers of fields, records and subfields, within the limits of C18: what is read
    back is a matcher that matches the same *)
Theorem C126_matcher_partial : forall O m s lent,
  fm_built O (fun a => ~ detached a) m -> fm_tame m -> fm_depth m < 256 ->
  lv_sub s = 0 -> lv_field s = 0 ->
  exists t m', ser_field_matcher m = SdStr false t /\ de_field_matcher O s (SdStr lent t) = (Some (Some m'), s)
    /\ forall ci, (forall re, o_re_ok O false re = true -> o_re_ok O ci re = true) ->
         (forall res, Forall (fun re => o_re_ok O false re = true) res -> o_reset_ok O ci res = true) ->
         forall r, exists b, rm_is_match O ci m r = Some b /\ rm_is_match O ci m' r = Some b.
Proof. exact matcher_back. Qed.
Print Assumptions C126_matcher_partial.
Theorem C126_subfield_matcher_partial : forall O m s lent,
  sm_built O m -> sm_tame m -> sm_units m < 32 -> lv_sub s = 0 ->
  exists t m', ser_subfield_matcher m = SdStr false t /\ de_subfield_matcher O s (SdStr lent t) = (Some (Some m'), s)
    /\ forall ci, (forall re, o_re_ok O false re = true -> o_re_ok O ci re = true) ->
         (forall res, Forall (fun re => o_re_ok O false re = true) res -> o_reset_ok O ci res = true) ->
         forall sfs, exists b, sm_is_match O ci m sfs = Some b /\ sm_is_match O ci m' sfs = Some b.
Proof. exact subfield_matcher_back. Qed.
Print Assumptions C126_subfield_matcher_partial.
(** and not beyond them *)
Theorem C126_matcher_refuted : forall O, exists m,
  field_matcher_new O fresh (lit "ALL 012A.a?") = (Some (Some m), fresh)
  /\ forall t, ser_field_matcher (fm_not m) = SdStr false t ->
       de_field_matcher O fresh (SdStr true t) = (Some None, fresh).
Proof. exact matcher_lost. Qed.
Print Assumptions C126_matcher_refuted.

(** a byte record that was read from bytes is never read back from a format that
    keeps a sequence of numbers one *)
Theorem C126_raw_data_refuted : forall T b r w, br_from_bytes b = Some r ->
  handed T as_numbers (ser_byte_record r) w -> de_byte_record w = None.
Proof. exact parsed_lost. Qed.
Print Assumptions C126_raw_data_refuted.

(** a borrowed record with a field is never read back from a format that has
    only sequences of numbers for bytes, such as JSON *)
Theorem C126_borrowed_refuted : forall U f r w,
  handed as_numbers U (ser_record (f :: r)) w -> de_record w = None.
Proof. exact unlent_lost. Qed.
Print Assumptions C126_borrowed_refuted.

Definition sample_bytes : bytes := lit "003@/01 " ++ [31] ++ lit "0abc" ++ [30; 10].
(** as JSON, with the keys in another order and one more of them *)
Definition sample_json : sdv :=
  SdSeq [SdMap [(lit "subfields", SdSeq [SdSeq [SdStr true (lit "0"); SdSeq (map SdNum (lit "abc"))]]);
                (lit "note", SdNone);
                (lit "occurrence", SdSeq (map SdNum (lit "01")));
                (lit "tag", SdSeq (map SdNum (lit "003@")))]].
Example C126_sample : exists r,
  record_from_bytes sample_bytes = Some r
  /\ (forall U, handed as_any U (ser_orecord (record_owned r)) sample_json)
  /\ (forall U, handed as_numbers U (ser_record r) sample_json)
  /\ de_orecord sample_json = Some (record_owned r)
  /\ de_record sample_json = None.
Proof.
  eexists. split; [vm_compute; reflexivity|].
  assert (N : forall b, Forall (fun c => c < 256) b -> as_numbers b (SdSeq (map SdNum b)))
    by (intros b H; split; [exact H|right; reflexivity]).
  assert (H : forall T U : bytes -> sdv -> Prop, (forall b, Forall (fun c => c < 256) b -> T b (SdSeq (map SdNum b))) ->
    handed T U (ser_orecord (record_owned [mkField (lit "003@") (Some (lit "01")) [mkSubfield 48 (lit "abc")]])) sample_json).
  { intros T U HT. apply h_newtype_bare; [|discriminate]. apply h_seq. constructor; [|constructor].
    eapply (h_map T U _ _ [] [(lit "tag", SdSeq (map SdNum (lit "003@"))); (lit "occurrence", SdSeq (map SdNum (lit "01")));
        (lit "subfields", SdSeq [SdSeq [SdStr true (lit "0"); SdSeq (map SdNum (lit "abc"))]])] [(lit "note", SdNone)]); [rewrite app_nil_r; reflexivity|constructor| | |].
    - constructor; [|constructor; [|constructor; [|constructor]]]; (split; [reflexivity|]); cbn [snd].
      + apply h_newtype_bare; [|discriminate]. refine (h_bytes T U false (lit "003@") _ (HT (lit "003@") _)). repeat constructor.
      + apply h_some_bare; [|discriminate|discriminate]. apply h_newtype_bare; [|discriminate].
        refine (h_bytes T U false (lit "01") _ (HT (lit "01") _)). repeat constructor.
      + apply h_seq. constructor; [|constructor]. apply h_seq. constructor; [|constructor; [|constructor]].
        * apply h_newtype_bare; [|discriminate]. apply h_char_str. reflexivity.
        * apply h_newtype_bare; [|discriminate]. refine (h_bytes T U false (lit "abc") _ (HT (lit "abc") _)). repeat constructor.
    - cbn [app]. eapply Permutation_trans; [apply Permutation_rev|]. cbn. apply perm_skip, perm_skip, perm_swap.
    - intros kv [<-|[]]. cbn. intuition discriminate. }
  split; [intros U; apply H; intros b B; left; apply N, B|].
  split; [intros U; apply (H as_numbers U N)|]. split; vm_compute; reflexivity.
Qed.
(** the tests of the code: src/path.rs:374-381, src/query.rs:525-538,
    src/fmt/mod.rs:492-499, src/matcher/tag.rs:197-205, src/matcher/field/mod.rs:818-836,
    src/matcher/record.rs:345-361, src/matcher/subfield/mod.rs:1436-1445 *)
Example C126_texts :
  forallb (fun t => match de_path plain_oracles fresh (SdStr true t) with
                    | (Some (Some p), _) => bytes_eqb (path_display p) t
                    | _ => false
                    end) [lit "003@.0"; lit "041A/*{ 9 | 9? }"]
  && forallb (fun t => match de_query plain_oracles fresh (SdStr true t) with
                       | (Some (Some q), _) => bytes_eqb (query_display q) t
                       | _ => false
                       end) [lit "003@.0"; lit "'foo'"; lit "'x', 002@.0"; lit "041A/*{ 9 | 9? }"]
  && forallb (fun t => match de_format plain_oracles fresh (SdStr true t) with
                       | (Some (Some f), _) => bytes_eqb (format_display f) t && bytes_eqb (trim t) t
                       | _ => false
                       end) [lit "028@{ a <$> d }"]
  && forallb (fun t => match de_tag_matcher (SdStr true t) with
                       | Some m => bytes_eqb (tm_display m) t
                       | None => false
                       end) [lit "003@"; lit ".0[2-3][A@]"]
  && forallb (fun t => match de_field_matcher plain_oracles fresh (SdStr true t) with
                       | (Some (Some m), _) => bytes_eqb (fm_display m) t
                       | _ => false
                       end) [lit "012A.a? && (012A.b? || 012A.c?)"; lit "012A.a? && !(012A.b? || 012A.c?)"]
  && forallb (fun t => match de_subfield_matcher plain_oracles fresh (SdStr true t) with
                       | (Some (Some m), _) => bytes_eqb (sm_display m) t
                       | _ => false
                       end) [lit "a? && (b? || c?)"] = true.
Proof. vm_compute. reflexivity. Qed.

(** C127: any byte record and any string record can be the result of reading:
    with any tags, codes and values, with raw data that are not those of the
    fields, and with bytes that are not UTF-8 *)
Theorem C127_unchecked_refuted : forall r, exists v,
  de_byte_record v = Some r /\ de_string_record v = Some r.
Proof. exact any_byte_record. Qed.
Print Assumptions C127_unchecked_refuted.

(** so a string record need not be UTF-8, a record can be written as one that
    has other fields, and one that is written is rejected when it is read *)
Definition forged_value : bytes := lit "a" ++ [30] ++ lit "004A " ++ [31] ++ lit "0b".
Example C127_sample :
  exists v1 v2 v3,
    de_string_record v1 = Some (mkBR (Some [255]) [])
    /\ utf8_valid [255] = false
    /\ de_orecord v2 = Some (ORecord [OField (OTag (lit "003@")) None [OSubfield 48 (OValue forged_value)]])
    /\ ~ valid_value forged_value
    /\ record_from_bytes (write_orecord (ORecord [OField (OTag (lit "003@")) None [OSubfield 48 (OValue forged_value)]]))
       = Some [mkField (lit "003@") None [mkSubfield 48 (lit "a")]; mkField (lit "004A") None [mkSubfield 48 (lit "b")]]
    /\ de_orecord v3 = Some (ORecord [OField (OTag (lit "03@")) None []])
    /\ record_from_bytes (write_orecord (ORecord [OField (OTag (lit "03@")) None []])) = None.
Proof.
  exists (SdSeq [SdBytes true [255]; SdSeq []]),
    (SdSeq [SdSeq [SdBytes false (lit "003@"); SdNone; SdSeq [SdSeq [SdChar 48; SdBytes false forged_value]]]]),
    (SdSeq [SdMap [(lit "tag", SdStr true (lit "03@")); (lit "subfields", SdSeq [])]]).
  repeat split; try (vm_compute; reflexivity). intros [_ H]. apply H. cbn. tauto.
Qed.

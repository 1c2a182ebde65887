(** * C77: the code lists of the check command *)

From Coq Require Import String Permutation.
From Verif Require Import Bytes RecordModel RecordSpec BaseProofs ConvertCounterexamples MatcherModel MatcherSpec PathModel
  FmtModel QueryModel QuerySpec CliModel CliSpec TableSpec CheckCodes CheckModel CheckSpec CheckCounterexamples
  CodesSpec CodesProofs PropertiesMatcher PropertiesQuery PropertiesCli.

(** C77: the JEL check accepts categories (a capital and a figure) and codes (a
    category and a figure), the ISO 639 check texts of three small letters *)
Theorem C77_jel_shape : forall v, In v jel_codes -> jel_category v \/ jel_full v.
Proof. exact jel_shape. Qed.
Print Assumptions C77_jel_shape.

Theorem C77_iso639_shape : forall v, In v iso639_codes -> iso639_text v.
Proof. exact iso_shape. Qed.
Print Assumptions C77_iso639_shape.

Theorem C77_iso639_distinct : NoDup iso639_codes.
Proof. exact iso_distinct. Qed.
Print Assumptions C77_iso639_distinct.

(** C77: every record with a value of another shape is reported, in particular
    small letters, blanks around a code, or two-letter language codes *)
Theorem C77_other_texts_flagged : forall T lossy, (forall v, lossy v = [] <-> v = []) ->
  forall freq_order, (forall l, Permutation (freq_order l) l) -> forall O ci p r vs v,
  opt_sm_wf O ci (p_sub p) -> path_lists O ci p r vs -> In v vs -> v <> [] ->
  (~ jel_category v -> ~ jel_full v -> exists text, run_check T lossy freq_order (CkJel O ci p) r = Some (true, Some text))
  /\ (~ iso639_text v -> exists text, run_check T lossy freq_order (CkIso639 O ci p) r = Some (true, Some text)).
Proof. exact code_checks_flag. Qed.
Print Assumptions C77_other_texts_flagged.

(** the hypotheses are met by the language code "de" *)
Example C77_other_texts_case : path_lists sample_oracles false cx_path [cx_field "012A" None (lit "de")] [lit "de"]
  /\ ~ iso639_text (lit "de") /\ ~ jel_category (lit "de") /\ ~ jel_full (lit "de")
  /\ run_check sample_text sample_lossy (fun l => l) (CkIso639 sample_oracles false cx_path) [cx_field "012A" None (lit "de")]
     = Some (true, Some (lit "de")).
Proof.
  split; [apply cx_values|]. split; [intros (a & b & c & E & _); discriminate|].
  split; [intros (a & b & E & H & _); injection E as <- <-; vm_compute in H; intuition discriminate|].
  split; [|vm_compute; reflexivity].
  intros (c & d & E & (a & b & -> & _) & _). discriminate.
Qed.

(** C77: a code is accepted with its category, except Z00 *)
Theorem C77_jel_categories_partial : forall c d, In (c ++ [d]) jel_codes -> jel_category c ->
  (In c jel_codes <-> c ++ [d] <> lit "Z00").
Proof. exact jel_category_listed. Qed.
Print Assumptions C77_jel_categories_partial.

(** C77: a record with a code passes, and the record with the category of the
    code is reported *)
Theorem C77_jel_categories_refuted : forall T lossy freq_order O ci, (forall v, lossy v = [] <-> v = []) ->
  (forall l, Permutation (freq_order l) l) ->
  exists p r r' c d text, jel_category c /\ In d figures
    /\ path_lists O ci p r [c ++ [d]] /\ path_lists O ci p r' [c]
    /\ run_check T lossy freq_order (CkJel O ci p) r = Some (false, None)
    /\ run_check T lossy freq_order (CkJel O ci p) r' = Some (true, Some text).
Proof. exact category_refuted. Qed.
Print Assumptions C77_jel_categories_refuted.

(** C77: no category is accepted that has no code *)
Theorem C77_jel_categories_used : forall c, In c jel_codes -> jel_category c -> exists d, In (c ++ [d]) jel_codes.
Proof. exact jel_category_used. Qed.
Print Assumptions C77_jel_categories_used.

Example C77_sample : In (lit "Q5") jel_codes /\ In (lit "Q57") jel_codes
  /\ run_check sample_text sample_lossy (fun l => l) (CkJel sample_oracles false cx_path)
       [cx_field "012A" None (lit "Q57"); cx_field "012A" None (lit "Z0"); cx_field "012A" None (lit "q5")]
     = Some (true, Some (lit "Z0, q5")).
Proof. split; [|split]; try (apply has_In); vm_compute; reflexivity. Qed.

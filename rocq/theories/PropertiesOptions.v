(** * Properties of predicate lists and the config command *)

From Coq Require Import String.
From Verif Require Import Bytes RecordModel RecordSpec Utf8Spec TagOccModel TagOccSpec ByteRecordSpec MatcherSpec QuerySpec
  CliSpec CheckModel CheckSpec OptionsModel OptionsSpec OptionsProofs.

(** ** C51 *)

(** C51: accepted iff every item is a predicate *)
Theorem C51_accepted : forall b, parse_predicates (Some b) <> None <->
  exists items, list_items b items /\ Forall (fun i => exists P, predicate_text i P) items.
Proof. exact predicates_accepted. Qed.
Print Assumptions C51_accepted.

(** C51: one predicate per item, in order, with the meaning of the item *)
Theorem C51_result : forall b ms, parse_predicates (Some b) = Some ms ->
  exists items Ps, list_items b items /\ Forall2 predicate_text items Ps /\ Forall2 denotes ms Ps.
Proof. exact predicates_sound. Qed.
Print Assumptions C51_result.

(** C51: the items are determined by the text *)
Theorem C51_items_unique : forall b l l', list_items b l -> list_items b l' -> l = l'.
Proof. exact list_items_fun. Qed.
Print Assumptions C51_items_unique.

(** C51: the fields that --keep and --discard speak of *)
Theorem C51_fields : forall b ms, parse_predicates (Some b) = Some ms ->
  exists items Ps, list_items b items /\ Forall2 predicate_text items Ps
    /\ forall f, field_matched ms f <-> exists P, In P Ps /\ P (f_tag f) (f_occ f).
Proof. exact predicates_match. Qed.
Print Assumptions C51_fields.

(** without the option there is no predicate *)
Theorem C51_absent : parse_predicates None = Some [].
Proof. exact eq_refl. Qed.
Print Assumptions C51_absent.

Example C51_sample : exists a b c, parse_predicates (Some (lit " 012A , 00[3-5]@/01-03,, 1.../*" ++ [194; 160])) = Some [a; b; c]
  /\ tm_is_match (fst b) (lit "004@") = true /\ om_is_match (snd b) (Some (lit "02")) = true
  /\ om_is_match (snd a) None = true /\ om_is_match (snd a) (Some (lit "02")) = false
  /\ om_is_match (snd c) (Some (lit "02")) = true.
Proof. eexists _, _, _. vm_compute. repeat split. Qed.

Example C51_sample_rejected : parse_predicates (Some (lit "012A,003@/1")) = None
  /\ parse_predicates (Some (lit "012A/01/02")) = None.
Proof. vm_compute. auto. Qed.

(** C51, C64: the trimming of texts as done by the program is the trimming of
    Unicode white space *)
Theorem C51_C64_trim : forall b t, str_trim b = t <-> trimmed b t.
Proof. exact str_trim_iff. Qed.
Print Assumptions C51_C64_trim.

(** ** C56 *)

(** C56: in a history of commands that starts without a config file every
    command ends as the commands before demand: an option shows the value last
    set, or its default.  [from_toml] reads lines "key = value". *)
Theorem C56_histories : forall from_toml, (forall t c, file_says t c -> from_toml t = Some c) ->
  forall hist, Forall (fun a => args_allowed a = true) hist ->
  exists ends file, config_history from_toml hist None = (ends, file) /\ length ends = length hist
    /\ forall h a rest, hist = h ++ a :: rest -> exists e, nth_error ends (length h) = Some e /\ answer h a e.
Proof. exact config_histories. Qed.
Print Assumptions C56_histories.

(** C56: these are the arguments that fit together *)
Theorem C56_arguments : forall a, args_allowed a = true <-> fitting a.
Proof. exact allowed_fitting. Qed.
Print Assumptions C56_arguments.

(** C56: the answer is determined *)
Theorem C56_answer_unique : forall h a e e', args_allowed a = true -> answer h a e -> answer h a e' -> e = e'.
Proof. exact answer_fun. Qed.
Print Assumptions C56_answer_unique.

(** C56: and so is the value of an option *)
Theorem C56_current_unique : forall name h v v', current name h v -> current name h v' -> v = v'.
Proof. exact current_fun. Qed.
Print Assumptions C56_current_unique.

Example C56_sample_reader : forall t c, file_says t c -> sample_from_toml t = Some c.
Proof. exact sample_reads. Qed.

Example C56_sample :
  let set n v := mkConfigArgs false false false (lit n) (Some (lit v)) in
  let get n := mkConfigArgs true false false (lit n) None in
  let unset n := mkConfigArgs false true false (lit n) None in
  fst (config_history sample_from_toml
    [get "normalization"; set "normalization" "nfd"; set "skip-invalid" "true"; set "normalization" "NFC";
     get "normalization"; unset "normalization"; get "normalization"; get "skip-invalid"; get "color"]%string None)
  = [CfDone (lit "None" ++ [10]); CfDone []; CfDone []; CfError; CfDone (lit "nfd" ++ [10]); CfDone [];
     CfDone (lit "None" ++ [10]); CfDone (lit "true" ++ [10]); CfError].
Proof. vm_compute. reflexivity. Qed.

(** a file that is not valid makes every command panic *)
Theorem C56_broken_file : forall from_toml b a, from_toml b = None ->
  config_execute from_toml a (Some b) = (CfPanic, Some b).
Proof. exact config_broken. Qed.
Print Assumptions C56_broken_file.

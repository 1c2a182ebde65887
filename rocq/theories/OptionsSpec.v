(** * Specification of predicate lists and the config command *)

From Coq Require Import String.
From Verif Require Import Bytes RecordSpec Utf8Spec TagOccModel TagOccSpec MatcherSpec QuerySpec CliSpec CheckSpec OptionsModel.

(** ** White space *)

(** Unicode White_Space *)
Definition white_space (c : N) : Prop :=
  9 <= c <= 13 \/ c = 32 \/ c = 133 \/ c = 160 \/ c = 5760 \/ 8192 <= c <= 8202
  \/ c = 8232 \/ c = 8233 \/ c = 8239 \/ c = 8287 \/ c = 12288.

Definition spaces (b : bytes) : Prop := exists l, Forall white_space l /\ b = utf8_encode l.

(** [t] is [b] without white space at both ends *)
Definition trimmed (b t : bytes) : Prop :=
  exists w1 w2, spaces w1 /\ spaces w2 /\ b = w1 ++ t ++ w2
    /\ forall c rest, white_space c -> t <> utf8_encode_char c ++ rest /\ t <> rest ++ utf8_encode_char c.

(** ** Predicate lists *)

(** the items of a list: cut at commas, trimmed, without empty ones *)
Definition list_items (b : bytes) (items : list bytes) : Prop :=
  exists parts texts, comma_items b parts /\ Forall2 trimmed parts texts
    /\ picks (fun t => t <> []) (fun t => t) texts items.

(** a predicate and the fields (tag and occurrence) it denotes *)
Definition predicate_text (item : bytes) (P : bytes -> option bytes -> Prop) : Prop :=
  exists t o T Q, item = t ++ o /\ tag_matcher_text t T /\ occ_matcher_text o Q
    /\ forall tag occ, P tag occ <-> T tag /\ Q occ.

(** a predicate of the program accepts exactly these *)
Definition denotes (p : tag_matcher * occ_matcher) (P : bytes -> option bytes -> Prop) : Prop :=
  forall tag occ, tm_is_match (fst p) tag = true /\ om_is_match (snd p) occ = true <-> P tag occ.

(** ** Config *)

Definition known (name : bytes) : Prop := name = lit "skip-invalid" \/ name = lit "normalization".

Definition valid_value (name v : bytes) : Prop :=
  (name = lit "skip-invalid" /\ In v [lit "true"; lit "false"])
  \/ (name = lit "normalization" /\ In v [lit "nfc"; lit "nfkc"; lit "nfd"; lit "nfkd"]).

(** a config file: one line "key = value" for each option; texts are quoted *)
Definition file_lines (entries : list (bytes * bytes)) : bytes :=
  flat_map (fun e => fst e ++ lit " = " ++ snd e ++ [10]) entries.

Inductive file_says : bytes -> config -> Prop :=
| says_skip : forall (b : bool) v, v = (if b then lit "true" else lit "false") ->
    file_says (file_lines [(lit "skip-invalid", v)]) (mkConfig b None)
| says_both : forall (b : bool) n v w, v = (if b then lit "true" else lit "false") ->
    In (n, w) [(Nfc, lit "nfc"); (Nfkc, lit "nfkc"); (Nfd, lit "nfd"); (Nfkd, lit "nfkd")] ->
    file_says (file_lines [(lit "skip-invalid", v); (lit "normalization", [34] ++ w ++ [34])]) (mkConfig b (Some n)).

(** the command gives the option a value, or none *)
Definition changes (a : config_args) (name : bytes) (v : option bytes) : Prop :=
  ca_name a = name /\ known name
  /\ match v with
     | Some t => ca_value a = Some t /\ valid_value name t
     | None => ca_value a = None /\ ca_unset a = true
     end.

(** the value of an option after a history of commands; [None]: not set *)
Inductive current (name : bytes) : list config_args -> option bytes -> Prop :=
| cur_start : current name [] None
| cur_change : forall h a v, changes a name v -> current name (h ++ [a]) v
| cur_keep : forall h a v, current name h v -> (forall v', ~ changes a name v') -> current name (h ++ [a]) v.

(** how a value is shown; options that are not set have defaults *)
Definition shown (name : bytes) (v : option bytes) (text : bytes) : Prop :=
  match v with
  | Some t => text = t
  | None => (name = lit "skip-invalid" /\ text = lit "false") \/ (name = lit "normalization" /\ text = lit "None")
  end.

(** arguments that fit together: no two of --get, --set and --unset, a value behind
    --set, and none behind --get and --unset *)
Definition fitting (a : config_args) : Prop :=
  ~ (ca_get a = true /\ ca_unset a = true) /\ ~ (ca_get a = true /\ ca_set a = true)
  /\ ~ (ca_unset a = true /\ ca_set a = true)
  /\ (ca_set a = true -> ca_value a <> None)
  /\ (ca_get a = true \/ ca_unset a = true -> ca_value a = None).

(** how a command ends after a history *)
Inductive answer (h : list config_args) (a : config_args) : config_end -> Prop :=
| ans_unknown : ~ known (ca_name a) -> answer h a CfError
| ans_changed : forall v, changes a (ca_name a) v -> answer h a (CfDone [])
| ans_invalid : forall t, known (ca_name a) -> ca_value a = Some t -> ~ valid_value (ca_name a) t ->
    answer h a CfError
| ans_shown : forall v text, known (ca_name a) -> ca_value a = None -> ca_unset a = false ->
    current (ca_name a) h v -> shown (ca_name a) v text -> answer h a (CfDone (text ++ [10])).

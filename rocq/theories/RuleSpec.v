(** * Specification of rule files

    What the entries of a rule file say, in terms of the languages of
    expressions, paths and queries; nothing here refers to the rules the program
    builds. *)

From Coq Require Import String ZArith Permutation.
From Verif Require Import Bytes RecordModel RecordSpec ByteRecordModel Utf8Spec MatcherModel MatcherSpec GrammarSpec FmtModel QueryModel
  QuerySpec QueryGrammarSpec CliModel CliSpec CheckCodes CheckModel CheckSpec OptionsModel OptionsSpec PrepareModel PrepareSpec
  CsvSpec DiskModel DiskSpec EndSpec RuleModel.

(** ** Meanings *)

(** what a check is about: a verdict on each record (see [CheckSpec.v]), or the
    references of a record, the values that can be referred to, and whether
    those of a record count *)
Inductive check_meaning :=
| Judges (P : record -> option (option bytes) -> Prop)
| Links (source target : record -> list bytes -> Prop) (counts : record -> Prop).

Record rule_meaning := mkRM {
  rm_id : bytes;
  rm_level : bytes;
  rm_tags : option (list bytes);
  rm_check : check_meaning }.

Record set_meaning := mkSM {
  sm_scope : record -> Prop;
  sm_fast : bool;
  sm_rules : list rule_meaning }.

(** *** The rows for a record *)

Definition judged (c : check_meaning) (r : record) (v : option (option bytes)) : Prop :=
  match c with Judges P => P r v | Links _ _ _ => v = None end.

(** of all flagging rules, or, with fast termination, of the first one *)
Inductive meant_rows (fast : bool) (r : record) : list rule_meaning -> list check_row -> Prop :=
| mr_nil : meant_rows fast r [] []
| mr_pass : forall m rest rows, judged (rm_check m) r None ->
    meant_rows fast r rest rows -> meant_rows fast r (m :: rest) rows
| mr_flag : forall m rest msg ids rows, judged (rm_check m) r (Some msg) -> identifiers r ids ->
    fast = false -> meant_rows fast r rest rows ->
    meant_rows fast r (m :: rest) (mkRow (hd_error ids) (rm_id m) (rm_level m) msg :: rows)
| mr_stop : forall m rest msg ids, judged (rm_check m) r (Some msg) -> identifiers r ids ->
    fast = true ->
    meant_rows fast r (m :: rest) [mkRow (hd_error ids) (rm_id m) (rm_level m) msg].

Definition meant_set_rows (r : record) (m : set_meaning) (rows : list check_row) : Prop :=
  (sm_scope m r /\ meant_rows (sm_fast m) r (sm_rules m) rows) \/ (~ sm_scope m r /\ rows = []).

(** *** The rows at the end of the run *)

Section Final.
  Variable lossy : bytes -> bytes.

  (** [v] is a value that can be referred to *)
  Definition known (target : record -> list bytes -> Prop) (counts : record -> Prop) (recs : list record) (v : bytes) : Prop :=
    exists r vs, In r recs /\ target r vs /\ In v vs /\ counts r.

  (** the references of the records with this identifier that lead nowhere; the
      targets are sought in [recs], the references in [checked] *)
  Definition lost (source target : record -> list bytes -> Prop) (counts : record -> Prop) (recs checked : list record)
      (id : bytes) (d : list bytes) : Prop :=
    exists rs vss, picks (fun r => record_id r id) (fun r => r) checked rs
      /\ Forall2 source rs vss
      /\ picks (fun v => ~ known target counts recs v) (fun v => v) (concat vss) d.

  (** one entry per identifier with such references; a single one that is empty
      is overlooked *)
  Definition lost_reports source target counts (recs checked : list record) (out : list (bytes * bytes)) : Prop :=
    NoDup (map fst out)
    /\ forall id msg, In (id, msg) out <->
         exists d, lost source target counts recs checked id d /\ d <> [] /\ d <> [[]] /\ names lossy d msg.

  (** the rule with index [k] gets to see the record *)
  Definition gets (m : set_meaning) (k : nat) (r : record) : Prop :=
    sm_scope m r
    /\ (sm_fast m = true ->
        forall j x, (j < k)%nat -> nth_error (sm_rules m) j = Some x -> judged (rm_check x) r None).

  Definition meant_rule_final (recs : list record) (m : set_meaning) (k : nat) (x : rule_meaning) (rows : list check_row) : Prop :=
    match rm_check x with
    | Links source target counts =>
        exists checked out, picks (gets m k) (fun r => r) recs checked
          /\ lost_reports source target counts recs checked out
          /\ rows = map (fun e => mkRow (match fst e with [] => None | p => Some p end)
                                        (rm_id x) (rm_level x) (Some (snd e))) out
    | Judges _ => rows = []
    end.

  Definition meant_set_final (recs : list record) (m : set_meaning) (rows : list check_row) : Prop :=
    exists parts, length parts = length (sm_rules m)
      /\ (forall k x part, nth_error (sm_rules m) k = Some x -> nth_error parts k = Some part ->
            meant_rule_final recs m k x part)
      /\ rows = concat parts.
End Final.

(** ** Tables *)

(** no key is given twice *)
Inductive tidy : toml -> Prop :=
| tidy_table : forall t, NoDup (map fst t) -> Forall (fun e => tidy (snd e)) t -> tidy (TmTable t)
| tidy_array : forall l, Forall tidy l -> tidy (TmArray l)
| tidy_text : forall b, tidy (TmText b)
| tidy_int : forall z, tidy (TmInt z)
| tidy_float : forall x, tidy (TmFloat x)
| tidy_bool : forall b, tidy (TmBool b)
| tidy_time : forall b, tidy (TmTime b).

(** the table has the key [k] with the value [v] *)
Definition gives (t : list (bytes * toml)) (k : string) (v : toml) : Prop := In (lit k, v) t.
Definition silent (t : list (bytes * toml)) (k : string) : Prop := forall v, ~ gives t k v.

(** a setting of the kind [K]: what the table gives, otherwise the default *)
Definition setting {A} (t : list (bytes * toml)) (k : string) (K : toml -> A -> Prop) (d x : A) : Prop :=
  (exists v, gives t k v /\ K v x) \/ (silent t k /\ x = d).
(** one that need not be given *)
Definition optional {A} (t : list (bytes * toml)) (k : string) (K : toml -> A -> Prop) (x : option A) : Prop :=
  (exists v y, gives t k v /\ K v y /\ x = Some y) \/ (silent t k /\ x = None).

Definition text (v : toml) (b : bytes) : Prop := v = TmText b.
Definition flag (v : toml) (b : bool) : Prop := v = TmBool b.
Definition natural (v : toml) (n : N) : Prop := v = TmInt (Z.of_N n).
Definition texts (v : toml) (l : list bytes) : Prop := v = TmArray (map TmText l).
Definition levels_allowed : list bytes := [lit "error"; lit "warning"; lit "info"].
Definition level (v : toml) (b : bytes) : Prop := v = TmText b /\ In b levels_allowed.
Definition mode (v : toml) (fast : bool) : Prop := v = TmText (if fast then lit "fast" else lit "default").
Definition form (v : toml) (nf : norm_form) : Prop :=
  v = TmText (match nf with Nfc => lit "nfc" | Nfkc => lit "nfkc" | Nfd => lit "nfd" | Nfkd => lit "nfkd" end).

Section Says.
  Variable T : text_fns.
  Variable lossy : bytes -> bytes.
  Variable oracles_at : N -> oracles.
  Variable int_f64 : Z -> N.
  Variable strptime : bytes -> bytes -> bool.
  Variable is_nf : norm_form -> bytes -> bool.
  (** the files with their contents, and the tables in them *)
  Variable holds : bytes -> bytes -> Prop.
  Variable polars : bytes -> bytes -> option table.
  (** as in [GrammarSpec.v] *)
  Variable strict : bool.

  Definition number (v : toml) (x : N) : Prop := v = TmFloat x \/ exists z, v = TmInt z /\ x = int_f64 z.

  (** the options of nearly all checks: similarity threshold and case *)
  Definition options (t : list (bytes * toml)) (x : N) (ci : bool) : Prop :=
    setting t "strsim-threshold" number strsim_default x /\ setting t "case-ignore" flag false ci.

  (** the values meant by the path under the key *)
  Definition values_at (x : N) (ci : bool) (t : list (bytes * toml)) (k : string) (V : record -> list bytes -> Prop) : Prop :=
    exists b F Cs, gives t k (TmText b) /\ path_text (oracles_at x) strict b F Cs
      /\ forall r vs, V r vs <-> path_values_of F Cs ci r vs.

  Definition judges_values (V : record -> list bytes -> Prop) (J : list bytes -> option (option bytes) -> Prop) : check_meaning :=
    Judges (fun r v => exists vs, V r vs /\ J vs v).

  (** the cells of the named column of the list, without those that are null *)
  Definition allowed_at (t : list (bytes * toml)) (values : list bytes) : Prop :=
    exists l name column content tab cells,
      gives t "list" (TmTable l) /\ gives l "filename" (TmText name) /\ gives l "column" (TmText column)
      /\ holds name content /\ polars name content = Some tab /\ has_column tab column cells
      /\ forall v, In v values <-> In (Some v) cells.

  Definition check_is (t : list (bytes * toml)) (name : string) : Prop := gives t "check" (TmText (lit name)).

  Inductive check_says (t : list (bytes * toml)) : check_meaning -> Prop :=
  | says_allowed : forall x ci V values, check_is t "allow" -> options t x ci -> values_at x ci t "path" V ->
      allowed_at t values -> check_says t (judges_values V (list_verdict lossy values))
  | says_datetime : forall x ci V format offset, check_is t "datetime" -> options t x ci -> values_at x ci t "path" V ->
      setting t "format" text (lit "%Y-%m-%d") format -> setting t "offset" natural 0 offset ->
      check_says t (judges_values V (value_verdict lossy (fun v => ~ date_ok (strptime format) offset v)))
  | says_duplicates : forall x ci b Ms n threshold separator, check_is t "duplicates" -> options t x ci ->
      gives t "query" (TmText b) -> query_text (oracles_at x) T strict b Ms n -> (strict = true -> n < 32) ->
      setting t "threshold" natural 2 threshold -> setting t "separator" text (lit "|") separator ->
      check_says t (Judges (fun r v => exists rows, query_rows Ms (qoptions ci) r rows
                                         /\ duplicate_verdict lossy threshold separator rows v))
  | says_filter : forall x ci b P invert, check_is t "filter" -> options t x ci ->
      gives t "filter" (TmText b) -> expression (oracles_at x) strict b P -> setting t "invert-match" flag false invert ->
      check_says t (Judges (fun r v =>
        let Q := if invert then ~ P ci r else P ci r in (Q /\ v = Some None) \/ (~ Q /\ v = None)))
  | says_isni : forall x ci V prefix, check_is t "isni" -> options t x ci -> values_at x ci t "path" V ->
      optional t "prefix" text prefix -> check_says t (judges_values V (value_verdict lossy (isni_bad prefix)))
  | says_iso639 : forall x ci V, check_is t "iso639-2b" -> options t x ci -> values_at x ci t "path" V ->
      check_says t (judges_values V (list_verdict lossy iso639_codes))
  | says_jelc : forall x ci V, check_is t "jelc" -> options t x ci -> values_at x ci t "path" V ->
      check_says t (judges_values V (list_verdict lossy jel_codes))
  | says_link : forall x ci ts tt V W fs, check_is t "link" -> options t x ci ->
      gives t "source" (TmTable ts) -> gives t "target" (TmTable tt) ->
      values_at x ci ts "path" V -> values_at x ci tt "path" W ->
      optional tt "filter" (fun v P => exists b, v = TmText b /\ expression (oracles_at x) strict b P) fs ->
      check_says t (Links V W (fun r => forall P, fs = Some P -> P ci r))
  | says_unicode : forall nf, check_is t "unicode" -> optional t "normalization" form nf ->
      check_says t (Judges (fun r v =>
        (~ record_utf8 r /\ v = Some None)
        \/ (record_utf8 r /\
            match nf with
            | None => v = None
            | Some n => value_verdict lossy (fun x => is_nf n x <> true)
                          (concat (map (fun f => map sf_value (f_subfields f)) r)) v
            end))).

  (** an entry of the table of rules; description and link have no effect, but
      must be texts *)
  Inductive rule_says : bytes * toml -> rule_meaning -> Prop :=
  | rule_entry : forall id t m description link,
      optional t "description" text description -> optional t "link" text link ->
      optional t "tags" texts (rm_tags m) -> setting t "level" level (lit "error") (rm_level m) ->
      rm_id m = id -> check_says t (rm_check m) ->
      rule_says (id, TmTable t) m.

  (** a document; the rules are in no particular order *)
  Inductive set_says : toml -> set_meaning -> Prop :=
  | set_document : forall t scope rules ms fast m,
      optional t "scope" (fun v P => exists b, v = TmText b /\ expression (oracles_at strsim_default) strict b P) scope ->
      setting t "termination" mode false fast ->
      setting t "rule" (fun v l => v = TmTable l) [] rules ->
      Forall2 rule_says rules ms ->
      (forall r, sm_scope m r <-> forall P, scope = Some P -> P false r) -> sm_fast m = fast -> Permutation ms (sm_rules m) ->
      set_says (TmTable t) m.

  Variable from_toml : bytes -> option toml.
  Variable normal : bytes -> bytes.

  (** a rule file, normalised before it is read *)
  Definition file_says (name : bytes) (m : set_meaning) : Prop :=
    exists b v, holds name b /\ is_utf8 b /\ from_toml (normal b) = Some v /\ set_says v m.

  Variable patterns : list bytes -> option (bytes -> bool).

  (** --rule and --tags *)
  Definition rule_chosen (re : option (bytes -> bool)) (tags : option bytes) (m : rule_meaning) : Prop :=
    (forall f, re = Some f -> f (rm_id m) = true)
    /\ (forall b, tags = Some b -> exists items ts x i, comma_items b items /\ rm_tags m = Some ts
          /\ In x ts /\ In i items /\ trimmed i x).

  (** what is to be checked: rule sets without rules are left out *)
  Definition rules_say (files filter : list bytes) (tags : option bytes) (chosen : list set_meaning) : Prop :=
    exists re all left,
      match filter with [] => re = None | _ => exists f, patterns filter = Some f /\ re = Some f end
      /\ Forall2 file_says files all
      /\ Forall2 (fun m m' => sm_scope m' = sm_scope m /\ sm_fast m' = sm_fast m
                    /\ picks (rule_chosen re tags) (fun x => x) (sm_rules m) (sm_rules m')) all left
      /\ picks (fun m => sm_rules m <> []) (fun m => m) left chosen.
End Says.

(** ** The command *)

(** The files while the command runs: its output has been opened. *)
Definition running (output : option bytes) (w : world) (n c : bytes) : Prop :=
  (output = Some n /\ c = []) \/ (output <> Some n /\ disk_get (w_disk w) n = Some c).

Definition rules_effect (a : opts_args) (M : meaning field) (V : record -> list bytes -> Prop) (skip : bool)
    (cs : list (bytes * bytes)) (lossy : bytes -> bytes) (ms : list set_meaning) (output : option bytes) (status : N) (text : bytes)
  : Prop :=
  exists recs e rowss finals, opts_records a M V skip cs recs e
    /\ Forall2 (fun r rows => exists parts, Forall2 (meant_set_rows (br_record r)) ms parts /\ rows = concat parts) recs rowss
    /\ Forall2 (meant_set_final lossy (map br_record recs)) ms finals
    /\ report output (concat rowss ++ match e with None => concat finals | Some _ => [] end) text
    /\ status = status_of e.

(** the keys with a meaning for a rule *)
Definition rule_keys : list bytes := map lit
  ["description"; "link"; "tags"; "level"; "check"; "path"; "list"; "strsim-threshold"; "case-ignore"; "format"; "offset";
   "query"; "threshold"; "separator"; "filter"; "invert-match"; "prefix"; "source"; "target"; "normalization"]%string.

(** the keys with a meaning for a document *)
Definition set_keys : list bytes := map lit ["scope"; "termination"; "rule"]%string.

(** the kinds of checks *)
Definition check_kinds : list bytes := map lit
  ["allow"; "datetime"; "duplicates"; "filter"; "isni"; "iso639-2b"; "jelc"; "link"; "unicode"]%string.

(** * Reading rule sets

    Model of /repo/crates/pica-cli/src/commands/check/set.rs RuleSet::new: from
    the text of a rule file to the rules of [CheckModel.v].  The toml crate is an
    argument: it gives the value of a document, the entries of each table in the
    order in which they are visited.  What serde derives is written out; that it
    also takes an array in the place of a table, and a table in the place of the
    name of a unit variant, is left out. *)

From Coq Require Import String ZArith.
From Verif Require Import Bytes Winnow RecordModel TagOccModel Utf8Model MatcherModel StateParser MatcherParserModel
  BuilderModel PathModel FmtModel QueryModel CliModel CheckModel OptionsModel PrepareModel IoModel IoSpec DiskModel.

(** a TOML value; a floating point number is given by the 64 bits that
    represent it *)
Inductive toml :=
| TmText (b : bytes)
| TmInt (z : Z)
| TmFloat (x : N)
| TmBool (b : bool)
| TmTime (b : bytes)
| TmArray (l : list toml)
| TmTable (t : list (bytes * toml)).

Definition keyed : Type := list (bytes * toml).

Fixpoint entry (k : bytes) (t : keyed) : option toml :=
  match t with
  | [] => None
  | (k', v) :: t' => if bytes_eqb k' k then Some v else entry k t'
  end.

(** the conversions of serde *)
Definition as_text (v : toml) : option bytes := match v with TmText b => Some b | _ => None end.
Definition as_bool (v : toml) : option bool := match v with TmBool b => Some b | _ => None end.
Definition as_usize (v : toml) : option N :=
  match v with TmInt z => if (z <? 0)%Z then None else Some (Z.to_N z) | _ => None end.
Definition as_texts (v : toml) : option (list bytes) := match v with TmArray l => map_opt as_text l | _ => None end.

(** a field of a struct: one that must be given, one of type [Option<_>], one
    with [#[serde(default)]]; keys that are not the name of a field are ignored *)
Definition must {A} (k : bytes) (f : toml -> option A) (t : keyed) : option A :=
  match entry k t with Some v => f v | None => None end.
Definition may {A} (k : bytes) (f : toml -> option A) (t : keyed) : option (option A) :=
  match entry k t with Some v => do x <- f v; Some (Some x) | None => Some None end.
Definition or_default {A} (k : bytes) (d : A) (f : toml -> option A) (t : keyed) : option A :=
  match entry k t with Some v => f v | None => Some d end.

(** fields with expressions are read in the order of the table: the visitor of
    a struct with two such fields *)
Fixpoint visit2 {A B} (k1 : bytes) (f1 : toml -> levels -> presult A) (k2 : bytes) (f2 : toml -> levels -> presult B)
    (t : keyed) (a : option A) (b : option B) (s : levels) : presult (option A * option B) :=
  match t with
  | [] => (Some (Some (a, b)), s)
  | (k, v) :: t' =>
      if bytes_eqb k k1 then and_then (f1 v s) (fun x s' => visit2 k1 f1 k2 f2 t' (Some x) b s')
      else if bytes_eqb k k2 then and_then (f2 v s) (fun y s' => visit2 k1 f1 k2 f2 t' a (Some y) s')
      else visit2 k1 f1 k2 f2 t' a b s
  end.

(** the visitor of a map or a list *)
Fixpoint visit_all {A B} (f : A -> levels -> presult B) (l : list A) (s : levels) : presult (list B) :=
  match l with
  | [] => (Some (Some []), s)
  | x :: l' => and_then (f x s) (fun y s' => and_then (visit_all f l' s') (fun ys s'' => (Some (Some (y :: ys)), s'')))
  end.

(** no expression is involved *)
Definition plainly {A} (x : option A) (s : levels) : presult A := (Some x, s).

(** /repo/crates/pica-cli/src/commands/check/checks/mod.rs:11-13, the bits of 0.8 *)
Definition strsim_default : N := 4605380978949069210.

(** /repo/crates/pica-cli/src/commands/check/rule.rs:10-17 Level *)
Definition as_level (v : toml) : option bytes :=
  do b <- as_text v;
  if bytes_eqb b (lit "error") || bytes_eqb b (lit "warning") || bytes_eqb b (lit "info") then Some b else None.

(** /repo/crates/pica-cli/src/commands/check/set.rs:24-30 Termination: is it
    fast? *)
Definition as_fast (v : toml) : option bool :=
  do b <- as_text v;
  if bytes_eqb b (lit "fast") then Some true else if bytes_eqb b (lit "default") then Some false else None.

Section Rules.
  (** the external functions for a similarity threshold *)
  Variable oracles_at : N -> oracles.
  (** an integer as floating point number *)
  Variable int_f64 : Z -> N.
  (** [civil::DateTime::strptime] with a format being successful *)
  Variable strptime : bytes -> bytes -> bool.
  (** [is_nfc], [is_nfkc], [is_nfd], [is_nfkd] *)
  Variable is_nf : norm_form -> bytes -> bool.
  (** the tables of polars by file name, [None] if the file cannot be read; for
      "txt" see [table] *)
  Variable lists : bytes -> option table.

  Definition as_f64 (v : toml) : option N :=
    match v with TmFloat x => Some x | TmInt z => Some (int_f64 z) | _ => None end.

  (** [Deserialize] of paths, queries and matchers, /repo/src/path.rs:189-196,
      /repo/src/query.rs:97-104, /repo/src/matcher/record.rs: a text that is then
      parsed.  The parsers ask [Oc] only whether regular expressions compile. *)
  Definition text_with {A} (new : levels -> bytes -> presult A) (v : toml) (s : levels) : presult A :=
    match v with TmText b => new s b | _ => (Some None, s) end.
  Definition field_with {A} (k : bytes) (new : levels -> bytes -> presult A) (t : keyed) (s : levels) : presult A :=
    match entry k t with Some v => text_with new v s | None => (Some None, s) end.

  (** the fields [strsim_threshold] and [case_ignore], e.g.
      /repo/crates/pica-cli/src/commands/check/checks/filter.rs:9-13 *)
  Definition with_options {A} (t : keyed) (s : levels) (k : oracles -> bool -> presult A) : presult A :=
    match or_default (lit "strsim-threshold") strsim_default as_f64 t, or_default (lit "case-ignore") false as_bool t with
    | Some x, Some ci => k (oracles_at x) ci
    | _, _ => (Some None, s)
    end.

  (** /repo/crates/pica-cli/src/commands/check/checks/allow.rs:28-47 List and
      Allow::initialize, which runs when the whole document has been read; here
      the list is read at once *)
  Definition allow_values (t : keyed) : option (list bytes) :=
    do l <- must (lit "list") (fun v => match v with TmTable l => Some l | _ => None end) t;
    do filename <- must (lit "filename") as_text l;
    do name <- must (lit "column") as_text l;
    do tab <- lists filename;
    do values <- read_filter_list [tab] (Some name);
    values.

  (** /repo/crates/pica-cli/src/commands/check/checks/link.rs:30-36 Target *)
  Definition read_target (Oc : oracles) (v : toml) (s : levels) : presult (path * option field_matcher) :=
    match v with
    | TmTable t =>
        and_then (visit2 (lit "path") (text_with (path_new Oc)) (lit "filter") (text_with (field_matcher_new Oc)) t None None s)
          (fun x s' => plainly (match x with (Some p, m) => Some (p, m) | (None, _) => None end) s')
    | _ => (Some None, s)
    end.

  (** 24-28 Source *)
  Definition read_source (Oc : oracles) (v : toml) (s : levels) : presult path :=
    match v with TmTable t => field_with (lit "path") (path_new Oc) t s | _ => (Some None, s) end.

  (** /repo/crates/pica-cli/src/commands/check/checks/mod.rs:15-32 Checks, by the
      tag "check", with
      - allow.rs:11-26 Allow
      - datetime.rs:4-24 DateTime
      - duplicates.rs:4-30 Duplicates
      - filter.rs:3-17 Filter
      - isni.rs:3-14 Isni
      - iso639.rs:7-17 Iso639
      - jelc.rs:7-17 Jel
      - link.rs:5-22 Link
      - unicode.rs:7-11 Unicode *)
  Definition read_check (t : keyed) (s : levels) : presult check :=
    match must (lit "check") as_text t with
    | None => (Some None, s)
    | Some kind =>
        if bytes_eqb kind (lit "allow") then
          with_options t s (fun Oc ci =>
          and_then (field_with (lit "path") (path_new Oc) t s) (fun p s' =>
          plainly (do values <- allow_values t; Some (CkAllow Oc ci p values)) s'))
        else if bytes_eqb kind (lit "datetime") then
          with_options t s (fun Oc ci =>
          and_then (field_with (lit "path") (path_new Oc) t s) (fun p s' =>
          plainly (do format <- or_default (lit "format") (lit "%Y-%m-%d") as_text t;
                   do offset <- or_default (lit "offset") 0 as_usize t;
                   Some (CkDateTime Oc ci p (strptime format) offset)) s'))
        else if bytes_eqb kind (lit "duplicates") then
          with_options t s (fun Oc ci =>
          and_then (field_with (lit "query") (query_new Oc) t s) (fun q s' =>
          plainly (do threshold <- or_default (lit "threshold") 2 as_usize t;
                   do separator <- or_default (lit "separator") (lit "|") as_text t;
                   Some (CkDuplicates Oc ci q threshold separator)) s'))
        else if bytes_eqb kind (lit "filter") then
          with_options t s (fun Oc ci =>
          and_then (field_with (lit "filter") (field_matcher_new Oc) t s) (fun m s' =>
          plainly (do invert <- or_default (lit "invert-match") false as_bool t;
                   Some (CkFilter Oc ci m invert)) s'))
        else if bytes_eqb kind (lit "isni") then
          with_options t s (fun Oc ci =>
          and_then (field_with (lit "path") (path_new Oc) t s) (fun p s' =>
          plainly (do prefix <- may (lit "prefix") as_text t; Some (CkIsni Oc ci p prefix)) s'))
        else if bytes_eqb kind (lit "iso639-2b") then
          with_options t s (fun Oc ci =>
          and_then (field_with (lit "path") (path_new Oc) t s) (fun p s' => plainly (Some (CkIso639 Oc ci p)) s'))
        else if bytes_eqb kind (lit "jelc") then
          with_options t s (fun Oc ci =>
          and_then (field_with (lit "path") (path_new Oc) t s) (fun p s' => plainly (Some (CkJel Oc ci p)) s'))
        else if bytes_eqb kind (lit "link") then
          with_options t s (fun Oc ci =>
          and_then (visit2 (lit "source") (read_source Oc) (lit "target") (read_target Oc) t None None s) (fun x s' =>
          plainly (match x with
                   | (Some source, Some (target, m)) => Some (CkLink Oc ci source target m)
                   | _ => None
                   end) s'))
        else if bytes_eqb kind (lit "unicode") then
          plainly (do nf <- may (lit "normalization") (fun v => do b <- as_text v; nf_parse b) t;
                   Some (CkUnicode (option_map is_nf nf))) s
        else (Some None, s)
    end.

  (** /repo/crates/pica-cli/src/commands/check/rule.rs:19-38 Rule, with the id
      from set.rs:56; the check is flattened into the rule *)
  Definition read_rule (x : bytes * toml) (s : levels) : presult rule :=
    match snd x with
    | TmTable t =>
        match may (lit "description") as_text t, may (lit "link") as_text t, may (lit "tags") as_texts t,
              or_default (lit "level") (lit "error") as_level t with
        | Some _, Some _, Some tags, Some level =>
            and_then (read_check t s) (fun c s' => plainly (Some (mkRule (fst x) level tags c no_links)) s')
        | _, _, _, _ => (Some None, s)
        end
    | _ => (Some None, s)
    end.

  (** the unspecified order of the hash map of the rules *)
  Variable hash_order : list rule -> list rule.

  (** /repo/crates/pica-cli/src/commands/check/set.rs:12-22 RuleSet, and 51-60:
      from the value of the document *)
  Definition read_set (v : toml) (s : levels) : presult rule_set :=
    match v with
    | TmTable t =>
        match or_default (lit "termination") false as_fast t with
        | None => (Some None, s)
        | Some fast =>
            and_then (visit2 (lit "scope") (text_with (field_matcher_new (oracles_at strsim_default)))
                        (lit "rule") (fun v s => match v with TmTable l => visit_all read_rule l s | _ => (Some None, s) end)
                        t None None s)
              (fun x s' => plainly (Some (mkRuleSet (fst x) fast
                                            (hash_order (match snd x with Some l => l | None => [] end)))) s')
        end
    | _ => (Some None, s)
    end.

  (** [toml::from_str] up to the value; [None] if the text is no document *)
  Variable from_toml : bytes -> option toml.
  (** the normalization of the configuration *)
  Variable normal : bytes -> bytes.

  (** /repo/crates/pica-cli/src/commands/check/set.rs:33-62 RuleSet::new;
      [file] is the content, [None] if it cannot be read *)
  Definition set_new (file : option bytes) (s : levels) : presult rule_set :=
    match file with
    | None => (Some None, s)
    | Some b =>
        if utf8_valid b then
          match from_toml (normal b) with
          | Some v => read_set v s
          | None => (Some None, s)
          end
        else (Some None, s)
    end.

  (** [RegexSetBuilder::new(patterns).build()] with default flags: [None] if it
      fails, otherwise whether a name matches *)
  Variable patterns : list bytes -> option (bytes -> bool).

  (** /repo/crates/pica-cli/src/commands/check/mod.rs:63-100: the rule sets, those
      selected with --rule ([filter]) and --tags *)
  Definition rules_prepare (files : list (option bytes)) (filter : list bytes) (tags : option bytes) (s : levels)
    : presult (list rule_set) :=
    and_then (visit_all set_new files s) (fun sets s' =>
    plainly (match filter with
             | [] => Some (select_rules None str_trim tags sets)
             | _ => do re <- patterns filter; Some (select_rules (Some re) str_trim tags sets)
             end) s').
End Rules.

(** /repo/crates/pica-cli/src/commands/check/mod.rs:49-150 Check::execute with the
    names of the rule files: see [check_on_disk].  The rule files and the lists
    are read when the output has been opened, and the options have been read. *)
Section CheckFiles.
  Variable gz_enc : bytes -> bytes.
  Variable gz_dec : bytes -> list piece.
  Variable writable : bytes -> bool.
  Variable O : oracles.
  Variable transform : bytes -> bytes.
  Variable lossy : bytes -> bytes.
  Variable T : text_fns.
  Variable rule_order : list (bytes * N) -> list (bytes * N).
  Variable link_order : list (bytes * list bytes) -> list (bytes * list bytes).
  Variable oracles_at : N -> oracles.
  Variable int_f64 : Z -> N.
  Variable strptime : bytes -> bytes -> bool.
  Variable is_nf : norm_form -> bytes -> bool.
  (** the table polars reads from a file with this name and content *)
  Variable polars : bytes -> bytes -> option table.
  Variable hash_order : list rule -> list rule.
  Variable from_toml : bytes -> option toml.
  Variable normal : bytes -> bytes.
  Variable patterns : list bytes -> option (bytes -> bool).

  (** the rules as read from a disk *)
  Definition disk_rules (a : opts_args) (files filter : list bytes) (tags : option bytes) (d : disk)
    : option (option (list rule_set)) :=
    fst (rules_prepare oracles_at int_f64 strptime is_nf (fun n => do b <- disk_get d n; polars n b) hash_order from_toml normal patterns
           (map (disk_get d) files) filter tags (snd (opts_prepare O (oracles_at strsim_default) transform a))).

  Definition check_files_on_disk (a : opts_args) (files filter : list bytes) (tags output : option bytes) (skip : bool)
      (names : list bytes) (w : world) : option (command_end * world) :=
    let d := match open_output writable (mkOut output false false) (w_disk w) with Some d => d | None => w_disk w end in
    do rules <- disk_rules a files filter tags d;
    check_on_disk gz_enc gz_dec writable O (oracles_at strsim_default) transform lossy T rule_order link_order
      a rules output skip names w.
End CheckFiles.

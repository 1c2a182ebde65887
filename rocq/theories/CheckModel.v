(** * The check command

    Model of /repo/crates/pica-cli/src/commands/check.  Reading the
    rule sets is in [RuleModel.v], the text of the report in [CsvModel.v]. *)

From Coq Require Import String.
From Verif Require Import Bytes Winnow RecordModel TagOccModel Utf8Model ByteRecordModel ReaderModel
  MatcherModel PathModel FmtModel QueryModel CliModel CheckCodes.

(** The checks.  Each carries the external functions [O] for its similarity
    threshold and its case flag [ci].
    - /repo/crates/pica-cli/src/commands/check/checks/allow.rs:13-26 Allow,
      after reading the list
    - datetime.rs:6-20 DateTime; [parses] is [strptime] with the format
      being successful
    - duplicates.rs:16-30 Duplicates
    - filter.rs:5-17 Filter
    - isni.rs:5-14 Isni
    - iso639.rs Iso639, jelc.rs Jel
    - link.rs:7-36 Link, without its state
    - unicode.rs:9-11 Unicode; [is_nf] is one of [is_nfc], [is_nfkc], [is_nfd],
      [is_nfkd] *)
Inductive check :=
| CkAllow (O : oracles) (ci : bool) (p : path) (values : list bytes)
| CkDateTime (O : oracles) (ci : bool) (p : path) (parses : bytes -> bool) (offset : N)
| CkDuplicates (O : oracles) (ci : bool) (q : query) (threshold : N) (separator : bytes)
| CkFilter (O : oracles) (ci : bool) (m : field_matcher) (invert : bool)
| CkIsni (O : oracles) (ci : bool) (p : path) (prefix : option bytes)
| CkIso639 (O : oracles) (ci : bool) (p : path)
| CkJel (O : oracles) (ci : bool) (p : path)
| CkLink (O : oracles) (ci : bool) (source target : path) (m : option field_matcher)
| CkUnicode (is_nf : option (bytes -> bool)).

(** /repo/crates/pica-cli/src/commands/check/checks/link.rs:17-21: the state of
    a link check.  The set is a list, the map an association list. *)
Record link_state := mkLinkState {
  ls_unseen : list (bytes * list bytes);
  ls_seen : list bytes }.

(** a row of the output,
    /repo/crates/pica-cli/src/commands/check/writer/mod.rs:10-15 Record *)
Record check_row := mkRow {
  row_ppn : option bytes;
  row_rule : bytes;
  row_level : bytes;
  row_message : option bytes }.

(** /repo/crates/pica-cli/src/commands/check/rule.rs:19-38 Rule, without
    description and link; with the state of a link check *)
Record rule := mkRule {
  ru_id : bytes;
  ru_level : bytes;
  ru_tags : option (list bytes);
  ru_check : check;
  ru_state : link_state }.

(** /repo/crates/pica-cli/src/commands/check/set.rs:14-22 RuleSet; the rules in
    the iteration order of the hash map *)
Record rule_set := mkRuleSet {
  rs_scope : option field_matcher;
  rs_fast : bool;
  rs_rules : list rule }.

(** [entry(ppn).and_modify(|entry| entry.push(value)).or_insert_with(|| vec![value])],
    /repo/crates/pica-cli/src/commands/check/checks/link.rs:77-80 *)
Fixpoint unseen_add (ppn value : bytes) (m : list (bytes * list bytes)) : list (bytes * list bytes) :=
  match m with
  | [] => [(ppn, [value])]
  | (k, vs) :: m' => if bytes_eqb k ppn then (k, vs ++ [value]) :: m' else (k, vs) :: unseen_add ppn value m'
  end.

(** [entry(value).and_modify(|count| *count += 1).or_insert(1)],
    /repo/crates/pica-cli/src/commands/check/checks/duplicates.rs:53-56 *)
Fixpoint freq_inc (value : bytes) (m : list (bytes * N)) : list (bytes * N) :=
  match m with
  | [] => [(value, 1)]
  | (k, n) :: m' => if bytes_eqb k value then (k, n + 1) :: m' else (k, n) :: freq_inc value m'
  end.

(** /repo/crates/pica-cli/src/commands/check/checks/isni.rs:39-43 *)
Definition isni_digits (b : bytes) : list N := flat_map (fun c => if 48 <=? c then [c - 48] else []) b.

(** /repo/crates/pica-cli/src/commands/check/checks/isni.rs:45-61: whether the
    code is accepted *)
Definition isni_ok (b : bytes) : bool :=
  let digits := isni_digits b in
  (length digits =? 16)%nat
  && (let total := fold_left (fun acc item => (acc + item) * 2) (firstn 15 digits) 0 in
      let reminder := total mod 11 in
      let result := (12 - reminder) mod 11 in
      let result := if result =? 10 then 40 else result in
      result =? nth 15 digits 0).

(** /repo/crates/pica-cli/src/commands/check/checks/isni.rs:29-65: whether a
    value is listed *)
Definition isni_reports (prefix : option bytes) (v : bytes) : bool :=
  match prefix with
  | Some p => starts_with v p && negb (isni_ok (skipn (length p) v))
  | None => negb (isni_ok v)
  end.

(** the state of a rule that has been read, link.rs:17-21 *)
Definition no_links : link_state := mkLinkState [] [].

(** [str::split(sep)] for a one byte separator *)
Fixpoint split_on (sep : byte) (b : bytes) : list bytes :=
  match b with
  | [] => [[]]
  | c :: b' =>
      if c =? sep then [] :: split_on sep b'
      else match split_on sep b' with
           | [] => [[c]]
           | x :: l => (c :: x) :: l
           end
  end.

(** The rules kept by --tags, /repo/crates/pica-cli/src/commands/check/mod.rs:83-98;
    [trim] is [str::trim] *)
Definition keeps_tag (trim : bytes -> bytes) (tags : bytes) (ru : rule) : bool :=
  let allow := map trim (split_on 44 tags) in
  match ru_tags ru with
  | Some ts => existsb (fun t => mem_bytes t allow) ts
  | None => false
  end.

(** /repo/crates/pica-cli/src/commands/check/mod.rs:71-100: --rule ([re] tells
    whether an id matches one of the patterns), --tags, and the removal of empty
    rule sets *)
Definition select_rules (re : option (bytes -> bool)) (trim : bytes -> bytes) (tags : option bytes)
    (sets : list rule_set) : list rule_set :=
  filter (fun rs => match rs_rules rs with [] => false | _ => true end)
    (map (fun rs =>
       let rules := rs_rules rs in
       let rules := match re with Some f => filter (fun ru => f (ru_id ru)) rules | None => rules end in
       let rules := match tags with Some t => filter (keeps_tag trim t) rules | None => rules end in
       mkRuleSet (rs_scope rs) (rs_fast rs) rules) sets).

Section Check.
  (** [Od]: external functions with the default similarity threshold *)
  Variable Od : oracles.
  Variable T : text_fns.
  (** [BStr::to_string]: lossy decoding *)
  Variable lossy : bytes -> bytes.
  (** the iteration orders of the hash maps *)
  Variable freq_order : list (bytes * N) -> list (bytes * N).
  Variable unseen_order : list (bytes * list bytes) -> list (bytes * list bytes).

  (** [.map(ToString::to_string).collect::<Vec<_>>().join(", ")] *)
  Definition message_of (vs : list bytes) : bytes := join (lit ", ") (map lossy vs).

  (** The message is the criterion:
      /repo/crates/pica-cli/src/commands/check/checks/allow.rs:57-68,
      iso639.rs:93-104, jelc.rs:153-164 *)
  Definition list_check (O : oracles) (ci : bool) (p : path) (values : list bytes) (r : record)
    : option (bool * option bytes) :=
    do vs <- record_path O ci p r;
    let message := message_of (filter (fun v => negb (mem_bytes v values)) vs) in
    Some (match message with [] => (false, None) | _ => (true, Some message) end).

  (** The flag is the criterion:
      /repo/crates/pica-cli/src/commands/check/checks/datetime.rs:31-57,
      isni.rs:21-73, unicode.rs:22-50 *)
  Definition value_check (bad : bytes -> bool) (vs : list bytes) : bool * option bytes :=
    match filter bad vs with
    | [] => (false, None)
    | l => (true, Some (message_of l))
    end.

  (** /repo/crates/pica-cli/src/commands/check/checks/duplicates.rs:43-57 *)
  Definition dup_freqs (separator : bytes) (rows : outcome) : list (bytes * N) :=
    fold_left (fun m row =>
      let values := map lossy row in
      if forallb (fun v => match v with [] => true | _ => false end) values then m
      else freq_inc (join separator values) m) rows [].

  (** /repo/crates/pica-cli/src/commands/check/checks/duplicates.rs:33-70
      Duplicates::check *)
  Definition dup_check (O : oracles) (ci : bool) (q : query) (threshold : N) (separator : bytes) (r : record)
    : option (bool * option bytes) :=
    do rows <- record_query O T (mkQueryOptions ci (lit "|") false false) q r;
    let freqs := filter (fun e => threshold <=? snd e) (dup_freqs separator rows) in
    Some (match freqs with
          | [] => (false, None)
          | _ => (true, Some (join (lit "; ") (map fst (freq_order freqs))))
          end).

  (** /repo/crates/pica-cli/src/commands/check/checks/link.rs:39-61
      Link::preprocess *)
  Definition link_preprocess (O : oracles) (ci : bool) (target : path) (m : option field_matcher)
      (s : link_state) (r : record) : option link_state :=
    do values <- record_path O ci target r;
    match values with
    | [] => Some s
    | _ =>
        do insert <- match m with Some m => rm_is_match O ci m r | None => Some true end;
        Some (if insert then mkLinkState (ls_unseen s) (ls_seen s ++ values) else s)
    end.

  (** /repo/crates/pica-cli/src/commands/check/checks/link.rs:63-84 Link::check *)
  Definition link_check (O : oracles) (ci : bool) (source : path) (s : link_state) (r : record)
    : option link_state :=
    do ppn <- record_ppn O r;
    do values <- record_path O ci source r;
    let ppn := match ppn with Some p => p | None => [] end in
    Some (mkLinkState
      (fold_left (fun m v => if mem_bytes v (ls_seen s) then m else unseen_add ppn v m) values (ls_unseen s))
      (ls_seen s)).

  (** /repo/crates/pica-cli/src/commands/check/checks/link.rs:86-103 Link::finish *)
  Definition link_finish (s : link_state) : list (bytes * bytes) :=
    flat_map (fun e =>
      match message_of (filter (fun k => negb (mem_bytes k (ls_seen s))) (snd e)) with
      | [] => []
      | message => [(fst e, message)]
      end) (unseen_order (ls_unseen s)).

  (** the values of all subfields, unicode.rs:33-35 *)
  Definition all_values (r : record) : list bytes :=
    flat_map (fun f => map sf_value (f_subfields f)) r.

  (** /repo/crates/pica-cli/src/commands/check/rule.rs:60-69: flag and message;
      [None] is a panic.  For a link check see [rule_check]. *)
  Definition run_check (c : check) (r : record) : option (bool * option bytes) :=
    match c with
    | CkAllow Oc ci p values => list_check Oc ci p values r
    | CkIso639 Oc ci p => list_check Oc ci p iso639_codes r
    | CkJel Oc ci p => list_check Oc ci p jel_codes r
    | CkDateTime Oc ci p parses offset =>
        do vs <- record_path Oc ci p r;
        Some (value_check (fun v =>
          (N.of_nat (length v) <=? offset) || negb (parses (skipn (N.to_nat offset) v))) vs)
    | CkDuplicates Oc ci q threshold separator => dup_check Oc ci q threshold separator r
    | CkFilter Oc ci m invert =>
        do b <- rm_is_match Oc ci m r; Some (if invert then negb b else b, None)
    | CkIsni Oc ci p prefix =>
        do vs <- record_path Oc ci p r; Some (value_check (isni_reports prefix) vs)
    | CkLink _ _ _ _ _ => Some (false, None)
    | CkUnicode is_nf =>
        if record_validate r then
          Some (match is_nf with
                | Some f => value_check (fun v => negb (f v)) (all_values r)
                | None => (false, None)
                end)
        else Some (true, None)
    end.

  (** /repo/crates/pica-cli/src/commands/check/rule.rs:51-55 Rule::preprocess *)
  Definition rule_preprocess (ru : rule) (r : record) : option rule :=
    match ru_check ru with
    | CkLink Oc ci _ target m =>
        do s <- link_preprocess Oc ci target m (ru_state ru) r;
        Some (mkRule (ru_id ru) (ru_level ru) (ru_tags ru) (ru_check ru) s)
    | _ => Some ru
    end.

  (** /repo/crates/pica-cli/src/commands/check/rule.rs:57-81 Rule::check: the
      rule with its new state and the row written, if any *)
  Definition rule_check (ru : rule) (r : record) : option (rule * option check_row) :=
    do ru' <- match ru_check ru with
              | CkLink Oc ci source _ _ =>
                  do s <- link_check Oc ci source (ru_state ru) r;
                  Some (mkRule (ru_id ru) (ru_level ru) (ru_tags ru) (ru_check ru) s)
              | _ => Some ru
              end;
    do x <- run_check (ru_check ru) r;
    let '(flag, message) := x in
    if (flag : bool) then
      do ppn <- record_ppn Od r;
      Some (ru', Some (mkRow ppn (ru_id ru) (ru_level ru) message))
    else Some (ru', None).

  (** /repo/crates/pica-cli/src/commands/check/rule.rs:83-108 Rule::finish *)
  Definition rule_finish (ru : rule) : list check_row :=
    match ru_check ru with
    | CkLink _ _ _ _ _ =>
        map (fun e => mkRow (match fst e with [] => None | p => Some p end) (ru_id ru) (ru_level ru)
                            (Some (snd e))) (link_finish (ru_state ru))
    | _ => []
    end.

  (** [iter_mut().for_each(..)] *)
  Fixpoint map_opt {A B} (f : A -> option B) (l : list A) : option (list B) :=
    match l with
    | [] => Some []
    | x :: l' => do y <- f x; do ys <- map_opt f l'; Some (y :: ys)
    end.

  (** The loop of /repo/crates/pica-cli/src/commands/check/set.rs:80-87 *)
  Fixpoint rules_check (fast : bool) (rules : list rule) (r : record)
    : option (list rule * list check_row) :=
    match rules with
    | [] => Some ([], [])
    | ru :: rest =>
        do x <- rule_check ru r;
        let '(ru', row) := x in
        match row with
        | Some w =>
            if fast then Some (ru' :: rest, [w])
            else do y <- rules_check fast rest r; Some (ru' :: fst y, w :: snd y)
        | None => do y <- rules_check fast rest r; Some (ru' :: fst y, snd y)
        end
    end.

  (** /repo/crates/pica-cli/src/commands/check/set.rs:64-68 RuleSet::preprocess *)
  Definition rs_preprocess (rs : rule_set) (r : record) : option rule_set :=
    do rules <- map_opt (fun ru => rule_preprocess ru r) (rs_rules rs);
    Some (mkRuleSet (rs_scope rs) (rs_fast rs) rules).

  (** /repo/crates/pica-cli/src/commands/check/set.rs:70-90 RuleSet::check *)
  Definition rs_check (rs : rule_set) (r : record) : option (rule_set * list check_row) :=
    do b <- match rs_scope rs with Some m => rm_is_match Od false m r | None => Some true end;
    if b then
      do x <- rules_check (rs_fast rs) (rs_rules rs) r;
      Some (mkRuleSet (rs_scope rs) (rs_fast rs) (fst x), snd x)
    else Some (rs, []).

  (** The loop of /repo/crates/pica-cli/src/commands/check/mod.rs:127-130 *)
  Fixpoint sets_check (l : list rule_set) (r : record) : option (list rule_set * list check_row) :=
    match l with
    | [] => Some ([], [])
    | rs :: rest =>
        do rs1 <- rs_preprocess rs r;
        do x <- rs_check rs1 r;
        do y <- sets_check rest r;
        Some (fst x :: fst y, snd x ++ snd y)
    end.

  (** count, rule sets, rows *)
  Definition check_state : Type := N * list rule_set * list check_row.

  (** /repo/crates/pica-cli/src/commands/check/mod.rs:114-137; [O] and [o] are
      the options of the command *)
  Definition check_body (O : oracles) (o : filter_opts) : check_state -> byte_record -> step check_state :=
    guarded (opts_select O Od o) (fun s r =>
      let '(count, sets, rows) := s in
      match sets_check sets (br_record r) with
      | None => Panic
      | Some (sets', new) =>
          let s' := (count + 1, sets', rows ++ new) in
          if limit_reached (fo_limit o) (count + 1) then Halt s' else Next s'
      end).

  (** /repo/crates/pica-cli/src/commands/check/set.rs:92-101 RuleSet::finish for
      all rule sets, mod.rs:142-144 *)
  Definition sets_finish (l : list rule_set) : list check_row :=
    flat_map (fun rs => flat_map rule_finish (rs_rules rs)) l.

  (** /repo/crates/pica-cli/src/commands/check/mod.rs:49-150 Check::execute: the
      rows written, given the selected rule sets *)
  Definition check_run (O : oracles) (skip : bool) (o : filter_opts) (sets : list rule_set)
      (files : list (bytes * bytes)) : option (ending (list check_row)) :=
    finish_with (fun s => Some (snd s ++ sets_finish (snd (fst s)))) snd
      (run_loop (on_result skip (check_body O o))
        (0, sets, []) files).
End Check.

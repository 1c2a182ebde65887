(** * Specification of the check command *)

From Coq Require Import String Permutation.
From Verif Require Import Bytes Utf8Spec RecordModel RecordSpec TagOccModel ByteRecordModel
  MatcherModel MatcherSpec PathModel FmtModel QueryModel QuerySpec CliSpec TableSpec CheckCodes CheckModel.

(** ** ISNI *)

(** the characters of a code; bytes below '0', such as blank and '-', are
    formatting *)
Definition characters (b cs : bytes) : Prop := picks (fun c => 48 <= c) (fun c => c) b cs.

(** the weighted sum of ISO 7064 MOD 11-2: the last summand has weight 2, each
    one before it double the weight *)
Fixpoint weighted (ds : list N) : N :=
  match ds with
  | [] => 0
  | d :: l => d * 2 ^ N.of_nat (length ds) + weighted l
  end.

Definition digit (c : byte) : Prop := In c digits.
(** a digit, or X, which stands for 10 *)
Definition check_character (c : byte) (n : N) : Prop :=
  (digit c /\ n = c - 48) \/ (c = 88 /\ n = 10).

(** 15 digits and a check character *)
Definition is_isni (b : bytes) : Prop :=
  exists ds c n, characters b (ds ++ [c]) /\ length ds = 15%nat /\ Forall digit ds
    /\ check_character c n
    /\ (weighted (map (fun d => d - 48) ds) + n) mod 11 = 1.

(** what the program accepts: any 15 bytes from '0' on count as digits *)
Definition isni_accepted (b : bytes) : Prop :=
  exists ds c n, characters b (ds ++ [c]) /\ length ds = 15%nat
    /\ check_character c n
    /\ (weighted (map (fun d => d - 48) ds) + n) mod 11 = 1.

(** ** The verdict of a check on a record: [None] if it is not flagged,
    otherwise the message *)

Definition qoptions (ci : bool) : query_options := mkQueryOptions ci (lit "|") false false.

Definition text_dec : forall a b : bytes, {a = b} + {a <> b} := list_eq_dec N.eq_dec.

Section Spec.
  Variable Od : oracles.
  Variable T : text_fns.
  Variable lossy : bytes -> bytes.

  (** the message naming values *)
  Definition names (vs : list bytes) (msg : bytes) : Prop := joined (lit ", ") (map lossy vs) msg.

  (** flagged iff there is a bad value *)
  Definition value_verdict (bad : bytes -> Prop) (vs : list bytes) (v : option (option bytes)) : Prop :=
    exists l, picks bad (fun x => x) vs l
      /\ ((l = [] /\ v = None) \/ (l <> [] /\ exists msg, names l msg /\ v = Some (Some msg))).

  (** the same, but a single bad value that is empty is overlooked *)
  Definition list_verdict (allowed : list bytes) (vs : list bytes) (v : option (option bytes)) : Prop :=
    exists l, picks (fun x => ~ In x allowed) (fun x => x) vs l
      /\ (((l = [] \/ l = [[]]) /\ v = None)
          \/ (l <> [] /\ l <> [[]] /\ exists msg, names l msg /\ v = Some (Some msg))).

  (** the rest of the value from [offset] on is not empty and parses *)
  Definition date_ok (parses : bytes -> bool) (offset : N) (v : bytes) : Prop :=
    exists a b, v = a ++ b /\ N.of_nat (length a) = offset /\ b <> [] /\ parses b = true.

  (** values without the prefix are not looked at *)
  Definition isni_bad (prefix : option bytes) (v : bytes) : Prop :=
    exists rest, v = opt_text prefix ++ rest /\ ~ isni_accepted rest.

  (** the texts of the rows that are not blank *)
  Definition row_texts (separator : bytes) (rows : outcome) (texts : list bytes) : Prop :=
    exists kept, picks (fun row => ~ blank (map lossy row)) (fun row => row) rows kept
      /\ Forall2 (fun row t => joined separator (map lossy row) t) kept texts.

  Definition duplicate_verdict (threshold : N) (separator : bytes) (rows : outcome)
      (v : option (option bytes)) : Prop :=
    exists texts keys, row_texts separator rows texts
      /\ NoDup keys
      /\ (forall k, In k keys <-> In k texts /\ threshold <= N.of_nat (count_occ text_dec texts k))
      /\ ((keys = [] /\ v = None)
          \/ (keys <> [] /\ exists msg, joined (lit "; ") keys msg /\ v = Some (Some msg))).

  Definition verdict (c : check) (r : record) (v : option (option bytes)) : Prop :=
    match c with
    | CkAllow Oc ci p allowed => exists vs, path_lists Oc ci p r vs /\ list_verdict allowed vs v
    | CkIso639 Oc ci p => exists vs, path_lists Oc ci p r vs /\ list_verdict iso639_codes vs v
    | CkJel Oc ci p => exists vs, path_lists Oc ci p r vs /\ list_verdict jel_codes vs v
    | CkDateTime Oc ci p parses offset =>
        exists vs, path_lists Oc ci p r vs /\ value_verdict (fun x => ~ date_ok parses offset x) vs v
    | CkDuplicates Oc ci q threshold separator =>
        exists rows, query_rows Oc T (qoptions ci) q (mkBR None r) rows
          /\ duplicate_verdict threshold separator rows v
    | CkFilter Oc ci m invert =>
        let P := if invert then ~ fm_holds Oc ci m r else fm_holds Oc ci m r in
        (P /\ v = Some None) \/ (~ P /\ v = None)
    | CkIsni Oc ci p prefix =>
        exists vs, path_lists Oc ci p r vs /\ value_verdict (isni_bad prefix) vs v
    | CkLink _ _ _ _ _ => v = None
    | CkUnicode is_nf =>
        (~ record_utf8 r /\ v = Some None)
        \/ (record_utf8 r /\
            match is_nf with
            | None => v = None
            | Some f => value_verdict (fun x => f x <> true)
                          (concat (map (fun f => map sf_value (f_subfields f)) r)) v
            end)
    end.

  (** regular expressions compile *)
  Definition check_wf (c : check) : Prop :=
    match c with
    | CkAllow Oc ci p _ | CkIso639 Oc ci p | CkJel Oc ci p | CkDateTime Oc ci p _ _ | CkIsni Oc ci p _ =>
        opt_sm_wf Oc ci (p_sub p)
    | CkDuplicates Oc ci q _ _ => query_wf Oc (qoptions ci) q
    | CkFilter Oc ci m _ => fm_wf Oc ci m
    | CkLink Oc ci source target m =>
        opt_sm_wf Oc ci (p_sub source) /\ opt_sm_wf Oc ci (p_sub target)
        /\ (forall fm, m = Some fm -> fm_wf Oc ci fm)
    | CkUnicode _ => True
    end.

  (** ** Rows *)

  (** the rows for a record: of all flagging rules, or, with fast termination,
      of the first one *)
  Inductive rules_rows (fast : bool) (r : record) : list rule -> list check_row -> Prop :=
  | rr_nil : rules_rows fast r [] []
  | rr_pass : forall ru rest rows, verdict (ru_check ru) r None ->
      rules_rows fast r rest rows -> rules_rows fast r (ru :: rest) rows
  | rr_flag : forall ru rest msg ids rows, verdict (ru_check ru) r (Some msg) -> identifiers r ids ->
      fast = false -> rules_rows fast r rest rows ->
      rules_rows fast r (ru :: rest) (mkRow (hd_error ids) (ru_id ru) (ru_level ru) msg :: rows)
  | rr_stop : forall ru rest msg ids, verdict (ru_check ru) r (Some msg) -> identifiers r ids ->
      fast = true ->
      rules_rows fast r (ru :: rest) [mkRow (hd_error ids) (ru_id ru) (ru_level ru) msg].

  Definition in_scope (rs : rule_set) (r : record) : Prop :=
    forall m, rs_scope rs = Some m -> fm_holds Od false m r.

  Definition set_rows (r : record) (rs : rule_set) (rows : list check_row) : Prop :=
    (in_scope rs r /\ rules_rows (rs_fast rs) r (rs_rules rs) rows) \/ (~ in_scope rs r /\ rows = []).

  (** ** References *)

  (** the identifier of a record, empty if it has none *)
  Definition record_id (r : record) (id : bytes) : Prop :=
    exists ids, identifiers r ids /\ id = hd [] ids.

  (** a value occurs as target in one of the records *)
  Definition is_target (O : oracles) (ci : bool) (target : path) (m : option field_matcher)
      (recs : list record) (v : bytes) : Prop :=
    exists r vs, In r recs /\ path_lists O ci target r vs /\ In v vs
      /\ (forall fm, m = Some fm -> fm_holds O ci fm r).

  (** the references of the records with this identifier, in order *)
  Definition references (O : oracles) (ci : bool) (source : path) (recs : list record) (id : bytes)
      (refs : list bytes) : Prop :=
    exists rs vss, picks (fun r => record_id r id) (fun r => r) recs rs
      /\ Forall2 (path_lists O ci source) rs vss /\ refs = concat vss.

  (** those that are not targets; the targets are sought in [recs], the
      references in [checked] *)
  Definition dangling (O : oracles) (ci : bool) (source target : path) (m : option field_matcher)
      (recs checked : list record) (id : bytes) (d : list bytes) : Prop :=
    exists refs, references O ci source checked id refs
      /\ picks (fun v => ~ is_target O ci target m recs v) (fun v => v) refs d.

  (** one entry per identifier with dangling references; a single one that is
      empty is overlooked *)
  Definition link_reports (O : oracles) (ci : bool) (source target : path) (m : option field_matcher)
      (recs checked : list record) (out : list (bytes * bytes)) : Prop :=
    NoDup (map fst out)
    /\ forall id msg, In (id, msg) out <->
         exists d, dangling O ci source target m recs checked id d
           /\ d <> [] /\ d <> [[]] /\ names d msg.

  (** the rule with index [k] gets to see the record *)
  Definition reached (rs : rule_set) (k : nat) (r : record) : Prop :=
    in_scope rs r
    /\ (rs_fast rs = true ->
        forall j ru, (j < k)%nat -> nth_error (rs_rules rs) j = Some ru -> verdict (ru_check ru) r None).

  (** the rows of a rule at the end of the run *)
  Definition rule_final (recs : list record) (rs : rule_set) (k : nat) (ru : rule) (rows : list check_row)
    : Prop :=
    match ru_check ru with
    | CkLink Oc ci source target m =>
        exists checked out, picks (reached rs k) (fun r => r) recs checked
          /\ link_reports Oc ci source target m recs checked out
          /\ rows = map (fun e => mkRow (match fst e with [] => None | p => Some p end)
                                        (ru_id ru) (ru_level ru) (Some (snd e))) out
    | _ => rows = []
    end.

  Definition set_final (recs : list record) (rs : rule_set) (rows : list check_row) : Prop :=
    exists parts, length parts = length (rs_rules rs)
      /\ (forall k ru part, nth_error (rs_rules rs) k = Some ru -> nth_error parts k = Some part ->
            rule_final recs rs k ru part)
      /\ rows = concat parts.

  (** ** Rule sets *)

  Definition set_wf (rs : rule_set) : Prop :=
    (forall m, rs_scope rs = Some m -> fm_wf Od false m)
    /\ Forall (fun ru => check_wf (ru_check ru) /\ ru_state ru = no_links) (rs_rules rs).
End Spec.

(** *** Selection of rules *)

(** [b] cut at every comma *)
Inductive comma_items : bytes -> list bytes -> Prop :=
| ci_one : forall b, ~ In 44 b -> comma_items b [b]
| ci_more : forall b rest l, ~ In 44 b -> comma_items rest l -> comma_items (b ++ 44 :: rest) (b :: l).

(** --rule and --tags *)
Definition rule_wanted (re : option (bytes -> bool)) (trim : bytes -> bytes) (tags : option bytes)
    (ru : rule) : Prop :=
  (forall f, re = Some f -> f (ru_id ru) = true)
  /\ (forall t, tags = Some t ->
      exists items ts x i, comma_items t items /\ ru_tags ru = Some ts /\ In x ts /\ In i items /\ x = trim i).

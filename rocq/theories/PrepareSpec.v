(** * Specification of the arguments of filter and of the shared options

    The meaning of the texts given on the command line, by the languages of
    [GrammarSpec.v], [QueryGrammarSpec.v] and [OptionsSpec.v]. *)

From Coq Require Import String.
From Verif Require Import Bytes RecordModel RecordSpec ByteRecordModel ByteRecordSpec ReaderModel Utf8Spec MatcherModel
  MatcherSpec GrammarSpec FmtModel QueryModel QuerySpec QueryGrammarSpec CliModel CliSpec CheckSpec OptionsSpec
  PrepareModel.

(** ** Expressions *)

(** a filter expression; in the strict language nested less than 256 deep *)
Definition expression (O : oracles) (strict : bool) (t : bytes) (P : meaning field) : Prop :=
  exists n, record_matcher_text O strict t P n /\ (strict = true -> n < 256).

(** first expression, --and, --or, --not: all of the first two kinds or one of
    the third, and none of the fourth *)
Definition combined (P : meaning field) (As Os Ns : list (meaning field)) : meaning field := fun ci fs =>
  ((P ci fs /\ forall Q, In Q As -> Q ci fs) \/ exists Q, In Q Os /\ Q ci fs)
  /\ ~ exists Q, In Q Ns /\ Q ci fs.

(** the condition stated by the expressions; each is transformed before it is
    read *)
Definition condition (O : oracles) (strict : bool) (transform : bytes -> bytes) (e : bytes)
    (ands ors nots : list bytes) (M : meaning field) : Prop :=
  exists P As Os Ns,
    expression O strict (transform e) P
    /\ Forall2 (fun t => expression O strict (transform t)) ands As
    /\ Forall2 (fun t => expression O strict (transform t)) ors Os
    /\ Forall2 (fun t => expression O strict (transform t)) nots Ns
    /\ forall ci fs, M ci fs <-> combined P As Os Ns ci fs.

(** ** Allow and deny lists *)

(** the values of a record the lists are compared with: those of the path
    "003@.0" if there is no --filter-set-source *)
Definition source_values (O : oracles) (strict : bool) (source : option bytes)
    (V : record -> list bytes -> Prop) : Prop :=
  exists F Cs,
    path_text O strict (match source with Some t => t | None => lit "003@.0" end) F Cs
    /\ forall r vs, V r vs <-> path_values_of F Cs false r vs.

Definition on_list (ts : list table) (col : option bytes) (v : bytes) : Prop :=
  exists t cells, In t ts /\ id_column t col cells /\ In (Some v) cells.

(** every table has its column *)
Definition has_columns (ts : list table) (col : option bytes) : Prop :=
  forall t, In t ts -> exists cells, id_column t col cells.

Definition admits (V : record -> list bytes -> Prop) (allow deny : list table) (col : option bytes)
    (r : record) : Prop :=
  exists vs, V r vs
    /\ (forall v, In v vs -> ~ on_list deny col v)
    /\ (allow = [] \/ exists v, In v vs /\ on_list allow col v).

(** ** --keep and --discard *)

Definition predicates : Type := list (bytes -> option bytes -> Prop).

Definition fields_option (o : option bytes) (Ps : predicates) : Prop :=
  match o with
  | None => Ps = []
  | Some b => exists items, list_items b items /\ Forall2 predicate_text items Ps
  end.

Definition names_field (Ps : predicates) (f : field) : Prop := exists P, In P Ps /\ P (f_tag f) (f_occ f).

(** fields that are written: not discarded, and kept if something is to be kept *)
Definition remains (D K : predicates) (f : field) : Prop :=
  ~ names_field D f /\ (K = [] \/ names_field K f).

(** the text of a record without the fields that do not remain *)
Definition remaining_text (D K : predicates) (r : byte_record) (t : bytes) : Prop :=
  exists fs, Selected (remains D K) (br_record r) fs /\ contents_text fs t.

(** ** The arguments of filter *)

(** the expression: the contents of the expression file, if given *)
Definition filter_text (content : bytes -> bytes) (a : filter_args) (e : bytes) : Prop :=
  (fa_expr_file a = None /\ e = fa_filter a)
  \/ exists name, fa_expr_file a = Some name /\ e = content name /\ is_utf8 e.

(** the input files: the argument in the place of the expression is one, if
    there is an expression file *)
Inductive input_names (a : filter_args) : list bytes -> Prop :=
| inames_expr : fa_expr_file a = None -> input_names a (fa_names a)
| inames_none : forall x, fa_expr_file a = Some x -> fa_filter a = [] -> input_names a (fa_names a)
| inames_only : forall x, fa_expr_file a = Some x -> fa_filter a <> [] -> fa_names a = [lit "-"] ->
    input_names a [fa_filter a]
| inames_more : forall x, fa_expr_file a = Some x -> fa_filter a <> [] -> fa_names a <> [lit "-"] ->
    input_names a (fa_filter a :: fa_names a).

(** what the arguments of filter say: the condition, fields to discard and
    to keep, and the values for the lists *)
Record filter_says (O Od : oracles) (strict : bool) (transform content : bytes -> bytes) (a : filter_args)
    (M : meaning field) (D K : predicates) (V : record -> list bytes -> Prop) : Prop := {
  says_condition : exists e, filter_text content a e
    /\ condition O strict transform e (fa_and a) (fa_or a) (fa_not a) M;
  says_discard : fields_option (fa_discard a) D;
  says_keep : fields_option (fa_keep a) K;
  says_source : source_values Od strict (fa_source a) V;
  says_allow : has_columns (fa_allow a) (fa_column a);
  says_deny : has_columns (fa_deny a) (fa_column a) }.

(** the run such arguments ask for *)
Definition filter_effect (content : bytes -> bytes) (a : filter_args) (M : meaning field) (D K : predicates)
    (V : record -> list bytes -> Prop) (x : ending filter_state) : Prop :=
  exists names all e0 sel recs e texts,
    input_names a names
    /\ reads (fa_skip a) (map (fun n => (n, content n)) names) all e0
    /\ chosen (fun r => admits V (fa_allow a) (fa_deny a) (fa_column a) r
                        /\ (if fa_invert a then ~ M (fa_ci a) r else M (fa_ci a) r)) all sel
    /\ limited (fa_limit a) sel e0 recs e
    /\ Forall2 (remaining_text D K) recs texts
    /\ x = ended (N.of_nat (length recs), concat texts, concat texts) e.

(** ** The shared options of the other commands *)

(** without --where every record is meant *)
Definition where_condition (O : oracles) (strict : bool) (transform : bytes -> bytes) (a : opts_args)
    (M : meaning field) : Prop :=
  match oa_where a with
  | Some e => condition O strict transform e (oa_and a) (oa_or a) (oa_not a) M
  | None => forall ci fs, M ci fs
  end.

Record opts_say (O Od : oracles) (strict : bool) (transform : bytes -> bytes) (a : opts_args)
    (M : meaning field) (V : record -> list bytes -> Prop) : Prop := {
  say_condition : where_condition O strict transform a M;
  say_source : source_values Od strict (oa_source a) V;
  say_allow : has_columns (oa_allow a) (oa_column a);
  say_deny : has_columns (oa_deny a) (oa_column a) }.

(** the records a command works on *)
Definition meant (a : opts_args) (M : meaning field) (V : record -> list bytes -> Prop) (r : record) : Prop :=
  admits V (oa_allow a) (oa_deny a) (oa_column a) r /\ M (oa_ci a) r.

Definition opts_records (a : opts_args) (M : meaning field) (V : record -> list bytes -> Prop)
    (skip : bool) (files : list (bytes * bytes)) (recs : list byte_record) (e : option read_error) : Prop :=
  exists all sel e0, reads skip files all e0 /\ chosen (meant a M V) all sel
    /\ limited (oa_limit a) sel e0 recs e.

(** ** select and frequency *)

(** the fields of a header: cut at commas and trimmed *)
Definition header_text (h : option bytes) (header : option (list bytes)) : Prop :=
  match h, header with
  | None, None => True
  | Some b, Some fields => exists parts, comma_items b parts /\ Forall2 trimmed parts fields
  | _, _ => False
  end.

(** the options of a query *)
Definition options_of (a : table_args) : query_options := {|
  qo_squash := ta_squash a;
  qo_merge := ta_merge a;
  qo_separator := ta_separator a;
  qo_case_ignore := oa_ci (ta_opts a) |}.

(** the columns of a query *)
Definition columns_of (Ms : list (nat * qmeaning)) : nat := list_sum (map fst Ms).

(** the query of a command and its header *)
Record table_says (O : oracles) (T : text_fns) (strict : bool) (transform : bytes -> bytes) (a : table_args)
    (Ms : list (nat * qmeaning)) (header : option (list bytes)) : Prop := {
  says_query : exists n, query_text O T strict (transform (ta_query a)) Ms n /\ (strict = true -> n < 32);
  says_header : header_text (ta_header a) header }.

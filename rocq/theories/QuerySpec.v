(** * Specification of paths, formats and queries

    Relations between a record and the selected, formatted or queried texts.
    They share the data types, the external text functions and the meaning of
    subfield conditions ([MatcherSpec.v]) with the model, but none of its
    loops. *)

From Coq Require Import String.
From Verif Require Import Bytes Utf8Spec RecordModel TagOccModel MatcherModel MatcherSpec PathModel FmtModel QueryModel.

(** [out] are the images under [f] of the members of [l] with property [P], in
    order, each once *)
Inductive picks {A B} (P : A -> Prop) (f : A -> B) : list A -> list B -> Prop :=
| picks_nil : picks P f [] []
| picks_yes : forall x l out, P x -> picks P f l out -> picks P f (x :: l) (f x :: out)
| picks_no : forall x l out, ~ P x -> picks P f l out -> picks P f (x :: l) out.

(** the values of the subfields whose code is in [codes] *)
Definition values_of (codes : bytes) (f : field) (vs : list bytes) : Prop :=
  picks (fun s => In (sf_code s) codes) sf_value (f_subfields f) vs.

Section Spec.
  Variable O : oracles.
  Variable ci : bool.

  (** the field is addressed by tag, occurrence and optional condition *)
  Definition addressed (t : tag_matcher) (o : occ_matcher) (sm : option subfield_matcher)
      (f : field) : Prop :=
    tag_occ t o f /\ condition_holds O ci sm f.

  (** ** Paths *)

  (** the values a path selects from a record: per addressed field, the values
      of the subfields whose code is in one of the groups, in record order *)
  Definition path_lists (p : path) (r : record) (vs : list bytes) : Prop :=
    exists fs vss,
      picks (addressed (p_tag p) (p_occ p) (p_sub p)) (fun f => f) r fs
      /\ Forall2 (fun f => picks (fun s => exists codes, In codes (p_codes p) /\ In (sf_code s) codes)
                             sf_value (f_subfields f)) fs vss
      /\ vs = concat vss.

  Definition path_wf (p : path) : Prop := opt_sm_wf O ci (p_sub p) /\ p_codes p <> [].

  (** ** Formats *)

  (** removal of the first '@', and of all blanks *)
  Inductive stripped : bytes -> bytes -> Prop :=
  | strip_none : forall b, ~ In 64 b -> stripped b b
  | strip_first : forall u w, ~ In 64 u -> stripped (u ++ 64 :: w) (u ++ w).

  Definition when (b : bool) (R : bytes -> bytes -> Prop) (x y : bytes) : Prop :=
    if b then R x y else y = x.

  Variable T : text_fns.

  (** the modifiers apply in the order o, t, w, l, u *)
  Definition modified (m : modifier) (x y : bytes) : Prop :=
    exists x1 x2 x3 x4,
      when (m_strip m) stripped x x1
      /\ when (m_trim m) (fun a b => b = t_trim T a) x1 x2
      /\ when (m_remove_ws m) (picks (fun c => c <> 32) (fun c => c)) x2 x3
      /\ when (m_lower m) (fun a b => b = t_lower T a) x3 x4
      /\ when (m_upper m) (fun a b => b = t_upper T a) x4 y.

  (** concatenation of the leading non-empty members of a list *)
  Inductive until_empty : list bytes -> bytes -> Prop :=
  | ue_end : until_empty [] []
  | ue_stop : forall l, until_empty ([] :: l) []
  | ue_go : forall x l out, x <> [] -> until_empty l out -> until_empty (x :: l) (x ++ out).

  Variable strip : bool.

  (** text of a format fragment for a field *)
  Inductive frag_text (f : field) : fragments -> bytes -> Prop :=
  | ft_value : forall codes pre suf bound m vs vs' out,
      values_of codes f vs ->
      Forall2 (when strip stripped) vs vs' ->
      modified m
        (concat (map (fun v => opt_text pre ++ v ++ opt_text suf) (firstn (N.to_nat bound) vs'))) out ->
      frag_text f (FValue codes pre suf bound m) out
  | ft_group : forall body bound m v out,
      frag_text f body v -> modified m v out -> frag_text f (FGroup body bound m) out
  | ft_cons : forall l outs,
      Forall2 (frag_text f) l outs -> frag_text f (FCons l) (concat outs)
  | ft_and_then : forall l outs out,
      Forall2 (frag_text f) l outs -> until_empty outs out -> frag_text f (FAndThen l) out.

  (** fragments without a group directly inside a group *)
  Fixpoint frag_wf (fr : fragments) : Prop :=
    match fr with
    | FValue _ _ _ _ _ => True
    | FGroup body _ _ => match body with FGroup _ _ _ => False | _ => True end /\ frag_wf body
    | FCons l | FAndThen l =>
        (fix all l := match l with [] => True | x :: r => frag_wf x /\ all r end) l
    end.

  Definition format_wf (fm : format) : Prop :=
    opt_sm_wf O ci (fmt_sub fm) /\ frag_wf (fmt_fragments fm).

  (** the outputs of a format on a record: the non-empty texts of the addressed
      fields, in record order *)
  Definition format_lists (fm : format) (r : record) (outs : list bytes) : Prop :=
    exists fs texts,
      picks (addressed (fmt_tag fm) (fmt_occ fm) (fmt_sub fm)) (fun f => f) r fs
      /\ Forall2 (fun f t => frag_text f (fmt_fragments fm) t) fs texts
      /\ picks (fun t : bytes => t <> []) (fun t => t) texts outs.
End Spec.

(** ** Queries *)

(** number of columns *)
Definition columns (fr : qfragment) : nat :=
  match fr with QPath p => length (p_codes p) | _ => 1%nat end.
Definition query_columns (q : query) : nat := list_sum (map columns (q_fragments q)).

(** all concatenations of one row of each table, in lexicographic order *)
Fixpoint lex_product (ts : list outcome) : outcome :=
  match ts with
  | [] => [[]]
  | t :: rest => flat_map (fun x => map (fun y => x ++ y) (lex_product rest)) t
  end.

(** texts joined with a separator *)
Inductive joined (sep : bytes) : list bytes -> bytes -> Prop :=
| joined_one : forall x, joined sep [x] x
| joined_more : forall x y l t, joined sep (y :: l) t -> joined sep (x :: y :: l) (x ++ sep ++ t).

(** a missing value is the empty text *)
Definition or_empty (vs : list bytes) : list bytes := match vs with [] => [[]] | _ => vs end.

Section QuerySpec.
  Variable O : oracles.
  Variable T : text_fns.
  Variable qo : query_options.

  Let ci := qo_case_ignore qo.

  (** the entries of one column of one field: the values in order, or all of
      them joined (squash), or one empty text *)
  Definition column_entries (f : field) (codes : bytes) (es : list bytes) : Prop :=
    exists vs, values_of codes f vs
      /\ if qo_squash qo then exists e, joined (qo_separator qo) (or_empty vs) e /\ es = [e]
         else es = or_empty vs.

  (** the rows of a field: the product of its columns *)
  Definition field_rows (p : path) (f : field) (rows : outcome) : Prop :=
    exists cols, Forall2 (column_entries f) (p_codes p) cols
      /\ rows = lex_product (map (map (fun v => [v])) cols).

  (** the rows of a fragment, before merging *)
  Definition rows_of (fr : qfragment) (r : record) (rows : outcome) : Prop :=
    match fr with
    | QLiteral b => rows = [[b]]
    | QFormat fm =>
        exists outs, format_lists O ci T false fm r outs
          /\ rows = map (fun t => [t]) (or_empty outs)
    | QPath p =>
        exists fs rss,
          picks (addressed O ci (p_tag p) (p_occ p) (p_sub p)) (fun f => f) r fs
          /\ Forall2 (field_rows p) fs rss
          /\ rows = match fs with [] => [repeat [] (length (p_codes p))] | _ => concat rss end
    end.

  (** merging: one row, each column the join of that column of all rows *)
  Definition merged (n : nat) (rows out : outcome) : Prop :=
    exists row, out = [row] /\ length row = n
      /\ forall j, (j < n)%nat ->
           joined (qo_separator qo) (map (fun x => nth j x []) rows) (nth j row []).

  Definition final_rows (fr : qfragment) (r : record) (rows : outcome) : Prop :=
    exists rows0, rows_of fr r rows0
      /\ if qo_merge qo then merged (columns fr) rows0 rows else rows = rows0.

  Definition qfragment_wf (fr : qfragment) : Prop :=
    match fr with
    | QLiteral _ => True
    | QPath p => path_wf O ci p
    | QFormat fm => format_wf O ci fm
    end.
  Definition query_wf (q : query) : Prop :=
    q_fragments q <> [] /\ Forall qfragment_wf (q_fragments q).
End QuerySpec.

(** ** Texts *)

(** the fixed texts of formats and queries are UTF-8 *)
Fixpoint frag_utf8 (fr : fragments) : Prop :=
  match fr with
  | FValue _ pre suf _ _ => is_utf8 (opt_text pre) /\ is_utf8 (opt_text suf)
  | FGroup body _ _ => frag_utf8 body
  | FCons l | FAndThen l =>
      (fix all l := match l with [] => True | x :: r => frag_utf8 x /\ all r end) l
  end.
Definition qfragment_utf8 (fr : qfragment) : Prop :=
  match fr with
  | QLiteral b => is_utf8 b
  | QPath _ => True
  | QFormat f => frag_utf8 (fmt_fragments f)
  end.

(** the assumption on regular expressions of C59: what compiles at parse time
    compiles with the case flag, alone and as a set *)
Definition regexes_compile (O : oracles) (ci : bool) : Prop :=
  (forall re, o_re_ok O false re = true -> o_re_ok O ci re = true)
  /\ (forall res, Forall (fun re => o_re_ok O false re = true) res -> o_reset_ok O ci res = true).

(** all values of the record are UTF-8 *)
Definition record_utf8 (r : record) : Prop :=
  forall f s, In f r -> In s (f_subfields f) -> is_utf8 (sf_value s).

(** the text functions map UTF-8 to UTF-8 *)
Definition text_fns_utf8 (T : text_fns) : Prop :=
  forall b, is_utf8 b -> is_utf8 (t_lower T b) /\ is_utf8 (t_upper T b) /\ is_utf8 (t_trim T b).

(** fields holding the identifier of a record *)
Definition id_field (f : field) : Prop :=
  f_tag f = lit "003@" /\ (f_occ f = None \/ f_occ f = Some (lit "00")).
(** the values of $0 in these fields, in record order *)
Definition identifiers (r : record) (ids : list bytes) : Prop :=
  exists fs vss, picks id_field (fun f => f) r fs /\ Forall2 (values_of (lit "0")) fs vss
    /\ ids = concat vss.

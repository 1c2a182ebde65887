(** * Specification of the languages of paths, formats and queries

    Texts paired with their meaning, in the manner of [GrammarSpec.v]: nothing
    here refers to the parsers or to the paths, formats and queries they
    build. *)

From Coq Require Import String.
From Verif Require Import Bytes RecordModel RecordSpec TagOccSpec StrSpec Utf8Spec MatcherModel MatcherSpec
  GrammarSpec FmtModel QueryModel QuerySpec.

(** which fields are meant: does case matter, and the field *)
Definition address : Type := bool -> field -> Prop.

(** the texts written for a field: is '@' removed from values, the field, the text *)
Definition fmeaning : Type := bool -> field -> bytes -> Prop.

(** the rows of a fragment of a query *)
Definition qmeaning : Type := query_options -> record -> outcome -> Prop.

Section Texts.
  Variable O : oracles.
  Variable T : text_fns.
  (** as in [GrammarSpec.v]: the strict language avoids the operand that is
      rejected, and nests subfield matchers at most 31 deep in their measure *)
  Variable strict : bool.

  (** ** Conditions after "|"; the flag tells whether there is one *)
  Inductive guard_text : bytes -> bool -> meaning subfield -> Prop :=
  | guard_none : guard_text [] false (fun _ _ => True)
  | guard_some : forall k w1 e w2 P n,
      alone k = true -> sub_text O strict k e P n -> (strict = true -> n < 32) ->
      blanks w1 -> blanks w2 ->
      guard_text (lit "|" ++ w1 ++ e ++ w2) true P.

  Definition guarded (T : bytes -> Prop) (S : option bytes -> Prop) (P : meaning subfield) : address :=
    fun ci f => tagged T S f /\ P ci (f_subfields f).

  (** ** Paths *)

  (** groups of codes, separated by commas *)
  Inductive groups_text : bytes -> list (byte -> Prop) -> Prop :=
  | groups_one : forall t C, codes_text t C -> groups_text t [C]
  | groups_more : forall t C w1 w2 ts Cs,
      codes_text t C -> blanks w1 -> blanks w2 -> groups_text ts Cs ->
      groups_text (t ++ w1 ++ lit "," ++ w2 ++ ts) (C :: Cs).

  Inductive columns_text : bytes -> list (byte -> Prop) -> Prop :=
  | columns_plain : forall t Cs, groups_text t Cs -> columns_text t Cs
  | columns_parens : forall w1 t w2 Cs, blanks w1 -> groups_text t Cs -> blanks w2 ->
      columns_text (lit "(" ++ w1 ++ t ++ w2 ++ lit ")") Cs.

  Inductive path_text : bytes -> address -> list (byte -> Prop) -> Prop :=
  | path_dot : forall w1 tt T to S tc C w2,
      blanks w1 -> tag_matcher_text tt T -> occ_matcher_text to S -> codes_text tc C -> blanks w2 ->
      path_text (w1 ++ tt ++ to ++ lit "." ++ tc ++ w2) (fun _ f => tagged T S f) [C]
  | path_braces : forall w1 tt T to S w2 w3 tc Cs w4 tg g P w5,
      blanks w1 -> tag_matcher_text tt T -> occ_matcher_text to S -> blanks w2 -> blanks w3 ->
      columns_text tc Cs -> blanks w4 -> guard_text tg g P -> blanks w5 ->
      path_text (w1 ++ tt ++ to ++ w2 ++ lit "{" ++ w3 ++ tc ++ w4 ++ tg ++ lit "}" ++ w5)
        (guarded T S P) Cs.

  (** ** Formats *)

  (** modifiers: "?" and letters, at least one *)
  Definition modifier_letters : bytes := lit "lutwo".
  Definition letters_mean (l : bytes) (m : modifier) : Prop :=
    (m_lower m = true <-> In 108 l) /\ (m_upper m = true <-> In 117 l)
    /\ (m_trim m = true <-> In 116 l) /\ (m_remove_ws m = true <-> In 119 l)
    /\ (m_strip m = true <-> In 111 l).
  Inductive modifier_text : bytes -> modifier -> Prop :=
  | modifier_none : modifier_text [] no_modifier
  | modifier_some : forall l m, l <> [] -> Forall (fun c => In c modifier_letters) l -> letters_mean l m ->
      modifier_text (lit "?" ++ l) m.

  (** the text begins with one of the characters *)
  Definition begins (l t : bytes) : Prop := exists c t', t = c :: t' /\ In c l.

  (** [after tm w t]: a modifier [tm], blanks [w] and a text [t]: the modifier
      ends where it seems to end *)
  Definition after (tm w t : bytes) : Prop :=
    (tm = [] -> ~ begins (lit "?") t) /\ (tm <> [] -> w = [] -> ~ begins modifier_letters t).

  (** how many: nothing, "..", or ".." and a number *)
  Inductive bound_text (d : N) : bytes -> N -> Prop :=
  | bound_none : bound_text d [] d
  | bound_all : bound_text d (lit "..") usize_max
  | bound_some : forall t n, number_text t n -> bound_text d (lit ".." ++ t) n.

  (** fixed texts before and after the values *)
  Inductive prefix_text : bytes -> bytes -> Prop :=
  | prefix_none : prefix_text [] []
  | prefix_some : forall t v w, string_text t v -> blanks w -> prefix_text (t ++ w) v.
  Inductive suffix_text : bytes -> bytes -> Prop :=
  | suffix_none : suffix_text [] []
  | suffix_some : forall w t v, blanks w -> string_text t v -> suffix_text (w ++ t) v.

  (** values with fixed texts around each of them: at most [bound] values (one,
      if there is no bound) *)
  Definition values_meaning (C : byte -> Prop) (pre suf : bytes) (bound : N) (m : modifier) : fmeaning :=
    fun strip f out => exists vs vs',
      picks (fun s => C (sf_code s)) sf_value (f_subfields f) vs
      /\ Forall2 (when strip stripped) vs vs'
      /\ modified T m (concat (map (fun v => pre ++ v ++ suf) (firstn (N.to_nat bound) vs'))) out.
  Definition group_meaning (m : modifier) (R : fmeaning) : fmeaning :=
    fun strip f out => exists v, R strip f v /\ modified T m v out.
  Definition both_meaning (R1 R2 : fmeaning) : fmeaning :=
    fun strip f out => exists x y, R1 strip f x /\ R2 strip f y /\ out = x ++ y.
  (** the second only if there is something of the first *)
  Definition then_meaning (R1 R2 : fmeaning) : fmeaning :=
    fun strip f out => exists x, R1 strip f x
      /\ ((x = [] /\ out = []) \/ (x <> [] /\ exists y, R2 strip f y /\ out = x ++ y)).

  (** the kinds of fragments.  [FkCode]: nothing but codes, [FkCodes]: codes in
      parentheses; these are also paths. *)
  Inductive fkind := FkCode | FkCodes | FkValue | FkGroup | FkThen | FkBoth.
  Definition is_item (k : fkind) : bool :=
    match k with FkThen | FkBoth => false | _ => true end.
  Definition is_group (k : fkind) : bool :=
    match k with FkGroup | FkCodes => true | _ => false end.
  Definition is_plain (k : fkind) : bool :=
    match k with FkCode | FkCodes => true | _ => false end.

  (** Fragments; the measure is the depth of parentheses.  "<$>" binds stronger
      than "<*>".  The bound of a group has no meaning (see C29). *)
  Inductive frag_expr : fkind -> bytes -> fmeaning -> N -> Prop :=
  | frag_value : forall tm m w1 tp pre tc C tb bound ts suf,
      modifier_text tm m -> blanks w1 -> (tm = [] -> w1 = []) -> prefix_text tp pre -> codes_text tc C ->
      bound_text 1 tb bound -> suffix_text ts suf -> after tm w1 (tp ++ tc) ->
      frag_expr (match tm, tp, tb, ts with [], [], [], [] => FkCode | _, _, _, _ => FkValue end)
        (tm ++ w1 ++ tp ++ tc ++ tb ++ ts) (values_meaning C pre suf bound m) 0
  | frag_group : forall k w1 tm m w2 e R n w3 w4 tb bound,
      is_group k = false -> frag_expr k e R n -> modifier_text tm m ->
      blanks w1 -> blanks w2 -> (tm = [] -> w2 = []) -> after tm w2 e -> blanks w3 ->
      blanks w4 -> bound_text usize_max tb bound -> (tb = [] -> w4 = []) ->
      frag_expr (match k, tm, tb with FkCode, [], [] => FkCodes | _, _, _ => FkGroup end)
        (lit "(" ++ w1 ++ tm ++ w2 ++ e ++ w3 ++ lit ")" ++ w4 ++ tb) (group_meaning m R) (N.succ n)
  | frag_then : forall k1 k2 t1 w1 w2 t2 R1 R2 n1 n2,
      is_item k1 = true -> k2 <> FkBoth -> frag_expr k1 t1 R1 n1 -> frag_expr k2 t2 R2 n2 ->
      blanks w1 -> blanks w2 ->
      frag_expr FkThen (t1 ++ w1 ++ lit "<$>" ++ w2 ++ t2) (then_meaning R1 R2) (N.max n1 n2)
  | frag_both : forall k1 k2 t1 w1 w2 t2 R1 R2 n1 n2,
      k1 <> FkBoth -> frag_expr k1 t1 R1 n1 -> frag_expr k2 t2 R2 n2 ->
      blanks w1 -> blanks w2 ->
      frag_expr FkBoth (t1 ++ w1 ++ lit "<*>" ++ w2 ++ t2) (both_meaning R1 R2) (N.max n1 n2).

  (** a format: kind of its fragments, is there a condition, depth *)
  Inductive format_text : fkind -> bool -> bytes -> address -> fmeaning -> N -> Prop :=
  | format_intro : forall k tt T to S w1 w2 e R n w3 tg g P w4,
      tag_matcher_text tt T -> occ_matcher_text to S -> blanks w1 -> blanks w2 ->
      frag_expr k e R n -> blanks w3 -> guard_text tg g P -> blanks w4 ->
      format_text k g (tt ++ to ++ w1 ++ lit "{" ++ w2 ++ e ++ w3 ++ tg ++ lit "}" ++ w4)
        (guarded T S P) R n.

  (** ** Queries *)
  Definition entries (qo : query_options) (f : field) (C : byte -> Prop) (es : list bytes) : Prop :=
    exists vs, picks (fun s => C (sf_code s)) sf_value (f_subfields f) vs
      /\ if qo_squash qo then exists e, joined (qo_separator qo) (or_empty vs) e /\ es = [e]
         else es = or_empty vs.

  Definition path_rows (F : address) (Cs : list (byte -> Prop)) : qmeaning := fun qo r rows =>
    exists fs rss,
      picks (F (qo_case_ignore qo)) (fun f => f) r fs
      /\ Forall2 (fun f rs => exists cols, Forall2 (entries qo f) Cs cols
                    /\ rs = lex_product (map (map (fun v => [v])) cols)) fs rss
      /\ rows = match fs with [] => [repeat [] (length Cs)] | _ => concat rss end.

  (** the values of a path *)
  Definition path_values_of (F : address) (Cs : list (byte -> Prop)) (ci : bool) (r : record) (vs : list bytes)
    : Prop :=
    exists fs vss,
      picks (F ci) (fun f => f) r fs
      /\ Forall2 (fun f => picks (fun s => exists C, In C Cs /\ C (sf_code s)) sf_value (f_subfields f)) fs vss
      /\ vs = concat vss.

  (** the outputs of a format *)
  Definition format_outputs (F : address) (R : fmeaning) (strip ci : bool) (r : record) (outs : list bytes)
    : Prop :=
    exists fs texts,
      picks (F ci) (fun f => f) r fs
      /\ Forall2 (R strip) fs texts
      /\ picks (fun t : bytes => t <> []) (fun t => t) texts outs.

  (** A fragment: its number of columns and its rows.  A format that is also a
      path is read as a path; outside of the strict language this may fail on
      account of its condition. *)
  Inductive fragment_text : bytes -> nat -> qmeaning -> N -> Prop :=
  | fragment_path : forall t F Cs, path_text t F Cs -> fragment_text t (length Cs) (path_rows F Cs) 0
  | fragment_literal : forall t v, string_text t v -> fragment_text t 1 (fun _ _ rows => rows = [[v]]) 0
  | fragment_format : forall k g t F R n, format_text k g t F R n ->
      is_plain k = false \/ (strict = false /\ g = true) ->
      fragment_text t 1
        (fun qo r rows => exists outs, format_outputs F R false (qo_case_ignore qo) r outs
           /\ rows = map (fun t => [t]) (or_empty outs)) n.

  Inductive query_text : bytes -> list (nat * qmeaning) -> N -> Prop :=
  | query_one : forall t c M n, fragment_text t c M n -> query_text t [(c, M)] n
  | query_more : forall t c M n w1 w2 ts Ms n',
      fragment_text t c M n -> blanks w1 -> blanks w2 -> query_text ts Ms n' ->
      query_text (t ++ w1 ++ lit "," ++ w2 ++ ts) ((c, M) :: Ms) (N.max n n').

  (** the tables of the fragments, merged if asked for, and the result *)
  Definition query_rows (Ms : list (nat * qmeaning)) (qo : query_options) (r : record) (rows : outcome) : Prop :=
    exists ts, Forall2 (fun cM t => exists rows0, snd cM qo r rows0
                          /\ if qo_merge qo then merged qo (fst cM) rows0 t else t = rows0) Ms ts
      /\ rows = lex_product ts.
End Texts.

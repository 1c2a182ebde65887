(** * Specification of the meaning of matchers

    Logical reading of subfield and field matchers with quantifiers and
    connectives, independent of the (short-circuiting, possibly panicking)
    evaluation of [MatcherModel.v]; only the data types and the external
    functions are shared. *)

From Coq Require Import String.
From Verif Require Import Bytes RecordModel TagOccModel MatcherModel.

(** "ALL" is for-all, "ANY" is exists. *)
Definition quantified {A} (q : quantifier) (P : A -> Prop) (sel : A -> Prop) : Prop :=
  match q with
  | QAll => forall x, sel x -> P x
  | QAny => exists x, sel x /\ P x
  end.

Definition is_prefix (p s : bytes) : Prop := exists t, s = p ++ t.
Definition is_suffix (p s : bytes) : Prop := exists t, s = t ++ p.
Definition is_infix (p s : bytes) : Prop := exists t u, s = t ++ p ++ u.

Section Meaning.
  Variable O : oracles.
  Variable ci : bool.

  (** the text compared: lower-cased when case is ignored *)
  Definition fold_case (b : bytes) : bytes := if ci then o_lower O b else b.

  (** comparison of a value [v] with the text [mv] of the matcher.  [OpEq]
      additionally requires equal byte lengths before case folding. *)
  Definition rel_holds (op : rel_op) (mv v : bytes) : Prop :=
    match op with
    | OpEq => length v = length mv /\ fold_case v = fold_case mv
    | OpNe => ~ (length v = length mv /\ fold_case v = fold_case mv)
    | OpStartsWith => is_prefix (fold_case mv) (fold_case v)
    | OpStartsNotWith => ~ is_prefix (fold_case mv) (fold_case v)
    | OpEndsWith => is_suffix (fold_case mv) (fold_case v)
    | OpEndsNotWith => ~ is_suffix (fold_case mv) (fold_case v)
    | OpSimilar => o_similar O ci mv v = true
    | OpGt | OpGe | OpLt | OpLe => False
    end.

  (** comparison of a count with a number *)
  Definition count_holds (op : rel_op) (count value : N) : Prop :=
    match op with
    | OpEq => count = value
    | OpNe => count <> value
    | OpGe => value <= count
    | OpGt => value < count
    | OpLe => count <= value
    | OpLt => count < value
    | _ => False
    end.

  (** [n] is the number of members of [l] with property [P] *)
  Inductive counts {A} (P : A -> Prop) : list A -> N -> Prop :=
  | counts_nil : counts P [] 0
  | counts_yes : forall x l n, P x -> counts P l n -> counts P (x :: l) (n + 1)
  | counts_no : forall x l n, ~ P x -> counts P l n -> counts P (x :: l) n.

  Definition negated_if (b : bool) (P : Prop) : Prop := if b then ~ P else P.

  (** the subfields selected by the codes of a matcher *)
  Definition selected (codes : bytes) (sfs : list subfield) (s : subfield) : Prop :=
    In s sfs /\ In (sf_code s) codes.

  Definition singleton_holds (m : singleton) (sfs : list subfield) : Prop :=
    match m with
    | SExists codes _ => exists s, selected codes sfs s
    | SRelation q codes op mv _ =>
        quantified q (fun s => rel_holds op mv (sf_value s)) (selected codes sfs)
    | SContains q codes vs _ =>
        quantified q (fun s => exists v, In v vs /\ is_infix (fold_case v) (fold_case (sf_value s)))
          (selected codes sfs)
    | SRegex q codes re invert _ =>
        quantified q (fun s => negated_if invert (o_re O ci re (sf_value s) = true))
          (selected codes sfs)
    | SRegexSet q codes res invert _ =>
        quantified q (fun s => negated_if invert
            (exists re, In re res /\ o_re O ci re (sf_value s) = true))
          (selected codes sfs)
    | SIn q codes vs invert _ =>
        quantified q (fun s => negated_if invert
            (exists v, In v vs /\ fold_case (sf_value s) = fold_case v))
          (selected codes sfs)
    | SCard codes op n _ =>
        exists k, counts (fun s => In (sf_code s) codes) sfs k /\ count_holds op k n
    end.

  Definition connective (op : bool_op) (P Q : Prop) : Prop :=
    match op with
    | BAnd => P /\ Q
    | BOr => P \/ Q
    | BXor => (P /\ ~ Q) \/ (~ P /\ Q)
    end.

  Fixpoint sm_holds (m : subfield_matcher) (sfs : list subfield) : Prop :=
    match m with
    | SMSingleton s => singleton_holds s sfs
    | SMGroup m' => sm_holds m' sfs
    | SMNot m' => ~ sm_holds m' sfs
    | SMComposite l op r => connective op (sm_holds l sfs) (sm_holds r sfs)
    end.

  (** a field has the tag and the occurrence asked for (their meaning is given
      by [TagOccSpec.v], properties C14 and C16) *)
  Definition tag_occ (t : tag_matcher) (o : occ_matcher) (f : field) : Prop :=
    tm_is_match t (f_tag f) = true /\ om_is_match o (f_occ f) = true.

  Definition fs_holds (m : field_singleton) (fs : list field) : Prop :=
    match m with
    | FExists t o => exists f, In f fs /\ tag_occ t o f
    | FSubfields q t o sm _ =>
        quantified q (fun f => sm_holds sm (f_subfields f))
          (fun f => In f fs /\ tag_occ t o f)
    end.

  Definition condition_holds (sm : option subfield_matcher) (f : field) : Prop :=
    match sm with Some m => sm_holds m (f_subfields f) | None => True end.

  Fixpoint fm_holds (m : field_matcher) (fs : list field) : Prop :=
    match m with
    | FMSingleton s => fs_holds s fs
    | FMCard t o sm op n _ =>
        exists k, counts (fun f => tag_occ t o f /\ condition_holds sm f) fs k
                  /\ count_holds op k n
    | FMGroup m' => fm_holds m' fs
    | FMNot m' => ~ fm_holds m' fs
    | FMComposite l op r => connective op (fm_holds l fs) (fm_holds r fs)
    end.

  (** Matchers the parsers produce: operators fit their operands, and regular
      expressions compile with the options used. *)
  Definition singleton_wf (m : singleton) : Prop :=
    match m with
    | SRelation _ _ op _ _ => is_str_applicable op = true
    | SCard _ op _ _ => is_usize_applicable op = true
    | SRegex _ _ re _ _ => o_re_ok O ci re = true
    | SRegexSet _ _ res _ _ => o_reset_ok O ci res = true
    | _ => True
    end.
  Fixpoint sm_wf (m : subfield_matcher) : Prop :=
    match m with
    | SMSingleton s => singleton_wf s
    | SMGroup m' | SMNot m' => sm_wf m'
    | SMComposite l _ r => sm_wf l /\ sm_wf r
    end.
  Definition fs_wf (m : field_singleton) : Prop :=
    match m with FExists _ _ => True | FSubfields _ _ _ sm _ => sm_wf sm end.
  Definition opt_sm_wf (sm : option subfield_matcher) : Prop :=
    match sm with Some m => sm_wf m | None => True end.
  Fixpoint fm_wf (m : field_matcher) : Prop :=
    match m with
    | FMSingleton s => fs_wf s
    | FMCard _ _ sm op _ _ => is_usize_applicable op = true /\ opt_sm_wf sm
    | FMGroup m' | FMNot m' => fm_wf m'
    | FMComposite l _ r => fm_wf l /\ fm_wf r
    end.
End Meaning.

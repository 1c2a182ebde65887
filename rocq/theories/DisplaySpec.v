(** * Specification of what can be printed and read again

    Conditions on matcher structures under which the printed form is an
    accepted text, and the matchers a program can build. *)

From Coq Require Import String.
From Verif Require Import Bytes Winnow StrSpec MatcherModel StateParser MatcherParserModel GrammarSpec.

(** ** Subfield matchers *)

(** an "^" chain whose first operand is an "&&" chain *)
Fixpoint sm_xor_after_and (m : subfield_matcher) : bool :=
  match m with
  | SMComposite (SMComposite _ BAnd _) BXor _ => true
  | SMComposite l BXor _ => sm_xor_after_and l
  | _ => false
  end.

(** no operand of "||" is such a chain *)
Fixpoint sm_tame (m : subfield_matcher) : Prop :=
  match m with
  | SMSingleton _ => True
  | SMGroup m' | SMNot m' => sm_tame m'
  | SMComposite l op r => sm_tame l /\ sm_tame r
      /\ (op = BOr -> sm_xor_after_and l = false /\ sm_xor_after_and r = false)
  end.

(** the measure of parentheses of [GrammarSpec.v] *)
Fixpoint sm_units (m : subfield_matcher) : N :=
  match m with
  | SMSingleton _ => 0
  | SMGroup m' => 1 + 8 * sm_units m'
  | SMNot m' => sm_units m'
  | SMComposite l _ r => sm_units l + sm_units r
  end.

(** ** Field and record matchers *)
Fixpoint fm_xor_after_and (m : field_matcher) : bool :=
  match m with
  | FMComposite (FMComposite _ BAnd _) BXor _ => true
  | FMComposite l BXor _ => fm_xor_after_and l
  | _ => false
  end.

(** the same condition, also for the subfield matchers between braces, which
    must also not nest too deeply *)
Fixpoint fm_tame (m : field_matcher) : Prop :=
  match m with
  | FMSingleton (FSubfields _ _ _ sm _) | FMCard _ _ (Some sm) _ _ _ => sm_tame sm /\ sm_units sm < 32
  | FMSingleton (FExists _ _) | FMCard _ _ None _ _ _ => True
  | FMGroup m' | FMNot m' => fm_tame m'
  | FMComposite l op r => fm_tame l /\ fm_tame r
      /\ (op = BOr -> fm_xor_after_and l = false /\ fm_xor_after_and r = false)
  end.

(** depth of parentheses *)
Fixpoint fm_depth (m : field_matcher) : N :=
  match m with
  | FMSingleton _ | FMCard _ _ _ _ _ _ => 0
  | FMGroup m' => N.succ (fm_depth m')
  | FMNot m' => fm_depth m'
  | FMComposite l _ r => N.max (fm_depth l) (fm_depth r)
  end.

(** a single condition "TAG.codes?" written with a quantifier and a blank
    after the quantifier *)
Definition detached (m : field_matcher) : Prop :=
  match m with
  | FMSingleton (FSubfields _ _ _ (SMSingleton (SExists _ _)) raw) =>
      exists v x c y, blanks v /\ (x = lit "ALL" \/ x = lit "ANY") /\ blank c /\ raw = v ++ x ++ c :: y
  | _ => False
  end.

(** ** The matchers a program can build *)
Section Built.
  Variable O : oracles.

  Inductive sm_built : subfield_matcher -> Prop :=
  | smb_new : forall s e m s', subfield_matcher_new O s e = (Some (Some m), s') -> sm_built m
  | smb_and : forall a b, sm_built a -> sm_built b -> sm_built (sm_and a b)
  | smb_and_assign : forall a b, sm_built a -> sm_built b -> sm_built (sm_and_assign a b)
  | smb_or : forall a b, sm_built a -> sm_built b -> sm_built (sm_or a b)
  | smb_or_assign : forall a b, sm_built a -> sm_built b -> sm_built (sm_or_assign a b)
  | smb_xor : forall a b, sm_built a -> sm_built b -> sm_built (sm_xor a b)
  | smb_xor_assign : forall a b, sm_built a -> sm_built b -> sm_built (sm_xor_assign a b)
  | smb_not : forall a, sm_built a -> sm_built (sm_not a).

  (** for field and record matchers, with a condition on what is negated *)
  Variable negates : field_matcher -> Prop.
  Inductive fm_built : field_matcher -> Prop :=
  | fmb_new : forall s e m s', field_matcher_new O s e = (Some (Some m), s') -> fm_built m
  | fmb_and : forall a b, fm_built a -> fm_built b -> fm_built (fm_and a b)
  | fmb_and_assign : forall a b, fm_built a -> fm_built b -> fm_built (fm_and_assign a b)
  | fmb_or : forall a b, fm_built a -> fm_built b -> fm_built (fm_or a b)
  | fmb_or_assign : forall a b, fm_built a -> fm_built b -> fm_built (fm_or_assign a b)
  | fmb_xor : forall a b, fm_built a -> fm_built b -> fm_built (fm_xor a b)
  | fmb_xor_assign : forall a b, fm_built a -> fm_built b -> fm_built (fm_xor_assign a b)
  | fmb_not : forall a, fm_built a -> negates a -> fm_built (fm_not a).
End Built.

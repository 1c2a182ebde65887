(** * Dollar signs in expressions

    Where a text of the expression languages has a dollar sign that is neither inside
    of quotes nor the second character of an operator ([=$], [!$], [<$>]).  Written
    without the parsers. *)

From Coq Require Import String.
From Verif Require Import Bytes RecordModel RecordSpec MatcherModel MatcherSpec GrammarSpec.

(** where in a text one is: outside of quotes, just behind one of the characters
    [=], [!], [<] (outside of quotes), inside of quotes, or behind a backslash inside
    of quotes *)
Inductive place := Outside | BehindOperator | Inside (quote : byte) | Escaped (quote : byte).

Definition operator_begins (c : byte) : bool := (c =? 61) || (c =? 33) || (c =? 60).
Definition is_quote (c : byte) : bool := (c =? 39) || (c =? 34).

Definition outside_next (c : byte) : place :=
  if is_quote c then Inside c else if operator_begins c then BehindOperator else Outside.

Definition next_place (p : place) (c : byte) : place :=
  match p with
  | Outside | BehindOperator => outside_next c
  | Inside q => if c =? q then Outside else if c =? 92 then Escaped q else Inside q
  | Escaped q => Inside q
  end.

(** does a dollar sign stand at a place [Outside]? *)
Fixpoint dollar_from (p : place) (t : bytes) : bool :=
  match t with
  | [] => false
  | c :: t' =>
      match p with
      | Outside => (c =? 36) || dollar_from (next_place p c) t'
      | _ => dollar_from (next_place p c) t'
      end
  end.
Definition bare_dollar (t : bytes) : bool := dollar_from Outside t.

(** ** Conditions that begin with a dollar sign *)

(** codes behind a dollar sign: one or more without brackets, or a star *)
Inductive plain_codes : bytes -> (byte -> Prop) -> Prop :=
| plain_list : forall cs, cs <> [] -> Forall (fun c => In c alnums) cs -> plain_codes cs (fun c => In c cs)
| plain_star : plain_codes (lit "*") (fun c => In c alnums).

Section Conditions.
  Variable O : oracles.

  (** a dollar sign and codes in front of a relation or of [=?]; the counterpart of
      [sorted_text] *)
  Inductive dollar_text : bytes -> meaning subfield -> Prop :=
  | dollar_relation : forall tq q w0 cs C w1 top op w2 ts v,
      quant_text true tq q -> blanks w0 -> plain_codes cs C -> blanks w1 -> In (top, op) str_ops ->
      blanks w2 -> string_text ts v ->
      dollar_text (tq ++ lit "$" ++ w0 ++ cs ++ w1 ++ top ++ w2 ++ ts)
        (fun ci sfs => quantified q (fun s => rel_holds O ci op v (sf_value s))
           (coded C sfs))
  | dollar_contains : forall tq q w0 cs C w1 w2 tn V,
      quant_text false tq q -> blanks w0 -> plain_codes cs C -> blanks w1 -> blanks w2 ->
      needles_text tn V ->
      dollar_text (tq ++ lit "$" ++ w0 ++ cs ++ w1 ++ lit "=?" ++ w2 ++ tn)
        (fun ci sfs => quantified q (fun s =>
           exists v, V v /\ is_infix (fold_case O ci v) (fold_case O ci (sf_value s)))
           (coded C sfs)).
End Conditions.

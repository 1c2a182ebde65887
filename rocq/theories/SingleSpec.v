(** * The texts of the field matchers of one kind

    [single_text] of [GrammarSpec.v] describes the conditions on subfields;
    here are the texts read by the constructors of the field matchers. *)

From Coq Require Import String.
From Verif Require Import Bytes RecordModel TagOccSpec MatcherModel MatcherSpec GrammarSpec.

Inductive field_sort := FsExists | FsSubfields | FsCount.

(** blanks in front of a quantifier; nothing in front of a tag *)
Definition lead (w tq : bytes) : Prop := blanks w /\ (tq = [] -> w = []).

Section SingleField.
  Variable O : oracles.

  Inductive single_field_text (strict : bool) : field_sort -> bytes -> meaning field -> Prop :=
  | sf_exists : forall w0 tt T to S w,
      blanks w0 -> tag_matcher_text tt T -> occ_matcher_text to S -> blanks w ->
      single_field_text strict FsExists (w0 ++ tt ++ to ++ w ++ lit "?")
        (fun _ fs => exists f, In f fs /\ tagged T S f)
  | sf_dot : forall w0 tq q tt T to S k t P,
      lead w0 tq -> quant_text false tq q -> tag_matcher_text tt T -> occ_matcher_text to S ->
      single_text O k t P ->
      single_field_text strict FsSubfields (w0 ++ tq ++ tt ++ to ++ lit "." ++ t)
        (fun ci fs => quantified q (fun f => P ci (f_subfields f))
           (fun f => In f fs /\ tagged T S f))
  | sf_braced : forall w0 tq q tt T to S w t P w1,
      lead w0 tq -> quant_text false tq q -> tag_matcher_text tt T -> occ_matcher_text to S ->
      blanks w -> braced_text O strict t P -> blanks w1 ->
      single_field_text strict FsSubfields (w0 ++ tq ++ tt ++ to ++ w ++ t ++ w1)
        (fun ci fs => quantified q (fun f => P ci (f_subfields f))
           (fun f => In f fs /\ tagged T S f))
  | sf_card : forall w0 w1 tt T w2 to S w3 top op w4 tn n,
      blanks w0 -> blanks w1 -> tag_matcher_text tt T -> blanks w2 -> occ_matcher_text to S ->
      blanks w3 -> In (top, op) num_ops -> blanks w4 -> number_text tn n ->
      single_field_text strict FsCount
        (w0 ++ lit "#" ++ w1 ++ tt ++ w2 ++ to ++ w3 ++ top ++ w4 ++ tn)
        (fun _ fs => exists k, counts (tagged T S) fs k /\ count_holds op k n)
  | sf_card_braced : forall w0 w1 tt T w2 to S w3 t P w5 top op w4 tn n,
      blanks w0 -> blanks w1 -> tag_matcher_text tt T -> blanks w2 -> occ_matcher_text to S ->
      blanks w3 -> braced_text O strict t P -> blanks w5 ->
      In (top, op) num_ops -> blanks w4 -> number_text tn n ->
      single_field_text strict FsCount
        (w0 ++ lit "#" ++ w1 ++ tt ++ w2 ++ to ++ w3 ++ t ++ w5 ++ top ++ w4 ++ tn)
        (fun ci fs => exists k, counts (fun f => tagged T S f /\ P ci (f_subfields f)) fs k
                                /\ count_holds op k n).
End SingleField.

(** * The record matcher builder *)

From Verif Require Import Bytes Winnow RecordModel MatcherModel StateParser MatcherParserModel.

(** the three chaining calls, with their lists of expressions *)
Inductive builder_call :=
| CallAnd (l : list bytes)
| CallOr (l : list bytes)
| CallNot (l : list bytes).

(** result of parsing, threaded with the thread-local state: [Some None] is
    the error result *)
Notation presult A := (option (option A) * levels)%type (only parsing).

Definition and_then {A B} (x : presult A) (k : A -> levels -> presult B) : presult B :=
  match x with
  | (Some (Some a), s) => k a s
  | (Some None, s) => (Some None, s)
  | (None, s) => (None, s)
  end.

Section Builder.
  Variable O : oracles.
  (** the transformation applied to every expression (Unicode normalisation
      in the command line tool, crates/pica-cli/src/translit.rs) *)
  Variable transform : bytes -> bytes.

  (** /repo/src/matcher/builder.rs:15-26 with_transform ([new], 9-13, is the
      case of the identity) *)
  Definition builder_new (s : levels) (e : bytes) : presult field_matcher :=
    field_matcher_new O s (transform e).

  Fixpoint builder_fold (op : field_matcher -> field_matcher -> field_matcher)
      (l : list bytes) (m : field_matcher) (s : levels) : presult field_matcher :=
    match l with
    | [] => (Some (Some m), s)
    | e :: l' =>
        and_then (field_matcher_new O s (transform e)) (fun m' s' =>
          builder_fold op l' (op m m') s')
    end.

  (** /repo/src/matcher/builder.rs:28-38 and, 40-50 or, 52-62 not *)
  Definition builder_step (c : builder_call) (m : field_matcher) (s : levels)
    : presult field_matcher :=
    match c with
    | CallAnd l => builder_fold fm_and_assign l m s
    | CallOr l => builder_fold fm_or_assign l m s
    | CallNot l => builder_fold (fun a b => fm_and_assign a (fm_not b)) l m s
    end.

  (** a chain of calls, then [build] (64-66) *)
  Fixpoint builder_calls (cs : list builder_call) (m : field_matcher) (s : levels)
    : presult field_matcher :=
    match cs with
    | [] => (Some (Some m), s)
    | c :: cs' => and_then (builder_step c m s) (builder_calls cs')
    end.

  Definition builder_run (s : levels) (e : bytes) (cs : list builder_call)
    : presult field_matcher :=
    and_then (builder_new s e) (builder_calls cs).

  (** /repo/crates/pica-cli/src/cli.rs:146-168 FilterOpts::matcher *)
  Definition filter_opts_matcher (predicate where_ : option bytes) (ands ors nots : list bytes)
      (s : levels) : presult (option field_matcher) :=
    match (match predicate with Some p => Some p | None => where_ end) with
    | Some e =>
        and_then (builder_run s e [CallAnd ands; CallOr ors; CallNot nots])
          (fun m s' => (Some (Some (Some m)), s'))
    | None => (Some (Some None), s)
    end.
End Builder.

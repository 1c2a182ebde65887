(** * Parser combinators

    Semantics of the parts of winnow 1.0 used by /repo/src (the crate itself is
    not part of /repo; this file is therefore part of the trusted base).  A
    parser maps the remaining input to [Some (result, rest)] or to [None],
    which stands for [ErrMode::Backtrack] -- the only error mode the code base
    produces.  After [None] the caller's input position is the one before the
    call, which is how [alt], [opt], [repeat] and [separated] restart. *)

From Verif Require Import Bytes.

Definition parser (A : Type) := bytes -> option (A * bytes).

Notation "'do' p <- e ; k" :=
  (match e with Some p => k | None => None end)
  (at level 200, p pattern, e at level 100, k at level 200, right associativity).

(** [winnow::token::one_of] *)
Definition one_of (f : byte -> bool) : parser byte := fun i =>
  match i with
  | c :: r => if f c then Some (c, r) else None
  | [] => None
  end.

(** a literal byte used as parser *)
Definition ch (c : byte) : parser byte := one_of (N.eqb c).

(** a literal string used as parser *)
Fixpoint tok (s : bytes) (i : bytes) : option (unit * bytes) :=
  match s, i with
  | [], _ => Some (tt, i)
  | x :: s', y :: i' => if x =? y then tok s' i' else None
  | _ :: _, [] => None
  end.

(** longest prefix satisfying [f] and the rest *)
Fixpoint span (f : byte -> bool) (i : bytes) : bytes * bytes :=
  match i with
  | c :: r => if f c then let (a, b) := span f r in (c :: a, b) else ([], i)
  | [] => ([], [])
  end.

(** [take_while(0.., f)] *)
Definition take_while0 (f : byte -> bool) : parser bytes := fun i => Some (span f i).
(** [take_while(1.., f)] *)
Definition take_while1 (f : byte -> bool) : parser bytes := fun i =>
  match span f i with
  | ([], _) => None
  | (a, r) => Some (a, r)
  end.
(** [take_till(0.., f)] *)
Definition take_till0 (f : byte -> bool) : parser bytes :=
  take_while0 (fun c => negb (f c)).
(** [take_till(1.., f)] *)
Definition take_till1 (f : byte -> bool) : parser bytes :=
  take_while1 (fun c => negb (f c)).

(** at most [n] bytes satisfying [f] *)
Fixpoint span_max (n : nat) (f : byte -> bool) (i : bytes) : bytes * bytes :=
  match n, i with
  | S n', c :: r =>
      if f c then let (a, b) := span_max n' f r in (c :: a, b) else ([], i)
  | _, _ => ([], i)
  end.

(** [take_while(m..=n, f)] *)
Definition take_while_m_n (m n : nat) (f : byte -> bool) : parser bytes := fun i =>
  let (a, r) := span_max n f i in
  if Nat.leb m (length a) then Some (a, r) else None.

Definition pmap {A B} (f : A -> B) (p : parser A) : parser B := fun i =>
  do (a, r) <- p i; Some (f a, r).

(** [.value(..)], [.void()] *)
Definition pvalue {A B} (b : B) (p : parser A) : parser B := pmap (fun _ => b) p.

(** [.verify(..)] *)
Definition pverify {A} (f : A -> bool) (p : parser A) : parser A := fun i =>
  do (a, r) <- p i; if f a then Some (a, r) else None.

(** [.verify_map(..)] *)
Definition pverify_map {A B} (f : A -> option B) (p : parser A) : parser B := fun i =>
  do (a, r) <- p i; do b <- f a; Some (b, r).

(** tuples of parsers *)
Definition pseq {A B} (p : parser A) (q : parser B) : parser (A * B) := fun i =>
  do (a, r) <- p i; do (b, r') <- q r; Some ((a, b), r').

Definition preceded {A B} (p : parser A) (q : parser B) : parser B := fun i =>
  do (_, r) <- p i; q r.
Definition terminated {A B} (p : parser A) (q : parser B) : parser A := fun i =>
  do (a, r) <- p i; do (_, r') <- q r; Some (a, r').
Definition delimited {A B C} (p : parser A) (q : parser B) (s : parser C) : parser B :=
  fun i => do (_, r) <- p i; do (b, r') <- q r; do (_, r'') <- s r'; Some (b, r'').

(** [alt((p, q))] *)
Definition alt {A} (p q : parser A) : parser A := fun i =>
  match p i with Some x => Some x | None => q i end.

(** [opt(p)] *)
Definition opt {A} (p : parser A) : parser (option A) := fun i =>
  match p i with Some (a, r) => Some (Some a, r) | None => Some (None, i) end.

(** [repeat(0.., p)]: stops at the first failure; a success that consumes
    nothing is an error. *)
Fixpoint repeat0_fuel {A} (fuel : nat) (p : parser A) (i : bytes)
  : option (list A * bytes) :=
  match fuel with
  | O => None
  | S n =>
      match p i with
      | None => Some ([], i)
      | Some (a, r) =>
          if Nat.eqb (length r) (length i) then None
          else do (l, r') <- repeat0_fuel n p r; Some (a :: l, r')
      end
  end.
Definition repeat0 {A} (p : parser A) : parser (list A) := fun i =>
  repeat0_fuel (S (length i)) p i.

(** [repeat(1.., p)] *)
Definition repeat1 {A} (p : parser A) : parser (list A) := fun i =>
  do (a, r) <- p i; do (l, r') <- repeat0 p r; Some (a :: l, r').

(** [separated(1.., p, sep)]: after the first element, (separator, element)
    pairs are consumed as long as both succeed; a separator not followed by an
    element is not consumed. *)
Fixpoint sep_rest_fuel {A B} (fuel : nat) (p : parser A) (sep : parser B) (i : bytes)
  : option (list A * bytes) :=
  match fuel with
  | O => None
  | S n =>
      match sep i with
      | None => Some ([], i)
      | Some (_, r) =>
          if Nat.eqb (length r) (length i) then None
          else match p r with
               | None => Some ([], i)
               | Some (a, r') =>
                   do (l, r'') <- sep_rest_fuel n p sep r'; Some (a :: l, r'')
               end
      end
  end.
Definition separated1 {A B} (p : parser A) (sep : parser B) : parser (list A) := fun i =>
  do (a, r) <- p i;
  do (l, r') <- sep_rest_fuel (S (length r)) p sep r; Some (a :: l, r').

(** [separated(2.., p, sep)] *)
Definition separated2 {A B} (p : parser A) (sep : parser B) : parser (list A) := fun i =>
  do (l, r) <- separated1 p sep i;
  match l with _ :: _ :: _ => Some (l, r) | _ => None end.

(** [Parser::parse]: the whole input must be consumed *)
Definition parse_all {A} (p : parser A) (i : bytes) : option A :=
  match p i with
  | Some (a, []) => Some a
  | _ => None
  end.

(** * Parsers with thread-local state

    The matcher and format parsers count group levels in thread-local cells.
    The cells are not reset when winnow backtracks, so the state is passed
    through failures as well.  The remaining conventions are those of
    [Winnow.v]; [PFuel] is the (never reached) exhaustion of the recursion
    bound of the model. *)

From Verif Require Import Bytes Winnow StrParserModel.

(** the three counters: SUBFIELD_MATCHER_GROUP_LEVEL
    (/repo/src/matcher/subfield/parser.rs:283-286), FIELD_MATCHER_GROUP_LEVEL
    (/repo/src/matcher/field/parser.rs:230-233), GROUP_LEVEL
    (/repo/src/fmt/parser.rs:54-56).  [u32] is modelled without overflow. *)
Record levels := mkLevels { lv_sub : N; lv_field : N; lv_fmt : N }.

(** state of a new thread *)
Definition fresh : levels := mkLevels 0 0 0.

Inductive pres (A : Type) :=
| POk (a : A) (rest : bytes)
| PErr
| PFuel.
Arguments POk {A}. Arguments PErr {A}. Arguments PFuel {A}.

Definition sparser (A : Type) := levels -> bytes -> pres A * levels.

Definition slift {A} (p : parser A) : sparser A := fun s i =>
  (match p i with Some (a, r) => POk a r | None => PErr end, s).

Definition sfuel {A} : sparser A := fun s _ => (PFuel, s).

Definition smap {A B} (f : A -> B) (p : sparser A) : sparser B := fun s i =>
  match p s i with
  | (POk a r, s') => (POk (f a) r, s')
  | (PErr, s') => (PErr, s')
  | (PFuel, s') => (PFuel, s')
  end.

(** sequencing *)
Definition sbind {A B} (p : sparser A) (k : A -> sparser B) : sparser B := fun s i =>
  match p s i with
  | (POk a r, s') => k a s' r
  | (PErr, s') => (PErr, s')
  | (PFuel, s') => (PFuel, s')
  end.

Definition sret {A} (a : A) : sparser A := fun s i => (POk a i, s).

Definition salt {A} (p q : sparser A) : sparser A := fun s i =>
  match p s i with
  | (PErr, s') => q s' i
  | x => x
  end.

Definition sopt {A} (p : sparser A) : sparser (option A) := fun s i =>
  match p s i with
  | (POk a r, s') => (POk (Some a) r, s')
  | (PErr, s') => (POk None i, s')
  | (PFuel, s') => (PFuel, s')
  end.

Definition sdelim {A B C} (p : sparser A) (q : sparser B) (e : sparser C) : sparser B :=
  sbind p (fun _ => sbind q (fun b => sbind e (fun _ => sret b))).

Definition spreceded {A B} (p : sparser A) (q : sparser B) : sparser B :=
  sbind p (fun _ => q).

(** [ws] (/repo/src/parser.rs:105-119) around a parser with state *)
Definition sws {A} (p : sparser A) : sparser A := fun s i =>
  match p s (skip_ws i) with
  | (POk a r, s') => (POk a (skip_ws r), s')
  | x => x
  end.

(** a parser that also sees the input before and after ([with_taken]) *)
Definition staken {A B} (f : A -> bytes -> B) (p : sparser A) : sparser B := fun s i =>
  match p s i with
  | (POk a r, s') => (POk (f a (TagOccModel.taken i r)) r, s')
  | (PErr, s') => (PErr, s')
  | (PFuel, s') => (PFuel, s')
  end.

Fixpoint srepeat0_fuel {A} (fuel : nat) (p : sparser A) (s : levels) (i : bytes)
  : pres (list A) * levels :=
  match fuel with
  | O => (PFuel, s)
  | S n =>
      match p s i with
      | (PErr, s') => (POk [] i, s')
      | (PFuel, s') => (PFuel, s')
      | (POk a r, s') =>
          if Nat.eqb (length r) (length i) then (PErr, s')
          else match srepeat0_fuel n p s' r with
               | (POk l r', s'') => (POk (a :: l) r', s'')
               | (PErr, s'') => (PErr, s'')
               | (PFuel, s'') => (PFuel, s'')
               end
      end
  end.
(** [repeat(1.., p)] *)
Definition srepeat1 {A} (p : sparser A) : sparser (list A) :=
  sbind p (fun a => smap (cons a) (fun s i => srepeat0_fuel (S (length i)) p s i)).

(** [separated(1.., p, sep)] with a stateless separator *)
Fixpoint ssep_rest_fuel {A B} (fuel : nat) (p : sparser A) (sep : parser B)
    (s : levels) (i : bytes) : pres (list A) * levels :=
  match fuel with
  | O => (PFuel, s)
  | S n =>
      match sep i with
      | None => (POk [] i, s)
      | Some (_, r) =>
          if Nat.eqb (length r) (length i) then (PErr, s)
          else match p s r with
               | (PErr, s') => (POk [] i, s')
               | (PFuel, s') => (PFuel, s')
               | (POk a r', s') =>
                   match ssep_rest_fuel n p sep s' r' with
                   | (POk l r'', s'') => (POk (a :: l) r'', s'')
                   | (PErr, s'') => (PErr, s'')
                   | (PFuel, s'') => (PFuel, s'')
                   end
               end
      end
  end.
Definition sseparated1 {A B} (p : sparser A) (sep : parser B) : sparser (list A) :=
  sbind p (fun a => smap (cons a) (fun s i => ssep_rest_fuel (S (length i)) p sep s i)).
(** [separated(2.., p, sep)]: a single element is an error *)
Definition sseparated2 {A B} (p : sparser A) (sep : parser B) : sparser (list A) := fun s i =>
  match sseparated1 p sep s i with
  | (POk (a :: b :: l) r, s') => (POk (a :: b :: l) r, s')
  | (POk _ _, s') => (PErr, s')
  | x => x
  end.

(** [Parser::parse]: result of parsing a whole text; [None] is an error.  The
    outer option is [None] only on exhausted fuel. *)
Definition sparse_all {A} (p : sparser A) (s : levels) (i : bytes) : option (option A) * levels :=
  match p s i with
  | (POk a [], s') => (Some (Some a), s')
  | (POk _ _, s') => (Some None, s')
  | (PErr, s') => (Some None, s')
  | (PFuel, s') => (None, s')
  end.

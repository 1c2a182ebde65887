(** * Specification of CSV text (RFC 4180, lines ending in a line feed) *)

From Coq Require Import String.
From Verif Require Import Bytes Utf8Spec CheckModel.

(** the content of a quoted cell: quotes are doubled *)
Inductive quoted_text : bytes -> bytes -> Prop :=
| qt_nil : quoted_text [] []
| qt_quote : forall c t, quoted_text c t -> quoted_text (34 :: c) (34 :: 34 :: t)
| qt_other : forall b c t, b <> 34 -> quoted_text c t -> quoted_text (b :: c) (b :: t).

Section Csv.
  Variable delim : byte.

  Definition plain_byte (b : byte) : Prop := b <> delim /\ b <> 34 /\ b <> 10 /\ b <> 13.

  (** a cell and a text for it *)
  Inductive cell_text : bytes -> bytes -> Prop :=
  | cell_plain : forall c, Forall plain_byte c -> cell_text c c
  | cell_quoted : forall c t, quoted_text c t -> cell_text c (34 :: t ++ [34]).

  (** the cells of a row, separated by the delimiter *)
  Inductive row_text : list bytes -> bytes -> Prop :=
  | row_one : forall c t, cell_text c t -> row_text [c] t
  | row_more : forall c t cs u, cell_text c t -> row_text cs u -> row_text (c :: cs) (t ++ delim :: u).

  (** rows, each on a line of its own that is not empty: readers skip empty lines *)
  Inductive csv_rows : list (list bytes) -> bytes -> Prop :=
  | csv_nil : csv_rows [] []
  | csv_row : forall r u rows t, row_text r u -> u <> [] -> csv_rows rows t ->
      csv_rows (r :: rows) (u ++ 10 :: t).
End Csv.

(** a byte that can be told apart from the other special bytes *)
Definition separates (delim : byte) : Prop := delim <> 34 /\ delim <> 10 /\ delim <> 13.

(** ** The reports of check *)

(** the name of an output (none: standard output) ends with a suffix *)
Definition named (path : option bytes) (suffix : bytes) : Prop :=
  exists stem, path = Some (stem ++ suffix) /\ is_utf8 (stem ++ suffix).

Definition shown (x : option bytes) : bytes := match x with Some b => b | None => [] end.
Definition report_columns : list bytes := [lit "ppn"; lit "rule"; lit "level"; lit "message"].
Definition report_row (r : check_row) : list bytes :=
  [shown (row_ppn r); row_rule r; row_level r; shown (row_message r)].

(** a .txt file lists the identifiers; other outputs are tables separated by tabs
    (.tsv) or commas, with a header if there are rows at all *)
Definition report (path : option bytes) (rows : list check_row) (text : bytes) : Prop :=
  (named path (lit ".txt") /\ csv_rows 44 (map (fun r => [shown (row_ppn r)]) rows) text)
  \/ (~ named path (lit ".txt")
      /\ exists delim, (named path (lit ".tsv") /\ delim = 9 \/ ~ named path (lit ".tsv") /\ delim = 44)
         /\ match rows with
            | [] => text = []
            | _ => csv_rows delim (report_columns :: map report_row rows) text
            end).

(** * Specification of commands that go record by record *)

From Coq Require Import String.
From Verif Require Import Bytes BuilderModel CliModel ConvertModel TableModel OptionsModel IoModel DiskModel MainModel QuerySpec.

(** Commands that write to stdout, without --limit, without compression, and without a first line, a last line or a
    memory of the records before. *)
Definition recordwise (k : command) : Prop :=
  match k with
  | KConcat _ _ output tee unique _ => output = None /\ tee = None /\ unique = None
  | KConvert _ _ to output _ => output = None /\ to <> TJson /\ to <> TXml
  | KExplode o _ _ _ gzip output _ => output = None /\ gzip = false /\ o_limit o = 0
  | KFilter o _ _ gzip output tee _ => output = None /\ tee = None /\ gzip = false /\ o_limit o = 0
  | KPrint o _ output _ => output = None /\ o_limit o = 0
  | KSelect o q unique _ _ _ _ _ output _ => output = None /\ unique = false /\ co_header q = None /\ o_limit o = 0
  | _ => False
  end.

(** the assumption on regular expressions of C59, for select *)
Definition select_ready (e : env) (k : command) : Prop :=
  match k with
  | KSelect o _ _ _ _ _ _ _ _ _ => regexes_compile (oracles_for e o) (o_ci o) /\ regexes_compile (default_oracles e) false
  | _ => True
  end.

(** reading a compressed file does not end with the error for a broken pipe *)
Definition pipes_whole (e : env) : Prop := forall b k, In (PError k) (e_gz_dec e b) -> k <> BrokenPipe.

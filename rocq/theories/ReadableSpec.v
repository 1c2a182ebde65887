(** * Specification of commands that write records *)

From Coq Require Import String.
From Verif Require Import Bytes CliModel OptionsModel ExplodeModel ConvertModel DiskModel MainModel.

(** a command that writes records to stdout, uncompressed, with any options *)
Inductive writes_records : command -> Prop :=
| wr_concat : forall skip unique names, writes_records (KConcat skip false None None unique names)
| wr_explode : forall o discard keep l names, writes_records (KExplode o discard keep l false None names)
| wr_filter : forall o f names, writes_records (KFilter o f false false None None names)
| wr_sample : forall o draw size names, writes_records (KSample o false None draw size names)
| wr_slice : forall o start end_ length names, writes_records (KSlice o false false None start end_ length names).

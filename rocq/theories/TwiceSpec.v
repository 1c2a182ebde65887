(** * Specification of explode after explode *)

From Coq Require Import String.
From Verif Require Import Bytes RecordModel ExplodeModel ExplodeSpec CliModel DiskModel DiskSpec OptionsModel MainModel.

(** no field of level 0 behind one of another level *)
Definition main_first (fields : list field) : Prop :=
  exists main rest, fields = main ++ rest /\ Forall (at_level LMain) main /\ Forall (fun f => ~ at_level LMain f) rest.

(** the more detailed one of two levels *)
Definition finer (a b : ExplodeModel.level) : ExplodeModel.level :=
  match a, b with
  | LMain, l | l, LMain => l
  | LLocal, LLocal => LLocal
  | _, _ => LCopy
  end.

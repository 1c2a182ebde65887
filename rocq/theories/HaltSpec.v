(** * How a command ends *)

From Verif Require Import Bytes DiskModel.

(** the command comes to an end; if it gets as far as an exit status of its own,
    the status is 0 or 2 *)
Definition comes_to_an_end (x : option (command_end * world)) : Prop :=
  exists c w', x = Some (c, w') /\ forall n, c = CEnded n -> n = 0 \/ n = 2.

(** the same without a panic *)
Definition ends_without_panic (x : option (command_end * world)) : Prop :=
  exists c w', x = Some (c, w') /\ (c = CRefused \/ c = CEnded 0 \/ c = CEnded 2).

(** * Specification of limits in front of a command *)

From Coq Require Import String.
From Verif Require Import Bytes MatcherModel CliModel DiskModel MainModel OptionsModel PipeSpec FrontSpec.

(** the command without the options that choose records and without --limit, from stdin *)
Definition after_limit (o : file_opts) (k : command) : command :=
  with_opts (mkFileOpts (o_skip o) 0 (o_ci o) (o_threshold o) [] [] None None None [] [] []) (with_inputs [lit "-"] k).

(** commands whose --limit is a number of chosen records *)
Definition limits_records (k : command) : Prop :=
  match k with
  | KCheck _ _ _ _ _ _ | KDescribe _ _ _ _ _ _ _ | KFrequency _ _ _ _ _ _ _ _ _ _ | KHash _ _ _ _ _ | KPrint _ _ _ _
  | KSample _ _ _ _ _ _ | KSelect _ _ _ _ _ _ _ _ _ _ | KSplit _ _ _ _ _ _ => True
  | _ => False
  end.

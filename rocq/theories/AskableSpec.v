(** * Specification of the runs that can be asked for *)

From Coq Require Import String.
From Verif Require Import Bytes Utf8Spec RecordModel MatcherModel PathModel CliModel ExplodeModel ConvertModel CsvModel OptionsModel
  MainModel ArgsSpec.

Definition utf8_or_none (o : option bytes) : Prop := forall v, o = Some v -> is_utf8 v.

Section Askable.
  Variable e : env.
  Variable draws : option N -> N -> N.

  (** texts are UTF-8, the lists have names, the path is one that the library reads *)
  Definition written (o : file_opts) : Prop :=
    Forall (fun v => v <> []) (o_allow o) /\ Forall (fun v => v <> []) (o_deny o) /\ utf8_or_none (o_column o)
    /\ (forall t, o_source o = Some t -> exists p, path_for e t p)
    /\ Forall is_utf8 (o_and o) /\ Forall is_utf8 (o_or o) /\ Forall is_utf8 (o_not o) /\ utf8_or_none (o_where o).
  Definition written_columns (q : columns) : Prop :=
    is_utf8 (co_query q) /\ is_utf8 (co_separator q) /\ utf8_or_none (co_header q).

  (** besides being [orderly] *)
  Definition written_command (k : command) : Prop :=
    match k with
    | KCheck o _ filter tags _ _ => written o /\ Forall is_utf8 filter /\ utf8_or_none tags
    | KConcat _ _ _ _ _ _ | KConvert _ _ _ _ _ | KInvalid _ _ => True
    | KConfig a => is_utf8 (ca_name a) /\ utf8_or_none (ca_value a)
    | KCount o _ _ _ _ | KPrint o _ _ _ | KSlice o _ _ _ _ _ _ _ => written o
    | KDescribe o discard keep _ _ _ _ | KExplode o discard keep _ _ _ _ =>
        written o /\ utf8_or_none discard /\ utf8_or_none keep
    | KFilter o f _ _ _ _ _ => written o /\ is_utf8 (fi_expr f) /\ utf8_or_none (fi_keep f) /\ utf8_or_none (fi_discard f)
    | KFrequency o q _ _ _ _ _ _ _ _ | KSelect o q _ _ _ _ _ _ _ _ => written o /\ written_columns q
    | KHash o _ _ header _ => written o /\ is_utf8 header
    | KPartition o p _ _ template _ => written o /\ (exists t, path_for e t p) /\ utf8_or_none template
    | KSample o _ _ draw _ _ => written o /\ exists seed, draw = draws seed /\ (forall n, seed = Some n -> n < 2 ^ 64)
    | KSplit o _ _ template _ _ => written o /\ utf8_or_none template
    end.
  Definition askable (k : command) : Prop := orderly k /\ written_command k.
End Askable.

(** * Specification of sessions: the configuration after a history of commands *)

From Coq Require Import String.
From Verif Require Import Bytes OptionsModel OptionsSpec DiskModel MainModel.
From Verif Require MainSpec.

(** the toml crate reads what is written into a configuration file *)
Definition reads_config (e : env) : Prop := forall t c, OptionsSpec.file_says t c -> e_config_toml e t = Some c.

(** the commands of a session that configure the file [n], in their order; the other
    commands do not write to it *)
Inductive history (n : bytes) : list (env * invocation * bytes) -> list config_args -> Prop :=
| hs_none : history n [] []
| hs_config : forall e i stdin a steps h, in_command i = KConfig a -> fitting a ->
    MainSpec.config_name e i = Some n -> e_writable e n = true -> reads_config e ->
    history n steps h -> history n ((e, i, stdin) :: steps) (a :: h)
| hs_other : forall e i stdin steps h, (forall a, in_command i = KConfig a -> MainSpec.config_name e i <> Some n) ->
    ~ MainSpec.may_change e i n -> history n steps h -> history n ((e, i, stdin) :: steps) h.

(** the configuration with the options that the history has left *)
Definition reflects (h : list config_args) (c : config) : Prop :=
  (forall v, current (lit "skip-invalid") h v -> (cf_skip_invalid c = true <-> v = Some (lit "true")))
  /\ (forall v, current (lit "normalization") h v ->
        match v with
        | None => cf_normalization c = None
        | Some t => exists f, In (f, t) [(Nfc, lit "nfc"); (Nfkc, lit "nfkc"); (Nfd, lit "nfd"); (Nfkd, lit "nfkd")]
                              /\ cf_normalization c = Some f
        end).

(** the configuration in the file [n] is what the history [h] has left; without a
    file nothing is configured *)
Definition starts (n : bytes) (w : world) (h : list config_args) : Prop :=
  (disk_get (w_disk w) n = None /\ reflects h (mkConfig false None))
  \/ exists t c, disk_get (w_disk w) n = Some t /\ OptionsSpec.file_says t c /\ reflects h c.

(** * The runs that can be asked for: C128 *)

From Coq Require Import String.
From Verif Require Import Bytes Utf8Spec RecordModel MatcherModel PathModel CliModel ExplodeModel ConvertModel CsvModel OptionsModel OptionsSpec
  MainModel ClapModel ArgsModel ArgsSpec AskableSpec AskableProofs.
From Verif Require PropertiesMain PropertiesArgs Utf8Proofs.

(** ** C128: every run of a command can be asked for, except the disorderly ones

    The command line is as strong as the commands: a run can be asked for, with any
    file of the configuration or without one, if and only if its numbers fit, it has
    at least one file to read, no two of its options exclude each other, its texts are
    UTF-8 and its paths and lists have names.  Every list of files, every text (one
    that begins with a hyphen, too) and every value of an option can be written. *)
Theorem C128_every : forall e draws config k, config <> Some [] ->
  (askable e draws k <-> exists ts, read_line e draws ts = PGiven (config, AskRun k)).
Proof. exact askable_read. Qed.
Print Assumptions C128_every.

(** and so the whole program can be made to do it *)
Theorem C128_runs : forall e draws help version completions config k w, config <> Some [] -> askable e draws k ->
  exists ts, program e draws help version completions ts w = run e (mkInvocation config k) w.
Proof. exact askable_runs. Qed.
Print Assumptions C128_runs.

(** a run of filter with awkward arguments: an empty expression, files whose names
    look like options *)
Definition awkward : command :=
  KFilter (mkFileOpts true 18446744073709551615 false 99 [lit "--deny"] [lit "-"] (Some []) None None [lit "-x"] [] [[]])
    (mkFilterOnly [] (Some (lit "--file")) true (Some []) (Some (lit "=k"))) true false (Some []) None [[]; lit "--help"; lit "-h"].
Example C128_sample : askable PropertiesMain.main_env PropertiesArgs.no_draws awkward
  /\ ~ askable PropertiesMain.main_env PropertiesArgs.no_draws (KInvalid None []).
Proof.
  assert (U : forall b, Utf8Model.utf8_valid b = true -> is_utf8 b) by (intros b; apply Utf8Proofs.utf8_valid_iff).
  split; [|intros [H _]; apply H; reflexivity].
  split; [|split; [|split; [|split]]].
  - split; [split; [reflexivity|split; [reflexivity|intros H; contradiction H; reflexivity]]|]. split; [reflexivity|].
    split; [intros [_ H]; discriminate|]. split; [right; reflexivity|]. split; [discriminate|]. split; discriminate.
  - repeat split; try discriminate; try (apply Forall_forall; cbn; intros v H; intuition (subst; discriminate));
      try (apply Forall_forall; cbn; intros v H; intuition (subst; apply U; reflexivity)).
    intros v [= <-]. apply U. reflexivity.
  - apply U. reflexivity.
  - intros v [= <-]. apply U. reflexivity.
  - intros v [= <-]. apply U. reflexivity.
Qed.

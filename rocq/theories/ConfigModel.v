(** * Where the configuration comes from and how it is saved

    Model of /repo/crates/pica-cli/src/main.rs:19-27 and
    /repo/crates/pica-cli/src/config.rs, with reads and writes that fail. *)

From Coq Require Import String.
From Verif Require Import Bytes Utf8Model OptionsModel.

(** the file of the configuration: missing, there but not readable, or with a
    content *)
Inductive config_file := FMissing | FUnreadable | FHolds (b : bytes).

(** /repo/crates/pica-cli/src/main.rs:22-26 and
    /repo/crates/pica-cli/src/config.rs:67-83: the path is the argument of
    --config, or one in the home directory, or there is no home directory and
    the path is empty *)
Inductive config_place := PGiven | PHome | PNowhere.

(** how loading ends; the error is an io::Error *)
Inductive loaded := LConfig (c : config) | LFails | LPanics.

(** what happens to the system calls of [save]: all succeed; the directory or the
    file cannot be created; the writing stops after some bytes *)
Inductive save_fate := SaveWorks | SaveRefused | SaveStops (n : nat).

Section ConfigFile.
  (** [toml::from_str] for this type *)
  Variable from_toml : bytes -> option config.

  (** /repo/crates/pica-cli/src/config.rs:51-62 Config::from_path;
      [fs::read_to_string] fails on text that is not UTF-8 *)
  Definition config_from_path (f : config_file) : loaded :=
    match f with
    | FMissing | FUnreadable => LFails
    | FHolds b =>
        if utf8_valid b
        then match from_toml b with Some c => LConfig c | None => LPanics end
        else LFails
    end.

  (** /repo/crates/pica-cli/src/config.rs:67-83 Config::discover, and
      /repo/crates/pica-cli/src/main.rs:22-26; a path that is not a file counts as
      missing *)
  Definition config_start (p : config_place) (f : config_file) : loaded :=
    match p with
    | PGiven =>
        match config_from_path f with
        | LFails => LConfig config_default
        | other => other
        end
    | PHome =>
        match f with
        | FMissing => LConfig config_default
        | _ => config_from_path f
        end
    | PNowhere => LConfig config_default
    end.

  (** /repo/crates/pica-cli/src/config.rs:85-99 Config::save; an empty path
      cannot be created; [false] is the error *)
  Definition config_save (p : config_place) (fate : save_fate) (c : config) (f : config_file) : bool * config_file :=
    match p, fate with
    | PNowhere, _ | _, SaveRefused => (false, f)
    | _, SaveWorks => (true, FHolds (config_toml c))
    | _, SaveStops n => (false, FHolds (firstn n (config_toml c)))
    end.

  (** /repo/crates/pica-cli/src/main.rs:19-32 with
      /repo/crates/pica-cli/src/commands/config.rs:42-103 *)
  Definition config_main (p : config_place) (fate : save_fate) (a : config_args) (f : config_file)
    : config_end * config_file :=
    match config_start p f with
    | LFails => (CfError, f)
    | LPanics => (CfPanic, f)
    | LConfig c =>
        match config_decide a c with
        | DError => (CfError, f)
        | DPanic => (CfPanic, f)
        | DPrint out => (CfDone out, f)
        | DSave c' =>
            let '(ok, f') := config_save p fate c' f in
            (if ok then CfDone [] else CfError, f')
        end
    end.

  (** processes one after the other; each has its own fate *)
  Fixpoint config_mains (p : config_place) (runs : list (save_fate * config_args)) (f : config_file)
    : list config_end * config_file :=
    match runs with
    | [] => ([], f)
    | (fate, a) :: rest =>
        let '(e, f1) := config_main p fate a f in
        let '(es, f2) := config_mains p rest f1 in
        (e :: es, f2)
    end.
End ConfigFile.

(** * Predicate lists and the config command *)

From Coq Require Import String.
From Verif Require Import Bytes Winnow RecordModel TagOccModel StrParserModel CheckModel.

(** ** [str::trim] on UTF-8 text *)

(** The members of Unicode White_Space ([char::is_whitespace]), in UTF-8:
    U+0009-U+000D, U+0020, U+0085, U+00A0, U+1680, U+2000-U+200A, U+2028,
    U+2029, U+202F, U+205F, U+3000 *)
Definition white_chars : list bytes :=
  map (fun c => [c]) [9; 10; 11; 12; 13; 32]
  ++ [[194; 133]; [194; 160]; [225; 154; 128]]
  ++ map (fun c => [226; 128; c]) [128; 129; 130; 131; 132; 133; 134; 135; 136; 137; 138; 168; 169; 175]
  ++ [[226; 129; 159]; [227; 128; 128]].

(** what is left of [b] after the first member of [ws] that it starts with *)
Fixpoint strip_one (ws : list bytes) (b : bytes) : option bytes :=
  match ws with
  | [] => None
  | w :: ws' => match tok w b with Some (_, r) => Some r | None => strip_one ws' b end
  end.

(** the text without members of [ws] at its start; [n] bounds their number, the
    length of the text is enough *)
Fixpoint strip_all (ws : list bytes) (n : nat) (b : bytes) : bytes :=
  match n with
  | O => b
  | S n' => match strip_one ws b with Some r => strip_all ws n' r | None => b end
  end.

(** [str::trim] (core::str); the end is trimmed on the reversed bytes *)
Definition str_trim (b : bytes) : bytes :=
  let b1 := strip_all white_chars (length b) b in
  rev (strip_all (map (@rev byte) white_chars) (length b1) (rev b1)).

(** ** Predicate lists *)

(** [str::rfind('/')] as a split: the text before the last slash, and the rest
    from there on *)
Fixpoint split_last_slash (b : bytes) : option (bytes * bytes) :=
  match b with
  | [] => None
  | c :: b' =>
      match split_last_slash b' with
      | Some (x, y) => Some (c :: x, y)
      | None => if c =? SLASH then Some ([], b) else None
      end
  end.

(** /repo/crates/pica-cli/src/utils.rs:216-226: one item *)
Definition parse_predicate (item : bytes) : option (tag_matcher * occ_matcher) :=
  match split_last_slash item with
  | Some (t, o) =>
      do m <- tag_matcher_new t; do n <- occ_matcher_new o; Some (m, n)
  | None => do m <- tag_matcher_new item; Some (m, OMNone)
  end.

(** /repo/crates/pica-cli/src/utils.rs:201-230 parse_predicates; [None] is the
    error *)
Definition parse_predicates (predicates : option bytes) : option (list (tag_matcher * occ_matcher)) :=
  match predicates with
  | None => Some []
  | Some b =>
      map_opt parse_predicate
        (filter (fun s => match s with [] => false | _ => true end) (map str_trim (split_on 44 b)))
  end.

(** ** Config *)

(** /repo/crates/pica-cli/src/translit.rs:12-18 NormalizationForm *)
Inductive norm_form := Nfc | Nfkc | Nfd | Nfkd.

(** /repo/crates/pica-cli/src/translit.rs:20-29 Display *)
Definition nf_display (n : norm_form) : bytes :=
  match n with Nfc => lit "nfc" | Nfkc => lit "nfkc" | Nfd => lit "nfd" | Nfkd => lit "nfkd" end.

(** /repo/crates/pica-cli/src/translit.rs:31-43 FromStr *)
Definition nf_parse (s : bytes) : option norm_form :=
  if bytes_eqb s (lit "nfc") then Some Nfc
  else if bytes_eqb s (lit "nfkc") then Some Nfkc
  else if bytes_eqb s (lit "nfd") then Some Nfd
  else if bytes_eqb s (lit "nfkd") then Some Nfkd
  else None.

(** [bool] as FromStr and ToString *)
Definition bool_parse (s : bytes) : option bool :=
  if bytes_eqb s (lit "true") then Some true else if bytes_eqb s (lit "false") then Some false else None.
Definition bool_display (b : bool) : bytes := if b then lit "true" else lit "false".

(** /repo/crates/pica-cli/src/config.rs:9-36 Config, without the path *)
Record config := mkConfig { cf_skip_invalid : bool; cf_normalization : option norm_form }.

(** /repo/crates/pica-cli/src/config.rs:9 Default *)
Definition config_default : config := mkConfig false None.

(** /repo/crates/pica-cli/src/config.rs:9-10 Serialize, as printed by
    [toml::to_string] in Config::save: one line per option, none for [None] *)
Definition config_toml (c : config) : bytes :=
  lit "skip-invalid = " ++ bool_display (cf_skip_invalid c) ++ [10]
  ++ match cf_normalization c with
     | None => []
     | Some n => lit "normalization = " ++ [34] ++ nf_display n ++ [34; 10]
     end.

(** /repo/crates/pica-cli/src/commands/config.rs:9-29 the arguments *)
Record config_args := mkConfigArgs {
  ca_get : bool; ca_unset : bool; ca_set : bool; ca_name : bytes; ca_value : option bytes }.

(** how a command ends: refused with an error, a panic, or success with what it
    prints *)
Inductive config_end := CfError | CfPanic | CfDone (stdout : bytes).

(** /repo/crates/pica-cli/src/commands/config.rs:30-39 print_option *)
Definition print_option (v : option bytes) : bytes :=
  match v with Some t => t | None => lit "None" end ++ [10].

(** /repo/crates/pica-cli/src/commands/config.rs:42-103 Config::execute, up to the
    call of [save]: refuse, panic, print, or save a new configuration *)
Inductive config_decision := DError | DPanic | DPrint (stdout : bytes) | DSave (c : config).

Definition config_decide (a : config_args) (c : config) : config_decision :=
  let skip := bytes_eqb (ca_name a) (lit "skip-invalid") in
  let norm := bytes_eqb (ca_name a) (lit "normalization") in
  if negb skip && negb norm then DError
  else
    match ca_value a with
    | Some v =>
        if skip
        then match bool_parse v with
             | Some b => DSave (mkConfig b (cf_normalization c))
             | None => DError
             end
        else match nf_parse v with
             | Some n => DSave (mkConfig (cf_skip_invalid c) (Some n))
             | None => DError
             end
    | None =>
        if ca_unset a
        then if skip
             then DSave (mkConfig false (cf_normalization c))
             else DSave (mkConfig (cf_skip_invalid c) None)
        else if ca_get a || negb (ca_unset a) && negb (ca_set a)
        then if skip
             then DPrint (print_option (Some (bool_display (cf_skip_invalid c))))
             else DPrint (print_option (option_map nf_display (cf_normalization c)))
        else DPanic
    end.

Section Config.
  (** [toml::from_str] for this type *)
  Variable from_toml : bytes -> option config.

  (** /repo/crates/pica-cli/src/main.rs:22-26 with
      /repo/crates/pica-cli/src/config.rs:51-62 Config::from_path and 67-83
      Config::discover: the defaults if there is no file; [None] is the panic on
      a file that is not valid.  Failing reads: [ConfigModel.v]. *)
  Definition config_load (file : option bytes) : option config :=
    match file with None => Some config_default | Some b => from_toml b end.

  (** /repo/crates/pica-cli/src/commands/config.rs:42-103 Config::execute on the
      file, with /repo/crates/pica-cli/src/config.rs:85-99 Config::save.
      Failing writes: [ConfigModel.v]. *)
  Definition config_execute (a : config_args) (file : option bytes) : config_end * option bytes :=
    match config_load file with
    | None => (CfPanic, file)
    | Some c =>
        match config_decide a c with
        | DError => (CfError, file)
        | DPanic => (CfPanic, file)
        | DPrint out => (CfDone out, file)
        | DSave c' => (CfDone [], Some (config_toml c'))
        end
    end.

  (** commands one after the other, each a new process *)
  Fixpoint config_history (as_ : list config_args) (file : option bytes) : list config_end * option bytes :=
    match as_ with
    | [] => ([], file)
    | a :: rest =>
        let '(e, file1) := config_execute a file in
        let '(es, file2) := config_history rest file1 in
        (e :: es, file2)
    end.
End Config.

(** the conditions that clap checks, config.rs:10-28: at most one of --get,
    --unset and --set; a value with --set or without any of them *)
Definition args_allowed (a : config_args) : bool :=
  match ca_value a with
  | Some _ => negb (ca_get a) && negb (ca_unset a)
  | None => negb (ca_set a) && negb (ca_get a && ca_unset a)
  end.

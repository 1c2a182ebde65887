(** * The reader of command lines

    Model of the part of the library clap (version 4.6,
    /repo/crates/pica-cli/Cargo.toml:22) that the attributes [#[arg(...)]] and
    [#[clap(...)]] of /repo/crates/pica-cli/src/cli.rs and of
    /repo/crates/pica-cli/src/commands use; written from the documentation and from
    what is known of the source of clap.  The arguments are byte strings, as the
    operating system hands them over, without the name of the program.

    Simplified: all errors are one value; requirements are not followed further
    ([#[arg(requires)]] of an argument that is required itself; there are none); that
    a value is admissible is decided when it is read, clap decides some of it when
    the next argument is read, with the same result. *)

From Coq Require Import String.
From Verif Require Import Bytes Utf8Model.

(** what [Args::parse], /repo/crates/pica-cli/src/main.rs:20, makes of a command line or of a
    part of it: the arguments, a text to be printed, or an error *)
Inductive parsed (A : Type) := PGiven (x : A) | PHelp | PVersion | PError.
Arguments PGiven {A}. Arguments PHelp {A}. Arguments PVersion {A}. Arguments PError {A}.

(** the [?] of clap's functions behind [Args::parse],
    /repo/crates/pica-cli/src/main.rs:20 *)
Definition pbind {A B} (x : parsed A) (f : A -> parsed B) : parsed B :=
  match x with PGiven a => f a | PHelp => PHelp | PVersion => PVersion | PError => PError end.

(** ** Values *)

(** the decimal digits of a number, used by [u64::from_str], e.g. for the limit of
    /repo/crates/pica-cli/src/cli.rs:52-55 *)
Fixpoint digits (acc : N) (v : bytes) : option N :=
  match v with
  | [] => Some acc
  | x :: r => if is_digit x then digits (10 * acc + (x - 48)) r else None
  end.

(** [u64::from_str], [usize::from_str]: an optional "+", digits, and no overflow;
    e.g. the limit, /repo/crates/pica-cli/src/cli.rs:52-55 *)
Definition parse_u64 (v : bytes) : option N :=
  match (match v with x :: r => if x =? 43 then r else v | [] => [] end) with
  | [] => None
  | r => match digits 0 r with
         | Some n => if n <=? 18446744073709551615 then Some n else None
         | None => None
         end
  end.

(** [value_parser!(u8).range(..)] and [value_parser!(u32).range(..)], e.g.
    /repo/crates/pica-cli/src/cli.rs:64-66: the value is read as an [i64] *)
Definition parse_range (lo hi : N) (v : bytes) : option N :=
  let '(neg, r) := match v with
                   | x :: r => if x =? 43 then (false, r) else if x =? 45 then (true, r) else (false, v)
                   | [] => (false, v)
                   end in
  match r with
  | [] => None
  | _ => match digits 0 r with
         | Some n => if (lo <=? n) && (n <=? hi) && negb (neg && negb (n =? 0)) then Some n else None
         | None => None
         end
  end.

(** the types of the fields of the structs of arguments, e.g.
    /repo/crates/pica-cli/src/cli.rs:46-143 FilterOpts *)
Inductive value_type :=
| VOs (** OsString *)
| VPath (** PathBuf *)
| VString (** String *)
| VU64 (** usize, u64 *)
| VRange (lo hi : N) (** u8 or u32 in a range *)
| VOneOf (names : list bytes) (** an enum that derives ValueEnum *)
| VParsed (ok : bytes -> bool). (** a type with FromStr *)

(** the value parsers that clap chooses for the types of the fields, e.g. for
    /repo/crates/pica-cli/src/cli.rs:46-143 FilterOpts; PathBuf refuses the empty name *)
Definition value_ok (t : value_type) (v : bytes) : bool :=
  match t with
  | VOs => true
  | VPath => match v with [] => false | _ => true end
  | VString => utf8_valid v
  | VU64 => match parse_u64 v with Some _ => true | None => false end
  | VRange lo hi => match parse_range lo hi v with Some _ => true | None => false end
  | VOneOf names => existsb (bytes_eqb v) names
  | VParsed ok => utf8_valid v && ok v
  end.

(** ** Arguments *)

(** a flag ([bool], SetTrue), an argument with a value (Set), an argument that may
    be repeated ([Vec], Append); in /repo/crates/pica-cli/src/cli.rs these are e.g. lines
    48-50, 52-55 and 85-86 *)
Inductive arity := AFlag | AOne | AMany.

(** one field of a struct of arguments with its attribute [#[arg(...)]], e.g.
    /repo/crates/pica-cli/src/cli.rs:48-50 skip_invalid *)
Record arg := mkArg {
  g_id : bytes;
  g_long : option bytes;
  g_short : option byte;
  g_arity : arity;
  g_type : value_type;
  g_required : bool;
  g_requires : list bytes;
  g_conflicts : list bytes }.

(** one command: its options, its arguments without name, its subcommands by name,
    and whether it has "--version"; /repo/crates/pica-cli/src/cli.rs:10-22 Args and the
    structs of /repo/crates/pica-cli/src/commands *)
Record arg_spec := mkSpec {
  s_options : list arg;
  s_positionals : list arg;
  s_subcommand : bytes -> option bytes;
  s_version : bool }.

(** [ArgMatches::contains_id] for the structs of /repo/crates/pica-cli/src/commands; the
    arguments that have been read are a list with their values, flags have an empty
    one *)
Definition has (m : list (bytes * bytes)) (id : bytes) : bool := existsb (fun x => bytes_eqb (fst x) id) m.

(** clap's [Parser::react]: an argument of a struct, e.g.
    /repo/crates/pica-cli/src/cli.rs:46-143 FilterOpts, is read with its value *)
Definition push (a : arg) (v : bytes) (m : list (bytes * bytes)) : parsed (list (bytes * bytes)) :=
  if (match g_arity a with AFlag => true | _ => value_ok (g_type a) v end)
     && (match g_arity a with AMany => true | _ => negb (has m (g_id a)) end)
  then PGiven (m ++ [(g_id a, v)]) else PError.

(** the option that is written out so, e.g. "--skip-invalid" for [long] in
    /repo/crates/pica-cli/src/cli.rs:49 *)
Definition find_long (c : arg_spec) (name : bytes) : option arg :=
  find (fun a => match g_long a with Some l => bytes_eqb l name | None => false end) (s_options c).
(** the option with this letter, e.g. "-s" for [short] in
    /repo/crates/pica-cli/src/cli.rs:49 *)
Definition find_short (c : arg_spec) (x : byte) : option arg :=
  find (fun a => match g_short a with Some s => s =? x | None => false end) (s_options c).

(** clap's [ParsedArg::to_long]: at the first "="; for all options with [long], e.g.
    /repo/crates/pica-cli/src/cli.rs:49 *)
Fixpoint split_eq (t : bytes) : bytes * option bytes :=
  match t with
  | [] => ([], None)
  | x :: r => if x =? 61 then ([], Some r) else let '(n, v) := split_eq r in (x :: n, v)
  end.

(** arguments that look like options: they are no values of options that stand
    before them, as [allow_hyphen_values] is not set in
    /repo/crates/pica-cli/src/cli.rs and /repo/crates/pica-cli/src/commands *)
Definition hyphen (t : bytes) : bool := match t with x :: _ :: _ => x =? 45 | _ => false end.

(** clap's [Parser::parse_short_arg] for the options with [short], e.g.
    /repo/crates/pica-cli/src/cli.rs:49: the letters after "-"; in the end, an option may wait
    for its value.  Every command has "-h". *)
Fixpoint shorts (c : arg_spec) (m : list (bytes * bytes)) (t : bytes) : parsed (option arg * list (bytes * bytes)) :=
  match t with
  | [] => PGiven (None, m)
  | x :: rest =>
      match find_short c x with
      | Some a =>
          match g_arity a with
          | AFlag => pbind (push a [] m) (fun m' => shorts c m' rest)
          | _ =>
              match rest with
              | [] => PGiven (Some a, m)
              | y :: v => pbind (push a (if y =? 61 then v else rest) m) (fun m' => PGiven (None, m'))
              end
          end
      | None => if x =? 104 then PHelp else if s_version c && (x =? 86) then PVersion else PError
      end
  end.

(** an argument without name, the [n]-th one; the last one may be repeated, e.g.
    /repo/crates/pica-cli/src/commands/filter.rs:148-157 *)
Definition positional (c : arg_spec) (n : nat) (m : list (bytes * bytes)) (t : bytes)
  : parsed (nat * list (bytes * bytes)) :=
  match nth_error (s_positionals c) n with
  | None => PError
  | Some a => pbind (push a t m) (fun m' => PGiven (match g_arity a with AMany => n | _ => S n end, m'))
  end.

(** the arguments after "--", all without names, e.g.
    /repo/crates/pica-cli/src/commands/filter.rs:148-157 *)
Fixpoint positionals (c : arg_spec) (n : nat) (m : list (bytes * bytes)) (ts : list bytes)
  : parsed (list (bytes * bytes)) :=
  match ts with
  | [] => PGiven m
  | t :: rest => pbind (positional c n m t) (fun '(n', m') => positionals c n' m' rest)
  end.

(** clap's [Parser::get_matches_with], called by [Args::parse],
    /repo/crates/pica-cli/src/main.rs:20: the arguments up to a subcommand; the subcommand
    with the arguments that follow it *)
Fixpoint parse_args (c : arg_spec) (n : nat) (m : list (bytes * bytes)) (ts : list bytes)
  : parsed (list (bytes * bytes) * option (bytes * list bytes)) :=
  match ts with
  | [] => PGiven (m, None)
  | t :: rest =>
      let wait (a : arg) (m : list (bytes * bytes)) :=
        match rest with
        | [] => PError
        | v :: rest' => if hyphen v then PError else pbind (push a v m) (fun m' => parse_args c n m' rest')
        end in
      match s_subcommand c t with
      | Some name => PGiven (m, Some (name, rest))
      | None =>
          if bytes_eqb t (lit "--") then pbind (positionals c n m rest) (fun m' => PGiven (m', None))
          else if starts_with t (lit "--") then
            let '(name, value) := split_eq (skipn 2 t) in
            match find_long c name with
            | Some a =>
                match g_arity a, value with
                | AFlag, None => pbind (push a [] m) (fun m' => parse_args c n m' rest)
                | AFlag, Some _ => PError
                | _, Some v => pbind (push a v m) (fun m' => parse_args c n m' rest)
                | _, None => wait a m
                end
            | None =>
                match value with
                | Some _ => PError
                | None => if bytes_eqb name (lit "help") then PHelp
                          else if s_version c && bytes_eqb name (lit "version") then PVersion else PError
                end
            end
          else if hyphen t then
            pbind (shorts c m (skipn 1 t)) (fun '(a, m') =>
              match a with Some a => wait a m' | None => parse_args c n m' rest end)
          else pbind (positional c n m t) (fun '(n', m') => parse_args c n' m' rest)
      end
  end.

(** ** What must be given together and what not *)

(** [conflicts_with], e.g. /repo/crates/pica-cli/src/commands/filter.rs:133, holds in both
    directions *)
Definition clash (a b : arg) : bool :=
  negb (bytes_eqb (g_id a) (g_id b))
  && (existsb (bytes_eqb (g_id b)) (g_conflicts a) || existsb (bytes_eqb (g_id a)) (g_conflicts b)).

(** clap's [Validator::validate] for [requires], [conflicts_with] and [required], e.g.
    /repo/crates/pica-cli/src/cli.rs:119-142: no conflicts; what is required is there, unless something
    is there that it has a conflict with *)
Definition valid (c : arg_spec) (m : list (bytes * bytes)) : bool :=
  let args := s_options c ++ s_positionals c in
  let there := filter (fun a => has m (g_id a)) args in
  forallb (fun a => forallb (fun b => negb (clash a b)) there) there
  && forallb (fun a => negb (g_required a || existsb (fun b => existsb (bytes_eqb (g_id a)) (g_requires b)) there)
                       || has m (g_id a) || existsb (clash a) there) args.

(** the arguments of a command without subcommands, the structs of
    /repo/crates/pica-cli/src/commands *)
Definition read_args (c : arg_spec) (ts : list bytes) : parsed (list (bytes * bytes)) :=
  pbind (parse_args c 0 [] ts) (fun '(m, _) => if valid c m then PGiven m else PError).

(** ** The values of the fields *)

(** [FromArgMatches] for a field of type [bool], e.g. /repo/crates/pica-cli/src/cli.rs:50 *)
Definition get_flag (m : list (bytes * bytes)) (id : bytes) : bool := has m id.
(** for a field of type [Vec], e.g. /repo/crates/pica-cli/src/cli.rs:85-86 *)
Definition get_many (m : list (bytes * bytes)) (id : bytes) : list bytes :=
  map snd (filter (fun x => bytes_eqb (fst x) id) m).
(** for a field of type [Option], e.g. /repo/crates/pica-cli/src/cli.rs:110-111 *)
Definition get_one (m : list (bytes * bytes)) (id : bytes) : option bytes :=
  match get_many m id with v :: _ => Some v | [] => None end.
(** [default_value], e.g. /repo/crates/pica-cli/src/commands/hash.rs:17-18 *)
Definition get_or (m : list (bytes * bytes)) (id default : bytes) : bytes :=
  match get_one m id with Some v => v | None => default end.

(** ** Subcommands *)

(** clap's [Command::find_subcommand] for /repo/crates/pica-cli/src/cli.rs:24-44 Command: a
    whole name or alias *)
Definition find_subcommand (cmds : list (bytes * list bytes)) (t : bytes) : option bytes :=
  match find (fun c => bytes_eqb (fst c) t || existsb (bytes_eqb t) (snd c)) cmds with Some c => Some (fst c) | None => None end.
(** clap's [Parser::possible_subcommand] with [infer_subcommands = true],
    /repo/crates/pica-cli/src/cli.rs:13: the beginning of the name or of an alias of one
    command, or a whole name or alias *)
Definition infer_subcommand (cmds : list (bytes * list bytes)) (t : bytes) : option bytes :=
  match filter (fun c => starts_with (fst c) t || existsb (fun a => starts_with a t) (snd c)) cmds with
  | [c] => Some (fst c)
  | _ => find_subcommand cmds t
  end.

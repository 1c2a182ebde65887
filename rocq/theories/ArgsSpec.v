(** * Specification of the command line

    What can be written after "pica" to ask for a run, without a reader: the
    options of the commands with their letters, the ways to spell them, and what they
    say. *)

From Coq Require Import String.
From Verif Require Import Bytes Utf8Spec RecordModel MatcherModel StateParser MatcherParserModel BuilderModel PathModel CliModel ExplodeModel ConvertModel CsvModel OptionsModel OptionsSpec RuleModel MainModel.

(** ** Options *)

(** an option: its name, whether it is written out ("--name"), its letter ("-x"),
    and whether it has a value *)
Record opt := mkOpt { op_name : bytes; op_long : bool; op_letter : option byte; op_takes : bool }.

(** switches and options with values, with a letter or without *)
Definition sw (n : string) (x : string) : opt := mkOpt (lit n) true (hd_error (lit x)) false.
Definition va (n : string) (x : string) : opt := mkOpt (lit n) true (hd_error (lit x)) true.

Local Open Scope string_scope.

(** the options that most commands have *)
Definition shared_options : list opt := [
  sw "skip-invalid" "s"; va "limit" "l"; sw "ignore-case" "i"; va "strsim-threshold" ""; va "allow-list" "A"; va "deny-list" "D";
  va "filter-set-column" ""; va "filter-set-source" ""; va "where" ""; va "and" ""; va "or" ""; va "not" ""].
Definition output_options : list opt := [sw "progress" "p"; va "output" "o"].

(** the commands with their aliases and their options *)
Definition commands : list (string * list string * list opt) := [
  ("check", [], [sw "progress" "p"; va "rule-set" "R"; va "rule" "r"; va "tags" "t"; va "output" "o"] ++ shared_options);
  ("completions", [], [va "output" "o"]);
  ("concat", ["cat"],
    [sw "skip-invalid" "s"; va "tee" ""; sw "unique" "u"; va "unique-strategy" ""; sw "append" ""] ++ output_options);
  ("config", [], [sw "get" ""; sw "unset" ""; sw "set" ""]);
  ("convert", [], [sw "skip-invalid" "s"; va "from" "f"; va "to" "t"] ++ output_options);
  ("count", [],
    [sw "append" ""; sw "records" "r"; sw "fields" ""; sw "subfields" ""; sw "csv" ""; sw "tsv" ""; sw "no-header" ""]
    ++ output_options ++ shared_options);
  ("describe", [], [va "keep" "k"; va "discard" "d"; sw "csv" "c"; sw "tsv" "t"] ++ output_options ++ shared_options);
  ("explode", [], [sw "gzip" "g"; va "keep" "k"; va "discard" "d"] ++ output_options ++ shared_options);
  ("filter", [],
    [sw "skip-invalid" "s"; va "limit" "l"; sw "invert-match" "v"; sw "ignore-case" "i"; va "strsim-threshold" ""; va "keep" "k";
     va "discard" "d"; va "file" "F"; va "allow-list" "A"; va "deny-list" "D"; va "filter-set-column" ""; va "filter-set-source" "";
     va "and" ""; va "or" ""; va "not" ""; sw "gzip" "g"; sw "append" ""; va "tee" ""] ++ output_options);
  ("frequency", ["freq"],
    [sw "squash" ""; sw "merge" ""; va "separator" ""; sw "unique" "u"; sw "reverse" "r"; mkOpt (lit "num") false (hd_error (lit "n")) true;
     va "threshold" ""; va "header" "H"; sw "tsv" "t"; va "translit" ""] ++ output_options ++ shared_options);
  ("hash", [], [va "header" "H"; sw "tsv" "t"] ++ output_options ++ shared_options);
  ("invalid", [], output_options);
  ("partition", [], [sw "gzip" "g"; sw "progress" "p"; va "outdir" "o"; va "template" "t"] ++ shared_options);
  ("print", [], [va "translit" ""] ++ output_options ++ shared_options);
  ("sample", [], [sw "gzip" "g"; va "seed" ""] ++ output_options ++ shared_options);
  ("select", [],
    [sw "squash" ""; sw "merge" ""; va "separator" ""; sw "no-empty-columns" ""; sw "unique" "u"; sw "tsv" "t"; va "quote-style" "";
     va "translit" ""; va "header" "H"; sw "append" ""] ++ output_options ++ shared_options);
  ("slice", [], [va "start" ""; va "end" ""; va "length" ""; sw "gzip" "g"; sw "append" "a"] ++ output_options ++ shared_options);
  ("split", [], [sw "gzip" "g"; sw "progress" "p"; va "template" ""; va "outdir" "o"] ++ shared_options);
  ("help", [], [])]%list.

(** ** Spelling *)

(** a switch, an option with its value, an argument without name *)
Inductive item := ISwitch (n : bytes) | IOption (n v : bytes) | IName (v : bytes).

(** does not look like an option *)
Definition bare (v : bytes) : Prop := v = lit "-" \/ (forall r, v <> lit "-" ++ r)%list.

Section Spelled.
  Variable options : list opt.

  Definition written_out (n : bytes) (takes : bool) : Prop := exists x, In (mkOpt n true x takes) options.
  Definition letter (n : bytes) (x : byte) (takes : bool) : Prop := exists l, In (mkOpt n l (Some x) takes) options.

  (** letters of switches *)
  Inductive switches : list item -> bytes -> Prop :=
  | sw_none : switches [] []
  | sw_more : forall n x its t, letter n x false -> switches its t -> switches (ISwitch n :: its) (x :: t).

  Local Open Scope list_scope.

  Inductive spelled : list item -> list bytes -> Prop :=
  | sp_nil : spelled [] []
  | sp_switch : forall n its ts, written_out n false -> spelled its ts ->
      spelled (ISwitch n :: its) ((lit "--" ++ n) :: ts)
  | sp_equals : forall n v its ts, written_out n true -> spelled its ts ->
      spelled (IOption n v :: its) ((lit "--" ++ n ++ lit "=" ++ v) :: ts)
  | sp_apart : forall n v its ts, written_out n true -> bare v -> spelled its ts ->
      spelled (IOption n v :: its) ((lit "--" ++ n) :: v :: ts)
  | sp_letters : forall fs t its ts, switches fs t -> t <> [] -> spelled its ts ->
      spelled (fs ++ its) ((lit "-" ++ t) :: ts)
  | sp_letter_value : forall fs t n x v its ts, switches fs t -> letter n x true -> v <> [] -> (forall r, v <> lit "=" ++ r) ->
      spelled its ts -> spelled (fs ++ IOption n v :: its) ((lit "-" ++ t ++ x :: v) :: ts)
  | sp_letter_equals : forall fs t n x v its ts, switches fs t -> letter n x true ->
      spelled its ts -> spelled (fs ++ IOption n v :: its) ((lit "-" ++ t ++ x :: lit "=" ++ v) :: ts)
  | sp_letter_apart : forall fs t n x v its ts, switches fs t -> letter n x true -> bare v ->
      spelled its ts -> spelled (fs ++ IOption n v :: its) ((lit "-" ++ t ++ [x]) :: v :: ts)
  | sp_name : forall v its ts, bare v -> spelled its ts -> spelled (IName v :: its) (v :: ts)
  | sp_rest : forall vs, spelled (map IName vs) (lit "--" :: vs).
End Spelled.

Local Open Scope list_scope.

(** the word for a command: its name or alias, or the beginning of it if no other
    command begins so *)
Definition called (c : string * list string * list opt) (n : bytes) : Prop :=
  exists s, In s (fst (fst c) :: snd (fst c)) /\ n = lit s.
Definition word_for (c : string * list string * list opt) (t : bytes) : Prop :=
  In c commands
  /\ (called c t
      \/ (exists r, called c (t ++ r)) /\ (forall c' r, In c' commands -> called c' (t ++ r) -> c' = c)).

(** the words before the command *)
Inductive config_words : option bytes -> list bytes -> Prop :=
| cw_none : config_words None []
| cw_equals : forall v, v <> [] -> config_words (Some v) [lit "--config=" ++ v]
| cw_apart : forall v, v <> [] -> bare v -> config_words (Some v) [lit "--config"; v]
| cw_letter : forall v, v <> [] -> (forall r, v <> lit "=" ++ r) -> config_words (Some v) [lit "-c" ++ v]
| cw_letter_equals : forall v, v <> [] -> config_words (Some v) [lit "-c=" ++ v]
| cw_letter_apart : forall v, v <> [] -> bare v -> config_words (Some v) [lit "-c"; v].

(** ** Numbers *)

Inductive decimal : bytes -> N -> Prop :=
| de_one : forall d, d < 10 -> decimal [48 + d] d
| de_more : forall t n d, d < 10 -> decimal t n -> decimal (t ++ [48 + d]) (10 * n + d).

(** a number of 64 bits; a number between [lo] and [hi] *)
Definition number_text (t : bytes) (n : N) : Prop :=
  n < 2 ^ 64 /\ (decimal t n \/ exists r, t = lit "+" ++ r /\ decimal r n).
Definition range_text (lo hi : N) (t : bytes) (n : N) : Prop :=
  lo <= n <= hi /\ (decimal t n \/ (exists r, t = lit "+" ++ r /\ decimal r n) \/ (exists r, t = lit "-" ++ r /\ decimal r n /\ n = 0)).

(** ** What the items say *)

Section Items.
  Variable its : list item.

  (** how often the switch is there, the values of the option, in their order, the
      arguments without names *)
  Definition switched (n : bytes) : list item :=
    filter (fun i => match i with ISwitch x => bytes_eqb x n | _ => false end) its.
  Definition values (n : bytes) : list bytes :=
    flat_map (fun i => match i with IOption x v => if bytes_eqb x n then [v] else [] | _ => [] end) its.
  Definition names : list bytes := flat_map (fun i => match i with IName v => [v] | _ => [] end) its.

  Definition switch (n : string) (b : bool) : Prop := length (switched (lit n)) = if b then 1%nat else 0%nat.
  (** at most one value *)
  Definition value (n : string) (o : option bytes) : Prop :=
    values (lit n) = match o with Some v => [v] | None => [] end.
  Definition text (n : string) (o : option bytes) : Prop := value n o /\ (forall v, o = Some v -> is_utf8 v).
  Definition file (n : string) (o : option bytes) : Prop := value n o /\ o <> Some [].
  Definition texts (n : string) (l : list bytes) : Prop := values (lit n) = l /\ Forall is_utf8 l.
  Definition files (n : string) (l : list bytes) : Prop := values (lit n) = l /\ Forall (fun v => v <> []) l.
  (** with a default value *)
  Definition text_or (n : string) (default v : bytes) : Prop :=
    values (lit n) = [] /\ v = default \/ values (lit n) = [v] /\ is_utf8 v.
  Definition file_or (n : string) (default v : bytes) : Prop :=
    values (lit n) = [] /\ v = default \/ values (lit n) = [v] /\ v <> [].
  Definition number_or (n : string) (default k : N) : Prop :=
    values (lit n) = [] /\ k = default \/ exists t, values (lit n) = [t] /\ number_text t k.
  Definition choice_or {A} (table : list (string * A)) (n : string) (default a : A) : Prop :=
    values (lit n) = [] /\ a = default \/ exists s, values (lit n) = [lit s] /\ In (s, a) table.
  Definition choice {A} (table : list (string * A)) (n : string) (o : option A) : Prop :=
    values (lit n) = [] /\ o = None \/ exists s a, values (lit n) = [lit s] /\ In (s, a) table /\ o = Some a.
  (** the files that are read: the standard input if there are none *)
  Definition reading (rest l : list bytes) : Prop := rest <> [] /\ l = rest \/ rest = [] /\ l = [lit "-"].
  (** --progress is for commands with an output *)
  Definition progress (out : Prop) : Prop := exists b, switch "progress" b /\ (b = true -> out).
End Items.

Definition nf_texts : list (string * norm_form) := [("nfc", Nfc); ("nfkc", Nfkc); ("nfd", Nfd); ("nfkd", Nfkd)]%string.
Definition format_texts : list (string * format) :=
  [("binary", TBinary); ("import", TImport); ("json", TJson); ("plain", TPlain); ("plus", TPlus); ("xml", TXml)]%string.
Definition quotes_texts : list (string * quotes) :=
  [("always", QAlways); ("necessary", QNecessary); ("non-numeric", QNonNumeric); ("never", QNever)]%string.
Definition strategy_texts : list (string * strategy) := [("idn", SIdn); ("hash", SHash)]%string.
Definition level_texts : list (string * level) := [("main", LMain); ("local", LLocal); ("copy", LCopy)]%string.

Section Asks.
  Variable e : env.
  Variable draws : option N -> N -> N.

  (** the path expression is one that the library reads, see C25 *)
  Definition path_for (t : bytes) (p : path) : Prop :=
    is_utf8 t /\ fst (path_new (e_oracles e strsim_default) fresh t) = Some (Some p).

  (** the options that filter and the other commands have in common *)
  Definition asks_common (its : list item) (o : file_opts) : Prop :=
    switch its "skip-invalid" (o_skip o) /\ number_or its "limit" 0 (o_limit o) /\ switch its "ignore-case" (o_ci o)
    /\ (values its (lit "strsim-threshold") = [] /\ o_threshold o = 75
        \/ exists t, values its (lit "strsim-threshold") = [t] /\ range_text 0 99 t (o_threshold o))
    /\ files its "allow-list" (o_allow o) /\ files its "deny-list" (o_deny o)
    /\ text its "filter-set-column" (o_column o)
    /\ value its "filter-set-source" (o_source o) /\ (forall t, o_source o = Some t -> exists p, path_for t p)
    /\ texts its "and" (o_and o) /\ texts its "or" (o_or o) /\ texts its "not" (o_not o)
    /\ (o_or o <> [] -> o_and o = [] /\ o_not o = []).
  Definition asks_shared (its : list item) (o : file_opts) : Prop :=
    asks_common its o /\ text its "where" (o_where o)
    /\ (o_and o <> [] \/ o_or o <> [] \/ o_not o <> [] -> o_where o <> None).

  Definition asks_columns (its : list item) (q : columns) : Prop :=
    text_or its "separator" (lit "|") (co_separator q) /\ switch its "squash" (co_squash q) /\ switch its "merge" (co_merge q)
    /\ text its "header" (co_header q) /\ is_utf8 (co_query q) /\ co_squash q && co_merge q = false.

  (** which of the switches of count are there *)
  Definition asks_mode (its : list item) (m : count_mode) : Prop :=
    exists records fields subfields csv tsv no_header,
      switch its "records" records /\ switch its "fields" fields /\ switch its "subfields" subfields
      /\ switch its "csv" csv /\ switch its "tsv" tsv /\ switch its "no-header" no_header
      /\ match records, fields, subfields, csv, tsv with
         | true, false, false, false, false => m = MRecords /\ no_header = false
         | false, true, false, false, false => m = MFields /\ no_header = false
         | false, false, true, false, false => m = MSubfields /\ no_header = false
         | false, false, false, true, false => m = MCsv no_header
         | false, false, false, false, true => m = MTsv no_header
         | false, false, false, false, false => m = MPlain
         | _, _, _, _, _ => False
         end.

  Inductive asks : string -> list item -> command -> Prop :=
  | as_check : forall its o rules filter tags output l,
      asks_shared its o -> values its (lit "rule-set") = rules -> rules <> [] -> texts its "rule" filter -> text its "tags" tags ->
      file its "output" output -> progress its (output <> None) -> reading (names its) l ->
      asks "check" its (KCheck o rules filter tags output l)
  | as_concat : forall its skip append output tee (unique : bool) st l,
      switch its "skip-invalid" skip -> switch its "append" append -> value its "output" output -> value its "tee" tee ->
      switch its "unique" unique -> choice_or its strategy_texts "unique-strategy" SIdn st ->
      (unique = false -> values its (lit "unique-strategy") = []) ->
      progress its (output <> None) -> reading (names its) l ->
      asks "concat" its (KConcat skip append output tee (if unique then Some st else None) l)
  | as_config : forall its get unset set_ name v,
      switch its "get" get -> switch its "unset" unset -> switch its "set" set_ ->
      names its = name :: match v with Some v => [v] | None => [] end -> Forall is_utf8 (names its) ->
      (v = None -> set_ = false /\ get && unset = false) -> (v <> None -> get = false /\ unset = false) ->
      asks "config" its (KConfig (mkConfigArgs get unset set_ name v))
  | as_convert : forall its skip from to output l,
      switch its "skip-invalid" skip -> choice_or its format_texts "from" TPlus from -> choice_or its format_texts "to" TPlus to ->
      value its "output" output -> progress its (output <> None) -> reading (names its) l ->
      asks "convert" its (KConvert skip from to output l)
  | as_count : forall its o append output m l,
      asks_shared its o -> switch its "append" append -> value its "output" output -> asks_mode its m ->
      progress its (output <> None) -> reading (names its) l ->
      asks "count" its (KCount o append output m l)
  | as_describe : forall its o discard keep csv tsv output l,
      asks_shared its o -> text its "discard" discard -> text its "keep" keep -> switch its "csv" csv -> switch its "tsv" tsv ->
      value its "output" output -> csv && tsv = false -> (csv = true \/ tsv = true -> output <> None) ->
      progress its (output <> None) -> reading (names its) l ->
      asks "describe" its (KDescribe o discard keep csv tsv output l)
  | as_explode : forall its o discard keep gzip output l s lev rest,
      asks_shared its o -> text its "discard" discard -> text its "keep" keep -> switch its "gzip" gzip -> value its "output" output ->
      progress its (output <> None) -> names its = lit s :: rest -> In (s, lev) level_texts -> reading rest l ->
      asks "explode" its (KExplode o discard keep lev gzip output l)
  | as_filter : forall its o f append gzip output tee l rest,
      asks_common its o -> o_where o = None ->
      file its "file" (fi_expr_file f) -> switch its "invert-match" (fi_invert f) ->
      text its "keep" (fi_keep f) -> text its "discard" (fi_discard f) ->
      switch its "append" append -> switch its "gzip" gzip -> append && gzip = false ->
      value its "output" output -> file its "tee" tee -> (output = None \/ tee = None) ->
      progress its (output <> None \/ tee <> None) ->
      (names its = [] /\ fi_expr f = [] /\ rest = [] \/ names its = fi_expr f :: rest) -> is_utf8 (fi_expr f) -> reading rest l ->
      asks "filter" its (KFilter o f append gzip output tee l)
  | as_frequency : forall its o q unique num threshold reverse nf tsv output l rest,
      asks_shared its o -> asks_columns its q -> switch its "unique" unique -> number_or its "num" 0 num ->
      number_or its "threshold" 0 threshold -> switch its "reverse" reverse -> choice its nf_texts "translit" nf ->
      switch its "tsv" tsv -> value its "output" output -> progress its (output <> None) ->
      names its = co_query q :: rest -> reading rest l ->
      asks "frequency" its (KFrequency o q unique num threshold reverse nf tsv output l)
  | as_hash : forall its o output tsv header l,
      asks_shared its o -> value its "output" output -> switch its "tsv" tsv -> text_or its "header" (lit "ppn,hash") header ->
      progress its (output <> None) -> reading (names its) l ->
      asks "hash" its (KHash o output tsv header l)
  | as_invalid : forall its output l,
      value its "output" output -> progress its (output <> None) -> reading (names its) l -> asks "invalid" its (KInvalid output l)
  | as_partition : forall its o p gzip outdir template l t rest,
      asks_shared its o -> switch its "gzip" gzip -> file_or its "outdir" (lit ".") outdir -> text its "template" template ->
      progress its True -> names its = t :: rest -> path_for t p -> reading rest l ->
      asks "partition" its (KPartition o p gzip outdir template l)
  | as_print : forall its o nf output l,
      asks_shared its o -> choice its nf_texts "translit" nf -> value its "output" output -> progress its (output <> None) ->
      reading (names its) l -> asks "print" its (KPrint o nf output l)
  | as_sample : forall its o gzip output seed n l t rest,
      asks_shared its o -> switch its "gzip" gzip -> value its "output" output ->
      (values its (lit "seed") = [] /\ seed = None \/ exists t k, values its (lit "seed") = [t] /\ number_text t k /\ seed = Some k) ->
      progress its (output <> None) -> names its = t :: rest -> range_text 1 4294967295 t n -> reading rest l ->
      asks "sample" its (KSample o gzip output (draws seed) n l)
  | as_select : forall its o q unique no_empty nf quote tsv append output l rest,
      asks_shared its o -> asks_columns its q -> switch its "unique" unique -> switch its "no-empty-columns" no_empty ->
      choice its nf_texts "translit" nf -> choice_or its quotes_texts "quote-style" QNecessary quote -> switch its "tsv" tsv ->
      switch its "append" append -> value its "output" output -> progress its (output <> None) ->
      names its = co_query q :: rest -> reading rest l ->
      asks "select" its (KSelect o q unique no_empty nf quote tsv append output l)
  | as_slice : forall its o gzip append output start end_ len l,
      asks_shared its o -> switch its "gzip" gzip -> switch its "append" append -> value its "output" output ->
      number_or its "start" 0 start -> number_or its "end" 0 end_ -> number_or its "length" 0 len ->
      (values its (lit "end") = [] \/ values its (lit "length") = []) ->
      progress its (output <> None) -> reading (names its) l ->
      asks "slice" its (KSlice o gzip append output start end_ len l)
  | as_split : forall its o gzip outdir template n l t rest,
      asks_shared its o -> switch its "gzip" gzip -> file_or its "outdir" (lit ".") outdir -> text its "template" template ->
      progress its True -> names its = t :: rest -> range_text 1 4294967295 t n -> reading rest l ->
      asks "split" its (KSplit o gzip outdir template n l).

  (** a command line that asks for a run: the file of the configuration and the
      command *)
  Definition line_asks (ts : list bytes) (config : option bytes) (k : command) : Prop :=
    exists c before word after its,
      ts = before ++ word :: after /\ config_words config before /\ word_for c word
      /\ spelled (snd c) its after /\ asks (fst (fst c)) its k.
End Asks.

(** a command line that asks for the completions of a shell *)
Definition shells : list string := ["bash"; "elvish"; "fish"; "powershell"; "zsh"]%string.
Definition line_completes (ts : list bytes) (config : option bytes) (shell : bytes) (output : option bytes) : Prop :=
  exists c before word after its,
    ts = before ++ word :: after /\ config_words config before /\ word_for c word /\ fst (fst c) = "completions"%string
    /\ spelled (snd c) its after
    /\ names its = [shell] /\ (exists s, In s shells /\ shell = lit s) /\ value its "output" output.

(** two lists of items that say the same: the same switches, for every option the same
    values in the same order, the same names in the same order *)
Definition same_items (its its' : list item) : Prop :=
  (forall n, length (switched its n) = length (switched its' n)) /\ (forall n, values its n = values its' n) /\ names its = names its'.

(** ** What the commands can rely on *)

(** the numbers fit, and --or stands alone *)
Definition orderly_opts (o : file_opts) : Prop :=
  o_limit o < 2 ^ 64 /\ o_threshold o < 100 /\ (o_or o <> [] -> o_and o = [] /\ o_not o = []).
(** --where comes with --and, --or and --not, except for filter *)
Definition with_where (o : file_opts) : Prop :=
  orderly_opts o /\ (o_and o <> [] \/ o_or o <> [] \/ o_not o <> [] -> o_where o <> None).
Definition orderly (k : command) : Prop :=
  match k with
  | KCheck o rules _ _ output l => with_where o /\ rules <> [] /\ output <> Some [] /\ l <> []
  | KConcat _ _ _ _ _ l => l <> []
  | KConfig a => fitting a
  | KConvert _ _ _ _ l => l <> []
  | KCount o _ _ _ l => with_where o /\ l <> []
  | KDescribe o _ _ csv tsv output l =>
      with_where o /\ ~ (csv = true /\ tsv = true) /\ (csv = true \/ tsv = true -> output <> None) /\ l <> []
  | KExplode o _ _ _ _ _ l => with_where o /\ l <> []
  | KFilter o f append gzip output tee l =>
      orderly_opts o /\ o_where o = None /\ ~ (append = true /\ gzip = true) /\ (output = None \/ tee = None) /\ tee <> Some []
      /\ fi_expr_file f <> Some [] /\ l <> []
  | KFrequency o q _ num threshold _ _ _ _ l =>
      with_where o /\ ~ (co_squash q = true /\ co_merge q = true) /\ num < 2 ^ 64 /\ threshold < 2 ^ 64 /\ l <> []
  | KHash o _ _ _ l => with_where o /\ l <> []
  | KInvalid _ l => l <> []
  | KPartition o _ _ outdir _ l => with_where o /\ outdir <> [] /\ l <> []
  | KPrint o _ _ l => with_where o /\ l <> []
  | KSample o _ _ _ n l => with_where o /\ 1 <= n < 2 ^ 32 /\ l <> []
  | KSelect o q _ _ _ _ _ _ _ l => with_where o /\ ~ (co_squash q = true /\ co_merge q = true) /\ l <> []
  | KSlice o _ _ _ start end_ len l =>
      with_where o /\ start < 2 ^ 64 /\ end_ < 2 ^ 64 /\ len < 2 ^ 64 /\ (end_ = 0 \/ len = 0) /\ l <> []
  | KSplit o _ outdir _ n l => with_where o /\ outdir <> [] /\ 1 <= n < 2 ^ 32 /\ l <> []
  end.

(** * The command line: C119 to C122 *)

From Coq Require Import String.
From Verif Require Import Bytes Utf8Spec RecordModel MatcherModel PathModel CliModel ExplodeModel ConvertModel CsvModel OptionsModel OptionsSpec ConfigModel
  DiskModel DirModel RuleModel ClapModel MainModel ArgsModel ArgsSpec ClapProofs ArgsLine ArgsEffects.
From Verif Require RunSpec PropertiesMain BaseProofs Utf8Proofs.

(** ** C119: what the words after "pica" ask for

    The reader of the command line accepts exactly the lines of the specification,
    and what it hands over is what they ask for: the words for the commands and their
    options can be shortened and spelled in all the ways of clap, and in no other. *)
Theorem C119_asks : forall e draws ts config k,
  read_line e draws ts = PGiven (config, AskRun k) <-> line_asks e draws ts config k.
Proof. exact line_iff. Qed.
Print Assumptions C119_asks.

Theorem C119_completes : forall e draws ts config shell output,
  read_line e draws ts = PGiven (config, AskCompletions shell output) <-> line_completes ts config shell output.
Proof. exact completes_iff. Qed.
Print Assumptions C119_completes.

(** a line does not ask for two things *)
Theorem C119_one : forall e draws ts c1 k1 c2 k2,
  line_asks e draws ts c1 k1 -> line_asks e draws ts c2 k2 -> c1 = c2 /\ k1 = k2.
Proof. exact one_meaning. Qed.
Print Assumptions C119_one.

Theorem C119_or : forall e draws ts c1 k c2 shell output,
  line_asks e draws ts c1 k -> ~ line_completes ts c2 shell output.
Proof. exact not_both_meanings. Qed.
Print Assumptions C119_or.

(** ** C120: the program does what its command line asks for

    A line that asks for a run starts this run; a line that asks for completions
    writes them; any other line changes no file and reads nothing: the program ends
    with status 2, or it has printed a text of clap to stdout. *)
Theorem C120_runs : forall e draws help version completions ts config k w, line_asks e draws ts config k ->
  program e draws help version completions ts w = run e (mkInvocation config k) w.
Proof. exact program_runs. Qed.
Print Assumptions C120_runs.

Theorem C120_completes : forall e draws help version completions ts config shell output w conf k,
  line_completes ts config shell output -> RunSpec.settings e (mkInvocation config k) w conf ->
  match output with
  | None => program e draws help version completions ts w
              = Some (CEnded 0, mkWorld (w_disk w) (w_stdin w) (w_stdout w ++ completions shell))
  | Some n => e_writable e n = false /\ program e draws help version completions ts w = Some (CRefused, w)
      \/ exists d, program e draws help version completions ts w = Some (CEnded 0, mkWorld d (w_stdin w) (w_stdout w))
           /\ disk_get d n = Some (completions shell) /\ (forall n', n' <> n -> disk_get d n' = disk_get (w_disk w) n')
  end.
Proof. exact program_completes. Qed.
Print Assumptions C120_completes.

(** the two cases in which there are no settings *)
Theorem C120_unconfigured : forall e draws help version completions ts config shell output w n t k, line_completes ts config shell output ->
  MainSpec.config_name e (mkInvocation config k) = Some n -> disk_get (w_disk w) n = Some t ->
  (config = None -> ~ is_utf8 t -> program e draws help version completions ts w = Some (CRefused, w))
  /\ (is_utf8 t -> e_config_toml e t = None -> program e draws help version completions ts w = Some (CPanicked, w)).
Proof. exact program_unconfigured. Qed.
Print Assumptions C120_unconfigured.

Theorem C120_else : forall e draws help version completions ts w,
  (forall config k, ~ line_asks e draws ts config k) -> (forall config shell output, ~ line_completes ts config shell output) ->
  program e draws help version completions ts w = Some (CRefused, w)
  \/ exists t, program e draws help version completions ts w = Some (CEnded 0, mkWorld (w_disk w) (w_stdin w) (w_stdout w ++ t)).
Proof. exact program_else. Qed.
Print Assumptions C120_else.

(** ** C121: the order and the spelling of options do not matter

    Two lines that say the same (the same switches, for every option the same values
    in the same order, the same names in the same order) ask for the same; switches
    and options can stand before and after the names and can be spelled out or
    abbreviated. *)
Theorem C121_order : forall e draws c before word after after' its its' config k,
  config_words config before -> word_for c word -> spelled (snd c) its after -> spelled (snd c) its' after' -> same_items its its' ->
  forall config', line_asks e draws (before ++ word :: after) config' k <-> line_asks e draws (before ++ word :: after') config' k.
Proof. exact order_line. Qed.
Print Assumptions C121_order.

(** any way to take a line apart leads to what it asks for *)
Theorem C121_items : forall e draws c before word after its config config' k,
  config_words config before -> word_for c word -> spelled (snd c) its after ->
  (line_asks e draws (before ++ word :: after) config' k <-> config' = config /\ asks e draws (fst (fst c)) its k).
Proof. exact items_line. Qed.
Print Assumptions C121_items.

(** ** C122: the commands get only arguments that they are made for

    What can be asked for is orderly: numbers in their ranges, at least one file to
    read, no two options that exclude each other. *)
Theorem C122_orderly_partial : forall e draws ts config k, line_asks e draws ts config k -> orderly k.
Proof. intros e draws ts config k (c & b & w & a & its & _ & _ & _ & _ & H). eapply asks_orderly, H. Qed.
Print Assumptions C122_orderly_partial.

(** But slice accepts --gzip together with --append, which filter does not: the
    program then always panics, whatever the files are. *)
Definition no_opts : file_opts := mkFileOpts false 0 false 75 [] [] None None None [] [] [].
Definition inputs_of (fs : list bytes) : list bytes := match fs with [] => [lit "-"] | _ => fs end.

Theorem C122_slice_asks : forall e draws fs, Forall bare fs ->
  line_asks e draws (lit "slice" :: lit "-ga" :: fs) None (KSlice no_opts true true None 0 0 0 (inputs_of fs)).
Proof. exact slice_both. Qed.
Print Assumptions C122_slice_asks.

Theorem C122_slice_refuted : forall e draws help version completions fs w conf k, Forall bare fs ->
  RunSpec.settings e (mkInvocation None k) w conf ->
  program e draws help version completions (lit "slice" :: lit "-ga" :: fs) w = Some (CPanicked, w).
Proof. exact slice_panics. Qed.
Print Assumptions C122_slice_refuted.

(** ** Samples *)

Definition line (l : list string) : list bytes := map lit l.
Definition no_draws : option N -> N -> N := fun _ n => n.
Definition sample_filter : command :=
  KFilter (mkFileOpts true 5 false 80 [] [] None None None [lit "010@?"; lit "011@?"] [] [])
    (mkFilterOnly (lit "003@.0 == '1'") None true (Some (lit "003@")) None) false false (Some (lit "out.dat")) None [lit "a.dat"; lit "-x"].

Local Open Scope string_scope.

(** two lines for the same, the second with "--config" *)
Example C119_sample :
  line_asks PropertiesMain.main_env no_draws
    (line ["fil"; "-sv"; "-l5"; "--strsim-threshold=+80"; "003@.0 == '1'"; "--and"; "010@?"; "a.dat"; "-k"; "003@"; "-o=out.dat"; "--and=011@?"; "--"; "-x"])
    None sample_filter
  /\ line_asks PropertiesMain.main_env no_draws
       (line ["-cmy.toml"; "filter"; "--keep=003@"; "-o"; "out.dat"; "--and=010@?"; "--invert-match"; "003@.0 == '1'"; "-psl=5"; "--strsim-threshold"; "80";
              "--and=011@?"; "--"; "a.dat"; "-x"])
       (Some (lit "my.toml")) sample_filter
  /\ line_asks PropertiesMain.main_env no_draws (line ["freq"; "-n3"; "002@.0"]) None
       (KFrequency no_opts (mkColumns (lit "002@.0") (lit "|") false false None) false 3 0 false None false None [lit "-"])
  /\ line_completes (line ["comp"; "zsh"; "-o_pica"]) None (lit "zsh") (Some (lit "_pica")).
Proof.
  split; [|split; [|split]].
  - apply C119_asks. vm_compute. reflexivity.
  - apply C119_asks. vm_compute. reflexivity.
  - apply C119_asks. vm_compute. reflexivity.
  - apply (C119_completes PropertiesMain.main_env no_draws). vm_compute. reflexivity.
Qed.

Definition refused : list (list bytes) := map line [
  []; ["co"]; ["s"; "a.dat"]; ["filter"; "--append"; "-g"; "010@?"]; ["filter"; "-s"; "--skip-invalid"; "010@?"]; ["sample"; "0"]; ["sample"; "4294967296"];
  ["filter"; "-p"; "010@?"]; ["frequency"; "--num"; "3"; "002@.0"]; ["select"; "--squash"; "--merge"; "003@.0"]; ["print"; "--limit"; "-1"];
  ["print"; "--and"; "010@?"]; ["config"; "--set"; "skip-invalid"]; ["explode"; "item"]; ["slice"; "--end"; "1"; "--length"; "1"]; ["check"; "a.dat"]].

Example C120_sample : Forall (fun ts => (forall config k, ~ line_asks PropertiesMain.main_env no_draws ts config k)
  /\ forall config shell output, ~ line_completes ts config shell output) refused.
Proof.
  assert (H : forallb (fun ts => match read_line PropertiesMain.main_env no_draws ts with PError => true | _ => false end) refused = true)
    by (vm_compute; reflexivity).
  apply Forall_forall. intros ts Hts. apply (proj1 (forallb_forall _ _) H) in Hts. split.
  - intros config k L. apply C119_asks in L. rewrite L in Hts. discriminate.
  - intros config shell output L. apply (C119_completes PropertiesMain.main_env no_draws) in L. rewrite L in Hts. discriminate.
Qed.

(** help, and a run of the whole program from its command line *)
Example C120_program :
  program PropertiesMain.main_env no_draws (fun _ => lit "Usage") (lit "0.1") (fun s => s) (line ["help"; "cat"]) PropertiesMain.main_world
    = Some (CEnded 0, mkWorld (w_disk PropertiesMain.main_world) (w_stdin PropertiesMain.main_world) (w_stdout PropertiesMain.main_world ++ lit "Usage"))
  /\ exists w, program PropertiesMain.main_env no_draws (fun _ => lit "Usage") (lit "0.1") (fun s => s) (line ["cat"; "b.dat"; "-oc.dat"]) PropertiesMain.main_world
    = Some (CEnded 0, w) /\ disk_get (w_disk w) (lit "c.dat") = disk_get (w_disk PropertiesMain.main_world) (lit "b.dat").
Proof. split; [vm_compute; reflexivity|]. eexists. split; vm_compute; reflexivity. Qed.

(** a configuration that is no UTF-8, and one that is no TOML *)
Example C120_unconfigured_sample : exists ts output, line_completes ts None (lit "bash") output
  /\ MainSpec.config_name PropertiesMain.main_env (mkInvocation None (KInvalid None [])) = Some (lit "home.toml")
  /\ ~ is_utf8 [255] /\ is_utf8 (lit "=") /\ e_config_toml PropertiesMain.main_env (lit "=") = None.
Proof.
  exists (line ["completions"; "bash"]), None. split; [|split; [reflexivity|split; [|split]]].
  - apply (C119_completes PropertiesMain.main_env no_draws). vm_compute. reflexivity.
  - intros H. apply Utf8Proofs.utf8_valid_iff in H. discriminate.
  - apply Utf8Proofs.utf8_valid_iff. reflexivity.
  - vm_compute. reflexivity.
Qed.

(** the options of print in two orders *)
Example C121_sample : exists c its its', word_for c (lit "print")
  /\ spelled (snd c) its (line ["-sl"; "2"; "a"; "--translit=nfd"; "b"]) /\ spelled (snd c) its' (line ["a"; "b"; "--translit"; "nfd"; "--limit=2"; "-s"])
  /\ same_items its its' /\ its <> its'.
Proof.
  exists ("print", [], [va "translit" ""] ++ output_options ++ shared_options)%list,
    [ISwitch (lit "skip-invalid"); IOption (lit "limit") (lit "2"); IName (lit "a"); IOption (lit "translit") (lit "nfd"); IName (lit "b")],
    [IName (lit "a"); IName (lit "b"); IOption (lit "translit") (lit "nfd"); IOption (lit "limit") (lit "2"); ISwitch (lit "skip-invalid")].
  assert (B : forall v, hyphen v = false -> bare v) by (intros v; apply hyphen_false).
  split; [|split; [|split; [|split]]].
  - split; [unfold commands; repeat (first [left; reflexivity|right])|]. left. exists "print". split; [left|]; reflexivity.
  - cbn [snd]. change (lit "-sl") with (lit "-" ++ lit "s" ++ [108])%list.
    apply (sp_letter_apart _ [ISwitch (lit "skip-invalid")] (lit "s") (lit "limit") 108 (lit "2")).
    + constructor; [|constructor]. exists true. repeat (first [left; reflexivity|right]).
    + exists true. repeat (first [left; reflexivity|right]).
    + apply B. reflexivity.
    + apply sp_name; [apply B; reflexivity|]. apply (sp_equals _ (lit "translit") (lit "nfd")).
      * exists None. repeat (first [left; reflexivity|right]).
      * apply sp_name; [apply B; reflexivity|]. constructor.
  - cbn [snd]. apply sp_name; [apply B; reflexivity|]. apply sp_name; [apply B; reflexivity|]. apply (sp_apart _ (lit "translit")).
    + exists None. repeat (first [left; reflexivity|right]).
    + apply B. reflexivity.
    + apply (sp_equals _ (lit "limit") (lit "2")).
      * exists (Some 108). repeat (first [left; reflexivity|right]).
      * apply (sp_letters _ [ISwitch (lit "skip-invalid")] (lit "s") []); [|discriminate|constructor].
        constructor; [|constructor]. exists true. repeat (first [left; reflexivity|right]).
  - split; [|split; [|reflexivity]].
    + intros n. unfold switched. cbn [filter length]. destruct (bytes_eqb (lit "skip-invalid") n); reflexivity.
    + intros n. unfold values. cbn [flat_map app]. destruct (bytes_eqb (lit "limit") n) eqn:E1, (bytes_eqb (lit "translit") n) eqn:E2; try reflexivity.
      apply BaseProofs.bytes_eqb_eq in E1, E2. subst n. discriminate.
  - discriminate.
Qed.

Example C122_sample : Forall bare (line ["a.dat"; "-"])
  /\ exists conf, RunSpec.settings PropertiesMain.main_env (mkInvocation None (KInvalid None [])) PropertiesMain.main_world conf.
Proof.
  split; [apply Forall_forall; intros v [<-|[<-|[]]]; apply hyphen_false; reflexivity|]. eexists.
  eapply RunSpec.se_file; [reflexivity|reflexivity|apply Utf8Proofs.utf8_valid_iff; vm_compute; reflexivity|vm_compute; reflexivity].
Qed.

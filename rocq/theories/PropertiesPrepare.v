(** * Properties of whole commands: from the arguments to the output

    [filter_says] and [opts_say] (PrepareSpec.v) state what the texts of the
    arguments mean, by the languages of GrammarSpec.v, QueryGrammarSpec.v and
    OptionsSpec.v. *)

From Coq Require Import String Permutation.
From Verif Require Import Bytes RecordModel RecordSpec TagOccSpec ByteRecordModel ByteRecordSpec ReaderModel
  StrSpec MatcherModel
  MatcherSpec StateParser GrammarSpec FmtModel QueryModel QuerySpec QueryGrammarSpec QueryTextExamples
  CliModel CliSpec TableModel TableSpec CheckSpec OptionsSpec PrepareModel PrepareSpec PrepareProofs TablePrepareProofs
  PropertiesMatcher PropertiesQuery PropertiesCli PropertiesGrammar PropertiesTable.
From Verif Require PropertiesOptions.

(** ** C69 *)

(** C69: arguments in the strict languages are accepted, and filter writes
    exactly what they ask for *)
Theorem C69_filter : forall O Od transform content a M D K V,
  regexes_compile O (fa_ci a) -> regexes_compile Od false ->
  filter_says O Od true transform content a M D K V ->
  exists x, filter_execute O Od transform content a = Some (Ran x) /\ filter_effect content a M D K V x.
Proof. exact execute_accepted. Qed.
Print Assumptions C69_filter.

(** C69: whenever filter runs, its arguments have a meaning and the run is the
    one they ask for *)
Theorem C69_filter_accepted : forall O Od transform content a x,
  regexes_compile O (fa_ci a) -> regexes_compile Od false ->
  filter_execute O Od transform content a = Some (Ran x) ->
  exists M D K V, filter_says O Od false transform content a M D K V /\ filter_effect content a M D K V x.
Proof. exact execute_read. Qed.
Print Assumptions C69_filter_accepted.

(** C69: the commands with the shared options: the run is that of options
    selecting the records the arguments describe *)
Theorem C69_shared_options : forall O Od transform S (run : filter_opts -> option (ending S)) a M V,
  regexes_compile O (oa_ci a) -> regexes_compile Od false -> opts_say O Od true transform a M V ->
  exists o, opts_execute O Od transform run a = match run o with Some x => Some (Ran x) | None => None end
    /\ opts_wf O Od o /\ (forall r, opts_hold O Od o r <-> meant a M V r)
    /\ fo_limit o = oa_limit a
    /\ forall skip files recs e, selects O Od skip o files recs e <-> opts_records a M V skip files recs e.
Proof. exact opts_execute_accepted. Qed.
Print Assumptions C69_shared_options.

Theorem C69_shared_options_accepted : forall O Od transform S (run : filter_opts -> option (ending S)) a,
  regexes_compile O (oa_ci a) -> regexes_compile Od false ->
  opts_execute O Od transform run a = Some Refused
  \/ exists M V o, opts_say O Od false transform a M V
       /\ opts_execute O Od transform run a = match run o with Some x => Some (Ran x) | None => None end
       /\ opts_wf O Od o /\ (forall r, opts_hold O Od o r <-> meant a M V r)
       /\ fo_limit o = oa_limit a
       /\ forall skip files recs e, selects O Od skip o files recs e <-> opts_records a M V skip files recs e.
Proof. exact opts_execute_read. Qed.
Print Assumptions C69_shared_options_accepted.

(** for example count *)
Theorem C69_count : forall O Od transform a M V skip files,
  regexes_compile O (oa_ci a) -> regexes_compile Od false -> opts_say O Od true transform a M V ->
  exists all sel e, reads skip files all e /\ chosen (meant a M V) all sel
    /\ opts_execute O Od transform (fun o => count_run O Od skip o files) a
       = Some (Ran (ended (N.of_nat (length sel), N.of_nat (length (flat_map br_record sel)),
                      N.of_nat (length (flat_map f_subfields (flat_map br_record sel)))) e)).
Proof. exact count_meant. Qed.
Print Assumptions C69_count.

(** C69: select, from the text of the query to the rows *)
Theorem C69_select : forall O Od T transform lossy hash a unique no_empty nf skip files M V Ms header,
  regexes_compile O (oa_ci (ta_opts a)) -> regexes_compile Od false ->
  opts_say O Od true transform (ta_opts a) M V -> table_says O T true transform a Ms header ->
  header_fits header (columns_of Ms) ->
  exists x, select_execute O Od transform T lossy hash a unique no_empty nf skip files = Some (Ran x)
    /\ exists recs e rss out, opts_records (ta_opts a) M V skip files recs e
    /\ Forall2 (fun r rows => QueryGrammarSpec.query_rows Ms (options_of a) (br_record r) rows) recs rss
    /\ select_writes hash unique no_empty (concat rss) out
    /\ x = ended (header_rows header
                  ++ map (fun row => match nf with
                                     | None => row
                                     | Some nf => map (fun v => nf (lossy v)) row
                                     end) out, false) e.
Proof. exact select_executed. Qed.
Print Assumptions C69_select.

Theorem C69_select_accepted : forall O Od T transform lossy hash a unique no_empty nf skip files x,
  regexes_compile O (oa_ci (ta_opts a)) -> regexes_compile Od false ->
  select_execute O Od transform T lossy hash a unique no_empty nf skip files = Some (Ran x) ->
  exists M V Ms header, opts_say O Od false transform (ta_opts a) M V /\ table_says O T false transform a Ms header
    /\ (header_fits header (columns_of Ms) ->
        exists recs e rss out, opts_records (ta_opts a) M V skip files recs e
        /\ Forall2 (fun r rows => QueryGrammarSpec.query_rows Ms (options_of a) (br_record r) rows) recs rss
        /\ select_writes hash unique no_empty (concat rss) out
        /\ x = ended (header_rows header
                      ++ map (fun row => match nf with
                                         | None => row
                                         | Some nf => map (fun v => nf (lossy v)) row
                                         end) out, false) e).
Proof. exact select_executed_read. Qed.
Print Assumptions C69_select_accepted.

(** C69: frequency, in descending order *)
Theorem C69_frequency : forall O Od T transform lossy order a unique num threshold nf skip files M V Ms header,
  (forall t, Permutation (order t) t) ->
  regexes_compile O (oa_ci (ta_opts a)) -> regexes_compile Od false ->
  opts_say O Od true transform (ta_opts a) M V -> table_says O T true transform a Ms header ->
  header_fits header (columns_of Ms + 1) ->
  exists recs e rss l reaching listed rows, opts_records (ta_opts a) M V skip files recs e
    /\ Forall2 (fun r rows => QueryGrammarSpec.query_rows Ms (options_of a) (br_record r) rows) recs rss
    /\ frequencies unique false rss l
    /\ picks (fun e => threshold <= snd e) (fun e => e) l reaching
    /\ first_num num reaching listed
    /\ Forall2 (written_frequency (fun v => nf (lossy v))) listed rows
    /\ freq_execute O Od transform T lossy order a unique num threshold false nf skip files
       = Some (Ran (match e with
                    | None => Done (header_rows header ++ rows, false)
                    | Some err => Failed ([], false) err
                    end)).
Proof. exact freq_executed. Qed.
Print Assumptions C69_frequency.

(** ** C70 *)

(** C70: filter ends without panic, with exit code 0 or 2 *)
Theorem C70_exit_code : forall O Od transform content a, regexes_compile O (fa_ci a) -> regexes_compile Od false ->
  exists y, filter_execute O Od transform content a = Some y /\ (main_code y = Some 0 \/ main_code y = Some 2)
    /\ (main_code y = Some 0 <-> exists s, y = Ran (Done s)).
Proof. exact filter_code. Qed.
Print Assumptions C70_exit_code.

(** C70: arguments without a meaning are refused before anything is read *)
Theorem C70_refused : forall O Od transform content a, regexes_compile O (fa_ci a) -> regexes_compile Od false ->
  (forall M D K V, ~ filter_says O Od false transform content a M D K V) ->
  filter_execute O Od transform content a = Some Refused.
Proof. exact execute_refused. Qed.
Print Assumptions C70_refused.

(** C70: exit code 0 means that all selected records have been written *)
Theorem C70_success : forall O Od transform content a, regexes_compile O (fa_ci a) -> regexes_compile Od false ->
  (exists y, filter_execute O Od transform content a = Some y /\ main_code y = Some 0) ->
  exists M D K V s, filter_says O Od false transform content a M D K V /\ filter_effect content a M D K V (Done s).
Proof. exact filter_code_zero. Qed.
Print Assumptions C70_success.

(** ** Samples *)

Lemma id_path_text : forall O, exists F Cs, path_text O true (lit "003@.0") F Cs.
Proof.
  intros O. eexists _, _.
  change (lit "003@.0") with ([] ++ lit "003@" ++ [] ++ lit "." ++ ([48] : bytes) ++ []).
  apply path_dot; [constructor|exact tag_id|apply omt_empty|apply codes_one; vm_compute; tauto|constructor].
Qed.

Definition sample_content (n : bytes) : bytes :=
  match find (fun f => bytes_eqb (fst f) n) sample_files with Some f => snd f | None => [] end.

Definition sample_args : filter_args :=
  mkFilterArgs true 0 true false (Some (lit "012A, ")) None None [] [] None None [lit " (012A? || 013A?) && !014A?"] []
    [lit " (012A? || 013A?) && !014A?"]
    (lit " (012A? || 013A?) && !014A?") [lit "a.dat"; lit "-"].

Example C69_sample : exists M D K V,
  filter_says sample_oracles sample_oracles true (fun e => e) sample_content sample_args M D K V
  /\ length K = 1%nat
  /\ (forall ci fs, ~ M ci fs).
Proof.
  destruct (C65_sample sample_oracles) as (P & HP & _). destruct (id_path_text sample_oracles) as (F & Cs & HF).
  assert (HE : expression sample_oracles true (lit " (012A? || 013A?) && !014A?") P).
  { exists 1. split; [exact HP|reflexivity]. }
  exists (combined P [P] [] [P]), [], [(fun tag occ => tag_is 48 49 50 65 tag /\ (occ = None \/ occ = Some (lit "00")))],
    (path_values_of F Cs false).
  split; [constructor|split; [reflexivity|]].
  - exists (lit " (012A? || 013A?) && !014A?"). split; [left; auto|]. exists P, [P], [], [P].
    cbn [sample_args fa_and fa_or fa_not]. split; [exact HE|]. repeat (split; [repeat constructor; exact HE|]).
    reflexivity.
  - reflexivity.
  - cbn [fields_option sample_args fa_keep]. exists [lit "012A"]. split.
    + exists [lit "012A"; lit " "], [lit "012A"; []]. split; [|split].
      * change (lit "012A, ") with (lit "012A" ++ 44 :: lit " "). apply ci_more; [vm_compute; intuition discriminate|].
        apply ci_one. vm_compute. intuition discriminate.
      * constructor; [|constructor; [|constructor]]; apply PropertiesOptions.C51_C64_trim; vm_compute; reflexivity.
      * apply (picks_yes _ (fun t : bytes => t) (lit "012A")); [discriminate|]. apply picks_no; [intros H; apply H; reflexivity|]. constructor.
    + constructor; [|constructor]. exists (lit "012A"), [], (tag_is 48 49 50 65), (fun occ => occ = None \/ occ = Some (lit "00")).
      split; [reflexivity|]. split; [exact tag_sample|]. split; [apply omt_empty|]. reflexivity.
  - exists F, Cs. split; [exact HF|]. reflexivity.
  - intros t [].
  - intros t [].
  - intros ci fs [[[H _]|(Q & [] & _)] H2]. apply H2. exists P. cbn. auto.
Qed.

Example C69_sample_run :
  filter_execute sample_oracles sample_oracles (fun e => e) sample_content sample_args
  = (let out := flat_map (fun v => lit "012A " ++ [31] ++ lit "a" ++ lit v ++ [30; 10]) ["x"; "y"; "z"; "x"]%string in
     Some (Ran (Done (4, out, out)))).
Proof. vm_compute. reflexivity. Qed.

Example C70_sample :
  filter_execute sample_oracles sample_oracles (fun e => e) sample_content
    (mkFilterArgs true 0 true false None None None [] [] None None [] [] [] (lit "012A? &&") [lit "a.dat"])
  = Some Refused.
Proof. vm_compute. reflexivity. Qed.

(** * check with its rule files: C96, C97, C98, C99

    RuleSpec.v says what the entries of a rule file mean ([rules_say]), and what
    check is to report then ([rules_effect]).  The files are those of the disk
    once the output has been opened ([running]).  [strict] is explained in
    GrammarSpec.v. *)

From Coq Require Import String ZArith Permutation.
From Verif Require Import Bytes Winnow RecordModel RecordSpec TagOccModel Utf8Model ByteRecordModel ByteRecordSpec ReaderModel
  MatcherModel MatcherSpec StateParser MatcherParserModel BuilderModel PathModel FmtModel QueryModel CliModel CliSpec TableModel
  CheckModel CheckSpec CsvModel CsvSpec OptionsModel OptionsSpec PrepareModel IoModel IoSpec WriteSpec GrammarSpec
  QuerySpec QueryGrammarSpec PrepareSpec TableSpec DiskModel DiskSpec EndSpec RuleModel RuleSpec RuleProofs RuleEndProofs
  PropertiesMatcher PropertiesCli PropertiesQuery PropertiesIo PropertiesGrammar PropertiesPrepare PropertiesDisk PropertiesDir PropertiesEnd.

(** ** C96: a rule is accepted if and only if its entries mean something *)

(** a rule that is accepted means something, and has the name, level and tags it
    is given *)
Theorem C96_rule_loaded : forall T lossy oracles_at int_f64 strptime is_nf holds polars lists,
  (forall n tab, lists n = Some tab <-> exists b, holds n b /\ polars n b = Some tab) ->
  (forall x ci, regexes_compile (oracles_at x) ci) ->
  forall x s ru s', tidy (snd x) -> read_rule oracles_at int_f64 strptime is_nf lists x s = (Some (Some ru), s') ->
  exists m, rule_says T lossy oracles_at int_f64 strptime is_nf holds polars false x m
    /\ rm_id m = ru_id ru /\ rm_level m = ru_level ru /\ rm_tags m = ru_tags ru.
Proof. exact rule_loaded. Qed.
Print Assumptions C96_rule_loaded.

(** a rule that means something is accepted *)
Theorem C96_rule_accepted : forall T lossy oracles_at int_f64 strptime is_nf holds polars lists,
  (forall n tab, lists n = Some tab <-> exists b, holds n b /\ polars n b = Some tab) ->
  (forall x ci, regexes_compile (oracles_at x) ci) ->
  forall x m, tidy (snd x) -> rule_says T lossy oracles_at int_f64 strptime is_nf holds polars true x m ->
  exists ru, read_rule oracles_at int_f64 strptime is_nf lists x fresh = (Some (Some ru), fresh)
    /\ ru_id ru = rm_id m /\ ru_level ru = rm_level m /\ ru_tags ru = rm_tags m.
Proof. exact rule_accepted. Qed.
Print Assumptions C96_rule_accepted.

(** a rule without meaning is refused, and does not make check panic *)
Theorem C96_rule_refused : forall T lossy oracles_at int_f64 strptime is_nf holds polars lists,
  (forall n tab, lists n = Some tab <-> exists b, holds n b /\ polars n b = Some tab) ->
  (forall x ci, regexes_compile (oracles_at x) ci) ->
  forall x s, tidy (snd x) -> (forall m, ~ rule_says T lossy oracles_at int_f64 strptime is_nf holds polars false x m) ->
  fst (read_rule oracles_at int_f64 strptime is_nf lists x s) = Some None.
Proof. exact rule_refused. Qed.
Print Assumptions C96_rule_refused.

(** whatever the files contain, loading them ends *)
Theorem C96_total : forall O transform oracles_at int_f64 strptime is_nf polars hash_order from_toml normal patterns
    a files filter tags d,
  disk_rules O transform oracles_at int_f64 strptime is_nf polars hash_order from_toml normal patterns a files filter tags d <> None.
Proof. exact rules_never_panic. Qed.
Print Assumptions C96_total.

(** ** C97: what check reports *)

(** C96: a rule without a threshold has the double precision number nearest to 0.8: its
    exponent is that of numbers from 1/2 to 1, and no other such number [k * 2^-53] is
    nearer to 4/5 *)
Theorem C96_default_threshold :
  strsim_default / 2 ^ 52 = 1022
  /\ forall k, 2 ^ 52 <= k < 2 ^ 53 ->
       (Z.abs (5 * Z.of_N (2 ^ 52 + strsim_default mod 2 ^ 52) - 4 * 2 ^ 53) <= Z.abs (5 * Z.of_N k - 4 * 2 ^ 53))%Z.
Proof. exact default_threshold. Qed.
Print Assumptions C96_default_threshold.

(** files and options that mean something: check does what they mean *)
Theorem C97_end_to_end : forall gz_enc gz_dec writable O transform lossy T rule_order link_order oracles_at int_f64 strptime is_nf
    polars hash_order from_toml normal patterns,
  (forall x ci, regexes_compile (oracles_at x) ci) -> (forall b v, from_toml b = Some v -> tidy v) ->
  (forall v, lossy v = [] <-> v = []) ->
  (forall l, Permutation (rule_order l) l) -> (forall l, Permutation (link_order l) l) -> (forall l, Permutation (hash_order l) l) ->
  forall a, regexes_compile O (oa_ci a) ->
  forall M V ms files filter tags output skip names w cs,
  opts_say O (oracles_at strsim_default) true transform a M V ->
  rules_say T lossy oracles_at int_f64 strptime is_nf (running output w) polars true from_toml normal patterns files filter tags ms ->
  available gz_dec (w_disk w) (w_stdin w) names cs -> (forall n, output = Some n -> writable n = true /\ ~ In n names) ->
  exists ms' st text w',
    check_files_on_disk gz_enc gz_dec writable O transform lossy T rule_order link_order oracles_at int_f64 strptime is_nf
      polars hash_order from_toml normal patterns a files filter tags output skip names w = Some (CEnded st, w')
    /\ rules_say T lossy oracles_at int_f64 strptime is_nf (running output w) polars true from_toml normal patterns files filter tags ms'
    /\ rules_effect a M V skip cs lossy ms' output st text
    /\ received gz_enc [(mkOut output false false, text)] w w'.
Proof. exact files_accepted. Qed.
Print Assumptions C97_end_to_end.

(** check has ended with a status: files and options mean something, and it did
    what they mean *)
Theorem C97_end_to_end_read : forall gz_enc gz_dec writable O transform lossy T rule_order link_order oracles_at int_f64 strptime is_nf
    polars hash_order from_toml normal patterns,
  (forall x ci, regexes_compile (oracles_at x) ci) -> (forall b v, from_toml b = Some v -> tidy v) ->
  (forall v, lossy v = [] <-> v = []) ->
  (forall l, Permutation (rule_order l) l) -> (forall l, Permutation (link_order l) l) -> (forall l, Permutation (hash_order l) l) ->
  forall a, regexes_compile O (oa_ci a) ->
  forall files filter tags output skip names w cs st w',
  available gz_dec (w_disk w) (w_stdin w) names cs -> (forall n, output = Some n -> ~ In n names) ->
  check_files_on_disk gz_enc gz_dec writable O transform lossy T rule_order link_order oracles_at int_f64 strptime is_nf
    polars hash_order from_toml normal patterns a files filter tags output skip names w = Some (CEnded st, w') ->
  exists M V ms text, opts_say O (oracles_at strsim_default) false transform a M V
    /\ rules_say T lossy oracles_at int_f64 strptime is_nf (running output w) polars false from_toml normal patterns files filter tags ms
    /\ rules_effect a M V skip cs lossy ms output st text
    /\ received gz_enc [(mkOut output false false, text)] w w'.
Proof. exact files_read. Qed.
Print Assumptions C97_end_to_end_read.

(** files without meaning are refused *)
Theorem C97_refused : forall gz_enc gz_dec writable O transform lossy T rule_order link_order oracles_at int_f64 strptime is_nf
    polars hash_order from_toml normal patterns,
  (forall x ci, regexes_compile (oracles_at x) ci) -> (forall b v, from_toml b = Some v -> tidy v) ->
  (forall l, Permutation (hash_order l) l) ->
  forall a files filter tags output skip names w,
  (forall ms, ~ rules_say T lossy oracles_at int_f64 strptime is_nf (running output w) polars false from_toml normal patterns
                  files filter tags ms) ->
  exists w', check_files_on_disk gz_enc gz_dec writable O transform lossy T rule_order link_order oracles_at int_f64 strptime is_nf
    polars hash_order from_toml normal patterns a files filter tags output skip names w = Some (CRefused, w').
Proof. exact files_refused. Qed.
Print Assumptions C97_refused.

(** ** C98: entries that have no meaning are reported *)

(** C98 is refuted for keys: a key without meaning is ignored, in a rule and in
    the document *)
Theorem C98_rule_key_refuted : forall oracles_at int_f64 strptime is_nf lists k v t1 t2, ~ In k rule_keys -> forall id s,
  read_rule oracles_at int_f64 strptime is_nf lists (id, TmTable (t1 ++ (k, v) :: t2)) s
  = read_rule oracles_at int_f64 strptime is_nf lists (id, TmTable (t1 ++ t2)) s.
Proof. exact unknown_ignored. Qed.
Print Assumptions C98_rule_key_refuted.
Theorem C98_document_key_refuted : forall oracles_at int_f64 strptime is_nf lists hash_order k v t1 t2 s, ~ In k set_keys ->
  read_set oracles_at int_f64 strptime is_nf lists hash_order (TmTable (t1 ++ (k, v) :: t2)) s
  = read_set oracles_at int_f64 strptime is_nf lists hash_order (TmTable (t1 ++ t2)) s.
Proof. exact set_unknown_ignored. Qed.
Print Assumptions C98_document_key_refuted.

(** C98 holds for the kind of the check, its presence, and the level *)
Theorem C98_kind_reported : forall oracles_at int_f64 strptime is_nf lists,
  (forall x ci, regexes_compile (oracles_at x) ci) ->
  forall id t s, tidy (TmTable t) -> (forall k, In k check_kinds -> ~ In (lit "check", TmText k) t) ->
  fst (read_rule oracles_at int_f64 strptime is_nf lists (id, TmTable t) s) = Some None.
Proof. exact kind_reported. Qed.
Print Assumptions C98_kind_reported.
Theorem C98_level_reported : forall oracles_at int_f64 strptime is_nf lists,
  (forall x ci, regexes_compile (oracles_at x) ci) ->
  forall id t v s, tidy (TmTable t) -> In (lit "level", v) t -> (forall b, In b levels_allowed -> v <> TmText b) ->
  fst (read_rule oracles_at int_f64 strptime is_nf lists (id, TmTable t) s) = Some None.
Proof. exact level_reported. Qed.
Print Assumptions C98_level_reported.

(** ** C99: check leaves the files it reads as they are *)

(** C99 holds for all files but the output, however check ends *)
Theorem C99_others_unchanged : forall gz_enc gz_dec writable O transform lossy T rule_order link_order oracles_at int_f64 strptime is_nf
    polars hash_order from_toml normal patterns a files filter tags output skip names w c w',
  check_files_on_disk gz_enc gz_dec writable O transform lossy T rule_order link_order oracles_at int_f64 strptime is_nf
    polars hash_order from_toml normal patterns a files filter tags output skip names w = Some (c, w') ->
  forall n, output <> Some n -> disk_get (w_disk w') n = disk_get (w_disk w) n.
Proof. exact others_unchanged. Qed.
Print Assumptions C99_others_unchanged.

(** C99 is refuted if the output is the rule file: check ends as usual, nothing is
    reported, and the rules are gone *)
Theorem C99_refuted : forall gz_enc gz_dec writable O transform lossy T rule_order link_order oracles_at int_f64 strptime is_nf
    polars hash_order from_toml normal patterns,
  (forall x ci, regexes_compile (oracles_at x) ci) -> (forall b v, from_toml b = Some v -> tidy v) ->
  (forall v, lossy v = [] <-> v = []) ->
  (forall l, Permutation (rule_order l) l) -> (forall l, Permutation (link_order l) l) -> (forall l, Permutation (hash_order l) l) ->
  from_toml (normal []) = Some (TmTable []) ->
  forall a, regexes_compile O (oa_ci a) ->
  forall M V n tags skip names w cs, opts_say O (oracles_at strsim_default) true transform a M V ->
  available gz_dec (w_disk w) (w_stdin w) names cs -> writable n = true -> ~ In n names ->
  exists st w', check_files_on_disk gz_enc gz_dec writable O transform lossy T rule_order link_order oracles_at int_f64 strptime is_nf
    polars hash_order from_toml normal patterns a [n] [] tags (Some n) skip names w = Some (CEnded st, w')
    /\ disk_get (w_disk w') n = Some [].
Proof. exact rules_destroyed. Qed.
Print Assumptions C99_refuted.

(** its rules are not applied: the other files decide what is checked *)
Theorem C99_output_ignored : forall T lossy oracles_at int_f64 strptime is_nf polars strict from_toml normal patterns,
  from_toml (normal []) = Some (TmTable []) ->
  forall n w f1 f2 filter tags ms,
  rules_say T lossy oracles_at int_f64 strptime is_nf (running (Some n) w) polars strict from_toml normal patterns
    (f1 ++ n :: f2) filter tags ms
  <-> rules_say T lossy oracles_at int_f64 strptime is_nf (running (Some n) w) polars strict from_toml normal patterns
    (f1 ++ f2) filter tags ms.
Proof. exact emptied_ignored. Qed.
Print Assumptions C99_output_ignored.

(** ** Samples *)

Definition id_rule : list (bytes * toml) :=
  [(lit "check", TmText (lit "jelc")); (lit "path", TmText (lit "003@.0")); (lit "level", TmText (lit "warning"));
   (lit "tags", TmArray [TmText (lit "ids"); TmText (lit "codes")]); (lit "case-ignore", TmBool true)].
Definition tag_rule : list (bytes * toml) :=
  [(lit "check", TmText (lit "filter")); (lit "filter", TmText (lit " (012A? || 013A?) && !014A?"));
   (lit "strsim-threshold", TmInt 1)].
Definition sample_document : toml :=
  TmTable [(lit "scope", TmText (lit " (012A? || 013A?) && !014A?"));
           (lit "rule", TmTable [(lit "id", TmTable id_rule); (lit "tag", TmTable tag_rule)])].

(** the documents of two texts *)
Definition toy_toml (b : bytes) : option toml :=
  match b with [] => Some (TmTable []) | [82] => Some sample_document | _ => None end.

Ltac distinct_keys := repeat (constructor; [cbn; intuition discriminate|]); constructor.
Example toy_tidy : forall b v, toy_toml b = Some v -> tidy v.
Proof.
  assert (T1 : tidy sample_document).
  { unfold sample_document, id_rule, tag_rule.
    repeat match goal with
           | |- tidy (TmTable _) => apply tidy_table; [distinct_keys|]
           | |- tidy (TmArray _) => apply tidy_array
           | |- tidy (TmText _) => constructor
           | |- tidy (TmInt _) => constructor
           | |- tidy (TmBool _) => constructor
           | |- Forall _ (_ :: _) => apply Forall_cons; cbn [snd]
           | |- Forall _ [] => constructor
           end. }
  intros b v H. destruct b as [|c [|d b]]; cbn in H.
  - injection H as <-. apply tidy_table; constructor.
  - destruct c as [|p]; [discriminate|]. do 7 (try destruct p as [p|p|]; try discriminate). injection H as <-. exact T1.
  - destruct c as [|p]; [discriminate|]. do 7 (try destruct p as [p|p|]; try discriminate).
Qed.

Definition toy_polars (n b : bytes) : option table := None.
Notation toy_says holds := (rules_say sample_text sample_lossy (fun _ => sample_oracles) (fun z => Z.to_N z) (fun _ _ => true)
  (fun _ _ => true) holds toy_polars true toy_toml (fun b => b) (fun _ => None)).
Notation toy_check_files := (check_files_on_disk toy_enc toy_dec all_writable sample_oracles (fun x => x) sample_lossy sample_text
  (fun x => x) (fun x => x) (fun _ => sample_oracles) (fun z => Z.to_N z) (fun _ _ => true) (fun _ _ => true) toy_polars (fun x => x)
  toy_toml (fun b => b) (fun _ => None)).

Definition rules_world : world :=
  mkWorld [(lit "a.dat", value_line "1" (lit "x") ++ value_line "2" (lit "y")); (lit "r.toml", lit "R")] [] [].

Ltac given := left; eexists; split; [cbn; auto 10|].
Ltac not_given := right; split; [intros ? G; cbn in G; repeat destruct G as [G|G]; try discriminate; exact G|reflexivity].

(** C96: the rules of the sample mean something *)
Example C96_id_rule : exists m, rule_says sample_text sample_lossy (fun _ => sample_oracles) (fun z => Z.to_N z) (fun _ _ => true)
  (fun _ _ => true) (running (Some (lit "c.csv")) rules_world) toy_polars true (lit "id", TmTable id_rule) m
  /\ rm_level m = lit "warning" /\ rm_tags m = Some [lit "ids"; lit "codes"].
Proof.
  destruct (id_path_text sample_oracles) as (F & Cs & HF).
  eexists (mkRM (lit "id") (lit "warning") (Some [lit "ids"; lit "codes"]) _). split; [|split; reflexivity].
  apply rule_entry with (description := None) (link := None); try not_given.
  - left. eexists _, [lit "ids"; lit "codes"]. split; [cbn; auto 10|]. split; reflexivity.
  - given. split; [reflexivity|cbn; auto].
  - reflexivity.
  - apply (says_jelc _ _ _ _ _ _ _ _ _ _ strsim_default true (path_values_of F Cs true)).
    + cbn. auto.
    + split; [not_given|given; reflexivity].
    + exists (lit "003@.0"), F, Cs. split; [cbn; auto|]. split; [exact HF|reflexivity].
Qed.
Example C96_tag_rule : exists m, rule_says sample_text sample_lossy (fun _ => sample_oracles) (fun z => Z.to_N z) (fun _ _ => true)
  (fun _ _ => true) (running (Some (lit "c.csv")) rules_world) toy_polars true (lit "tag", TmTable tag_rule) m
  /\ rm_level m = lit "error" /\ rm_tags m = None.
Proof.
  destruct (C65_sample sample_oracles) as (P & HP & _).
  eexists (mkRM (lit "tag") (lit "error") None _). split; [|split; reflexivity].
  apply rule_entry with (description := None) (link := None); try not_given.
  - reflexivity.
  - apply (says_filter _ _ _ _ _ _ _ _ _ _ 1 false (lit " (012A? || 013A?) && !014A?") P false).
    + cbn. auto.
    + split; [given; right; exists 1%Z; split; reflexivity|not_given].
    + cbn. auto.
    + exists 1. split; [exact HP|reflexivity].
    + not_given.
Qed.

(** C97: and so does the file *)
Example C97_sample : exists ms, toy_says (running (Some (lit "c.csv")) rules_world) [lit "r.toml"] [] (Some (lit "codes, x")) ms
  /\ map (fun m => map rm_id (sm_rules m)) ms = [[lit "id"]].
Proof.
  destruct C96_id_rule as (m1 & R1 & L1 & G1). destruct C96_tag_rule as (m2 & R2 & L2 & G2).
  assert (I1 : rm_id m1 = lit "id") by (inversion R1; assumption).
  destruct (C65_sample sample_oracles) as (P & HP & _).
  set (m := mkSM (fun r => P false r) false [m1; m2]). set (m' := mkSM (fun r => P false r) false [m1]).
  exists [m']. split; [|cbn; rewrite I1; reflexivity].
  exists None, [m], [m']. split; [reflexivity|]. split; [|split].
  - constructor; [|constructor]. exists (lit "R"), sample_document. split; [right; split; [discriminate|reflexivity]|].
    split; [exists [82]; split; [repeat constructor; vm_compute; auto|reflexivity]|]. split; [reflexivity|].
    apply set_document with (scope := Some P) (rules := [(lit "id", TmTable id_rule); (lit "tag", TmTable tag_rule)])
      (ms := [m1; m2]) (fast := false).
    + left. eexists _, P. split; [cbn; auto|]. split; [|reflexivity]. eexists. split; [reflexivity|]. exists 1. split; [exact HP|reflexivity].
    + not_given.
    + given. reflexivity.
    + repeat (constructor; try assumption).
    + intros r. split; [intros H Q [= <-]; exact H|]. intros H. apply (H P). reflexivity.
    + reflexivity.
    + apply Permutation_refl.
  - constructor; [|constructor]. split; [reflexivity|]. split; [reflexivity|]. cbn [sm_rules m m'].
    apply (picks_yes _ (fun x : rule_meaning => x)).
    + split; [discriminate|]. intros b [= <-]. exists [lit "codes"; lit " x"], [lit "ids"; lit "codes"], (lit "codes"), (lit "codes").
      split; [apply (ci_more (lit "codes") (lit " x") [lit " x"]); [vm_compute; intuition discriminate|];
              apply ci_one; vm_compute; intuition discriminate|].
      split; [exact G1|]. split; [cbn; auto|]. split; [cbn; auto|]. apply PropertiesOptions.C51_C64_trim. vm_compute. reflexivity.
    + apply picks_no; [|constructor]. intros [_ X]. destruct (X _ eq_refl) as (items & ts & x & i & _ & E & _). rewrite G2 in E. discriminate.
  - apply (picks_yes _ (fun m : set_meaning => m)); [discriminate|constructor].
Qed.

(** a run: every record has field 012A, and no identifier is a code *)
Example C97_run : leaves (toy_check_files bare_args [lit "r.toml"] [] None (Some (lit "c.csv")) false [lit "a.dat"] rules_world)
  (lit "c.csv")
  (lit "ppn,rule,level,message" ++ [10] ++ lit "1,id,warning,1" ++ [10] ++ lit "1,tag,error," ++ [10]
     ++ lit "2,id,warning,2" ++ [10] ++ lit "2,tag,error," ++ [10]).
Proof. eexists. split; vm_compute; reflexivity. Qed.

(** C98: a misspelt option, and a misspelt check *)
Example C98_sample_ignored : ~ In (lit "case_ignore") rule_keys /\ ~ In (lit "terminaton") set_keys.
Proof. split; intros H; cbn in H; repeat destruct H as [H|H]; try discriminate; exact H. Qed.
Example C98_sample_reported :
  tidy (TmTable [(lit "check", TmText (lit "fitler")); (lit "level", TmText (lit "fatal"))])
  /\ (forall k, In k check_kinds -> ~ In (lit "check", TmText k) [(lit "check", TmText (lit "fitler")); (lit "level", TmText (lit "fatal"))])
  /\ (forall b, In b levels_allowed -> TmText (lit "fatal") <> TmText b).
Proof.
  split; [apply tidy_table; [distinct_keys|repeat constructor]|]. split.
  - intros k Hk [H|[H|[]]]; [|discriminate]. injection H as <-. cbn in Hk. repeat destruct Hk as [Hk|Hk]; try discriminate. exact Hk.
  - intros b Hb H. injection H as <-. cbn in Hb. repeat destruct Hb as [Hb|Hb]; try discriminate. exact Hb.
Qed.

(** C99: a run that destroys its rules *)
Example C99_run : leaves (toy_check_files bare_args [lit "r.toml"] [] None (Some (lit "r.toml")) false [lit "a.dat"] rules_world)
  (lit "r.toml") [].
Proof. eexists. split; vm_compute; reflexivity. Qed.

(** * Properties of check *)

From Coq Require Import String Permutation.
From Verif Require Import Bytes Winnow RecordModel RecordSpec BaseProofs TagOccModel ByteRecordModel ReaderModel Utf8Spec
  MatcherModel MatcherSpec PathModel FmtModel QueryModel QuerySpec QueryProofs CliModel CliSpec CliProofs CliChunkProofs
  TableSpec ConvertSpec ConvertCounterexamples CheckCodes CheckModel CheckSpec CheckProofs CheckVerdictProofs CheckRunProofs
  CheckCounterexamples PropertiesMatcher PropertiesQuery PropertiesCli.

(** C40, C42, C43: every check flags the records that its verdict flags, with the
    message of the verdict, and does not panic *)
Theorem C40_C42_C43_check : forall T lossy, (forall v, lossy v = [] <-> v = []) ->
  forall freq_order, (forall l, Permutation (freq_order l) l) -> forall c r, check_wf c ->
  exists v, verdict T lossy c r v
    /\ run_check T lossy freq_order c r = Some (match v with None => (false, None) | Some msg => (true, msg) end).
Proof. exact run_check_verdict. Qed.
Print Assumptions C40_C42_C43_check.

(** a verdict cannot both pass and flag a record *)
Theorem C40_C42_C43_verdict_consistent : forall T lossy c r msg,
  verdict T lossy c r None -> verdict T lossy c r (Some msg) -> False.
Proof. exact verdict_excl. Qed.
Print Assumptions C40_C42_C43_verdict_consistent.

(** ** C40 *)

(** C40: a code that consists of digits and a last character is flagged iff it
    is no ISNI.  Missing: codes with other characters among the first fifteen;
    there the statement fails. *)
Theorem C40_isni_partial : forall prefix b ds c, characters b (ds ++ [c]) -> Forall digit ds ->
  (isni_reports prefix (opt_text prefix ++ b) = true <-> ~ is_isni b).
Proof. exact isni_flagged. Qed.
Print Assumptions C40_isni_partial.

(** C40: an ISNI is never flagged *)
Theorem C40_isni_accepted : forall prefix b, is_isni b -> isni_reports prefix (opt_text prefix ++ b) = false.
Proof. exact isni_never_flagged. Qed.
Print Assumptions C40_isni_accepted.

(** C40: values without the prefix are never flagged *)
Theorem C40_other_prefix : forall prefix v, (forall b, v <> opt_text prefix ++ b) -> isni_reports prefix v = false.
Proof. exact isni_other_prefix. Qed.
Print Assumptions C40_other_prefix.

(** C40: a wrong character is detected *)
Theorem C40_single_error : forall prefix b b' l1 d d' l2, is_isni b ->
  characters b (l1 ++ d :: l2) -> characters b' (l1 ++ d' :: l2) -> d <> d' ->
  digit d' \/ (d' = 88 /\ l2 = []) -> isni_reports prefix (opt_text prefix ++ b') = true.
Proof. exact single_error_flagged. Qed.
Print Assumptions C40_single_error.

(** C40: a swap of adjacent digits is detected; so is one of a digit and the
    check digit *)
Theorem C40_adjacent_swap : forall prefix b b' l1 d d' l2, is_isni b ->
  characters b (l1 ++ d :: d' :: l2) -> characters b' (l1 ++ d' :: d :: l2) -> d <> d' ->
  digit d' -> isni_reports prefix (opt_text prefix ++ b') = true.
Proof. exact adjacent_swap_flagged. Qed.
Print Assumptions C40_adjacent_swap.

(** C40: a code with a semicolon is accepted *)
Theorem C40_letters_refuted : forall T lossy freq_order O ci, exists p r v,
  path_lists O ci p r [v] /\ ~ is_isni v
  /\ run_check T lossy freq_order (CkIsni O ci p None) r = Some (false, None).
Proof. exact isni_letters. Qed.
Print Assumptions C40_letters_refuted.

(** C40: so is an ISNI in which the last digit and the X are swapped *)
Theorem C40_swapped_x_refuted : exists b b' l a,
  is_isni b /\ characters b (l ++ [a; 88]) /\ characters b' (l ++ [88; a])
  /\ ~ is_isni b' /\ isni_reports None b' = false.
Proof. exact isni_swapped_x. Qed.
Print Assumptions C40_swapped_x_refuted.

(** an ISNI, formatted *)
Example C40_sample : is_isni (lit "0000 0001 2096 0218").
Proof.
  exists (lit "000000012096021"), 56, 8. split; [exact (characters_filter (lit "0000 0001 2096 0218"))|].
  split; [reflexivity|]. split; [apply all_digits; reflexivity|].
  split; [left; split; [apply digit_iff; lia|reflexivity]|reflexivity].
Qed.

Example C40_sample_model : isni_reports (Some (lit "(DE-588)")) (lit "(DE-588)0000 0001 2096 0218") = false
  /\ isni_reports (Some (lit "(DE-588)")) (lit "(DE-588)0000 0001 2069 0218") = true
  /\ isni_reports (Some (lit "(DE-588)")) (lit "0000 0001 2069 0218") = false.
Proof. vm_compute. auto. Qed.

(** ** C41 *)

(** C41, C63: the run.  Row by row the rules that flag a record; at the end the
    reports of the link rules.  If the run fails there are none of the latter. *)
Theorem C41_C63_run : forall Od T lossy, (forall v, lossy v = [] <-> v = []) ->
  forall freq_order, (forall l, Permutation (freq_order l) l) ->
  forall unseen_order, (forall l, Permutation (unseen_order l) l) ->
  forall O skip o sets files, opts_wf O Od o -> Forall (set_wf Od) sets ->
  exists recs e rowss finals, selects O Od skip o files recs e
    /\ Forall2 (fun r rows => exists parts, Forall2 (set_rows Od T lossy (br_record r)) sets parts /\ rows = concat parts)
         recs rowss
    /\ Forall2 (set_final Od T lossy (map br_record recs)) sets finals
    /\ check_run Od T lossy freq_order unseen_order O skip o sets files
       = Some (match e with
               | None => Done (concat rowss ++ concat finals)
               | Some err => Failed (concat rowss) err
               end).
Proof. exact check_exact. Qed.
Print Assumptions C41_C63_run.

(** C41: in whatever order the records are read, the dangling references of an
    identifier are the same *)
Theorem C41_order_dangling : forall O ci source target m recs recs' checked checked',
  Permutation recs recs' -> Permutation checked checked' ->
  forall id d d', dangling O ci source target m recs checked id d ->
    dangling O ci source target m recs' checked' id d' -> Permutation d d'.
Proof. exact (fun O ci source target m => dangling_perm O ci source target m (fun v => v)). Qed.
Print Assumptions C41_order_dangling.

(** C41: and so are the identifiers with a report *)
Theorem C41_order_reported : forall O ci source target m lossy recs recs' checked checked',
  check_wf (CkLink O ci source target m) -> Permutation recs recs' -> Permutation checked checked' ->
  forall out out', link_reports lossy O ci source target m recs checked out ->
    link_reports lossy O ci source target m recs' checked' out' ->
    forall id msg, In (id, msg) out -> exists msg', In (id, msg') out'.
Proof. exact reports_perm. Qed.
Print Assumptions C41_order_reported.

(** C41: if no two records have the same identifier, the reports are the same *)
Theorem C41_order_distinct : forall O ci source target m lossy recs recs' checked checked',
  check_wf (CkLink O ci source target m) -> Permutation recs recs' -> Permutation checked checked' ->
  forall out out', link_reports lossy O ci source target m recs checked out ->
    link_reports lossy O ci source target m recs' checked' out' ->
    (forall id rs, picks (fun r => record_id r id) (fun r => r) checked rs -> (length rs <= 1)%nat) ->
    Permutation out out'.
Proof. exact reports_distinct. Qed.
Print Assumptions C41_order_distinct.

(** C41: a dangling reference that is empty is not reported *)
Theorem C41_empty_refuted : forall T lossy freq_order unseen_order O Od, (forall v, lossy v = [] <-> v = []) ->
  (forall l, Permutation (freq_order l) l) -> (forall l, Permutation (unseen_order l) l) ->
  exists source target files r,
    let rs := mkRuleSet None false [mkRule (lit "L") (lit "error") None (CkLink O false source target None) no_links] in
    selects O Od false open_opts files [mkBR (Some cx_link_line) r] None
    /\ dangling O false source target None [r] [r] (lit "1") [[]]
    /\ check_run Od T lossy freq_order unseen_order O false open_opts [rs] files = Some (Done []).
Proof. exact link_empty. Qed.
Print Assumptions C41_empty_refuted.

(** two records that refer to each other and a third one to nowhere *)
Definition ck_record (id ref : string) : record := [cx_field "003@" None (lit id)] ++ [cx_field "012A" None (lit ref)].
Definition ck_line (id ref : string) : bytes :=
  lit "003@ " ++ [31] ++ lit "0" ++ lit id ++ [30] ++ lit "012A " ++ [31] ++ lit "a" ++ lit ref ++ [30; 10].
Definition ck_link : rule :=
  mkRule (lit "L") (lit "error") None (CkLink sample_oracles false cx_path ppn_path None) no_links.
Definition ck_allow : rule :=
  mkRule (lit "A") (lit "info") None (CkAllow sample_oracles false cx_path [lit "1"; lit "2"; lit "9"]) no_links.

Example C41_sample : check_run sample_oracles sample_text sample_lossy (fun l => l) (fun l => l) sample_oracles false open_opts
    [mkRuleSet None false [ck_link; ck_allow]]
    [(lit "a.dat", ck_line "1" "2" ++ ck_line "2" "1" ++ ck_line "3" "8")]
  = Some (Done [mkRow (Some (lit "3")) (lit "A") (lit "info") (Some (lit "8"));
                mkRow (Some (lit "3")) (lit "L") (lit "error") (Some (lit "8"))]).
Proof. vm_compute. reflexivity. Qed.

Example C41_sample_wf : Forall (set_wf sample_oracles) [mkRuleSet None false [ck_link; ck_allow]].
Proof.
  constructor; [|constructor]. split; [discriminate|]. constructor; [|constructor; [|constructor]]; (split; [|reflexivity]).
  - split; [exact I|split; [exact I|discriminate]].
  - exact I.
Qed.

(** ** C42 *)

(** C42: at the level of rows.  Missing: cells that are not UTF-8 or contain the
    separator; there the statement fails.  Rows without any value are never
    reported. *)
Theorem C42_rows_partial : forall T lossy freq_order O ci q th sep r rows,
  (forall v, lossy v = [] <-> v = []) -> (forall l, Permutation (freq_order l) l) ->
  query_wf O (qoptions ci) q -> query_rows O T (qoptions ci) q (mkBR None r) rows ->
  Forall (Forall (fun v => lossy v = v)) rows ->
  query_columns q = 1%nat \/ (exists c s, sep = c :: s /\ Forall (Forall (fun v => ~ In c v)) rows) ->
  exists flag msg, run_check T lossy freq_order (CkDuplicates O ci q th sep) r = Some (flag, msg)
    /\ (flag = true <-> exists row, In row rows /\ ~ blank row /\ th <= N.of_nat (count_occ row_dec rows row)).
Proof. exact duplicates_flagged. Qed.
Print Assumptions C42_rows_partial.

(** C42: no row occurs twice but the record is flagged *)
Theorem C42_collision_refuted : forall T lossy freq_order O ci,
  lossy (lit "x|y") = lit "x|y" -> lossy (lit "y|z") = lit "y|z" -> lossy (lit "x") = lit "x" -> lossy (lit "z") = lit "z" ->
  exists q r rows msg, query_wf O (qoptions ci) q /\ query_rows O T (qoptions ci) q (mkBR None r) rows /\ NoDup rows
    /\ run_check T lossy freq_order (CkDuplicates O ci q 2 (lit "|")) r = Some (true, Some msg).
Proof. exact duplicates_collision. Qed.
Print Assumptions C42_collision_refuted.

Example C42_sample : run_check sample_text sample_lossy (fun l => l)
    (CkDuplicates sample_oracles false cx_query 2 (lit "|"))
    [mkField (lit "012A") None [mkSubfield 97 (lit "x"); mkSubfield 98 (lit "y")];
     mkField (lit "012A") None [mkSubfield 97 (lit "z"); mkSubfield 98 (lit "y")];
     mkField (lit "012A") None [mkSubfield 97 (lit "x"); mkSubfield 98 (lit "y")]]
  = Some (true, Some (lit "x|y")).
Proof. vm_compute. reflexivity. Qed.

(** ** C43 *)

(** C43: if the empty value is on the list or not selected.  The message names
    the bad values in order. *)
Theorem C43_list_partial : forall T lossy, (forall v, lossy v = [] <-> v = []) ->
  forall freq_order, (forall l, Permutation (freq_order l) l) -> forall c O ci p allowed r vs bad,
  (c = CkAllow O ci p allowed \/ (c = CkIso639 O ci p /\ allowed = iso639_codes) \/ (c = CkJel O ci p /\ allowed = jel_codes)) ->
  opt_sm_wf O ci (p_sub p) -> path_lists O ci p r vs ->
  picks (fun x => ~ In x allowed) (fun x => x) vs bad -> bad <> [[]] ->
  exists flag msg, run_check T lossy freq_order c r = Some (flag, msg)
    /\ (flag = true <-> exists v, In v vs /\ ~ In v allowed)
    /\ (flag = true -> exists text, msg = Some text /\ joined (lit ", ") (map lossy bad) text).
Proof. exact list_flagged. Qed.
Print Assumptions C43_list_partial.

(** C43: a value that is empty and not on the list is not reported *)
Theorem C43_empty_refuted : forall T lossy freq_order O ci, (forall v, lossy v = [] <-> v = []) ->
  exists p allowed r, path_lists O ci p r [[]] /\ ~ In [] allowed
    /\ run_check T lossy freq_order (CkAllow O ci p allowed) r = Some (false, None).
Proof. exact list_empty. Qed.
Print Assumptions C43_empty_refuted.

Example C43_sample : run_check sample_text sample_lossy (fun l => l) (CkIso639 sample_oracles false cx_path)
    [cx_field "012A" None (lit "ger"); cx_field "012A" None (lit "deu"); cx_field "012A" None []]
  = Some (true, Some (lit "deu, ")).
Proof. vm_compute. reflexivity. Qed.

(** ** C64: --rule and --tags *)

Theorem C64_selection : forall re trim tags sets,
  exists all, Forall2 (fun rs rs' => rs_scope rs' = rs_scope rs /\ rs_fast rs' = rs_fast rs
      /\ picks (rule_wanted re trim tags) (fun ru => ru) (rs_rules rs) (rs_rules rs')) sets all
    /\ picks (fun rs => rs_rules rs <> []) (fun rs => rs) all (select_rules re trim tags sets).
Proof. exact select_rules_spec. Qed.
Print Assumptions C64_selection.

Example C64_sample : select_rules (Some (fun id => bytes_eqb id (lit "A") || bytes_eqb id (lit "L"))) (fun b => b) (Some (lit "x,y"))
    [mkRuleSet None true [mkRule (lit "A") [] (Some [lit "y"]) (CkUnicode None) no_links;
                          mkRule (lit "L") [] (Some [lit "z"]) (CkUnicode None) no_links;
                          mkRule (lit "B") [] (Some [lit "y"]) (CkUnicode None) no_links];
     mkRuleSet None false [mkRule (lit "A") [] None (CkUnicode None) no_links]]
  = [mkRuleSet None true [mkRule (lit "A") [] (Some [lit "y"]) (CkUnicode None) no_links]].
Proof. vm_compute. reflexivity. Qed.

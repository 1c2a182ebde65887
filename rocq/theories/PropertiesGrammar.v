(** * Properties of the language of matchers

    [record_matcher_text] (GrammarSpec.v) is the language with its meaning,
    independent of the parsers. *)

From Coq Require Import String.
From Verif Require Import Bytes RecordModel RecordSpec TagOccSpec StrSpec MatcherModel StateParser
  MatcherParserModel MatcherSpec GrammarSpec DisplaySpec GrammarStateProofs GrammarRecoverProofs GrammarClaimProofs
  DisplaySubProofs.

(** sample external functions: no case folding, a "regex" matches the values
    it is a prefix of *)
Definition plain_oracles : oracles :=
  mkOracles (fun v => v) (fun _ _ _ => false) (fun _ _ => true) (fun _ _ => true)
    (fun _ re v => starts_with v re).

(** C65: every text of the strict language, nested less than 256 deep, is
    accepted when the group counters are at zero, leaves them at zero, and
    matches exactly the records its meaning describes. *)
Theorem C65_texts_accepted_partial : forall O t P n s, record_matcher_text O true t P n -> n < 256 ->
  lv_sub s = 0 -> lv_field s = 0 ->
  exists m, field_matcher_new O s t = (Some (Some m), s)
    /\ forall ci, (forall re, o_re_ok O false re = true -> o_re_ok O ci re = true) ->
         (forall res, Forall (fun re => o_re_ok O false re = true) res -> o_reset_ok O ci res = true) ->
         forall r, exists b, rm_is_match O ci m r = Some b /\ (b = true <-> P ci r).
Proof. exact text_accepted. Qed.
Print Assumptions C65_texts_accepted_partial.

(** missing: a "^" chain that begins with "&&" as operand of "||" is a text of
    the language, but it is rejected *)
Theorem C65_mixed_chain_refuted : forall O, exists P,
  (forall ci fs, P ci fs <->
     (((has_tag "012A" fs /\ has_tag "013A" fs) /\ ~ has_tag "014A" fs)
      \/ (~ (has_tag "012A" fs /\ has_tag "013A" fs) /\ has_tag "014A" fs))
     \/ has_tag "015A" fs)
  /\ record_matcher_text O false (lit "012A? && 013A? ^ 014A? || 015A?") P 0
  /\ field_matcher_new O fresh (lit "012A? && 013A? ^ 014A? || 015A?") = (Some None, fresh).
Proof. exact mixed_rejected. Qed.
Print Assumptions C65_mixed_chain_refuted.

(** C66: whatever the parser accepts is a text of the language, and the
    matcher matches exactly the records the text describes. *)
Theorem C66_accepted_texts : forall O s t m s', field_matcher_new O s t = (Some (Some m), s') ->
  exists P n, record_matcher_text O false t P n
    /\ forall ci, (forall re, o_re_ok O false re = true -> o_re_ok O ci re = true) ->
         (forall res, Forall (fun re => o_re_ok O false re = true) res -> o_reset_ok O ci res = true) ->
         forall r, exists b, rm_is_match O ci m r = Some b /\ (b = true <-> P ci r).
Proof. exact text_sound. Qed.
Print Assumptions C66_accepted_texts.

Example C66_sample : exists m,
  field_matcher_new plain_oracles fresh
    (lit " !(012[A-C]/01-03{ a == 'x' && ([bc]? || #d >= 2) } ^ ALL 013A.* =^ 'y') || 0...? ")
  = (Some (Some m), fresh).
Proof. eexists. vm_compute. reflexivity. Qed.

(** C67: the strict language is unambiguous *)
Theorem C67_unambiguous : forall O t P n P' n', record_matcher_text O true t P n -> n < 256 ->
  record_matcher_text O true t P' n' -> n' < 256 -> forall ci fs, P ci fs <-> P' ci fs.
Proof. exact unambiguous. Qed.
Print Assumptions C67_unambiguous.

(** a text of the strict language: "(012A? || 013A?) && !014A?" *)
Example C65_sample : forall O, exists P,
  record_matcher_text O true (lit " (012A? || 013A?) && !014A?") P 1
  /\ forall ci fs, P ci fs <-> (has_tag "012A" fs \/ has_tag "013A" fs) /\ ~ has_tag "014A" fs.
Proof.
  intros O.
  assert (L : forall c, In c (lit "234") -> exists P : meaning field,
    (forall ci fs, P ci fs <-> exists f, In f fs /\ f_tag f = [48; 49; c; 65]
               /\ (f_occ f = None \/ f_occ f = Some (lit "00")))
    /\ field_expr O true KNeg ([48; 49; c; 65] ++ lit "?") P 0).
  { intros c Hc. apply leaf_exists; [cbn; tauto|cbn; tauto| |cbn; tauto]. cbn in Hc. cbn. tauto. }
  destruct (L 50) as (P1 & H1 & E1); [cbn; tauto|]. destruct (L 51) as (P2 & H2 & E2); [cbn; tauto|].
  destruct (L 52) as (P3 & H3 & E3); [cbn; tauto|].
  assert (W : blanks (lit " ")) by (repeat constructor).
  pose proof (expr_or (field_leaf O true) N.succ N.max true KNeg KNeg _ (lit " ") (lit " ") _ _ _ _ _
                eq_refl eq_refl E1 E2 W W) as EO.
  pose proof (expr_group (field_leaf O true) N.succ N.max true KOr [] _ [] _ _ eq_refl EO
                (Forall_nil _) (Forall_nil _)) as EG.
  pose proof (expr_not (field_leaf O true) N.succ N.max true KNeg [] _ _ _ eq_refl E3 (Forall_nil _)) as EN.
  pose proof (expr_and (field_leaf O true) N.succ N.max true KGroup KNot _ (lit " ") (lit " ") _ _ _ _ _
                eq_refl eq_refl EG EN W W) as EA.
  eexists. split.
  - exact (rmt_intro O true KAnd (lit " ") _ [] _ _ eq_refl EA W (Forall_nil _)).
  - intros ci fs. cbv beta. rewrite (H1 ci fs), (H2 ci fs), (H3 ci fs). reflexivity.
Qed.

(** C22: parentheses around a text, as long as the nesting stays below 256 *)
Theorem C22_field_matcher_nesting_partial : forall O k t P n s, record_matcher_text O true t P n ->
  n + N.of_nat k < 256 -> lv_sub s = 0 -> lv_field s = 0 ->
  exists m, field_matcher_new O s (parens k t) = (Some (Some m), s)
    /\ forall ci, (forall re, o_re_ok O false re = true -> o_re_ok O ci re = true) ->
         (forall res, Forall (fun re => o_re_ok O false re = true) res -> o_reset_ok O ci res = true) ->
         forall r, exists b, rm_is_match O ci m r = Some b /\ (b = true <-> P ci r).
Proof. exact parens_accepted. Qed.
Print Assumptions C22_field_matcher_nesting_partial.

(** C21: after any number of parses of texts without "(" (accepted or not) and
    of texts of the strict language, the result is that of a new thread. *)
Theorem C21_harmless_history_partial : forall O history t,
  Forall (fun e => ~ In 40 e \/ exists P n, record_matcher_text O true e P n /\ n < 256) history ->
  field_matcher_new O (fold_left (fun s e => snd (field_matcher_new O s e)) history fresh) t
  = field_matcher_new O fresh t.
Proof. exact history_harmless. Qed.
Print Assumptions C21_harmless_history_partial.

Example C21_sample :
  Forall (fun e => ~ In 40 e \/ exists P n, record_matcher_text plain_oracles true e P n /\ n < 256)
    [lit "012A{a? &&"; lit " (012A? || 013A?) && !014A?"; []].
Proof.
  constructor; [left; cbn; intuition discriminate|]. constructor.
  - right. destruct (C65_sample plain_oracles) as (P & H & _). exists P, 1. split; [exact H|reflexivity].
  - constructor; [left; intros []|constructor].
Qed.

(** C21: whatever was parsed before (in any state [s]), an accepted text resets
    the counter of its parser: subfield matchers, and record matchers without
    braces, are then parsed as by a new thread. *)
Theorem C21_recovery_partial : forall O s e m s' t,
  field_matcher_new O s e = (Some (Some m), s') -> ~ In 123 t ->
  fst (field_matcher_new O s' t) = fst (field_matcher_new O fresh t).
Proof. exact field_recovers. Qed.
Print Assumptions C21_recovery_partial.
Theorem C21_subfield_recovery_partial : forall O s e m s' t,
  subfield_matcher_new O s e = (Some (Some m), s') ->
  fst (subfield_matcher_new O s' t) = fst (subfield_matcher_new O fresh t).
Proof. exact subfield_recovers. Qed.
Print Assumptions C21_subfield_recovery_partial.
Example C21_recovery_sample : exists m,
  fst (field_matcher_new plain_oracles (mkLevels 9 255 0) (lit "(012A?)")) = Some None
  /\ field_matcher_new plain_oracles (mkLevels 9 255 0) (lit "012A?") = (Some (Some m), mkLevels 9 0 0)
  /\ ~ In 123 (lit "(012A?)").
Proof. eexists. split; [vm_compute; reflexivity|]. split; [vm_compute; reflexivity|]. cbn. intuition discriminate. Qed.

(** C18: a matcher built by parsing and by the operators prints a text that is
    accepted and matches the same records, unless an operand of "||" is a "^"
    chain beginning with "&&", braces hold too many nested parentheses, or
    "QUANTIFIER TAG.codes?" is negated. *)
Theorem C18_print_parse_partial : forall O m s,
  fm_built O (fun a => ~ detached a) m -> fm_tame m -> fm_depth m < 256 ->
  lv_sub s = 0 -> lv_field s = 0 ->
  exists m', field_matcher_new O s (fm_display m) = (Some (Some m'), s)
    /\ forall ci, (forall re, o_re_ok O false re = true -> o_re_ok O ci re = true) ->
         (forall res, Forall (fun re => o_re_ok O false re = true) res -> o_reset_ok O ci res = true) ->
         forall r, exists b, rm_is_match O ci m r = Some b /\ rm_is_match O ci m' r = Some b.
Proof. exact display_evaluates. Qed.
Print Assumptions C18_print_parse_partial.

(** the same for subfield matchers *)
Theorem C18_subfield_print_parse_partial : forall O m s,
  sm_built O m -> sm_tame m -> sm_units m < 32 -> lv_sub s = 0 ->
  exists m', subfield_matcher_new O s (sm_display m) = (Some (Some m'), s)
    /\ forall ci, (forall re, o_re_ok O false re = true -> o_re_ok O ci re = true) ->
         (forall res, Forall (fun re => o_re_ok O false re = true) res -> o_reset_ok O ci res = true) ->
         forall sfs, exists b, sm_is_match O ci m sfs = Some b /\ sm_is_match O ci m' sfs = Some b.
Proof. exact sub_display_evaluates. Qed.
Print Assumptions C18_subfield_print_parse_partial.

Example C18_subfield_sample : exists a b m,
  subfield_matcher_new plain_oracles fresh (lit " a == 'x' || b? ") = (Some (Some a), fresh)
  /\ subfield_matcher_new plain_oracles fresh (lit "#c > 2 && d !~ 'y'") = (Some (Some b), fresh)
  /\ m = sm_xor (sm_not (sm_and a b)) b
  /\ sm_built plain_oracles m /\ sm_tame m /\ sm_units m < 32.
Proof.
  do 3 eexists. split; [vm_compute; reflexivity|]. split; [vm_compute; reflexivity|].
  split; [reflexivity|]. split; [|split; [cbn; repeat split; discriminate|vm_compute; reflexivity]].
  assert (A : sm_built plain_oracles (ltac:(match eval vm_compute in
      (fst (subfield_matcher_new plain_oracles fresh (lit " a == 'x' || b? "))) with Some (Some ?m) => exact m end)))
    by (eapply (smb_new _ fresh (lit " a == 'x' || b? ")); vm_compute; reflexivity).
  assert (B : sm_built plain_oracles (ltac:(match eval vm_compute in
      (fst (subfield_matcher_new plain_oracles fresh (lit "#c > 2 && d !~ 'y'"))) with Some (Some ?m) => exact m end)))
    by (eapply (smb_new _ fresh (lit "#c > 2 && d !~ 'y'")); vm_compute; reflexivity).
  apply smb_xor; [apply smb_not, smb_and; [exact A|exact B]|exact B].
Qed.

Theorem C18_or_refuted : forall O, exists a b,
  field_matcher_new O fresh (lit "012A? && 013A? ^ 014A?") = (Some (Some a), fresh)
  /\ field_matcher_new O fresh (lit "015A?") = (Some (Some b), fresh)
  /\ fm_built O (fun a => ~ detached a) (fm_or a b)
  /\ field_matcher_new O fresh (fm_display (fm_or a b)) = (Some None, fresh).
Proof. exact print_or_rejected. Qed.
Print Assumptions C18_or_refuted.

Theorem C18_not_refuted : forall O, exists a,
  field_matcher_new O fresh (lit "ALL 012A.a?") = (Some (Some a), fresh)
  /\ fm_tame (fm_not a) /\ fm_depth (fm_not a) = 0
  /\ field_matcher_new O fresh (fm_display (fm_not a)) = (Some None, fresh).
Proof. exact print_not_rejected. Qed.
Print Assumptions C18_not_refuted.

Theorem C18_subfield_nesting_refuted : forall O,
  let a := SMSingleton (SExists [97] (lit "a?")) in
  let nest m := sm_not (sm_or m a) in
  let m := nest (nest (nest (nest a))) in
  subfield_matcher_new O fresh (lit "a?") = (Some (Some a), fresh)
  /\ sm_built O m /\ sm_tame m
  /\ fst (subfield_matcher_new O fresh (sm_display m)) = Some None.
Proof. exact print_nested_rejected. Qed.
Print Assumptions C18_subfield_nesting_refuted.

Example C18_sample : exists a b m,
  field_matcher_new plain_oracles fresh (lit " 012A/*{a == 'x' || b? }  ") = (Some (Some a), fresh)
  /\ field_matcher_new plain_oracles fresh (lit "#013A > 2 ^ 014A.c =~ 'y'") = (Some (Some b), fresh)
  /\ m = fm_and (fm_not (fm_or a b)) b
  /\ fm_built plain_oracles (fun a => ~ detached a) m /\ fm_tame m /\ fm_depth m = 1
  /\ fm_display m = lit "!(012A/*{a == 'x' || b? }   || #013A > 2 ^ 014A.c =~ 'y') && (#013A > 2 ^ 014A.c =~ 'y')".
Proof.
  do 3 eexists. split; [vm_compute; reflexivity|]. split; [vm_compute; reflexivity|].
  split; [reflexivity|]. split; [|split; [|split; vm_compute; reflexivity]].
  - apply fmb_and; [apply fmb_not; [apply fmb_or|]|].
    + eapply (fmb_new _ _ fresh (lit " 012A/*{a == 'x' || b? }  ")). vm_compute. reflexivity.
    + eapply (fmb_new _ _ fresh (lit "#013A > 2 ^ 014A.c =~ 'y'")). vm_compute. reflexivity.
    + intros [].
    + eapply (fmb_new _ _ fresh (lit "#013A > 2 ^ 014A.c =~ 'y'")). vm_compute. reflexivity.
  - cbn. repeat split; discriminate.
Qed.

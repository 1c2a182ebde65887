(** * Properties of the matchers of one kind, built from a text of their own

    [single_text] (GrammarSpec.v) and [single_field_text] (SingleSpec.v)
    describe the texts and their meanings, independent of the parsers. *)

From Coq Require Import String.
From Verif Require Import Bytes RecordModel RecordSpec MatcherModel StateParser MatcherParserModel
  MatcherSpec GrammarSpec SingleModel SingleSpec SingleProofs SingleFieldProofs.

(** C76: the constructor of each kind of subfield matcher accepts every text
    of that kind, and the matcher decides what the text says. *)
Theorem C76_texts_accepted : forall O k new t P,
  In (k, new) [(SoExists, exists_new); (SoRelation, relation_new); (SoContains, contains_new);
               (SoRegex, regex_new O); (SoRegexSet, regex_set_new O); (SoIn, in_new); (SoCount, card_new)] ->
  single_text O k t P ->
  exists m, new t = Some m
    /\ forall ci, (forall re, o_re_ok O false re = true -> o_re_ok O ci re = true)
         /\ (forall res, Forall (fun re => o_re_ok O false re = true) res -> o_reset_ok O ci res = true) ->
       forall sfs, exists b, singleton_is_match O ci m sfs = Some b /\ (b = true <-> P ci sfs).
Proof. exact new_complete. Qed.
Print Assumptions C76_texts_accepted.

(** ... and nothing else *)
Theorem C76_accepted_texts : forall O k new t m,
  In (k, new) [(SoExists, exists_new); (SoRelation, relation_new); (SoContains, contains_new);
               (SoRegex, regex_new O); (SoRegexSet, regex_set_new O); (SoIn, in_new); (SoCount, card_new)] ->
  new t = Some m ->
  exists P, single_text O k t P
    /\ forall ci, (forall re, o_re_ok O false re = true -> o_re_ok O ci re = true)
         /\ (forall res, Forall (fun re => o_re_ok O false re = true) res -> o_reset_ok O ci res = true) ->
       forall sfs, exists b, singleton_is_match O ci m sfs = Some b /\ (b = true <-> P ci sfs).
Proof. exact new_sound. Qed.
Print Assumptions C76_accepted_texts.

(** no text belongs to two kinds, and its meaning is determined *)
Theorem C76_kinds_exclusive : forall O k t P k' P', single_text O k t P -> single_text O k' t P' ->
  k = k' /\ forall ci sfs, P ci sfs <-> P' ci sfs.
Proof. exact single_exclusive. Qed.
Print Assumptions C76_kinds_exclusive.

(** SingletonMatcher::new yields what the constructors of the kinds yield *)
Theorem C76_singleton : forall O t m, singleton_new O t = Some m
  <-> exists k new,
        In (k, new) [(SoExists, exists_new); (SoRelation, relation_new); (SoContains, contains_new);
                     (SoRegex, regex_new O); (SoRegexSet, regex_set_new O); (SoIn, in_new); (SoCount, card_new)]
        /\ new t = Some m.
Proof. exact any_new. Qed.
Print Assumptions C76_singleton.

(** a matcher printed is accepted by the constructor of its kind again, and
    matches the same *)
Theorem C76_display : forall O k new t m,
  In (k, new) [(SoExists, exists_new); (SoRelation, relation_new); (SoContains, contains_new);
               (SoRegex, regex_new O); (SoRegexSet, regex_set_new O); (SoIn, in_new); (SoCount, card_new)] ->
  new t = Some m ->
  exists m', new (singleton_display m) = Some m'
    /\ forall ci, (forall re, o_re_ok O false re = true -> o_re_ok O ci re = true)
         /\ (forall res, Forall (fun re => o_re_ok O false re = true) res -> o_reset_ok O ci res = true) ->
       forall sfs, singleton_is_match O ci m' sfs = singleton_is_match O ci m sfs.
Proof. exact new_display. Qed.
Print Assumptions C76_display.

(** the same for the field matchers; the matcher is shown as a FieldMatcher *)
Theorem C76_field_texts_accepted : forall O k new t P s,
  In (k, new)
    [(FsExists, fun s t => (Some (option_map FMSingleton (f_exists_new t)), s));
     (FsSubfields, fun s t => let '(x, s') := f_subfields_new O s t in (option_map (option_map FMSingleton) x, s'));
     (FsCount, f_card_new O)] ->
  single_field_text O true k t P -> lv_sub s = 0 ->
  exists m, new s t = (Some (Some m), s)
    /\ forall ci, (forall re, o_re_ok O false re = true -> o_re_ok O ci re = true)
         /\ (forall res, Forall (fun re => o_re_ok O false re = true) res -> o_reset_ok O ci res = true) ->
       forall fs, exists b, rm_is_match O ci m fs = Some b /\ (b = true <-> P ci fs).
Proof. exact field_new_complete. Qed.
Print Assumptions C76_field_texts_accepted.

Theorem C76_field_accepted_texts : forall O k new t s m s',
  In (k, new)
    [(FsExists, fun s t => (Some (option_map FMSingleton (f_exists_new t)), s));
     (FsSubfields, fun s t => let '(x, s') := f_subfields_new O s t in (option_map (option_map FMSingleton) x, s'));
     (FsCount, f_card_new O)] ->
  new s t = (Some (Some m), s') ->
  exists P, single_field_text O false k t P
    /\ forall ci, (forall re, o_re_ok O false re = true -> o_re_ok O ci re = true)
         /\ (forall res, Forall (fun re => o_re_ok O false re = true) res -> o_reset_ok O ci res = true) ->
       forall fs, exists b, rm_is_match O ci m fs = Some b /\ (b = true <-> P ci fs).
Proof. exact field_new_sound. Qed.
Print Assumptions C76_field_accepted_texts.

(** SingletonMatcher::new of fields: the texts of the first two kinds *)
Theorem C76_field_singleton_accepted : forall O k t P s, In k [FsExists; FsSubfields] ->
  single_field_text O true k t P -> lv_sub s = 0 ->
  exists m, f_singleton_new O s t = (Some (Some m), s)
    /\ forall ci, (forall re, o_re_ok O false re = true -> o_re_ok O ci re = true)
         /\ (forall res, Forall (fun re => o_re_ok O false re = true) res -> o_reset_ok O ci res = true) ->
       forall fs, exists b, rm_is_match O ci (FMSingleton m) fs = Some b /\ (b = true <-> P ci fs).
Proof. exact f_singleton_complete. Qed.
Print Assumptions C76_field_singleton_accepted.

Theorem C76_field_singleton_texts : forall O t s m s', f_singleton_new O s t = (Some (Some m), s') ->
  exists k P, In k [FsExists; FsSubfields] /\ single_field_text O false k t P
    /\ forall ci, (forall re, o_re_ok O false re = true -> o_re_ok O ci re = true)
         /\ (forall res, Forall (fun re => o_re_ok O false re = true) res -> o_reset_ok O ci res = true) ->
       forall fs, exists b, rm_is_match O ci (FMSingleton m) fs = Some b /\ (b = true <-> P ci fs).
Proof. exact f_singleton_sound. Qed.
Print Assumptions C76_field_singleton_texts.

(** ** cases that meet the hypotheses *)
Definition sample_oracles : oracles :=
  mkOracles (fun v => v) (fun _ _ _ => false) (fun _ _ => true) (fun _ _ => true)
    (fun _ re v => starts_with v re).

(** every constructor accepts some text ... *)
Example C76_samples_accepted :
  Forall (fun p => exists m, fst p (lit (snd p)) = Some m)
    [(exists_new, "[a-c]?"%string); (relation_new, " ALL a == 'x' "%string); (contains_new, "a =? ['x', 'y'] "%string);
     (regex_new sample_oracles, " ANY * !~ 'x'"%string); (regex_set_new sample_oracles, "a =~ ['x'] "%string);
     (in_new, "a not in ['x', 'yz',] "%string); (in_new, " a in 'xy'"%string); (card_new, " # [ab] >= 10"%string)].
Proof. repeat constructor; eexists; vm_compute; reflexivity. Qed.

(** ... so that, by C76_accepted_texts, it is a text of its kind; blanks are
    not allowed everywhere *)
Example C76_samples_rejected :
  Forall (fun p => fst p (lit (snd p)) = None)
    [(exists_new, " a?"%string); (exists_new, "a? "%string); (relation_new, "ALLa == 'x'"%string);
     (regex_new sample_oracles, "a =~ 'x' "%string); (in_new, "a in 'xy' "%string);
     (in_new, "a in 'x'"%string); (card_new, "#a >= 10 "%string); (relation_new, "a =? 'x'"%string)].
Proof. repeat constructor; vm_compute; reflexivity. Qed.

Example C76_field_samples : 
  (exists m, f_exists_new (lit " 012A/01-03 ?") = Some m)
  /\ f_exists_new (lit "012A? ") = None
  /\ (exists m, f_subfields_new sample_oracles fresh (lit " ALL 012A/*{ a? && (b == 'x') } ") = (Some (Some m), fresh))
  /\ (exists m, f_subfields_new sample_oracles fresh (lit "012A. a == 'x' ") = (Some (Some m), fresh))
  /\ f_subfields_new sample_oracles fresh (lit " 012A.a == 'x'") = (Some None, fresh)
  /\ (exists m, f_singleton_new sample_oracles fresh (lit "012A.a?") = (Some (Some m), fresh))
  /\ (exists m, f_card_new sample_oracles fresh (lit " # 012A {a?} > 3") = (Some (Some m), fresh))
  /\ f_card_new sample_oracles fresh (lit "#012A > 3 ") = (Some None, fresh).
Proof. vm_compute. repeat split; eexists; reflexivity. Qed.

(** * Proofs about check with its rule files *)

From Coq Require Import String ZArith Permutation.
From Verif Require EndProofs DiskProofs.
From Verif Require Import Bytes Winnow RecordModel RecordSpec BaseProofs TagOccModel Utf8Model ByteRecordModel
  MatcherModel MatcherSpec StateParser MatcherParserModel PathModel FmtModel QueryModel QuerySpec QueryParserProofs BuilderModel CliModel CliSpec
  CheckModel CheckSpec OptionsModel OptionsSpec GrammarSpec QueryGrammarSpec PrepareModel PrepareSpec PrepareProofs
  IoModel IoSpec CsvSpec DiskModel DiskSpec DiskCommandProofs EndSpec RuleModel RuleSpec RuleProofs.
From Verif Require MatcherParserProofs.

(** ** Every rule file is read or refused *)

Section Total.
  Variable oracles_at : N -> oracles.
  Variable int_f64 : Z -> N.
  Variable strptime : bytes -> bytes -> bool.
  Variable is_nf : norm_form -> bytes -> bool.
  Variable lists : bytes -> option table.
  Variable hash_order : list rule -> list rule.
  Variable from_toml : bytes -> option toml.
  Variable normal : bytes -> bytes.
  Variable patterns : list bytes -> option (bytes -> bool).

  Lemma then_total : forall A B (x : presult A) (k : A -> levels -> presult B), fst x <> None ->
    (forall a s, fst (k a s) <> None) -> fst (and_then x k) <> None.
  Proof. intros A B [[[a|]|] s] k H Hk; cbn [and_then]; [apply Hk|discriminate|exfalso; apply H; reflexivity]. Qed.

  Lemma path_total : forall Oc s b, fst (path_new Oc s b) <> None.
  Proof. intros Oc s b. destruct (path_new_total Oc s b) as (r & E & _). rewrite E. discriminate. Qed.
  Lemma query_total : forall Oc s b, fst (query_new Oc s b) <> None.
  Proof. intros Oc s b. destruct (query_new_total Oc s b) as (r & E & _). rewrite E. discriminate. Qed.
  Lemma matcher_total : forall Oc s b, fst (field_matcher_new Oc s b) <> None.
  Proof. intros Oc s b. destruct (MatcherParserProofs.field_matcher_new_total Oc s b) as (r & E & _). rewrite E. discriminate. Qed.

  Lemma text_with_total : forall A (new : levels -> bytes -> presult A) v s, (forall s b, fst (new s b) <> None) ->
    fst (text_with new v s) <> None.
  Proof. intros A new [b|z|y|b|b|l|t] s H; cbn [text_with]; try discriminate. apply H. Qed.
  Lemma field_total : forall A (new : levels -> bytes -> presult A) k t s, (forall s b, fst (new s b) <> None) ->
    fst (field_with k new t s) <> None.
  Proof. intros A new k t s H. unfold field_with. destruct (entry k t); [apply text_with_total; exact H|discriminate]. Qed.

  Lemma visit2_total : forall A B k1 (f1 : toml -> levels -> presult A) k2 (f2 : toml -> levels -> presult B) t a b s,
    (forall v s, fst (f1 v s) <> None) -> (forall v s, fst (f2 v s) <> None) -> fst (visit2 k1 f1 k2 f2 t a b s) <> None.
  Proof.
    intros A B k1 f1 k2 f2 t a b s H1 H2. revert a b s. induction t as [|[k v] t IH]; intros a b s; cbn [visit2]; [discriminate|].
    destruct (bytes_eqb k k1); [apply then_total; auto|]. destruct (bytes_eqb k k2); [apply then_total; auto|auto].
  Qed.
  Lemma visit_all_total : forall A B (f : A -> levels -> presult B) l s, (forall x s, fst (f x s) <> None) -> fst (visit_all f l s) <> None.
  Proof.
    intros A B f l s H. revert s. induction l as [|x l IH]; intros s; cbn [visit_all]; [discriminate|].
    apply then_total; [apply H|]. intros y s'. apply then_total; [apply IH|]. discriminate.
  Qed.

  Lemma options_total : forall A t s (k : oracles -> bool -> presult A), (forall Oc ci, fst (k Oc ci) <> None) ->
    fst (with_options oracles_at int_f64 t s k) <> None.
  Proof.
    intros A t s k H. unfold with_options.
    destruct (or_default _ strsim_default _ t); [|discriminate]. destruct (or_default _ false _ t); [apply H|discriminate].
  Qed.

  Lemma target_total : forall Oc v s, fst (read_target Oc v s) <> None.
  Proof.
    intros Oc [b|z|y|b|b|l|t] s; cbn [read_target]; try discriminate. apply then_total; [|discriminate].
    apply visit2_total; intros v s'; apply text_with_total; [apply path_total|apply matcher_total].
  Qed.
  Lemma source_total' : forall Oc v s, fst (read_source Oc v s) <> None.
  Proof. intros Oc [b|z|y|b|b|l|t] s; cbn [read_source]; try discriminate. apply field_total. apply path_total. Qed.

  Lemma check_total : forall t s, fst (read_check oracles_at int_f64 strptime is_nf lists t s) <> None.
  Proof.
    intros t s. unfold read_check. destruct (must (lit "check") as_text t) as [kind|]; [|discriminate].
    repeat match goal with |- context [if bytes_eqb kind ?l then _ else _] => destruct (bytes_eqb kind l) end; try discriminate;
      apply options_total; intros Oc ci; (apply then_total; [|intros; discriminate]);
      try (apply field_total; first [apply path_total|apply query_total|apply matcher_total]).
    apply visit2_total; intros; [apply source_total'|apply target_total].
  Qed.

  Lemma rule_total : forall x s, fst (read_rule oracles_at int_f64 strptime is_nf lists x s) <> None.
  Proof.
    intros [id v] s. unfold read_rule. cbn [fst snd]. destruct v as [b|z|y|b|b|l|t]; try discriminate.
    destruct (may (lit "description") as_text t); [|discriminate]. destruct (may (lit "link") as_text t); [|discriminate].
    destruct (may (lit "tags") as_texts t); [|discriminate]. destruct (or_default (lit "level") (lit "error") as_level t); [|discriminate].
    apply then_total; [apply check_total|discriminate].
  Qed.

  Lemma set_total : forall v s, fst (read_set oracles_at int_f64 strptime is_nf lists hash_order v s) <> None.
  Proof.
    intros [b|z|y|b|b|l|t] s; unfold read_set; try discriminate. destruct (or_default (lit "termination") false as_fast t); [|discriminate].
    apply then_total; [|discriminate]. apply visit2_total; intros v s'; [apply text_with_total; apply matcher_total|].
    destruct v as [b'|z|y|b'|b'|l|u]; try discriminate. apply visit_all_total. apply rule_total.
  Qed.

  Lemma new_total : forall f s, fst (set_new oracles_at int_f64 strptime is_nf lists hash_order from_toml normal f s) <> None.
  Proof.
    intros [b|] s; unfold set_new; [|discriminate]. destruct (utf8_valid b); [|discriminate].
    destruct (from_toml (normal b)); [apply set_total|discriminate].
  Qed.

  Lemma prepare_total : forall files filter tags s,
    fst (rules_prepare oracles_at int_f64 strptime is_nf lists hash_order from_toml normal patterns files filter tags s) <> None.
  Proof. intros files filter tags s. unfold rules_prepare. apply then_total; [apply visit_all_total; apply new_total|discriminate]. Qed.

  (** ** Keys without meaning *)

  Lemma entry_other : forall k v t1 t2 k', bytes_eqb k k' = false -> entry k' (t1 ++ (k, v) :: t2) = entry k' (t1 ++ t2).
  Proof.
    intros k v t1 t2 k' H. induction t1 as [|[k1 v1] t1 IH]; cbn [app entry]; [rewrite H; reflexivity|].
    destruct (bytes_eqb k1 k'); [reflexivity|exact IH].
  Qed.
  Lemma visit2_other : forall A B k1 (f1 : toml -> levels -> presult A) k2 (f2 : toml -> levels -> presult B) k v t1 t2 a b s,
    bytes_eqb k k1 = false -> bytes_eqb k k2 = false ->
    visit2 k1 f1 k2 f2 (t1 ++ (k, v) :: t2) a b s = visit2 k1 f1 k2 f2 (t1 ++ t2) a b s.
  Proof.
    intros A B k1 f1 k2 f2 k v t1 t2 a b s E1 E2. revert a b s. induction t1 as [|[k' v'] t1 IH]; intros a b s; cbn [app visit2].
    - rewrite E1, E2. reflexivity.
    - destruct (bytes_eqb k' k1).
      + unfold and_then. destruct (f1 v' s) as [[[x|]|] s1]; try reflexivity. apply IH.
      + destruct (bytes_eqb k' k2); [|apply IH]. unfold and_then. destruct (f2 v' s) as [[[x|]|] s1]; try reflexivity. apply IH.
  Qed.

  Section Other.
    Variables (k : bytes) (v : toml) (t1 t2 : keyed).
    Hypothesis unknown : ~ In k rule_keys.
    Notation big := (t1 ++ (k, v) :: t2).
    Notation small := (t1 ++ t2).

    Lemma known_differs : forall k', In k' rule_keys -> bytes_eqb k k' = false.
    Proof. intros k' Hk. destruct (bytes_eqb k k') eqn:E; [|reflexivity]. apply bytes_eqb_eq in E. subst k'. contradiction. Qed.
    Lemma must_other : forall A k' (f : toml -> option A), In k' rule_keys -> must k' f big = must k' f small.
    Proof. intros. unfold must. rewrite entry_other by (apply known_differs; assumption). reflexivity. Qed.
    Lemma may_other : forall A k' (f : toml -> option A), In k' rule_keys -> may k' f big = may k' f small.
    Proof. intros. unfold may. rewrite entry_other by (apply known_differs; assumption). reflexivity. Qed.
    Lemma default_other : forall A k' d (f : toml -> option A), In k' rule_keys -> or_default k' d f big = or_default k' d f small.
    Proof. intros. unfold or_default. rewrite entry_other by (apply known_differs; assumption). reflexivity. Qed.
    Lemma field_other : forall A k' (new : levels -> bytes -> presult A) s, In k' rule_keys -> field_with k' new big s = field_with k' new small s.
    Proof. intros. unfold field_with. rewrite entry_other by (apply known_differs; assumption). reflexivity. Qed.

    Ltac known := cbn [rule_keys map In]; repeat first [left; reflexivity|right].

    Lemma with_other : forall A s (K K' : oracles -> bool -> presult A), (forall Oc ci, K Oc ci = K' Oc ci) ->
      with_options oracles_at int_f64 big s K = with_options oracles_at int_f64 small s K'.
    Proof.
      intros A s K K' H. unfold with_options. rewrite !default_other by known.
      destruct (or_default _ strsim_default _ small); [|reflexivity]. destruct (or_default _ false _ small); [apply H|reflexivity].
    Qed.
    Lemma then_same : forall A B (x y : presult A) (K K' : A -> levels -> presult B), x = y -> (forall a s, K a s = K' a s) ->
      and_then x K = and_then y K'.
    Proof. intros A B x y K K' -> H. destruct y as [[[a|]|] s]; cbn [and_then]; [apply H|reflexivity|reflexivity]. Qed.

    Lemma check_other : forall s, read_check oracles_at int_f64 strptime is_nf lists big s = read_check oracles_at int_f64 strptime is_nf lists small s.
    Proof.
      intros s. unfold read_check. rewrite must_other by known. destruct (must (lit "check") as_text small) as [kind|]; [|reflexivity].
      repeat match goal with |- (if bytes_eqb kind ?l then _ else _) = _ => destruct (bytes_eqb kind l) end; try reflexivity;
        try (apply with_other; intros Oc ci; apply then_same; [first [apply field_other; known|apply visit2_other; apply known_differs; known]|];
             intros x s'; unfold allow_values, plainly;
             rewrite ?must_other by known; rewrite ?default_other by known; rewrite ?may_other by known; reflexivity).
      rewrite may_other by known. reflexivity.
    Qed.

    Lemma unknown_ignored : forall id s,
      read_rule oracles_at int_f64 strptime is_nf lists (id, TmTable big) s
      = read_rule oracles_at int_f64 strptime is_nf lists (id, TmTable small) s.
    Proof.
      intros id s. unfold read_rule. cbn [fst snd]. rewrite !may_other by known. rewrite default_other by known.
      rewrite check_other. reflexivity.
    Qed.
  End Other.

  Lemma set_unknown_ignored : forall k v t1 t2 s, ~ In k set_keys ->
    read_set oracles_at int_f64 strptime is_nf lists hash_order (TmTable (t1 ++ (k, v) :: t2)) s
    = read_set oracles_at int_f64 strptime is_nf lists hash_order (TmTable (t1 ++ t2)) s.
  Proof.
    intros k v t1 t2 s H.
    assert (D : forall k', In k' set_keys -> bytes_eqb k k' = false).
    { intros k' Hk. destruct (bytes_eqb k k') eqn:E; [|reflexivity]. apply bytes_eqb_eq in E. subst k'. contradiction. }
    unfold read_set, or_default. rewrite entry_other by (apply D; cbn; auto). rewrite visit2_other by (apply D; cbn; auto).
    reflexivity.
  Qed.
End Total.

(** ** What reading a rule says *)

Section Read.
  Variable T : text_fns.
  Variable lossy : bytes -> bytes.
  Variable oracles_at : N -> oracles.
  Variable int_f64 : Z -> N.
  Variable strptime : bytes -> bytes -> bool.
  Variable is_nf : norm_form -> bytes -> bool.
  Variable holds : bytes -> bytes -> Prop.
  Variable polars : bytes -> bytes -> option table.
  Variable lists : bytes -> option table.
  Hypothesis Hlists : forall n tab, lists n = Some tab <-> exists b, holds n b /\ polars n b = Some tab.
  Hypothesis compile : forall x ci, regexes_compile (oracles_at x) ci.

  Notation rule_says strict := (rule_says T lossy oracles_at int_f64 strptime is_nf holds polars strict).
  Notation read_rule := (read_rule oracles_at int_f64 strptime is_nf lists).

  Lemma rule_loaded : forall x s ru s', tidy (snd x) -> read_rule x s = (Some (Some ru), s') ->
    exists m, rule_says false x m /\ rm_id m = ru_id ru /\ rm_level m = ru_level ru /\ rm_tags m = ru_tags ru.
  Proof.
    intros x s ru s' Ht H.
    destruct (rule_out T lossy oracles_at int_f64 strptime is_nf holds polars lists Hlists compile _ _ _ _ Ht H) as (m & Hm & Hs).
    exists m. split; [exact Hm|]. destruct Hs as (A & B & C & _). auto.
  Qed.
  Lemma rule_accepted : forall x m, tidy (snd x) -> rule_says true x m ->
    exists ru, read_rule x fresh = (Some (Some ru), fresh) /\ ru_id ru = rm_id m /\ ru_level ru = rm_level m /\ ru_tags ru = rm_tags m.
  Proof.
    intros x m Ht H.
    destruct (rule_in T lossy oracles_at int_f64 strptime is_nf holds polars lists Hlists compile _ _ Ht H) as (ru & E & Hs).
    exists ru. split; [exact E|]. destruct Hs as (A & B & C & _). auto.
  Qed.
  (** no meaning, no rule *)
  Lemma rule_refused : forall x s, tidy (snd x) -> (forall m, ~ rule_says false x m) -> fst (read_rule x s) = Some None.
  Proof.
    intros x s Ht H. destruct (read_rule x s) as [[[ru|]|] s'] eqn:E; cbn [fst].
    - exfalso. destruct (rule_loaded _ _ _ _ Ht E) as (m & Hm & _). exact (H m Hm).
    - reflexivity.
    - exfalso. apply (rule_total oracles_at int_f64 strptime is_nf lists x s). rewrite E. reflexivity.
  Qed.
End Read.

(** ** The command *)

Section Command.
  Variable gz_enc : bytes -> bytes.
  Variable gz_dec : bytes -> list piece.
  Variable writable : bytes -> bool.
  Variable O : oracles.
  Variable transform : bytes -> bytes.
  Variable lossy : bytes -> bytes.
  Variable T : text_fns.
  Variable rule_order : list (bytes * N) -> list (bytes * N).
  Variable link_order : list (bytes * list bytes) -> list (bytes * list bytes).
  Variable oracles_at : N -> oracles.
  Variable int_f64 : Z -> N.
  Variable strptime : bytes -> bytes -> bool.
  Variable is_nf : norm_form -> bytes -> bool.
  Variable polars : bytes -> bytes -> option table.
  Variable hash_order : list rule -> list rule.
  Variable from_toml : bytes -> option toml.
  Variable normal : bytes -> bytes.
  Variable patterns : list bytes -> option (bytes -> bool).

  Hypothesis compile : forall x ci, regexes_compile (oracles_at x) ci.
  Hypothesis Htidy : forall b v, from_toml b = Some v -> tidy v.
  Hypothesis Hlossy : forall v, lossy v = [] <-> v = [].
  Hypothesis H1 : forall l, Permutation (rule_order l) l.
  Hypothesis H2 : forall l, Permutation (link_order l) l.
  Hypothesis H3 : forall l, Permutation (hash_order l) l.

  Notation Od := (oracles_at strsim_default).
  Notation rules_say holds strict := (rules_say T lossy oracles_at int_f64 strptime is_nf holds polars strict from_toml normal patterns).
  Notation check_files_on_disk := (check_files_on_disk gz_enc gz_dec writable O transform lossy T rule_order link_order oracles_at int_f64
    strptime is_nf polars hash_order from_toml normal patterns).
  Notation check_on_disk := (check_on_disk gz_enc gz_dec writable O Od transform lossy T rule_order link_order).
  Notation disk_rules := (disk_rules O transform oracles_at int_f64 strptime is_nf polars hash_order from_toml normal patterns).
  Notation stand := (set_stands T lossy oracles_at).

  Definition opened (output : option bytes) (w : world) : disk :=
    match open_output writable (mkOut output false false) (w_disk w) with Some d => d | None => w_disk w end.

  Lemma opened_running : forall output w, (forall n, output = Some n -> writable n = true) ->
    forall n b, disk_get (opened output w) n = Some b <-> running output w n b.
  Proof.
    intros output w Hw n b. unfold opened, open_output, running. cbn [out_name out_append]. destruct output as [m|].
    - rewrite (Hw m eq_refl), DiskProofs.disk_get_set. destruct (bytes_eqb m n) eqn:E.
      + apply bytes_eqb_eq in E. subst m. split; [intros X; injection X as <-; left; auto|].
        intros [[_ ->]|[N _]]; [reflexivity|exfalso; apply N; reflexivity].
      + apply lit_inj_neq in E. split; [intros X; right; split; [congruence|exact X]|]. intros [[X _]|[_ X]]; [congruence|exact X].
    - split; [intros X; right; split; [discriminate|exact X]|]. intros [[X _]|[_ X]]; [discriminate|exact X].
  Qed.

  Lemma lists_running : forall output w, (forall n, output = Some n -> writable n = true) ->
    forall n tab, (do b <- disk_get (opened output w) n; polars n b) = Some tab <-> exists b, running output w n b /\ polars n b = Some tab.
  Proof.
    intros output w Hw n tab. pose proof (opened_running output w Hw n) as G. destruct (disk_get (opened output w) n) as [c|].
    - split; [intros E; exists c; split; [apply G; reflexivity|exact E]|]. intros (b & Hb & E). apply G in Hb. injection Hb as <-. exact E.
    - split; [discriminate|]. intros (b & Hb & _). apply G in Hb. discriminate.
  Qed.

  (** nothing is done if the output cannot be opened *)
  Lemma unwritable : forall a rules n skip names w, writable n = false ->
    check_on_disk a rules (Some n) skip names w = Some (CRefused, w).
  Proof. intros a rules n skip names w E. unfold DiskModel.check_on_disk. cbn. rewrite E. reflexivity. Qed.

  Section Rules.
    Variables (a : opts_args) (output : option bytes) (w : world).
    Hypothesis Hw : forall n, output = Some n -> writable n = true.

    Lemma rules_read : forall files filter tags sets, disk_rules a files filter tags (opened output w) = Some (Some sets) ->
      exists ms, rules_say (running output w) false files filter tags ms /\ Forall2 stand sets ms.
    Proof.
      intros files filter tags sets H. unfold RuleModel.disk_rules in H.
      match type of H with fst ?X = _ => destruct X as [y s'] eqn:E end. cbn [fst] in H. subst y.
      eapply prepare_out; [|exact compile|exact H3| |exact Htidy|exact E].
      - apply lists_running. exact Hw.
      - apply opened_running. exact Hw.
    Qed.

    Lemma rules_accepted : forall files filter tags ms, snd (opts_prepare O Od transform a) = fresh ->
      rules_say (running output w) true files filter tags ms ->
      exists sets ms', disk_rules a files filter tags (opened output w) = Some (Some sets)
        /\ rules_say (running output w) true files filter tags ms' /\ Forall2 stand sets ms'.
    Proof.
      intros files filter tags ms Hf H. unfold RuleModel.disk_rules. rewrite Hf.
      edestruct prepare_in as (sets & ms' & E & Hm & Hs); [| | | | |exact H|].
      - apply lists_running. exact Hw.
      - exact compile.
      - exact H3.
      - apply opened_running. exact Hw.
      - exact Htidy.
      - exists sets, ms'. rewrite E. auto.
    Qed.

    Lemma effect_iff : forall M V skip cs sets ms st text, Forall2 stand sets ms ->
      (check_effect a M V skip cs Od T lossy sets output st text <-> rules_effect a M V skip cs lossy ms output st text).
    Proof.
      intros M V skip cs sets ms st text HS. unfold check_effect, rules_effect.
      assert (F1 : forall r parts, Forall2 (set_rows Od T lossy r) sets parts <-> Forall2 (meant_set_rows r) ms parts).
      { intros r. clear - HS. induction HS as [|rs m sets ms Hs HS IH]; intros parts.
        - split; intros H; inversion H; constructor.
        - split; intros H; inversion H; subst; constructor; try (apply IH; assumption);
            apply (set_rows_iff T lossy oracles_at _ _ _ _ Hs); assumption. }
      assert (F2 : forall recs finals, Forall2 (set_final Od T lossy recs) sets finals <-> Forall2 (meant_set_final lossy recs) ms finals).
      { intros recs. clear - HS. induction HS as [|rs m sets ms Hs HS IH]; intros finals.
        - split; intros H; inversion H; constructor.
        - split; intros H; inversion H; subst; constructor; try (apply IH; assumption);
            apply (set_final_iff T lossy oracles_at _ _ _ _ Hs); assumption. }
      split; intros (recs & e & rowss & finals & A1 & A2 & A3 & A4); exists recs, e, rowss, finals;
        (split; [exact A1|]); (split; [|split; [apply F2; exact A3|exact A4]]);
        clear - A2 F1; induction A2 as [|r rows recs rowss (parts & P1 & P2) A2 IH]; constructor; try assumption;
        exists parts; (split; [apply F1; exact P1|exact P2]).
    Qed.

    Lemma all_wf : forall sets ms, Forall2 stand sets ms -> Forall (set_wf Od) sets.
    Proof. intros sets ms H. induction H as [|rs m sets ms Hs H IH]; constructor; [eapply stands_set_wf; exact Hs|exact IH]. Qed.
  End Rules.

  Variable a : opts_args.
  Hypothesis R : regexes_compile O (oa_ci a).

  Lemma files_accepted : forall M V ms files filter tags output skip names w cs,
    opts_say O Od true transform a M V -> rules_say (running output w) true files filter tags ms ->
    available gz_dec (w_disk w) (w_stdin w) names cs -> (forall n, output = Some n -> writable n = true /\ ~ In n names) ->
    exists ms' st text w', check_files_on_disk a files filter tags output skip names w = Some (CEnded st, w')
      /\ rules_say (running output w) true files filter tags ms'
      /\ rules_effect a M V skip cs lossy ms' output st text
      /\ received gz_enc [(mkOut output false false, text)] w w'.
  Proof.
    intros M V ms files filter tags output skip names w cs Ho Hr Ha Hd.
    assert (Hw : forall n, output = Some n -> writable n = true) by (intros n X; apply Hd; exact X).
    assert (Hn : forall n, output = Some n -> ~ In n names) by (intros n X; apply Hd; exact X).
    destruct (opts_accepted O Od transform a M V Ho) as (o & Eo & _).
    assert (Hf : snd (opts_prepare O Od transform a) = fresh) by (rewrite Eo; reflexivity).
    destruct (rules_accepted a output w Hw _ _ _ _ Hf Hr) as (sets & ms' & E & Hm & Hs).
    destruct (EndProofs.check_accepted gz_enc gz_dec writable O Od transform lossy T rule_order link_order a R (compile _ _) M V sets output skip
                names w cs Ho Hlossy H1 H2 (all_wf _ _ Hs) Ha Hn) as (st & text & He & _ & Y).
    destruct Y as (w' & Y & Hrec).
    { intros n Hi. cbn in Hi. destruct output as [m|]; [|contradiction]. destruct Hi as [<-|[]]. apply Hw. reflexivity. }
    exists ms', st, text, w'. split; [|split; [exact Hm|split; [apply (effect_iff a output M V skip cs sets ms' st text Hs); exact He|exact Hrec]]].
    unfold RuleModel.check_files_on_disk. cbv zeta. fold (opened output w). rewrite E. exact Y.
  Qed.

  Lemma files_read : forall files filter tags output skip names w cs st w',
    available gz_dec (w_disk w) (w_stdin w) names cs -> (forall n, output = Some n -> ~ In n names) ->
    check_files_on_disk a files filter tags output skip names w = Some (CEnded st, w') ->
    exists M V ms text, opts_say O Od false transform a M V
      /\ rules_say (running output w) false files filter tags ms
      /\ rules_effect a M V skip cs lossy ms output st text
      /\ received gz_enc [(mkOut output false false, text)] w w'.
  Proof.
    intros files filter tags output skip names w cs st w' Ha Hn H.
    assert (Hw : forall n, output = Some n -> writable n = true).
    { intros n ->. destruct (writable n) eqn:E; [reflexivity|]. unfold RuleModel.check_files_on_disk in H. cbv zeta in H.
      destruct (disk_rules _ _ _ _ _) as [rules|]; [|discriminate]. rewrite unwritable in H by exact E. discriminate. }
    unfold RuleModel.check_files_on_disk in H. cbv zeta in H. fold (opened output w) in H.
    destruct (disk_rules a files filter tags (opened output w)) as [rules|] eqn:E; [|discriminate].
    destruct (EndProofs.check_reads gz_enc gz_dec writable O Od transform lossy T rule_order link_order a R (compile _ _) rules output skip
                names w cs st w' Ha Hn Hlossy H1 H2) as (M & V & sets & text & Ho & -> & He & Hrec); [|exact H|].
    { intros sets ->. destruct (rules_read a output w Hw _ _ _ _ E) as (ms & _ & Hs). eapply all_wf. exact Hs. }
    destruct (rules_read a output w Hw _ _ _ _ E) as (ms & Hm & Hs).
    exists M, V, ms, text. split; [exact Ho|]. split; [exact Hm|]. split; [|exact Hrec].
    apply (effect_iff a output M V skip cs sets ms st text Hs). exact He.
  Qed.

  (** the command never panics while it reads the rules *)
  Lemma rules_never_panic : forall files filter tags d, disk_rules a files filter tags d <> None.
  Proof.
    intros files filter tags d. unfold RuleModel.disk_rules. apply prepare_total.
  Qed.

  (** rules without meaning are refused; then the output has been emptied *)
  Lemma files_refused : forall files filter tags output skip names w,
    (forall ms, ~ rules_say (running output w) false files filter tags ms) ->
    exists w', check_files_on_disk a files filter tags output skip names w = Some (CRefused, w').
  Proof.
    intros files filter tags output skip names w H. unfold RuleModel.check_files_on_disk. cbv zeta. fold (opened output w).
    destruct (disk_rules a files filter tags (opened output w)) as [[sets|]|] eqn:E; [| |exfalso; exact (rules_never_panic _ _ _ _ E)].
    - destruct output as [n|].
      + destruct (writable n) eqn:Ew.
        * exfalso. destruct (rules_read a (Some n) w) with (2 := E) as (ms & Hm & _); [intros m X; injection X as <-; exact Ew|].
          exact (H ms Hm).
        * exists w. apply unwritable. exact Ew.
      + exfalso. destruct (rules_read a None w) with (2 := E) as (ms & Hm & _); [discriminate|]. exact (H ms Hm).
    - pose proof (opts_total O Od transform a) as P.
      unfold DiskModel.check_on_disk. cbv zeta. cbn [open_all]. destruct (open_output _ _ _) as [d|]; [|eexists; reflexivity].
      unfold DiskModel.prepared. destruct (fst (opts_prepare O Od transform a)) as [[o|]|];
        [eexists; reflexivity|eexists; reflexivity|contradiction].
  Qed.

  Lemma files_frame : forall files filter tags output skip names w c w',
    check_files_on_disk a files filter tags output skip names w = Some (c, w') -> same_but (named output) w w'.
  Proof.
    intros files filter tags output skip names w c w' H. unfold RuleModel.check_files_on_disk in H. cbv zeta in H.
    destruct (disk_rules _ _ _ _ _) as [rules|]; [|discriminate]. eapply check_frame. exact H.
  Qed.
End Command.

(** ** A rule file that is the output *)

Section Emptied.
  Variable T : text_fns.
  Variable lossy : bytes -> bytes.
  Variable oracles_at : N -> oracles.
  Variable int_f64 : Z -> N.
  Variable strptime : bytes -> bytes -> bool.
  Variable is_nf : norm_form -> bytes -> bool.
  Variable polars : bytes -> bytes -> option table.
  Variable strict : bool.
  Variable from_toml : bytes -> option toml.
  Variable normal : bytes -> bytes.
  Variable patterns : list bytes -> option (bytes -> bool).
  Hypothesis nothing : from_toml (normal []) = Some (TmTable []).
  Variables (n : bytes) (w : world).

  Notation holds := (running (Some n) w).
  Notation file_says := (file_says T lossy oracles_at int_f64 strptime is_nf holds polars strict from_toml normal).
  Notation rules_say := (rules_say T lossy oracles_at int_f64 strptime is_nf holds polars strict from_toml normal patterns).

  Lemma emptied_no_rules : forall m, file_says n m -> sm_rules m = [].
  Proof.
    intros m (b & v & [[_ ->]|[X _]] & _ & E & H); [|exfalso; apply X; reflexivity].
    rewrite nothing in E. injection E as <-. inversion H as [t scope rules ms fast m' _ _ Hr Hm _ _ Hp]. subst.
    destruct Hr as [(x & Hi & _)|[_ ->]]; [destruct Hi|]. inversion Hm. subst ms. apply Permutation_nil. exact Hp.
  Qed.

  Lemma emptied_says : exists m, file_says n m.
  Proof.
    exists (mkSM (fun _ => True) false []), [], (TmTable []). split; [left; auto|]. split; [exists []; split; [constructor|reflexivity]|]. split; [exact nothing|].
    apply set_document with (scope := None) (rules := []) (ms := []) (fast := false).
    - right. split; [intros v []|reflexivity].
    - right. split; [intros v []|reflexivity].
    - right. split; [intros v []|reflexivity].
    - constructor.
    - intros r. split; [discriminate|intros _; exact I].
    - reflexivity.
    - constructor.
  Qed.

  Lemma emptied_ignored : forall f1 f2 filter tags ms,
    rules_say (f1 ++ n :: f2) filter tags ms <-> rules_say (f1 ++ f2) filter tags ms.
  Proof.
    intros f1 f2 filter tags ms. split.
    - intros (re & all & left & Hre & Ha & Hl & Hc).
      apply Forall2_app_inv_l in Ha as (a1 & a2 & A1 & A2 & ->). inversion A2 as [|? m ? a2' Hm A2' X1 X2]. subst.
      apply Forall2_app_inv_l in Hl as (l1 & l2 & L1 & L2 & ->). inversion L2 as [|? m' ? l2' Hm' L2' X1 X2]. subst.
      apply emptied_no_rules in Hm. destruct Hm' as (_ & _ & Hp). rewrite Hm in Hp. assert (E : sm_rules m' = []) by (inversion Hp; congruence).
      exists re, (a1 ++ a2'), (l1 ++ l2'). split; [exact Hre|]. split; [apply Forall2_app; assumption|].
      split; [apply Forall2_app; assumption|]. clear - Hc E. revert ms Hc. induction l1 as [|x l1 IH]; intros ms Hc; cbn [app] in *.
      + inversion Hc; subst; [exfalso; match goal with Hx : _ |- _ => apply Hx; exact E end|assumption].
      + inversion Hc; subst; [apply (picks_yes _ (fun m : set_meaning => m)); [assumption|]|apply picks_no; [assumption|]]; apply IH; assumption.
    - intros (re & all & left & Hre & Ha & Hl & Hc). destruct emptied_says as (m & Hm).
      apply Forall2_app_inv_l in Ha as (a1 & a2 & A1 & A2 & ->). apply Forall2_app_inv_l in Hl as (l1 & l2 & L1 & L2 & ->).
      exists re, (a1 ++ m :: a2), (l1 ++ m :: l2). split; [exact Hre|].
      pose proof (emptied_no_rules m Hm) as E.
      split; [apply Forall2_app; [assumption|constructor; assumption]|].
      split; [apply Forall2_app; [assumption|constructor; [|assumption]]; split; [reflexivity|split; [reflexivity|rewrite E; constructor]]|].
      clear - Hc E. revert ms Hc. induction l1 as [|x l1 IH]; intros ms Hc; cbn [app] in *.
      + apply picks_no; [intros X; contradiction|exact Hc].
      + inversion Hc; subst; [apply (picks_yes _ (fun m : set_meaning => m)); [assumption|]|apply picks_no; [assumption|]]; apply IH; assumption.
  Qed.

  Lemma emptied_only : forall tags ms, rules_say [n] [] tags ms <-> ms = [].
  Proof.
    intros tags ms. rewrite (emptied_ignored [] [] [] tags ms). split.
    - intros (re & all & left & _ & Ha & Hl & Hc). inversion Ha. subst. inversion Hl. subst. inversion Hc. reflexivity.
    - intros ->. exists None, [], []. repeat constructor.
  Qed.
End Emptied.

(** no rules, no report *)
Lemma no_rules_no_text : forall a M V skip cs lossy output st text, rules_effect a M V skip cs lossy [] output st text -> text = [].
Proof.
  intros a M V skip cs lossy output st text (recs & e & rowss & finals & _ & Hr & Hf & Hp & _). inversion Hf. subst finals.
  assert (E : concat rowss = []).
  { clear - Hr. induction Hr as [|r rows recs rowss (parts & P & ->) Hr IH]; [reflexivity|]. inversion P. subst. exact IH. }
  rewrite E in Hp. replace ([] ++ match e with None => concat [] | Some _ => [] end) with (@nil check_row) in Hp by (destruct e; reflexivity).
  destruct Hp as [[_ H]|[_ (d & _ & H)]]; [|exact H]. inversion H. reflexivity.
Qed.

Lemma rules_destroyed : forall gz_enc gz_dec writable O transform lossy T rule_order link_order oracles_at int_f64 strptime is_nf
    polars hash_order from_toml normal patterns,
  (forall x ci, regexes_compile (oracles_at x) ci) -> (forall b v, from_toml b = Some v -> tidy v) ->
  (forall v, lossy v = [] <-> v = []) ->
  (forall l, Permutation (rule_order l) l) -> (forall l, Permutation (link_order l) l) -> (forall l, Permutation (hash_order l) l) ->
  from_toml (normal []) = Some (TmTable []) ->
  forall a, regexes_compile O (oa_ci a) ->
  forall M V n tags skip names w cs, opts_say O (oracles_at strsim_default) true transform a M V ->
  available gz_dec (w_disk w) (w_stdin w) names cs -> writable n = true -> ~ In n names ->
  exists st w', check_files_on_disk gz_enc gz_dec writable O transform lossy T rule_order link_order oracles_at int_f64 strptime is_nf
    polars hash_order from_toml normal patterns a [n] [] tags (Some n) skip names w = Some (CEnded st, w')
    /\ disk_get (w_disk w') n = Some [].
Proof.
  intros gz_enc gz_dec writable O transform lossy T rule_order link_order oracles_at int_f64 strptime is_nf
    polars hash_order from_toml normal patterns compile Htidy Hlossy H1 H2 H3 nothing a R M V n tags skip names w cs Ho Ha Hw Hn.
  pose proof (emptied_only T lossy oracles_at int_f64 strptime is_nf polars true from_toml normal patterns nothing n w tags) as E.
  destruct (files_accepted gz_enc gz_dec writable O transform lossy T rule_order link_order oracles_at int_f64 strptime is_nf
    polars hash_order from_toml normal patterns compile Htidy Hlossy H1 H2 H3 a R M V [] [n] [] tags (Some n) skip names w cs Ho)
    as (ms & st & text & w' & Ec & Hm & He & _ & Hr & _).
  - apply E. reflexivity.
  - exact Ha.
  - intros m X. injection X as <-. auto.
  - apply E in Hm. subst ms. apply no_rules_no_text in He. subst text.
    exists st, w'. split; [exact Ec|]. apply (Hr (mkOut (Some n) false false) [] n); [left; reflexivity|reflexivity].
Qed.

Lemma others_unchanged : forall gz_enc gz_dec writable O transform lossy T rule_order link_order oracles_at int_f64 strptime is_nf
    polars hash_order from_toml normal patterns a files filter tags output skip names w c w',
  check_files_on_disk gz_enc gz_dec writable O transform lossy T rule_order link_order oracles_at int_f64 strptime is_nf
    polars hash_order from_toml normal patterns a files filter tags output skip names w = Some (c, w') ->
  forall n, output <> Some n -> disk_get (w_disk w') n = disk_get (w_disk w) n.
Proof.
  intros gz_enc gz_dec writable O transform lossy T rule_order link_order oracles_at int_f64 strptime is_nf
    polars hash_order from_toml normal patterns a files filter tags output skip names w c w' H n Hn.
  apply files_frame in H. apply H. destruct output as [m|]; cbn; [|intros []]. intros [->|[]]. apply Hn. reflexivity.
Qed.

(** ** Entries that are reported *)

Section Reported.
  Variable oracles_at : N -> oracles.
  Variable int_f64 : Z -> N.
  Variable strptime : bytes -> bytes -> bool.
  Variable is_nf : norm_form -> bytes -> bool.
  Variable lists : bytes -> option table.
  Hypothesis compile : forall x ci, regexes_compile (oracles_at x) ci.

  (* the texts do not matter here *)
  Notation lists_hold := (fun n (b : bytes) => b = [] /\ lists n <> None).
  Lemma lists_any : forall n tab, lists n = Some tab <-> exists b : bytes, lists_hold n b /\ (fun n (_ : bytes) => lists n) n b = Some tab.
  Proof.
    intros n tab. split; [intros E; exists []; rewrite E; repeat split; discriminate|]. intros (b & _ & E). exact E.
  Qed.

  Lemma kind_reported : forall id t s, tidy (TmTable t) -> (forall k, In k check_kinds -> ~ In (lit "check", TmText k) t) ->
    fst (read_rule oracles_at int_f64 strptime is_nf lists (id, TmTable t) s) = Some None.
  Proof.
    intros id t s Ht H.
    apply (rule_refused (mkTextFns (fun x => x) (fun x => x) (fun x => x)) (fun x => x) oracles_at int_f64 strptime is_nf
             lists_hold (fun n _ => lists n) lists lists_any compile); [exact Ht|].
    intros m Hm. inversion Hm as [? ? ? ? ? _ _ _ _ _ Hc]. subst.
    inversion Hc; match goal with Hk : check_is _ ?k |- _ => apply (H (lit k)); [cbn; tauto|exact Hk] end.
  Qed.

  Lemma level_reported : forall id t v s, tidy (TmTable t) -> In (lit "level", v) t -> (forall b, In b levels_allowed -> v <> TmText b) ->
    fst (read_rule oracles_at int_f64 strptime is_nf lists (id, TmTable t) s) = Some None.
  Proof.
    intros id t v s Ht Hi H.
    apply (rule_refused (mkTextFns (fun x => x) (fun x => x) (fun x => x)) (fun x => x) oracles_at int_f64 strptime is_nf
             lists_hold (fun n _ => lists n) lists lists_any compile); [exact Ht|].
    intros m Hm. inversion Hm as [? ? ? ? ? _ _ _ Hl _ _]. subst. destruct Hl as [(v' & Hv & E & Hb)|[Hs _]]; [|exact (Hs v Hi)].
    assert (Hd : NoDup (map fst t)) by (inversion Ht; assumption).
    assert (v' = v). { pose proof (proj2 (entry_in _ _ _ Hd) Hv) as A. pose proof (proj2 (entry_in _ _ _ Hd) Hi) as B. congruence. }
    subst v. exact (H _ Hb E).
  Qed.
End Reported.

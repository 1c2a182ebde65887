(** * Proofs: the command line *)

From Coq Require Import String.
From Verif Require Import Bytes BaseProofs Winnow Utf8Spec Utf8Model Utf8Proofs RecordModel MatcherModel StateParser MatcherParserModel BuilderModel PathModel CliModel
  ExplodeModel ConvertModel CsvModel OptionsModel ConfigModel DiskModel DirModel RuleModel ClapModel MainModel ArgsModel ArgsSpec ClapProofs ClapValues.

(** ** The tables of the commands *)

Fixpoint distinct {A} (eq : A -> A -> bool) (l : list A) : bool :=
  match l with [] => true | x :: r => negb (existsb (eq x) r) && distinct eq r end.

Lemma distinct_nodup : forall A (eq : A -> A -> bool), (forall x, eq x x = true) -> forall l, distinct eq l = true -> NoDup l.
Proof.
  intros A eq R. induction l as [|x l IH]; intros H; [constructor|]. cbn in H. apply andb_true_iff in H as [H1 H2]. constructor; [|apply IH, H2].
  intros C. apply negb_true_iff in H1. assert (E : existsb (eq x) l = true) by (apply existsb_exists; exists x; auto). congruence.
Qed.

Definition tidy (c : arg_spec) : bool :=
  distinct bytes_eqb (map g_id (args c))
  && forallb (fun a => match g_long a with None => true | Some l => bytes_eqb l (g_id a) end
                       && match g_id a with [] => false | _ => true end && negb (existsb (N.eqb 61) (g_id a))
                       && match g_short a with Some x => negb (x =? 45) | None => true end) (s_options c)
  && distinct N.eqb (flat_map (fun a => match g_short a with Some x => [x] | None => [] end) (s_options c))
  && forallb (fun a => match g_arity a with AFlag => false | _ => true end) (s_positionals c).

Lemma tidy_ok : forall c, tidy c = true -> tidy_table c.
Proof.
  intros c H. unfold tidy in H. rewrite !andb_true_iff, !forallb_forall in H. destruct H as [[[H1 H2] H3] H4].
  assert (K : forall a, In a (s_options c) -> (g_long a = None \/ g_long a = Some (g_id a)) /\ (g_id a <> [] /\ ~ In 61 (g_id a)) /\ g_short a <> Some 45).
  { intros a Ha. specialize (H2 a Ha). rewrite !andb_true_iff, negb_true_iff in H2. destruct H2 as [[[A B] C] D]. repeat split.
    - destruct (g_long a); [|auto]. apply bytes_eqb_eq in A. subst. auto.
    - intros E. rewrite E in B. discriminate.
    - intros E. assert (X : existsb (N.eqb 61) (g_id a) = true) by (apply existsb_exists; exists 61; auto). congruence.
    - intros E. rewrite E in D. discriminate. }
  constructor.
  - apply (distinct_nodup _ bytes_eqb bytes_eqb_refl), H1.
  - apply Forall_forall. intros a Ha. apply K, Ha.
  - apply Forall_forall. intros a Ha. apply K, Ha.
  - apply (distinct_nodup _ N.eqb N.eqb_refl), H3.
  - apply Forall_forall. intros a Ha. apply K, Ha.
  - apply Forall_forall. intros a Ha E. specialize (H4 a Ha). rewrite E in H4. discriminate.
Qed.

(** ** Presence *)

Lemma one_there : forall m id, get_one m id <> None <-> has m id = true.
Proof. intros m id. rewrite has_one. destruct (get_one m id); split; congruence. Qed.
Lemma many_there : forall m id, get_many m id <> [] <-> has m id = true.
Proof. intros m id. rewrite has_many. destruct (get_many m id); split; congruence. Qed.
Lemma many_absent : forall m id, get_many m id = [] <-> ~ has m id = true.
Proof. intros m id. rewrite has_many. destruct (get_many m id); split; congruence. Qed.
Lemma one_absent : forall m id, get_one m id = None <-> ~ has m id = true.
Proof. intros m id. rewrite has_one. destruct (get_one m id); split; congruence. Qed.
Lemma false_not : forall b, b = false <-> ~ b = true.
Proof. intros []; split; congruence. Qed.

(** ** Choices *)

Definition choices {A} (table : list (string * A)) (v : bytes) : option A :=
  match find (fun p => bytes_eqb v (lit (fst p))) table with Some p => Some (snd p) | None => None end.

Lemma choices_iff : forall A (table : list (string * A)), NoDup (map (fun p => lit (fst p)) table) ->
  forall v a, choices table v = Some a <-> exists s, v = lit s /\ In (s, a) table.
Proof.
  intros A table N v a. unfold choices. split.
  - intros H. destruct (find _ table) as [[s b]|] eqn:F; [|discriminate]. injection H as <-. apply find_some in F as [F1 F2]. apply bytes_eqb_eq in F2.
    exists s. auto.
  - intros (s & -> & H). destruct (find _ table) as [[s' b]|] eqn:F.
    + apply find_some in F as [F1 F2]. apply bytes_eqb_eq in F2. cbn [fst] in F2. cbn [snd]. f_equal.
      induction table as [|[t x] l IH]; [destruct H|]. cbn in N. inversion N as [|y l' N1 N2]. destruct H as [H|H], F1 as [F1|F1].
      * congruence.
      * exfalso. apply N1. injection H as -> ->. rewrite F2. apply (in_map (fun p => lit (fst p)) l (s', b) F1).
      * exfalso. apply N1. injection F1 as -> ->. rewrite <- F2. apply (in_map (fun p => lit (fst p)) l (s, a) H).
      * apply IH; assumption.
    + apply (find_none _ _ F) in H. cbn in H. rewrite bytes_eqb_refl in H. discriminate.
Qed.

Section Args.
  Variable e : env.
  Variable draws : option N -> N -> N.

  Section Command.
    Variable c : arg_spec.
    Hypothesis T : tidy_table c.
    Variable its : list item.
    Variable m : list (bytes * bytes).
    Hypothesis Ty : typed c its.
    Hypothesis L : label c 0 its = Some m.

    Lemma progress_iff : forall P : Prop, has_opt c (lit "progress") AFlag VOs ->
      (progress its P <-> fit_at (lit "progress") AFlag VOs m /\ (has m (lit "progress") = true -> P)).
    Proof.
      intros P H. unfold progress. split.
      - intros (b & Hb & HP). apply (switch_iff c T its m Ty L _ _ b H) in Hb as [F ->]. split; [exact F|]. exact HP.
      - intros [F HP]. exists (get_flag m (lit "progress")). split; [|exact HP]. apply (switch_iff c T its m Ty L _ _ _ H). auto.
    Qed.

    Lemma number_or_iff : forall n d k, has_opt c (lit n) AOne VU64 ->
      (number_or its n d k <-> fit_at (lit n) AOne VU64 m /\ k = ArgsModel.number_or m (lit n) d).
    Proof. intros n d k H. apply (meaning_iff c T its m Ty L N parse_u64 number_text _ VU64 d k parse_u64_iff); [reflexivity|exact H]. Qed.

    Lemma ranged_or_iff : forall n lo hi d k, has_opt c (lit n) AOne (VRange lo hi) ->
      ((values its (lit n) = [] /\ k = d \/ exists t, values its (lit n) = [t] /\ range_text lo hi t k)
       <-> fit_at (lit n) AOne (VRange lo hi) m /\ k = ranged_or m (lit n) lo hi d).
    Proof.
      intros n lo hi d k H. apply (meaning_iff c T its m Ty L N (parse_range lo hi) (range_text lo hi) _ (VRange lo hi) d k (parse_range_iff lo hi));
        [reflexivity|exact H].
    Qed.

    Lemma seed_iff : forall o, has_opt c (lit "seed") AOne VU64 ->
      ((values its (lit "seed") = [] /\ o = None \/ exists t k, values its (lit "seed") = [t] /\ number_text t k /\ o = Some k)
       <-> fit_at (lit "seed") AOne VU64 m /\ o = seed_of m).
    Proof. intros o H. apply (meaning_opt_iff c T its m Ty L N parse_u64 number_text _ VU64 o parse_u64_iff); [reflexivity|exact H]. Qed.

    Lemma choice_or_iff : forall A (table : list (string * A)) (f : bytes -> option A) l n d a,
      (forall v, f v = choices table v) -> NoDup (map (fun p => lit (fst p)) table) -> l = map (fun p => lit (fst p)) table ->
      has_opt c (lit n) AOne (VOneOf l) ->
      (choice_or its table n d a
       <-> fit_at (lit n) AOne (VOneOf l) m /\ a = match get_one m (lit n) with Some v => match f v with Some a => a | None => d end | None => d end).
    Proof.
      intros A table f l n d a Hf Nd -> H.
      pose proof (meaning_iff c T its m Ty L A f (fun v a => exists s, v = lit s /\ In (s, a) table) (lit n) (VOneOf (map (fun p => lit (fst p)) table)) d a) as K.
      etransitivity; [|apply K]; clear K.
      - unfold choice_or. split; (intros [X|X]; [left; exact X|right]).
        + destruct X as (s & E & X). exists (lit s). split; [exact E|]. exists s. auto.
        + destruct X as (t & E & s & -> & X). exists s. auto.
      - intros v b. rewrite Hf. apply choices_iff, Nd.
      - intros v. rewrite Hf. cbn [value_ok]. unfold choices. clear. induction table as [|[s b] t IH]; [reflexivity|]. cbn [map existsb find fst].
        destruct (bytes_eqb v (lit s)); [reflexivity|]. exact IH.
      - exact H.
    Qed.

    Lemma choice_iff : forall A (table : list (string * A)) (f : bytes -> option A) l n o,
      (forall v, f v = choices table v) -> NoDup (map (fun p => lit (fst p)) table) -> l = map (fun p => lit (fst p)) table ->
      has_opt c (lit n) AOne (VOneOf l) ->
      (choice its table n o
       <-> fit_at (lit n) AOne (VOneOf l) m /\ o = match get_one m (lit n) with Some v => f v | None => None end).
    Proof.
      intros A table f l n o Hf Nd -> H.
      pose proof (meaning_opt_iff c T its m Ty L A f (fun v a => exists s, v = lit s /\ In (s, a) table) (lit n) (VOneOf (map (fun p => lit (fst p)) table)) o) as K.
      etransitivity; [|apply K]; clear K.
      - unfold choice. split; (intros [X|X]; [left; exact X|right]).
        + destruct X as (s & a & E & X & ->). exists (lit s), a. split; [exact E|]. split; [|reflexivity]. exists s. auto.
        + destruct X as (t & a & E & (s & -> & X) & ->). exists s, a. auto.
      - intros v b. rewrite Hf. apply choices_iff, Nd.
      - intros v. rewrite Hf. cbn [value_ok]. unfold choices. clear. induction table as [|[s b] t IH]; [reflexivity|]. cbn [map existsb find fst].
        destruct (bytes_eqb v (lit s)); [reflexivity|]. exact IH.
      - exact H.
    Qed.

    Lemma path_parse_iff : forall t p, path_for e t p <-> is_utf8 t /\ path_parse e t = Some p.
    Proof.
      intros t p. unfold path_for, path_parse, default_oracles. destruct (fst (path_new _ _ _)) as [[q|]|]; split; intros [A B]; (split; [exact A|]);
        try discriminate; congruence.
    Qed.

    Lemma source_iff : forall o, has_opt c (lit "filter-set-source") AOne (VParsed (path_ok e)) ->
      (value its "filter-set-source" o /\ (forall t, o = Some t -> exists p, path_for e t p)
       <-> fit_at (lit "filter-set-source") AOne (VParsed (path_ok e)) m /\ o = get_one m (lit "filter-set-source")).
    Proof.
      intros o H. destruct (single_iff c T its m Ty L _ _ H) as [S G]. rewrite S, G. unfold value. destruct (values its _) as [|v [|w l]].
      - split; [intros [E _]; destruct o; [discriminate|auto]|]. intros [_ ->]. split; [reflexivity|discriminate].
      - cbn [value_ok]. rewrite andb_true_iff, utf8_valid_iff. unfold path_ok. split.
        + intros [E U]. destruct o; [|discriminate]. injection E as <-. destruct (U v eq_refl) as (p & P). apply path_parse_iff in P as [P1 P2].
          rewrite P2. auto.
        + intros [[U1 U2] ->]. split; [reflexivity|]. intros t E. injection E as <-. destruct (path_parse e v) as [p|] eqn:P; [|discriminate].
          exists p. apply path_parse_iff. auto.
      - split; [intros [E _]; destruct o; discriminate|intros [[] _]].
    Qed.

    Lemma reading_iff : forall l, get_many m (lit "filenames") = names its -> (reading (names its) l <-> l = files_of m).
    Proof.
      intros l E. unfold reading, files_of. rewrite E. destruct (names its); split; intros H.
      - destruct H as [[H _]|[_ H]]; [congruence|exact H].
      - right. auto.
      - destruct H as [[_ H]|[H _]]; [exact H|discriminate].
      - left. split; [discriminate|exact H].
    Qed.

    Lemma reading_rest_iff : forall r l, get_many m (lit "filenames") = r -> (reading r l <-> l = files_of m).
    Proof.
      intros r l E. unfold reading, files_of. rewrite E. destruct r; split; intros H.
      - destruct H as [[H _]|[_ H]]; [congruence|exact H].
      - right. auto.
      - destruct H as [[_ H]|[H _]]; [exact H|discriminate].
      - left. split; [discriminate|exact H].
    Qed.

    (** the shared options *)
    Definition common_args : list arg := [
      flag (lit "skip-invalid") (Some 115); one (lit "limit") (Some 108) VU64; flag (lit "ignore-case") (Some 105);
      one (lit "strsim-threshold") None (VRange 0 99); many (lit "allow-list") (Some 65) VPath; many (lit "deny-list") (Some 68) VPath;
      one (lit "filter-set-column") None VString; one (lit "filter-set-source") None (VParsed (path_ok e));
      many (lit "and") None VString; many (lit "or") None VString; many (lit "not") None VString].

    Definition have (l : list arg) : Prop := Forall (fun a => has_opt c (g_id a) (g_arity a) (g_type a)) l.

    Lemma common_iff : forall o, have common_args ->
      (asks_common e its o <->
       Forall (fit m) common_args /\ (has m (lit "or") = true -> ~ has m (lit "and") = true /\ ~ has m (lit "not") = true)
       /\ o = mkFileOpts (get_flag m (lit "skip-invalid")) (ArgsModel.number_or m (lit "limit") 0) (get_flag m (lit "ignore-case"))
      (ranged_or m (lit "strsim-threshold") 0 99 75) (get_many m (lit "allow-list")) (get_many m (lit "deny-list"))
      (get_one m (lit "filter-set-column")) (get_one m (lit "filter-set-source")) (o_where o)
      (get_many m (lit "and")) (get_many m (lit "or")) (get_many m (lit "not"))).
    Proof.
      intros o H. unfold have, common_args in H. rewrite !Forall_cons_iff in H.
      destruct H as (H1 & H2 & H3 & H4 & H5 & H6 & H7 & H8 & H9 & H10 & H11 & _).
      destruct o as [f1 f2 f3 f4 f5 f6 f7 f8 f9 f10 f11 f12]. unfold asks_common. cbn [o_skip o_limit o_ci o_threshold o_allow o_deny o_column o_source o_where o_and o_or o_not].
      unfold common_args. rewrite !Forall_cons_iff, Forall_nil_iff. unfold fit. cbn [g_id g_arity g_type flag one many] in *.
      rewrite (switch_iff c T its m Ty L _ _ _ H1), (number_or_iff _ _ _ H2), (switch_iff c T its m Ty L _ _ _ H3), (ranged_or_iff _ _ _ _ _ H4),
        (files_iff c T its m Ty L _ _ H5), (files_iff c T its m Ty L _ _ H6), (text_iff c T its m Ty L _ _ H7).
      rewrite (texts_iff c T its m Ty L _ _ H9), (texts_iff c T its m Ty L _ _ H10), (texts_iff c T its m Ty L _ _ H11).
      pose proof (source_iff f8 H8) as S. split.
      - intros (A1 & A2 & A3 & A4 & A5 & A6 & A7 & A8 & A8' & A9 & A10 & A11 & V). destruct (proj1 S (conj A8 A8')) as [S1 S2].
        destruct A1, A2, A3, A4, A5, A6, A7, A9, A10, A11. subst. rewrite many_there, !many_absent in V.
        split; [repeat (split; [assumption|]); exact I|]. split; [exact V|reflexivity].
      - intros ((A1 & A2 & A3 & A4 & A5 & A6 & A7 & A8 & A9 & A10 & A11 & _) & V & E). injection E as -> -> -> -> -> -> -> E8 -> -> ->.
        destruct (proj2 S (conj A8 E8)) as [S1 S2]. rewrite many_there, !many_absent. repeat (split; [assumption || (split; [assumption|reflexivity])|]). exact V.
    Qed.

    Lemma shared_iff : forall o, have (filter_opts_args e) ->
      (asks_shared e its o <->
       Forall (fit m) (filter_opts_args e)
       /\ (has m (lit "or") = true -> ~ has m (lit "and") = true /\ ~ has m (lit "not") = true)
       /\ (has m (lit "and") = true -> has m (lit "where") = true)
       /\ (has m (lit "or") = true -> has m (lit "where") = true)
       /\ (has m (lit "not") = true -> has m (lit "where") = true)
       /\ o = opts_of m).
    Proof.
      intros o H. pose proof H as H'. unfold have, filter_opts_args in H. rewrite !Forall_cons_iff in H.
      destruct H as (H1 & H2 & H3 & H4 & H5 & H6 & H7 & H8 & Hw & H9 & H10 & H11 & _).
      assert (K : have common_args).
      { unfold have, common_args. rewrite !Forall_cons_iff. repeat (split; [assumption|]). constructor. }
      unfold asks_shared. rewrite (common_iff o K), (text_iff c T its m Ty L "where" _ Hw).
      unfold common_args, filter_opts_args. rewrite !Forall_cons_iff, Forall_nil_iff. unfold fit.
      cbn [g_id g_arity g_type flag one many requires conflicts].
      split.
      - intros ((A & V & E) & (Aw & Ew) & W). rewrite Ew in E. rewrite E in W. cbn [o_and o_or o_not o_where] in W. rewrite !many_there, one_there in W.
        split; [tauto|]. split; [exact V|]. split; [tauto|]. split; [tauto|]. split; [tauto|]. exact E.
      - intros (A & V & W1 & W2 & W3 & E). rewrite E. unfold opts_of. cbn [o_and o_or o_not o_where]. rewrite !many_there, one_there. tauto.
    Qed.
  End Command.
End Args.

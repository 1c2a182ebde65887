(** * Proofs: what the arguments are that have been read *)

From Coq Require Import String.
From Verif Require Import Bytes BaseProofs Utf8Spec Utf8Model Utf8Proofs ClapModel ArgsSpec ClapProofs.

Lemma app_inj_tail_nil : forall A (l : list A) x, l ++ [x] <> [].
Proof. intros A [|y l] x; discriminate. Qed.

(** ** Numbers *)

Lemma digits_app : forall a acc b, digits acc (a ++ b) = match digits acc a with Some x => digits x b | None => None end.
Proof. induction a as [|x a IH]; intros acc b; [reflexivity|]. cbn. destruct (is_digit x); [apply IH|reflexivity]. Qed.

Lemma is_digit_spec : forall x, is_digit x = true <-> exists d, d < 10 /\ x = 48 + d.
Proof.
  intros x. unfold is_digit. rewrite andb_true_iff, !N.leb_le. split.
  - intros [H1 H2]. exists (x - 48). lia.
  - intros (d & H & ->). lia.
Qed.

Lemma decimal_ne : forall t n, decimal t n -> t <> [].
Proof. intros t n H. destruct H; [discriminate|apply app_inj_tail_nil]. Qed.

Lemma decimal_digits : forall t n, decimal t n <-> t <> [] /\ digits 0 t = Some n.
Proof.
  intros t n. split.
  - intros H. split; [exact (decimal_ne _ _ H)|]. induction H as [d Hd|t n d Hd H IH].
    + cbn [digits]. rewrite (proj2 (is_digit_spec _)) by eauto. f_equal. lia.
    + rewrite digits_app, IH. cbn [digits]. rewrite (proj2 (is_digit_spec _)) by eauto. f_equal. lia.
  - revert n. induction t as [|x t IH] using rev_ind; intros n [H1 H2]; [congruence|]. clear H1.
    rewrite digits_app in H2. destruct (digits 0 t) as [k|] eqn:D; [|discriminate]. cbn [digits] in H2.
    destruct (is_digit x) eqn:Dx; [|discriminate]. apply is_digit_spec in Dx as (d & Hd & ->).
    replace (10 * k + (48 + d - 48)) with (10 * k + d) in H2 by lia. injection H2 as <-.
    destruct t as [|y t].
    + cbn in D. injection D as <-. cbn. apply de_one, Hd.
    + apply de_more; [exact Hd|]. apply IH. split; [discriminate|reflexivity].
Qed.

Lemma decimal_first : forall t n, decimal t n -> exists x r, t = x :: r /\ is_digit x = true.
Proof.
  intros t n H. apply decimal_digits in H as [H1 H2]. destruct t as [|x r]; [congruence|]. exists x, r. split; [reflexivity|].
  cbn in H2. destruct (is_digit x); [reflexivity|discriminate].
Qed.

Lemma pow_64 : 2 ^ 64 = 18446744073709551616. Proof. reflexivity. Qed.

Lemma parse_u64_iff : forall v n, parse_u64 v = Some n <-> number_text v n.
Proof.
  intros v n. unfold parse_u64, number_text. rewrite pow_64. change (lit "+") with [43].
  assert (R : forall r, (match r with [] => None | x :: l => match digits 0 (x :: l) with Some n => if n <=? 18446744073709551615 then Some n else None | None => None end end)
                        = Some n <-> n < 18446744073709551616 /\ decimal r n).
  { intros r. rewrite decimal_digits. destruct r as [|x r].
    - split; [discriminate|]. intros (_ & C & _). congruence.
    - destruct (digits 0 (x :: r)) as [k|].
      + destruct (N.leb_spec k 18446744073709551615).
        * split; [intros E; injection E as <-; split; [lia|split; [discriminate|reflexivity]]|]. intros (_ & _ & E). exact E.
        * split; [discriminate|]. intros (B & _ & E). injection E as <-. lia.
      + split; [discriminate|]. intros (_ & _ & E). discriminate. }
  destruct v as [|x v]; [etransitivity; [exact (R [])|]; split|destruct (N.eqb_spec x 43) as [->|Nx]; [etransitivity; [exact (R v)|]|etransitivity; [exact (R (x :: v))|]]; split].
  - intros (B & D). exact (conj B (or_introl D)).
  - intros (B & [D|(r & E & _)]); [exact (conj B D)|discriminate].
  - intros (B & D). split; [exact B|]. right. exists v. split; [reflexivity|exact D].
  - intros (B & [D|(r & E & D)]).
    + apply decimal_first in D as (y & r & E & Dy). injection E as <- _. discriminate.
    + injection E as <-. exact (conj B D).
  - intros (B & D). exact (conj B (or_introl D)).
  - intros (B & [D|(r & E & _)]); [exact (conj B D)|]. injection E as E _. congruence.
Qed.

Lemma parse_range_iff : forall lo hi v n, parse_range lo hi v = Some n <-> range_text lo hi v n.
Proof.
  intros lo hi v n. unfold parse_range, range_text. change (lit "+") with [43]. change (lit "-") with [45].
  assert (R : forall neg r, (match r with [] => None | _ => match digits 0 r with
        Some n => if (lo <=? n) && (n <=? hi) && negb (neg && negb (n =? 0)) then Some n else None | None => None end end)
                        = Some n <-> lo <= n <= hi /\ decimal r n /\ (neg = true -> n = 0)).
  { intros neg r. rewrite decimal_digits. destruct r as [|x r].
    - split; [discriminate|]. intros (_ & (C & _) & _). congruence.
    - destruct (digits 0 (x :: r)) as [k|].
      + destruct ((lo <=? k) && (k <=? hi) && negb (neg && negb (k =? 0))) eqn:B.
        * rewrite !andb_true_iff, negb_true_iff, andb_false_iff, !N.leb_le in B.
          split; [|intros (_ & (_ & E) & _); exact E].
          intros E. injection E as <-. split; [tauto|]. split; [split; [discriminate|reflexivity]|]. intros ->.
          destruct B as [_ [C|C]]; [discriminate|]. apply negb_false_iff, N.eqb_eq in C. exact C.
        * split; [discriminate|]. intros (L & (_ & E) & G). injection E as <-. exfalso.
          rewrite (proj2 (N.leb_le lo k)), (proj2 (N.leb_le k hi)) in B by lia. destruct neg; [|discriminate].
          rewrite (G eq_refl) in B. discriminate.
      + split; [discriminate|]. intros (_ & (_ & E) & _). discriminate. }
  destruct v as [|x v]; [etransitivity; [exact (R false [])|]; split|destruct (N.eqb_spec x 43) as [->|Nx]; [etransitivity; [exact (R false v)|]; split
    |destruct (N.eqb_spec x 45) as [->|Ny]; [etransitivity; [exact (R true v)|]|etransitivity; [exact (R false (x :: v))|]]; split]].
  - intros (B & D & _). exact (conj B (or_introl D)).
  - intros (B & [D|[(r & E & _)|(r & E & _)]]); [|discriminate..]. split; [exact B|]. split; [exact D|discriminate].
  - intros (B & D & _). split; [exact B|]. right. left. exists v. split; [reflexivity|exact D].
  - intros (B & [D|[(r & E & D)|(r & E & _)]]).
    + apply decimal_first in D as (y & r & E & Dy). injection E as <- _. discriminate.
    + injection E as <-. split; [exact B|]. split; [exact D|discriminate].
    + discriminate.
  - intros (B & D & G). split; [exact B|]. right. right. exists v. split; [reflexivity|]. split; [exact D|]. apply G. reflexivity.
  - intros (B & [D|[(r & E & D)|(r & E & D & G)]]).
    + apply decimal_first in D as (y & r & E & Dy). injection E as <- _. discriminate.
    + discriminate.
    + injection E as <-. split; [exact B|]. split; [exact D|]. intros _. exact G.
  - intros (B & D & _). exact (conj B (or_introl D)).
  - intros (B & [D|[(r & E & _)|(r & E & _)]]).
    + split; [exact B|]. split; [exact D|discriminate].
    + injection E as E _. congruence.
    + injection E as E _. congruence.
Qed.

(** ** Reading off values *)

Lemma get_many_app : forall a b id, get_many (a ++ b) id = get_many a id ++ get_many b id.
Proof. intros. unfold get_many. rewrite filter_app, map_app. reflexivity. Qed.

Lemma get_many_one : forall x v id, get_many [(x, v)] id = if bytes_eqb x id then [v] else [].
Proof. intros. unfold get_many. cbn. destruct (bytes_eqb x id); reflexivity. Qed.

Lemma has_many : forall m id, has m id = match get_many m id with [] => false | _ => true end.
Proof.
  intros m id. unfold has, get_many. induction m as [|[x v] m IH]; [reflexivity|]. cbn. destruct (bytes_eqb x id); [reflexivity|]. exact IH.
Qed.

Lemma has_one : forall m id, has m id = match get_one m id with None => false | Some _ => true end.
Proof. intros m id. rewrite has_many. unfold get_one. destruct (get_many m id); reflexivity. Qed.

(** the values of an argument are admissible, and not more than one if it cannot be
    repeated *)
Definition fit_at (id : bytes) (ar : arity) (ty : value_type) (m : list (bytes * bytes)) : Prop :=
  (ar <> AFlag -> Forall (fun v => value_ok ty v = true) (get_many m id)) /\ (ar <> AMany -> (length (get_many m id) <= 1)%nat).
Definition fit (m : list (bytes * bytes)) (a : arg) : Prop := fit_at (g_id a) (g_arity a) (g_type a) m.

Lemma fit_app : forall m l a, fit (m ++ l) a -> fit m a.
Proof.
  intros m l a [H1 H2]. unfold fit, fit_at in *. rewrite get_many_app in *. split.
  - intros N. apply H1 in N. apply Forall_app in N. tauto.
  - intros N. apply H2 in N. rewrite app_length in N. lia.
Qed.

Section Values.
  Variable c : arg_spec.
  Hypothesis T : tidy_table c.

  Definition fits (m : list (bytes * bytes)) : Prop := Forall (fit m) (args c).

  Lemma fits_app : forall m l, fits (m ++ l) -> fits m.
  Proof. intros m l H. eapply Forall_impl; [|exact H]. intros a. apply fit_app. Qed.

  Lemma push_iff : forall a v m m', In a (args c) -> fits m -> (push a v m = PGiven m' <-> m' = m ++ [(g_id a, v)] /\ fits m').
  Proof.
    intros a v m m' Ha F. unfold push. pose proof (proj1 (Forall_forall _ _) F a Ha) as [F1 F2].
    assert (K : fits (m ++ [(g_id a, v)]) <->
                (match g_arity a with AFlag => true | _ => value_ok (g_type a) v end)
                && (match g_arity a with AMany => true | _ => negb (has m (g_id a)) end) = true).
    { split.
      - intros G. pose proof (proj1 (Forall_forall _ _) G a Ha) as [G1 G2]. rewrite get_many_app, get_many_one, bytes_eqb_refl in G1, G2.
        rewrite app_length in G2. cbn [length] in G2. rewrite has_many. apply andb_true_iff. split.
        + destruct (g_arity a); [reflexivity|..]; (assert (N : Forall (fun v0 => value_ok (g_type a) v0 = true) (get_many m (g_id a) ++ [v])) by (apply G1; discriminate));
            apply Forall_app in N as [_ N]; inversion N; assumption.
        + destruct (g_arity a); [| |reflexivity]; (assert (N : (length (get_many m (g_id a)) + 1 <= 1)%nat) by (apply G2; discriminate));
            destruct (get_many m (g_id a)); cbn in N; try lia; reflexivity.
      - intros B. apply andb_true_iff in B as [B1 B2]. apply Forall_forall. intros b Hb. unfold fit, fit_at. rewrite get_many_app, get_many_one.
        destruct (bytes_eqb (g_id a) (g_id b)) eqn:E.
        + apply bytes_eqb_eq in E. apply (ids_inj c T) in E; [|assumption..]. subst b. split.
          * intros N. apply Forall_app. split; [apply F1, N|]. constructor; [|constructor]. destruct (g_arity a); [congruence|exact B1..].
          * intros N. rewrite has_many in B2. destruct (get_many m (g_id a)); [cbn; lia|]. destruct (g_arity a); [discriminate B2..|congruence].
        + rewrite app_nil_r. exact (proj1 (Forall_forall _ _) F b Hb). }
    destruct (_ && _) eqn:B.
    - split; [intros E; injection E as <-; split; [reflexivity|]; apply K; reflexivity|]. intros [-> _]. reflexivity.
    - split; [discriminate|]. intros [-> G]. apply K in G. discriminate.
  Qed.

  (** the arguments with their names *)
  Fixpoint label (n : nat) (its : list item) : option (list (bytes * bytes)) :=
    match its with
    | [] => Some []
    | ISwitch x :: r => option_map (cons (x, [])) (label n r)
    | IOption x v :: r => option_map (cons (x, v)) (label n r)
    | IName v :: r =>
        match nth_error (s_positionals c) n with
        | None => None
        | Some a => option_map (cons (g_id a, v)) (label (match g_arity a with AMany => n | _ => S n end) r)
        end
    end.

  Definition typed (its : list item) : Prop :=
    Forall (fun i => match i with
                     | ISwitch x => exists a, find_id c x = Some a /\ takes a = false
                     | IOption x _ => exists a, find_id c x = Some a /\ takes a = true
                     | IName _ => True
                     end) its.

  Lemma letter_typed : forall n x b, letter (table_of c) n x b -> exists a, find_id c n = Some a /\ takes a = b.
  Proof.
    intros n x b H. apply (letter_iff c T) in H as (a & F & E1 & E2). exists a. split; [|exact E2]. rewrite <- E1.
    apply (find_id_in c T). apply (find_short_in _ _ _ F).
  Qed.

  Lemma written_typed : forall n b, written_out (table_of c) n b -> exists a, find_id c n = Some a /\ takes a = b.
  Proof.
    intros n b H. apply (written_out_iff c T) in H as (a & F & E2). exists a. split; [|exact E2].
    apply (find_long_in c T) in F as (F1 & F2 & _). rewrite <- F2. apply (find_id_in c T). exact F1.
  Qed.

  Lemma switches_typed : forall fs t, switches (table_of c) fs t -> typed fs.
  Proof.
    intros fs t H. induction H as [|n x its t L H IH]; [constructor|]. constructor; [|exact IH]. eapply letter_typed, L.
  Qed.

  Lemma spelled_typed : forall its ts, spelled (table_of c) its ts -> typed its.
  Proof.
    intros its ts H. unfold typed. induction H.
    - constructor.
    - constructor; [apply written_typed; assumption|assumption].
    - constructor; [apply written_typed; assumption|assumption].
    - constructor; [apply written_typed; assumption|assumption].
    - apply Forall_app. split; [eapply switches_typed; eassumption|assumption].
    - apply Forall_app. split; [eapply switches_typed; eassumption|]. constructor; [eapply letter_typed; eassumption|assumption].
    - apply Forall_app. split; [eapply switches_typed; eassumption|]. constructor; [eapply letter_typed; eassumption|assumption].
    - apply Forall_app. split; [eapply switches_typed; eassumption|]. constructor; [eapply letter_typed; eassumption|assumption].
    - constructor; [exact I|assumption].
    - apply Forall_forall. intros i Hi. apply in_map_iff in Hi as (v & <- & _). exact I.
  Qed.

  Lemma take_iff : forall its, typed its -> forall n m m', fits m ->
    (take c n m its = PGiven m' <-> exists l, label n its = Some l /\ m' = m ++ l /\ fits m').
  Proof.
    intros its H. induction H as [|i its Hi H IH]; intros n m m' F.
    - cbn. split; [intros E; injection E as <-; exists []; rewrite app_nil_r; auto|]. intros (l & E & -> & _). injection E as <-.
      rewrite app_nil_r. reflexivity.
    - assert (K : forall a v n', In a (args c) ->
        (pbind (push a v m) (fun m1 => take c n' m1 its) = PGiven m'
         <-> exists l, option_map (cons (g_id a, v)) (label n' its) = Some l /\ m' = m ++ l /\ fits m')).
      { intros a v n' Ha. split.
        - intros E. apply pbind_given in E as (m1 & P & E). apply push_iff in P as [-> P]; [|assumption..].
          apply IH in E as (l & E & -> & G); [|exact P]. exists ((g_id a, v) :: l). rewrite E. split; [reflexivity|].
          rewrite <- app_assoc in *. auto.
        - intros (l & E & -> & G). destruct (label n' its) as [l'|] eqn:L; [|discriminate]. injection E as <-.
          assert (P : fits (m ++ [(g_id a, v)])) by (apply (fits_app _ l'); rewrite <- app_assoc; exact G).
          rewrite (proj2 (push_iff a v m _ Ha F) (conj eq_refl P)). cbn [pbind]. apply IH; [exact P|]. exists l'. rewrite <- app_assoc. auto. }
      destruct i as [x|x v|v]; cbn [take label].
      + destruct Hi as (a & E & _). rewrite E. apply find_some in E as [E1 E2]. apply bytes_eqb_eq in E2. subst x. apply K. apply opt_arg, E1.
      + destruct Hi as (a & E & _). rewrite E. apply find_some in E as [E1 E2]. apply bytes_eqb_eq in E2. subst x. apply K. apply opt_arg, E1.
      + unfold positional. destruct (nth_error (s_positionals c) n) as [a|] eqn:N.
        * rewrite pbind_assoc. cbn [pbind]. apply K. apply pos_arg. eapply nth_error_In, N.
        * cbn. split; [discriminate|]. intros (l & E & _). discriminate.
  Qed.

  Lemma fits_nil : fits [].
  Proof. apply Forall_forall. intros a _. split; intros _; [constructor|cbn; lia]. Qed.

  Lemma read_args_iff : (forall t, s_subcommand c t = None) -> forall ts m,
    read_args c ts = PGiven m <->
    exists its, spelled (table_of c) its ts /\ label 0 its = Some m /\ fits m /\ valid c m = true.
  Proof.
    intros NS ts m. unfold read_args. split.
    - intros H. apply pbind_given in H as ([m1 s] & P & H). destruct (valid c m1) eqn:V; [|discriminate]. injection H as <-.
      apply (parse_iff c T NS) in P as (_ & its & S & E). apply take_iff in E as (l & L & E & F); [|eapply spelled_typed, S|exact fits_nil].
      cbn [app] in E. subst l. exists its. auto.
    - intros (its & S & L & F & V). assert (P : parse_args c 0 [] ts = PGiven (m, None)).
      { apply (parse_iff c T NS). split; [reflexivity|]. exists its. split; [exact S|]. apply take_iff; [eapply spelled_typed, S|exact fits_nil|].
        exists m. auto. }
      rewrite P. cbn [pbind]. rewrite V. reflexivity.
  Qed.

  (** ** The values by name *)

  (** the values of the arguments without names *)
  Fixpoint label_names (n : nat) (vs : list bytes) : option (list (bytes * bytes)) :=
    match vs with
    | [] => Some []
    | v :: r =>
        match nth_error (s_positionals c) n with
        | None => None
        | Some a => option_map (cons (g_id a, v)) (label_names (match g_arity a with AMany => n | _ => S n end) r)
        end
    end.

  Lemma nodup_app : forall (A : Type) (l1 l2 : list A) x, NoDup (l1 ++ l2) -> In x l1 -> In x l2 -> False.
  Proof.
    intros A l1 l2 x H H1 H2. apply in_split in H1 as (a & b & ->). rewrite <- app_assoc in H. apply NoDup_remove_2 in H.
    apply H. apply in_or_app. right. apply in_or_app. right. exact H2.
  Qed.

  Lemma nodup_r : forall (A : Type) (l1 l2 : list A), NoDup (l1 ++ l2) -> NoDup l2.
  Proof. intros A l1 l2 H. induction l1 as [|x l IH]; [exact H|]. inversion H; auto. Qed.

  Lemma apart : forall a b, In a (s_options c) -> In b (s_positionals c) -> bytes_eqb (g_id a) (g_id b) = false.
  Proof.
    intros a b Ha Hb. apply bytes_eqb_neq. intros E. pose proof (tt_ids c T) as H. unfold args in H. rewrite map_app in H.
    eapply nodup_app; [exact H| |]; [apply in_map, Ha|rewrite E; apply in_map, Hb].
  Qed.

  Lemma find_id_some : forall x a, find_id c x = Some a -> In a (s_options c) /\ g_id a = x.
  Proof. intros x a E. apply find_some in E as [E1 E2]. apply bytes_eqb_eq in E2. auto. Qed.

  Lemma label_by_names : forall its, typed its -> forall n,
    match label n its, label_names n (names its) with
    | Some m, Some pl => forall b, In b (s_positionals c) -> get_many m (g_id b) = get_many pl (g_id b)
    | None, None => True
    | _, _ => False
    end.
  Proof.
    intros its H. induction H as [|i its Hi H IH]; intros n; [cbn; auto|].
    destruct i as [x|x v|v]; cbn [label names flat_map label_names app].
    - specialize (IH n). fold (names its). destruct (label n its), (label_names n (names its)); cbn [option_map]; try exact IH; try destruct IH.
      intros b Hb. rewrite <- (IH b Hb). destruct Hi as (a & E & _). apply find_id_some in E as [E1 <-].
      change ((g_id a, []) :: l) with ([(g_id a, [])] ++ l). rewrite get_many_app, get_many_one, (apart a b E1 Hb). reflexivity.
    - specialize (IH n). fold (names its). destruct (label n its), (label_names n (names its)); cbn [option_map]; try exact IH; try destruct IH.
      intros b Hb. rewrite <- (IH b Hb). destruct Hi as (a & E & _). apply find_id_some in E as [E1 <-].
      change ((g_id a, v) :: l) with ([(g_id a, v)] ++ l). rewrite get_many_app, get_many_one, (apart a b E1 Hb). reflexivity.
    - fold (names its). destruct (nth_error (s_positionals c) n) as [a|]; [|exact I].
      specialize (IH (match g_arity a with AMany => n | _ => S n end)).
      destruct (label _ its), (label_names _ (names its)); cbn [option_map]; try exact IH; try destruct IH.
      intros b Hb. change ((g_id a, v) :: l) with ([(g_id a, v)] ++ l). change ((g_id a, v) :: l0) with ([(g_id a, v)] ++ l0).
      rewrite !get_many_app, (IH b Hb). reflexivity.
  Qed.

  Section One.
    Variable its : list item.
    Variable m : list (bytes * bytes).
    Hypothesis Ty : typed its.
    Hypothesis L : label 0 its = Some m.

    Lemma label_values : forall its, typed its -> forall n m, label n its = Some m -> forall a, In a (s_options c) ->
      if takes a then get_many m (g_id a) = values its (g_id a) else length (get_many m (g_id a)) = length (switched its (g_id a)).
    Proof.
      clear its m Ty L. intros its H. induction H as [|i its Hi H IH]; intros n m L a Ha.
      - injection L as <-. destruct (takes a); reflexivity.
      - destruct i as [x|x v|v]; cbn [label] in L.
        + destruct (label n its) as [m1|] eqn:E; [|discriminate]. injection L as <-. specialize (IH _ _ E a Ha).
          change ((x, []) :: m1) with ([(x, []) : bytes * bytes] ++ m1). rewrite get_many_app, get_many_one.
          destruct Hi as (b & Hb & Tb). apply find_id_some in Hb as [Hb <-].
          unfold values, switched in *. cbn [flat_map filter]. destruct (bytes_eqb (g_id b) (g_id a)) eqn:Eb.
          * apply bytes_eqb_eq, (ids_inj c T) in Eb; [|apply opt_arg; assumption..]. subst b. rewrite Tb in IH |- *. cbn [app length]. congruence.
          * cbn [app]. exact IH.
        + destruct (label n its) as [m1|] eqn:E; [|discriminate]. injection L as <-. specialize (IH _ _ E a Ha).
          change ((x, v) :: m1) with ([(x, v) : bytes * bytes] ++ m1). rewrite get_many_app, get_many_one.
          destruct Hi as (b & Hb & Tb). apply find_id_some in Hb as [Hb <-].
          unfold values, switched in *. cbn [flat_map filter]. destruct (bytes_eqb (g_id b) (g_id a)) eqn:Eb.
          * apply bytes_eqb_eq, (ids_inj c T) in Eb; [|apply opt_arg; assumption..]. subst b. rewrite Tb in IH |- *. cbn [app]. congruence.
          * cbn [app]. exact IH.
        + destruct (nth_error (s_positionals c) n) as [p|] eqn:Np; [|discriminate].
          destruct (label _ its) as [m1|] eqn:E; [|discriminate]. injection L as <-. specialize (IH _ _ E a Ha).
          change ((g_id p, v) :: m1) with ([(g_id p, v) : bytes * bytes] ++ m1). rewrite get_many_app, get_many_one.
          replace (bytes_eqb (g_id p) (g_id a)) with false.
          2:{ symmetry. apply bytes_eqb_neq. intros C. apply nth_error_In in Np. pose proof (apart a p Ha Np) as B. rewrite C, bytes_eqb_refl in B. discriminate. }
          cbn [app]. unfold values, switched in *. cbn [flat_map filter app]. exact IH.
    Qed.

    (** an option by its name, with its arity and type *)
    Definition has_opt (id : bytes) (ar : arity) (ty : value_type) : Prop :=
      match find_id c id with Some a => g_arity a = ar /\ g_type a = ty | None => False end.

    Lemma flag_values : forall id ty, has_opt id AFlag ty -> length (get_many m id) = length (switched its id).
    Proof.
      intros id ty H. unfold has_opt in H. destruct (find_id c id) as [a|] eqn:F; [|destruct H]. apply find_id_some in F as [F <-].
      pose proof (label_values its Ty 0 m L a F) as V. unfold takes in V. rewrite (proj1 H) in V. exact V.
    Qed.

    Lemma option_values : forall id ar ty, has_opt id ar ty -> ar <> AFlag -> get_many m id = values its id.
    Proof.
      intros id ar ty H N. unfold has_opt in H. destruct (find_id c id) as [a|] eqn:F; [|destruct H]. apply find_id_some in F as [F <-].
      pose proof (label_values its Ty 0 m L a F) as V. unfold takes in V. rewrite (proj1 H) in V. destruct ar; [congruence|exact V..].
    Qed.

    Lemma switch_iff : forall n ty b, has_opt (lit n) AFlag ty -> (switch its n b <-> fit_at (lit n) AFlag ty m /\ b = get_flag m (lit n)).
    Proof.
      intros n ty b H. unfold switch, fit_at, get_flag. rewrite has_many, <- (flag_values _ _ H). destruct (get_many m (lit n)) as [|x [|y l]]; cbn [length].
      - split; [intros E|intros [_ ->]; reflexivity]. destruct b; [discriminate|]. repeat split; try constructor; auto.
      - split; [intros E|intros [_ ->]; reflexivity]. destruct b; [|discriminate]. split; [|reflexivity]. split; [congruence|auto].
      - split; [destruct b; discriminate|]. intros [[_ B] _]. specialize (B ltac:(discriminate)). lia.
    Qed.

    (** the options with a value, in general *)
    Lemma single_iff : forall id ty, has_opt id AOne ty ->
      (fit_at id AOne ty m <-> match values its id with [] => True | [v] => value_ok ty v = true | _ => False end)
      /\ get_one m id = match values its id with v :: _ => Some v | [] => None end.
    Proof.
      intros id ty H. unfold fit_at, get_one. rewrite (option_values _ _ _ H) by discriminate. split; [|reflexivity].
      destruct (values its id) as [|v [|w l]].
      - split; [auto|]. intros _. split; [constructor|cbn; auto].
      - split; [intros [A _]; specialize (A ltac:(discriminate)); inversion A; assumption|]. intros A. split; [repeat constructor; exact A|cbn; auto].
      - split; [intros [_ B]; specialize (B ltac:(discriminate)); cbn in B; lia|intros []].
    Qed.

    Lemma multiple_iff : forall id ty, has_opt id AMany ty ->
      (fit_at id AMany ty m <-> Forall (fun v => value_ok ty v = true) (values its id)) /\ get_many m id = values its id.
    Proof.
      intros id ty H. unfold fit_at. rewrite (option_values _ _ _ H) by discriminate. split; [|reflexivity].
      split; [intros [A _]; apply A; discriminate|]. intros A. split; [intros _; exact A|congruence].
    Qed.

    Lemma value_iff : forall n o, has_opt (lit n) AOne VOs -> (value its n o <-> fit_at (lit n) AOne VOs m /\ o = get_one m (lit n)).
    Proof.
      intros n o H. destruct (single_iff _ _ H) as [S G]. rewrite S, G. unfold value. destruct (values its (lit n)) as [|v [|w l]].
      - split; [destruct o; [discriminate|auto]|]. intros [_ ->]. reflexivity.
      - split; [destruct o; [intros E; injection E as <-; auto|discriminate]|]. intros [_ ->]. reflexivity.
      - split; [destruct o; discriminate|intros [[] _]].
    Qed.

    Lemma text_iff : forall n o, has_opt (lit n) AOne VString -> (text its n o <-> fit_at (lit n) AOne VString m /\ o = get_one m (lit n)).
    Proof.
      intros n o H. destruct (single_iff _ _ H) as [S G]. rewrite S, G. unfold text, value. destruct (values its (lit n)) as [|v [|w l]].
      - split; [intros [E _]; destruct o; [discriminate|auto]|]. intros [_ ->]. split; [reflexivity|discriminate].
      - split.
        + intros [E U]. destruct o; [|discriminate]. injection E as <-. split; [|reflexivity]. apply utf8_valid_iff. apply U. reflexivity.
        + intros [U ->]. split; [reflexivity|]. intros x E. injection E as <-. apply utf8_valid_iff, U.
      - split; [intros [E _]; destruct o; discriminate|intros [[] _]].
    Qed.

    Lemma file_iff : forall n o, has_opt (lit n) AOne VPath -> (file its n o <-> fit_at (lit n) AOne VPath m /\ o = get_one m (lit n)).
    Proof.
      intros n o H. destruct (single_iff _ _ H) as [S G]. rewrite S, G. unfold file, value. destruct (values its (lit n)) as [|v [|w l]].
      - split; [intros [E _]; destruct o; [discriminate|auto]|]. intros [_ ->]. split; [reflexivity|discriminate].
      - split.
        + intros [E U]. destruct o; [|discriminate]. injection E as <-. split; [|reflexivity]. destruct v; [congruence|reflexivity].
        + intros [U ->]. split; [reflexivity|]. intros E. injection E as ->. discriminate.
      - split; [intros [E _]; destruct o; discriminate|intros [[] _]].
    Qed.

    Lemma any_iff : forall n l, has_opt (lit n) AMany VOs -> (values its (lit n) = l <-> fit_at (lit n) AMany VOs m /\ l = get_many m (lit n)).
    Proof.
      intros n l H. destruct (multiple_iff _ _ H) as [S G]. rewrite S, G. split; [|intros [_ E]; auto]. intros <-. split; [|reflexivity].
      apply Forall_forall. reflexivity.
    Qed.

    Lemma texts_iff : forall n l, has_opt (lit n) AMany VString -> (texts its n l <-> fit_at (lit n) AMany VString m /\ l = get_many m (lit n)).
    Proof.
      intros n l H. destruct (multiple_iff _ _ H) as [S G]. rewrite S, G. unfold texts. split.
      - intros [<- U]. split; [|reflexivity]. eapply Forall_impl; [|exact U]. intros v. apply utf8_valid_iff.
      - intros [U ->]. split; [reflexivity|]. eapply Forall_impl; [|exact U]. intros v. apply utf8_valid_iff.
    Qed.

    Lemma files_iff : forall n l, has_opt (lit n) AMany VPath -> (files its n l <-> fit_at (lit n) AMany VPath m /\ l = get_many m (lit n)).
    Proof.
      intros n l H. destruct (multiple_iff _ _ H) as [S G]. rewrite S, G. unfold files. split.
      - intros [<- U]. split; [|reflexivity]. eapply Forall_impl; [|exact U]. intros [|x v]; [congruence|reflexivity].
      - intros [U ->]. split; [reflexivity|]. eapply Forall_impl; [|exact U]. intros [|x v]; [discriminate|discriminate].
    Qed.

    Lemma text_or_iff : forall n d v, has_opt (lit n) AOne VString ->
      (text_or its n d v <-> fit_at (lit n) AOne VString m /\ v = get_or m (lit n) d).
    Proof.
      intros n d v H. destruct (single_iff _ _ H) as [S G]. unfold get_or. rewrite S, G. unfold text_or. destruct (values its (lit n)) as [|x [|w l]].
      - split; [intros [[_ E]|[E _]]; [auto|discriminate]|]. intros [_ ->]. left. auto.
      - split.
        + intros [[E _]|[E U]]; [discriminate|]. injection E as <-. split; [apply utf8_valid_iff, U|reflexivity].
        + intros [U ->]. right. split; [reflexivity|apply utf8_valid_iff, U].
      - split; [intros [[E _]|[E _]]; discriminate|intros [[] _]].
    Qed.

    Lemma file_or_iff : forall n d v, has_opt (lit n) AOne VPath ->
      (file_or its n d v <-> fit_at (lit n) AOne VPath m /\ v = get_or m (lit n) d).
    Proof.
      intros n d v H. destruct (single_iff _ _ H) as [S G]. unfold get_or. rewrite S, G. unfold file_or. destruct (values its (lit n)) as [|x [|w l]].
      - split; [intros [[_ E]|[E _]]; [auto|discriminate]|]. intros [_ ->]. left. auto.
      - split.
        + intros [[E _]|[E U]]; [discriminate|]. injection E as <-. split; [destruct x; [congruence|reflexivity]|reflexivity].
        + intros [U ->]. right. split; [reflexivity|]. intros ->. discriminate.
      - split; [intros [[E _]|[E _]]; discriminate|intros [[] _]].
    Qed.

    (** an option whose value stands for something *)
    Lemma meaning_iff : forall A (f : bytes -> option A) (R : bytes -> A -> Prop) id ty (d a : A), (forall v a, f v = Some a <-> R v a) ->
      (forall v, value_ok ty v = match f v with Some _ => true | None => false end) -> has_opt id AOne ty ->
      ((values its id = [] /\ a = d \/ exists t, values its id = [t] /\ R t a)
       <-> fit_at id AOne ty m /\ a = match get_one m id with Some v => match f v with Some a => a | None => d end | None => d end).
    Proof.
      intros A f R id ty d a HR HV H. destruct (single_iff _ _ H) as [S G]. rewrite S, G. destruct (values its id) as [|x [|w l]].
      - split; [intros [[_ E]|(t & E & _)]; [auto|discriminate]|]. intros [_ ->]. left. auto.
      - rewrite HV. split.
        + intros [[E _]|(t & E & U)]; [discriminate|]. injection E as <-. apply HR in U. rewrite U. auto.
        + intros [U ->]. right. exists x. split; [reflexivity|]. apply HR. destruct (f x); [reflexivity|discriminate].
      - split; [intros [[E _]|(t & E & _)]; discriminate|intros [[] _]].
    Qed.

    Lemma meaning_opt_iff : forall A (f : bytes -> option A) (R : bytes -> A -> Prop) id ty (o : option A), (forall v a, f v = Some a <-> R v a) ->
      (forall v, value_ok ty v = match f v with Some _ => true | None => false end) -> has_opt id AOne ty ->
      ((values its id = [] /\ o = None \/ exists t a, values its id = [t] /\ R t a /\ o = Some a)
       <-> fit_at id AOne ty m /\ o = match get_one m id with Some v => f v | None => None end).
    Proof.
      intros A f R id ty o HR HV H. destruct (single_iff _ _ H) as [S G]. rewrite S, G. destruct (values its id) as [|x [|w l]].
      - split; [intros [[_ E]|(t & a & E & _)]; [auto|discriminate]|]. intros [_ ->]. left. auto.
      - rewrite HV. split.
        + intros [[E _]|(t & a & E & U & ->)]; [discriminate|]. injection E as <-. apply HR in U. rewrite U. auto.
        + intros [U ->]. right. destruct (f x) as [a|] eqn:Fx; [|discriminate]. exists x, a. apply HR in Fx. auto.
      - split; [intros [[E _]|(t & a & E & _)]; discriminate|intros [[] _]].
    Qed.
  End One.

  (** ** Arguments without names *)

  (** files at the end *)
  Definition ends_files (id : bytes) : Prop :=
    exists f, s_positionals c = [f] /\ g_id f = id /\ g_arity f = AMany /\ g_type f = VOs.
  Definition one_then_files (x : bytes) (ty : value_type) (id : bytes) : Prop :=
    exists a f, s_positionals c = [a; f] /\ g_id a = x /\ g_arity a = AOne /\ g_type a = ty
                /\ g_id f = id /\ g_arity f = AMany /\ g_type f = VOs.

  Lemma many_label : forall n f vs, nth_error (s_positionals c) n = Some f -> g_arity f = AMany ->
    label_names n vs = Some (map (fun v => (g_id f, v)) vs).
  Proof.
    intros n f vs N A. induction vs as [|v vs IH]; [reflexivity|]. cbn [label_names map]. rewrite N, A, IH. reflexivity.
  Qed.

  Lemma get_many_map : forall id x vs, get_many (map (fun v => (x, v)) vs) id = if bytes_eqb x id then vs else [].
  Proof.
    intros id x vs. induction vs as [|v vs IH]; [destruct (bytes_eqb x id); reflexivity|]. cbn [map].
    change ((x, v) :: map (fun v0 : bytes => (x, v0)) vs) with ([(x, v)] ++ map (fun v0 : bytes => (x, v0)) vs).
    rewrite get_many_app, get_many_one, IH. destruct (bytes_eqb x id); reflexivity.
  Qed.

  Lemma files_label : forall id its, typed its -> ends_files id ->
    exists m, label 0 its = Some m /\ get_many m id = names its /\ fit_at id AMany VOs m.
  Proof.
    intros id its Ty (f & P & E1 & E2 & E3). pose proof (label_by_names its Ty 0) as B.
    rewrite (many_label 0 f) in B by (rewrite ?P; auto). destruct (label 0 its) as [m|]; [|destruct B]. exists m. split; [reflexivity|].
    assert (G : get_many m id = names its).
    { rewrite <- E1, B by (rewrite P; left; reflexivity). rewrite get_many_map, bytes_eqb_refl. reflexivity. }
    split; [exact G|]. split; [|congruence]. intros _. apply Forall_forall. reflexivity.
  Qed.

  Lemma one_files_label : forall x ty id its, typed its -> one_then_files x ty id ->
    exists m, label 0 its = Some m /\ get_many m x = firstn 1 (names its) /\ get_many m id = skipn 1 (names its) /\ fit_at id AMany VOs m.
  Proof.
    intros x ty id its Ty (a & f & P & A1 & A2 & A3 & E1 & E2 & E3). pose proof (label_by_names its Ty 0) as B.
    assert (Nd : bytes_eqb x id = false).
    { apply bytes_eqb_neq. intros E. pose proof (tt_ids c T) as N. unfold args in N. rewrite map_app, P in N. apply nodup_r in N.
      cbn in N. inversion N as [|y l H1 H2]. apply H1. left. congruence. }
    assert (Nd' : bytes_eqb id x = false).
    { apply bytes_eqb_neq. apply bytes_eqb_neq in Nd. congruence. }
    assert (Lb : label_names 0 (names its) = Some (match names its with [] => [] | v :: r => (x, v) :: map (fun v => (id, v)) r end)).
    { destruct (names its) as [|v r]; [reflexivity|]. cbn [label_names]. rewrite P. cbn [nth_error]. rewrite A2, A1.
      rewrite (many_label 1 f), E1 by (rewrite ?P; auto). reflexivity. }
    rewrite Lb in B. destruct (label 0 its) as [m|]; [|destruct B]. exists m. split; [reflexivity|].
    assert (G : get_many m id = skipn 1 (names its)).
    { rewrite <- E1, B by (rewrite P; right; left; reflexivity). rewrite E1. destruct (names its) as [|v r]; [reflexivity|].
      change ((x, v) :: map (fun v => (id, v)) r) with ([(x, v)] ++ map (fun v => (id, v)) r).
      rewrite get_many_app, get_many_one, get_many_map, Nd, bytes_eqb_refl. reflexivity. }
    split; [|split; [exact G|split; [intros _; apply Forall_forall; reflexivity|congruence]]].
    rewrite <- A1, B by (rewrite P; left; reflexivity). rewrite A1. destruct (names its) as [|v r]; [reflexivity|].
    change ((x, v) :: map (fun v => (id, v)) r) with ([(x, v)] ++ map (fun v => (id, v)) r).
    rewrite get_many_app, get_many_one, get_many_map, Nd', bytes_eqb_refl. reflexivity.
  Qed.

  (** ** Conflicts and requirements *)

  (** both cannot be there *)
  Definition clashes : list (bytes * bytes) :=
    flat_map (fun a => flat_map (fun b => if clash a b then [(g_id a, g_id b)] else []) (args c)) (args c).
  (** the first asks for the second, unless one of the others is there *)
  Definition needs : list (bytes * bytes * list bytes) :=
    flat_map (fun a => flat_map (fun b => if existsb (bytes_eqb (g_id a)) (g_requires b)
                                          then [(g_id b, g_id a, map g_id (filter (clash a) (args c)))] else []) (args c)) (args c).
  Definition musts : list (bytes * list bytes) :=
    flat_map (fun a => if g_required a then [(g_id a, map g_id (filter (clash a) (args c)))] else []) (args c).

  Lemma valid_iff : forall m, valid c m = true <->
    Forall (fun p => has m (fst p) = true -> has m (snd p) = true -> False) clashes
    /\ Forall (fun p => has m (fst (fst p)) = true -> has m (snd (fst p)) = true \/ Exists (fun x => has m x = true) (snd p)) needs
    /\ Forall (fun p => has m (fst p) = true \/ Exists (fun x => has m x = true) (snd p)) musts.
  Proof.
    intros m. unfold valid. fold (args c). rewrite andb_true_iff, !forallb_forall, !Forall_forall.
    assert (Alt : forall a, existsb (clash a) (filter (fun a0 => has m (g_id a0)) (args c)) = true
                            <-> Exists (fun x => has m x = true) (map g_id (filter (clash a) (args c)))).
    { intros a. rewrite existsb_exists, Exists_exists. split.
      - intros (b & Hb & C). apply filter_In in Hb as [Hb1 Hb2]. exists (g_id b). split; [|exact Hb2]. apply in_map. apply filter_In. auto.
      - intros (x & Hx & Hh). apply in_map_iff in Hx as (b & <- & Hb). apply filter_In in Hb as [Hb1 Hb2]. exists b. split; [|exact Hb2].
        apply filter_In. auto. }
    split.
    - intros [H1 H2]. split; [|split].
      + intros p Hp. apply in_flat_map in Hp as (a & Ha & Hp). apply in_flat_map in Hp as (b & Hb & Hp). destruct (clash a b) eqn:C; [|destruct Hp].
        destruct Hp as [<-|[]]. cbn [fst snd]. intros A B. specialize (H1 a (proj2 (filter_In _ _ _) (conj Ha A))). cbv beta in H1. rewrite forallb_forall in H1.
        specialize (H1 b (proj2 (filter_In _ _ _) (conj Hb B))). cbv beta in H1. rewrite C in H1. discriminate.
      + intros p Hp. apply in_flat_map in Hp as (a & Ha & Hp). apply in_flat_map in Hp as (b & Hb & Hp).
        destruct (existsb (bytes_eqb (g_id a)) (g_requires b)) eqn:R; [|destruct Hp].
        destruct Hp as [<-|[]]. cbn [fst snd]. intros B. specialize (H2 a Ha). cbv beta in H2. rewrite !orb_true_iff, negb_true_iff, orb_false_iff in H2.
        destruct H2 as [[[_ H2]|H2]|H2]; [|left; exact H2|right; apply Alt, H2]. exfalso.
        assert (K : existsb (fun b => existsb (bytes_eqb (g_id a)) (g_requires b)) (filter (fun a0 => has m (g_id a0)) (args c)) = true); [|congruence].
        apply existsb_exists. exists b. split; [apply filter_In; auto|exact R].
      + intros p Hp. apply in_flat_map in Hp as (a & Ha & Hp). destruct (g_required a) eqn:R; [|destruct Hp]. destruct Hp as [<-|[]]. cbn [fst snd].
        specialize (H2 a Ha). cbv beta in H2. rewrite R in H2. rewrite !orb_true_iff in H2. destruct H2 as [[H2|H2]|H2]; [discriminate|left; exact H2|right; apply Alt, H2].
    - intros (H1 & H2 & H3). split.
      + intros a Ha. apply filter_In in Ha as [Ha A]. apply forallb_forall. intros b Hb. apply filter_In in Hb as [Hb B].
        destruct (clash a b) eqn:C; [|reflexivity]. exfalso. apply (H1 (g_id a, g_id b)); [|exact A|exact B].
        apply in_flat_map. exists a. split; [exact Ha|]. apply in_flat_map. exists b. split; [exact Hb|]. rewrite C. left. reflexivity.
      + intros a Ha. rewrite !orb_true_iff, Alt. rewrite negb_true_iff, orb_false_iff. destruct (g_required a) eqn:R.
        * assert (K : has m (g_id a) = true \/ Exists (fun x => has m x = true) (map g_id (filter (clash a) (args c)))); [|tauto].
          apply (H3 (g_id a, _)). apply in_flat_map. exists a. split; [exact Ha|]. rewrite R. left. reflexivity.
        * destruct (existsb _ (filter _ _)) eqn:X; [|left; left; auto].
          apply existsb_exists in X as (b & Hb & X). apply filter_In in Hb as [Hb B].
          assert (K : has m (g_id a) = true \/ Exists (fun x => has m x = true) (map g_id (filter (clash a) (args c)))); [|tauto].
          apply (H2 (g_id b, g_id a, _)); [|exact B]. apply in_flat_map. exists a. split; [exact Ha|]. apply in_flat_map. exists b. split; [exact Hb|].
          rewrite X. left. reflexivity.
  Qed.
End Values.

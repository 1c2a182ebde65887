(** * Proofs: the reader of command lines reads what is spelled *)

From Coq Require Import String.
From Verif Require Import Bytes BaseProofs ClapModel ArgsSpec.

Lemma pbind_assoc : forall A B C (x : parsed A) (f : A -> parsed B) (g : B -> parsed C),
  pbind (pbind x f) g = pbind x (fun a => pbind (f a) g).
Proof. intros A B C [] f g; reflexivity. Qed.

Lemma pbind_ext : forall A B (x : parsed A) (f g : A -> parsed B), (forall a, f a = g a) -> pbind x f = pbind x g.
Proof. intros A B [] f g H; cbn; auto. Qed.

Lemma pbind_given : forall A B (x : parsed A) (f : A -> parsed B) b, pbind x f = PGiven b -> exists a, x = PGiven a /\ f a = PGiven b.
Proof. intros A B [] f b H; cbn in H; try discriminate. eauto. Qed.

(** ** Words *)

Lemma hyphen_false : forall v, hyphen v = false <-> bare v.
Proof.
  intros v. unfold bare. change (lit "-") with [45]. split.
  - intros H. destruct v as [|x [|y v]].
    + right. intros r. discriminate.
    + destruct (N.eq_dec x 45) as [->|E]; [left; reflexivity|]. right. intros r C. injection C as C _. congruence.
    + cbn in H. right. intros r C. injection C as C _. subst x. discriminate.
  - intros [->|H]; [reflexivity|]. destruct v as [|x [|y v]]; [reflexivity..|]. cbn.
    apply N.eqb_neq. intros ->. apply (H (y :: v)). reflexivity.
Qed.

Lemma hyphen_true : forall t, hyphen t = true -> exists x r, t = 45 :: x :: r.
Proof. intros [|x [|y t]]; cbn; try discriminate. intros H. apply N.eqb_eq in H. subst. eauto. Qed.

Lemma split_eq_none : forall n, ~ In 61 n -> split_eq n = (n, None).
Proof.
  induction n as [|x n IH]; intros H; [reflexivity|]. cbn.
  destruct (N.eqb_spec x 61) as [->|E]; [exfalso; apply H; left; reflexivity|].
  rewrite IH; [reflexivity|]. intros C. apply H. right. exact C.
Qed.

Lemma split_eq_some : forall n v, ~ In 61 n -> split_eq (n ++ 61 :: v) = (n, Some v).
Proof.
  induction n as [|x n IH]; intros v H; [reflexivity|]. cbn.
  destruct (N.eqb_spec x 61) as [->|E]; [exfalso; apply H; left; reflexivity|].
  rewrite IH; [reflexivity|]. intros C. apply H. right. exact C.
Qed.

Lemma split_eq_inv : forall t n v, split_eq t = (n, v) -> t = match v with Some v => n ++ 61 :: v | None => n end.
Proof.
  induction t as [|x t IH]; intros n v H; cbn in H.
  - injection H as <- <-. reflexivity.
  - destruct (N.eqb_spec x 61) as [->|E].
    + injection H as <- <-. reflexivity.
    + destruct (split_eq t) as [n' v'] eqn:S. injection H as <- <-. rewrite (IH n' v' eq_refl). destruct v'; reflexivity.
Qed.

(** ** Tables *)

Definition takes (a : arg) : bool := match g_arity a with AFlag => false | _ => true end.
Definition opt_of (a : arg) : opt := mkOpt (g_id a) (match g_long a with Some _ => true | None => false end) (g_short a) (takes a).
Definition table_of (c : arg_spec) : list opt := map opt_of (s_options c).
Definition args (c : arg_spec) : list arg := s_options c ++ s_positionals c.

(** what every table keeps to *)
Record tidy_table (c : arg_spec) : Prop := {
  tt_ids : NoDup (map g_id (args c));
  tt_long : Forall (fun a => g_long a = None \/ g_long a = Some (g_id a)) (s_options c);
  tt_names : Forall (fun a => g_id a <> [] /\ ~ In 61 (g_id a)) (s_options c);
  tt_short : NoDup (flat_map (fun a => match g_short a with Some x => [x] | None => [] end) (s_options c));
  tt_letters : Forall (fun a => g_short a <> Some 45) (s_options c);
  tt_pos : Forall (fun a => g_arity a <> AFlag) (s_positionals c) }.

Section Clap.
  Variable c : arg_spec.
  Hypothesis T : tidy_table c.

  Lemma ids_inj : forall a b, In a (args c) -> In b (args c) -> g_id a = g_id b -> a = b.
  Proof.
    pose proof (tt_ids c T) as H. revert H. generalize (args c). induction l as [|x l IH]; intros H a b Ha Hb E; [destruct Ha|].
    cbn in H. inversion H; subst. destruct Ha as [->|Ha], Hb as [->|Hb]; auto.
    - exfalso. apply H2. rewrite E. apply in_map, Hb.
    - exfalso. apply H2. rewrite <- E. apply in_map, Ha.
  Qed.

  Lemma opt_arg : forall a, In a (s_options c) -> In a (args c).
  Proof. intros a H. apply in_or_app. left. exact H. Qed.
  Lemma pos_arg : forall a, In a (s_positionals c) -> In a (args c).
  Proof. intros a H. apply in_or_app. right. exact H. Qed.

  Definition find_id (n : bytes) : option arg := find (fun a => bytes_eqb (g_id a) n) (s_options c).

  Lemma find_id_in : forall a, In a (s_options c) -> find_id (g_id a) = Some a.
  Proof.
    intros a H. unfold find_id. destruct (find _ _) as [b|] eqn:F.
    - apply find_some in F as [F1 F2]. apply bytes_eqb_eq in F2. f_equal. apply ids_inj; auto using opt_arg.
    - apply (find_none _ _ F) in H. rewrite bytes_eqb_refl in H. discriminate.
  Qed.

  Lemma find_long_in : forall n a, find_long c n = Some a -> In a (s_options c) /\ g_id a = n /\ g_long a = Some n.
  Proof.
    intros n a F. apply find_some in F as [F1 F2]. pose proof (proj1 (Forall_forall _ _) (tt_long c T) a F1) as L. cbv beta in L.
    destruct L as [L|L]; rewrite L in F2; [discriminate|]. apply bytes_eqb_eq in F2. rewrite F2 in L. auto.
  Qed.

  Lemma find_long_ok : forall a, In a (s_options c) -> g_long a = Some (g_id a) -> find_long c (g_id a) = Some a.
  Proof.
    intros a H L. destruct (find_long c (g_id a)) as [b|] eqn:F.
    - apply find_long_in in F as (F1 & F2 & _). f_equal. apply ids_inj; auto using opt_arg.
    - apply (find_none _ _ F) in H. rewrite L, bytes_eqb_refl in H. discriminate.
  Qed.

  Lemma find_short_in : forall x a, find_short c x = Some a -> In a (s_options c) /\ g_short a = Some x.
  Proof.
    intros x a F. apply find_some in F as [F1 F2]. destruct (g_short a) as [y|]; [|discriminate]. apply N.eqb_eq in F2. subst. auto.
  Qed.

  Lemma find_short_ok : forall a x, In a (s_options c) -> g_short a = Some x -> find_short c x = Some a.
  Proof.
    pose proof (tt_short c T) as H. unfold find_short. revert H. induction (s_options c) as [|b l IH]; intros H a x Ha E; [destruct Ha|].
    cbn in H |- *. destruct Ha as [->|Ha].
    - rewrite E, N.eqb_refl. reflexivity.
    - destruct (g_short b) as [y|] eqn:Eb.
      + destruct (N.eqb_spec y x) as [->|N].
        * exfalso. cbn in H. inversion H; subst. apply H2. apply in_flat_map. exists a. split; [exact Ha|]. rewrite E. left. reflexivity.
        * cbn in H. inversion H; subst. apply IH; auto.
      + cbn in H. apply IH; auto.
  Qed.

  Lemma in_table : forall o, In o (table_of c) <-> exists a, In a (s_options c) /\ opt_of a = o.
  Proof. intros o. unfold table_of. rewrite in_map_iff. split; intros (a & H1 & H2); exists a; auto. Qed.

  Lemma written_out_iff : forall n b, written_out (table_of c) n b <-> exists a, find_long c n = Some a /\ takes a = b.
  Proof.
    intros n b. split.
    - intros (x & H). apply in_table in H as (a & Ha & E). unfold opt_of in E. injection E as E1 E2 E3 E4. exists a. split; [|exact E4].
      pose proof (proj1 (Forall_forall _ _) (tt_long c T) a Ha) as L. cbv beta in L. destruct (g_long a) as [l|] eqn:Lo; [|discriminate].
      destruct L as [L|L]; [discriminate|]. rewrite <- E1. apply find_long_ok; [exact Ha|]. congruence.
    - intros (a & F & E). apply find_long_in in F as (F1 & F2 & F3). exists (g_short a). apply in_table. exists a. split; [exact F1|].
      unfold opt_of. rewrite F3, F2, E. reflexivity.
  Qed.

  Lemma letter_iff : forall n x b, letter (table_of c) n x b <-> exists a, find_short c x = Some a /\ g_id a = n /\ takes a = b.
  Proof.
    intros n x b. split.
    - intros (l & H). apply in_table in H as (a & Ha & E). unfold opt_of in E. injection E as E1 E2 E3 E4. exists a.
      split; [|auto]. apply find_short_ok; assumption.
    - intros (a & F & E1 & E2). apply find_short_in in F as (F1 & F2). eexists. apply in_table. exists a. split; [exact F1|].
      unfold opt_of. rewrite F2, E1, E2. reflexivity.
  Qed.

  (** ** Taking items one after the other *)

  Fixpoint take (n : nat) (m : list (bytes * bytes)) (its : list item) : parsed (list (bytes * bytes)) :=
    match its with
    | [] => PGiven m
    | ISwitch x :: r => match find_id x with Some a => pbind (push a [] m) (fun m' => take n m' r) | None => PError end
    | IOption x v :: r => match find_id x with Some a => pbind (push a v m) (fun m' => take n m' r) | None => PError end
    | IName v :: r => pbind (positional c n m v) (fun '(n', m') => take n' m' r)
    end.

  Lemma take_switches : forall fs t, switches (table_of c) fs t -> forall n m its,
    take n m (fs ++ its) = pbind (take 0 m fs) (fun m' => take n m' its).
  Proof.
    intros fs t H. induction H as [|x l its t L H IH]; intros n m its'; [reflexivity|].
    cbn [app take]. destruct (find_id x); [|reflexivity]. rewrite pbind_assoc. apply pbind_ext. intros m'. apply IH.
  Qed.

  Lemma shorts_switches : forall fs t, switches (table_of c) fs t -> forall m rest,
    shorts c m (t ++ rest) = pbind (take 0 m fs) (fun m' => shorts c m' rest).
  Proof.
    intros fs t H. induction H as [|x l its t L H IH]; intros m rest; [reflexivity|].
    apply letter_iff in L as (a & F & E1 & E2). cbn [app shorts take]. rewrite F. rewrite <- E1, find_id_in by apply (find_short_in _ _ F).
    unfold takes in E2. destruct (g_arity a); try discriminate. rewrite pbind_assoc. apply pbind_ext. intros m'. apply IH.
  Qed.

  Lemma shorts_inv : forall t m w m', shorts c m t = PGiven (w, m') ->
    exists fs t0, switches (table_of c) fs t0 /\
    match w with
    | Some a => exists x, t = t0 ++ [x] /\ find_short c x = Some a /\ takes a = true /\ take 0 m fs = PGiven m'
    | None => t = t0
              \/ exists x a v, find_short c x = Some a /\ takes a = true
                   /\ (t = t0 ++ x :: v /\ v <> [] /\ (forall r, v <> 61 :: r) \/ t = t0 ++ x :: 61 :: v)
    end.
  Proof.
    induction t as [|x t IH]; intros m w m' H; cbn in H.
    - injection H as <- <-. exists [], []. split; [constructor|]. left. reflexivity.
    - destruct (find_short c x) as [a|] eqn:F; [|destruct (x =? 104); [discriminate|]; destruct (s_version c && (x =? 86)); discriminate].
      destruct (takes a) eqn:Ta.
      + assert (H' : match t with [] => PGiven (Some a, m) | y :: v => pbind (push a (if y =? 61 then v else t) m) (fun m' => PGiven (None, m')) end
                     = PGiven (w, m')).
        { unfold takes in Ta. destruct (g_arity a); [discriminate|exact H..]. }
        exists [], []. split; [constructor|]. destruct t as [|y t].
        * injection H' as <- <-. exists x. auto.
        * apply pbind_given in H' as (m1 & _ & E). injection E as <- <-. right. exists x, a.
          destruct (N.eqb_spec y 61) as [->|Ny].
          -- exists t. split; [exact F|]. split; [exact Ta|]. right. reflexivity.
          -- exists (y :: t). split; [exact F|]. split; [exact Ta|]. left. split; [reflexivity|]. split; [discriminate|].
             intros r C. injection C as -> _. congruence.
      + assert (H' : pbind (push a [] m) (fun m' => shorts c m' t) = PGiven (w, m')).
        { unfold takes in Ta. destruct (g_arity a); [exact H|discriminate..]. }
        apply pbind_given in H' as (m1 & P & H1). destruct (IH _ _ _ H1) as (fs & t0 & S & D).
        exists (ISwitch (g_id a) :: fs), (x :: t0). split.
        { constructor; [|exact S]. apply letter_iff. eauto. }
        assert (Tk : forall m2, take 0 m1 fs = PGiven m2 -> take 0 m (ISwitch (g_id a) :: fs) = PGiven m2).
        { intros m2 E. cbn. rewrite find_id_in by apply (find_short_in _ _ F). rewrite P. exact E. }
        destruct w as [b|].
        * destruct D as (y & -> & Fy & Ty & E). exists y. repeat split; auto.
        * destruct D as [->|(y & b & v & Fy & Ty & D)]; [left; reflexivity|]. right. exists y, b, v. split; [exact Fy|]. split; [exact Ty|].
          destruct D as [(-> & Dv & De)| ->]; [left|right]; auto.
  Qed.

  Hypothesis no_subcommands : forall t, s_subcommand c t = None.

  Definition waiting (n : nat) (a : arg) (m : list (bytes * bytes)) (rest : list bytes) :=
    match rest with
    | [] => PError
    | v :: rest' => if hyphen v then PError else pbind (push a v m) (fun m' => parse_args c n m' rest')
    end.

  Lemma parse_cons : forall n m t rest, parse_args c n m (t :: rest) =
    if bytes_eqb t (lit "--") then pbind (positionals c n m rest) (fun m' => PGiven (m', None))
    else if starts_with t (lit "--") then
      let '(name, value) := split_eq (skipn 2 t) in
      match find_long c name with
      | Some a =>
          if takes a then match value with
                          | Some v => pbind (push a v m) (fun m' => parse_args c n m' rest)
                          | None => waiting n a m rest
                          end
          else match value with Some _ => PError | None => pbind (push a [] m) (fun m' => parse_args c n m' rest) end
      | None =>
          match value with
          | Some _ => PError
          | None => if bytes_eqb name (lit "help") then PHelp
                    else if s_version c && bytes_eqb name (lit "version") then PVersion else PError
          end
      end
    else if hyphen t then
      pbind (shorts c m (skipn 1 t)) (fun '(a, m') => match a with Some a => waiting n a m' rest | None => parse_args c n m' rest end)
    else pbind (positional c n m t) (fun '(n', m') => parse_args c n' m' rest).
  Proof.
    intros. cbn [parse_args]. rewrite no_subcommands. unfold waiting.
    destruct (bytes_eqb t (lit "--")); [reflexivity|]. destruct (starts_with t (lit "--")).
    - destruct (split_eq (skipn 2 t)) as [name value]. destruct (find_long c name) as [a|]; [|reflexivity].
      unfold takes. destruct (g_arity a), value; reflexivity.
    - reflexivity.
  Qed.

  Lemma parse_long : forall n m x rest a value, ~ In 61 x -> x <> [] -> find_long c x = Some a ->
    parse_args c n m ((lit "--" ++ x ++ match value with Some v => 61 :: v | None => [] end) :: rest) =
      (if takes a then match value with
                          | Some v => pbind (push a v m) (fun m' => parse_args c n m' rest)
                          | None => waiting n a m rest
                          end
          else match value with Some _ => PError | None => pbind (push a [] m) (fun m' => parse_args c n m' rest) end).
  Proof.
    intros n m x rest a value Hx Hn F. rewrite parse_cons. change (lit "--") with [45; 45].
    replace (bytes_eqb _ _) with false by (destruct x; [congruence|reflexivity]).
    replace (starts_with _ _) with true by (destruct x; [congruence|reflexivity]). cbn [app skipn].
    replace (split_eq _) with (x, value) by (destruct value; [rewrite split_eq_some|rewrite app_nil_r, split_eq_none]; auto).
    rewrite F. reflexivity.
  Qed.

  Lemma name_ok : forall x a, find_long c x = Some a -> ~ In 61 x /\ x <> [].
  Proof.
    intros x a F. apply find_long_in in F as (F1 & F2 & _). pose proof (proj1 (Forall_forall _ _) (tt_names c T) a F1) as H.
    cbv beta in H. rewrite F2 in H. tauto.
  Qed.

  Lemma letter_dash : forall n b, ~ letter (table_of c) n 45 b.
  Proof.
    intros n b H. apply letter_iff in H as (a & F & _). apply find_short_in in F as (F1 & F2).
    exact (proj1 (Forall_forall _ _) (tt_letters c T) a F1 F2).
  Qed.

  (** words of letters *)
  Lemma parse_letters : forall n m t rest, t <> [] -> (forall r, t <> 45 :: r) ->
    parse_args c n m ((lit "-" ++ t) :: rest)
    = pbind (shorts c m t) (fun '(a, m') => match a with Some a => waiting n a m' rest | None => parse_args c n m' rest end).
  Proof.
    intros n m t rest Ht Hd. rewrite parse_cons. change (lit "-") with [45]. change (lit "--") with [45; 45].
    destruct t as [|x t]; [congruence|]. assert (E : (x =? 45) = false) by (apply N.eqb_neq; intros ->; apply (Hd t); reflexivity).
    cbn [app bytes_eqb starts_with]. rewrite E. reflexivity.
  Qed.

  Lemma switches_start : forall fs t n x b r, switches (table_of c) fs t -> letter (table_of c) n x b ->
    t ++ x :: r <> [] /\ (forall r', t ++ x :: r <> 45 :: r').
  Proof.
    intros fs t n x b r S L. destruct S as [|n' x' its t' L' S].
    - split; [discriminate|]. intros r' C. injection C as -> ->. exact (letter_dash _ _ L).
    - split; [discriminate|]. intros r' C. injection C as -> _. exact (letter_dash _ _ L').
  Qed.

  Lemma rest_names : forall vs n m, positionals c n m vs = take n m (map IName vs).
  Proof.
    induction vs as [|v vs IH]; intros n m; [reflexivity|]. cbn. apply pbind_ext. intros [n' m']. apply IH.
  Qed.

  (** what is spelled is read *)
  Lemma spelled_parse : forall its ts, spelled (table_of c) its ts -> forall n m,
    parse_args c n m ts = pbind (take n m its) (fun m' => PGiven (m', None)).
  Proof.
    intros its ts H. induction H as [|x its ts W H IH|x v its ts W H IH|x v its ts W B H IH|fs t its ts S Ht H IH
      |fs t x l v its ts S L V E H IH|fs t x l v its ts S L H IH|fs t x l v its ts S L B H IH|v its ts B H IH|vs]; intros n m.
    - reflexivity.
    - apply written_out_iff in W as (a & F & Ta). destruct (name_ok _ _ F) as [N1 N2].
      pose proof (parse_long n m x ts a None N1 N2 F) as P. cbn beta iota in P. rewrite app_nil_r in P. rewrite P, Ta.
      destruct (find_long_in _ _ F) as (F1 & F2 & _). cbn [take]. rewrite <- F2, find_id_in by exact F1. rewrite pbind_assoc.
      apply pbind_ext. intros m'. apply IH.
    - apply written_out_iff in W as (a & F & Ta). destruct (name_ok _ _ F) as [N1 N2].
      pose proof (parse_long n m x ts a (Some v) N1 N2 F) as P. cbn beta iota in P. change (lit "=" ++ v) with (61 :: v). rewrite P, Ta.
      destruct (find_long_in _ _ F) as (F1 & F2 & _). cbn [take]. rewrite <- F2, find_id_in by exact F1. rewrite pbind_assoc.
      apply pbind_ext. intros m'. apply IH.
    - apply written_out_iff in W as (a & F & Ta). destruct (name_ok _ _ F) as [N1 N2].
      pose proof (parse_long n m x (v :: ts) a None N1 N2 F) as P. cbn beta iota in P. rewrite app_nil_r in P. rewrite P, Ta. unfold waiting.
      rewrite (proj2 (hyphen_false v) B).
      destruct (find_long_in _ _ F) as (F1 & F2 & _). cbn [take]. rewrite <- F2, find_id_in by exact F1. rewrite pbind_assoc.
      apply pbind_ext. intros m'. apply IH.
    - rewrite parse_letters; [|exact Ht|].
      + pose proof (shorts_switches fs t S m []) as P. rewrite app_nil_r in P. rewrite P, (take_switches fs t S), !pbind_assoc.
        apply pbind_ext. intros m'. cbn [shorts pbind]. apply IH.
      + destruct S as [|x' l' its' t' L' S]; [congruence|]. intros r C. injection C as -> _. exact (letter_dash _ _ L').
    - destruct (switches_start fs t x l true v S L) as [Q1 Q2]. rewrite parse_letters by assumption.
      rewrite (shorts_switches fs t S), (take_switches fs t S), !pbind_assoc. apply pbind_ext. intros m'.
      apply letter_iff in L as (a & F & E1 & Ta). cbn [shorts take]. rewrite F, <- E1, find_id_in by apply (find_short_in _ _ F).
      unfold takes in Ta. destruct (g_arity a); [discriminate|..]; (destruct v as [|y v]; [congruence|]);
        (destruct (N.eqb_spec y 61) as [->|Ny]; [exfalso; apply (E v); reflexivity|]); rewrite !pbind_assoc; apply pbind_ext;
        intros m2; cbn [pbind]; apply IH.
    - destruct (switches_start fs t x l true (61 :: v) S L) as [Q1 Q2]. change (lit "=" ++ v) with (61 :: v). rewrite parse_letters by assumption.
      rewrite (shorts_switches fs t S), (take_switches fs t S), !pbind_assoc. apply pbind_ext. intros m'.
      apply letter_iff in L as (a & F & E1 & Ta). cbn [shorts take]. rewrite F, <- E1, find_id_in by apply (find_short_in _ _ F).
      unfold takes in Ta. rewrite N.eqb_refl. destruct (g_arity a); [discriminate|..]; rewrite !pbind_assoc; apply pbind_ext;
        intros m2; cbn [pbind]; apply IH.
    - destruct (switches_start fs t x l true [] S L) as [Q1 Q2]. rewrite parse_letters by assumption.
      rewrite (shorts_switches fs t S), (take_switches fs t S), !pbind_assoc. apply pbind_ext. intros m'.
      apply letter_iff in L as (a & F & E1 & Ta). cbn [shorts take]. rewrite F, <- E1, find_id_in by apply (find_short_in _ _ F).
      unfold takes in Ta. destruct (g_arity a); [discriminate|..]; cbn [pbind]; unfold waiting; rewrite (proj2 (hyphen_false v) B), !pbind_assoc;
        apply pbind_ext; intros m2; cbn [pbind]; apply IH.
    - rewrite parse_cons. replace (bytes_eqb v (lit "--")) with false.
      2:{ symmetry. apply bytes_eqb_neq. intros ->. apply hyphen_false in B. discriminate B. }
      replace (starts_with v (lit "--")) with false.
      2:{ symmetry. destruct (starts_with v (lit "--")) eqn:S; [|reflexivity]. exfalso. apply hyphen_false in B.
          destruct v as [|x1 [|x2 v]]; cbn in S; try discriminate; [rewrite andb_false_r in S; discriminate|].
          apply andb_true_iff in S as [S _]. cbn in B. congruence. }
      rewrite (proj2 (hyphen_false v) B). cbn [take]. rewrite pbind_assoc. apply pbind_ext. intros [n' m']. apply IH.
    - rewrite parse_cons. rewrite bytes_eqb_refl, rest_names. reflexivity.
  Qed.

  (** what is read is spelled *)
  Lemma parse_spelled : forall k ts, (length ts <= k)%nat -> forall n m r, parse_args c n m ts = PGiven r ->
    exists its, spelled (table_of c) its ts.
  Proof.
    induction k as [|k IH]; intros ts Hk n m r H.
    - destruct ts; [|cbn in Hk; lia]. exists []. constructor.
    - destruct ts as [|t rest]; [exists []; constructor|]. cbn [length] in Hk.
      assert (W : forall a m1, waiting n a m1 rest = PGiven r -> exists v ts its, rest = v :: ts /\ bare v /\ spelled (table_of c) its ts).
      { intros a m1 E. unfold waiting in E. destruct rest as [|v ts]; [discriminate|]. destruct (hyphen v) eqn:Hv; [discriminate|].
        apply pbind_given in E as (m2 & _ & E). destruct (IH ts ltac:(cbn in Hk; lia) _ _ _ E) as (its & S).
        exists v, ts, its. split; [reflexivity|]. split; [apply hyphen_false, Hv|exact S]. }
      rewrite parse_cons in H. destruct (bytes_eqb t (lit "--")) eqn:E1.
      { apply bytes_eqb_eq in E1. subst. exists (map IName rest). constructor. }
      destruct (starts_with t (lit "--")) eqn:E2.
      + assert (Et : t = lit "--" ++ skipn 2 t).
        { destruct t as [|x [|y t]]; cbn in E2; try discriminate; [rewrite andb_false_r in E2; discriminate|].
          apply andb_true_iff in E2 as [E2 E3]. apply andb_true_iff in E3 as [E3 _]. apply N.eqb_eq in E2, E3. subst. reflexivity. }
        destruct (split_eq (skipn 2 t)) as [name value] eqn:S. apply split_eq_inv in S.
        destruct (find_long c name) as [a|] eqn:F.
        2:{ destruct value; [discriminate|]. destruct (bytes_eqb name (lit "help")); [discriminate|].
            destruct (s_version c && bytes_eqb name (lit "version")); discriminate. }
        destruct (takes a) eqn:Ta.
        * assert (Wo : written_out (table_of c) name true) by (apply written_out_iff; eauto).
          destruct value as [v|].
          -- apply pbind_given in H as (m1 & _ & H). destruct (IH rest ltac:(lia) _ _ _ H) as (its & Sp).
             exists (IOption name v :: its). rewrite Et, S. apply (sp_equals (table_of c) name v); assumption.
          -- destruct (W _ _ H) as (v & ts & its & -> & B & Sp). exists (IOption name v :: its). rewrite Et, S. apply sp_apart; assumption.
        * destruct value as [v|]; [discriminate|]. apply pbind_given in H as (m1 & _ & H). destruct (IH rest ltac:(lia) _ _ _ H) as (its & Sp).
          exists (ISwitch name :: its). rewrite Et, S. apply sp_switch; [|exact Sp]. apply written_out_iff. eauto.
      + destruct (hyphen t) eqn:E3.
        * apply hyphen_true in E3 as (x & t' & ->). cbn [skipn] in H. apply pbind_given in H as ([w m1] & Sh & H).
          apply shorts_inv in Sh as (fs & t0 & Sw & D). change (45 :: x :: t') with (lit "-" ++ (x :: t')).
          destruct w as [a|].
          -- destruct D as (y & Ey & F & Ta & _). destruct (W _ _ H) as (v & ts & its & -> & B & Sp).
             rewrite Ey. exists (fs ++ IOption (g_id a) v :: its). apply sp_letter_apart; auto. apply letter_iff. eauto.
          -- destruct (IH rest ltac:(lia) _ _ _ H) as (its & Sp). destruct D as [Ey|(y & a & v & F & Ta & D)].
             ++ exists (fs ++ its). apply sp_letters; [rewrite Ey; exact Sw|discriminate|exact Sp].
             ++ exists (fs ++ IOption (g_id a) v :: its). destruct D as [(Ey & V & Eq)|Ey]; rewrite Ey.
                ** apply sp_letter_value; auto. apply letter_iff. eauto.
                ** apply (sp_letter_equals (table_of c) fs t0 (g_id a) y v); auto. apply letter_iff. eauto.
        * apply pbind_given in H as ([n' m1] & _ & H). destruct (IH rest ltac:(lia) _ _ _ H) as (its & Sp).
          exists (IName t :: its). apply sp_name; [apply hyphen_false, E3|exact Sp].
  Qed.

  Lemma parse_iff : forall ts n m m' s, parse_args c n m ts = PGiven (m', s) <->
    s = None /\ exists its, spelled (table_of c) its ts /\ take n m its = PGiven m'.
  Proof.
    intros ts n m m' s. split.
    - intros H. destruct (parse_spelled (length ts) ts (le_n _) _ _ _ H) as (its & S).
      rewrite (spelled_parse _ _ S) in H. apply pbind_given in H as (m2 & H & E). injection E as <- <-. split; [reflexivity|]. exists its. auto.
    - intros (-> & its & S & H). rewrite (spelled_parse _ _ S), H. reflexivity.
  Qed.
End Clap.

(** * Proofs: command lines *)

From Coq Require Import String.
From Verif Require Import Bytes BaseProofs Winnow Utf8Spec Utf8Model Utf8Proofs RecordModel MatcherModel StateParser MatcherParserModel BuilderModel PathModel CliModel
  ExplodeModel ConvertModel CsvModel OptionsModel ConfigModel DiskModel DirModel RuleModel ClapModel MainModel ArgsModel ArgsSpec ClapProofs ClapValues ArgsProofs ArgsCommands.
From Verif Require MatcherSpec MatcherProofs.

(** ** The word for the command *)

Lemma in_two_parts : forall (A B : Type) (f : A -> list B) l x a b, NoDup (flat_map f l) -> In a l -> In b l -> In x (f a) -> In x (f b) -> a = b.
Proof.
  intros A B f l x a b N Ha Hb Xa Xb. induction l as [|c l IH]; [destruct Ha|]. cbn [flat_map] in N.
  assert (D : forall y, In y (f c) -> ~ In y (flat_map f l)).
  { clear - N. induction (f c) as [|z r IH]; intros y Hy; [destruct Hy|]. inversion N as [|? ? N1 N2]; subst. destruct Hy as [->|Hy].
    - intros H. apply N1, in_or_app. auto.
    - apply IH; assumption. }
  destruct Ha as [->|Ha], Hb as [->|Hb].
  - reflexivity.
  - exfalso. apply (D x Xa), in_flat_map. eauto.
  - exfalso. apply (D x Xb), in_flat_map. eauto.
  - apply IH; try assumption. eapply nodup_r, N.
Qed.

Definition all_names (c : string * list string * list opt) : list bytes := map lit (fst (fst c) :: snd (fst c)).

Lemma called_iff : forall c n, called c n <-> In n (all_names c).
Proof.
  intros c n. unfold called, all_names. rewrite in_map_iff. split.
  - intros (s & H & ->). exists s. auto.
  - intros (s & <- & H). exists s. auto.
Qed.

Lemma names_nodup : NoDup (flat_map all_names commands).
Proof. apply (distinct_nodup _ bytes_eqb bytes_eqb_refl). vm_compute. reflexivity. Qed.

Lemma called_once : forall c c' n, In c commands -> In c' commands -> called c n -> called c' n -> c = c'.
Proof. intros c c' n H H' C C'. apply called_iff in C, C'. eapply in_two_parts; [exact names_nodup|eassumption..]. Qed.

Lemma commands_nodup : NoDup commands.
Proof.
  apply (NoDup_map_inv (fun c => lit (fst (fst c)))). apply (distinct_nodup _ bytes_eqb bytes_eqb_refl). vm_compute. reflexivity.
Qed.

Definition row (c : string * list string * list opt) : bytes * list bytes := (lit (fst (fst c)), map lit (snd (fst c))).

Lemma command_rows : command_names = map row commands.
Proof. vm_compute. reflexivity. Qed.

Lemma begins_iff : forall t c,
  (starts_with (fst (row c)) t || existsb (fun a => starts_with a t) (snd (row c)) = true) <-> exists r, called c (t ++ r).
Proof.
  intros t c. rewrite orb_true_iff, existsb_exists, MatcherProofs.starts_with_iff. unfold MatcherSpec.is_prefix. cbn [row fst snd]. split.
  - intros [(r & H)|(a & Ha & H)].
    + exists r, (fst (fst c)). split; [left; reflexivity|]. symmetry. exact H.
    + apply in_map_iff in Ha as (s & <- & Ha). apply MatcherProofs.starts_with_iff in H as (r & H). exists r, s. split; [right; exact Ha|]. symmetry. exact H.
  - intros (r & s & [<-|Hs] & H).
    + left. exists r. symmetry. exact H.
    + right. exists (lit s). split; [apply in_map, Hs|]. apply MatcherProofs.starts_with_iff. exists r. symmetry. exact H.
Qed.

Lemma whole_iff : forall t c, (bytes_eqb (fst (row c)) t || existsb (bytes_eqb t) (snd (row c)) = true) <-> called c t.
Proof.
  intros t c. rewrite orb_true_iff, existsb_exists, bytes_eqb_eq. cbn [row fst snd]. split.
  - intros [H|(a & Ha & H)].
    + exists (fst (fst c)). split; [left; reflexivity|]. symmetry. exact H.
    + apply in_map_iff in Ha as (s & <- & Ha). apply bytes_eqb_eq in H. exists s. split; [right; exact Ha|exact H].
  - intros (s & [<-|Hs] & H).
    + left. symmetry. exact H.
    + right. exists (lit s). split; [apply in_map, Hs|]. apply bytes_eqb_eq. exact H.
Qed.

Lemma filter_map : forall (A B : Type) (f : A -> B) (p : B -> bool) l, filter p (map f l) = map f (filter (fun x => p (f x)) l).
Proof. induction l as [|x l IH]; cbn; [reflexivity|]. destruct (p (f x)); cbn; rewrite IH; reflexivity. Qed.

Lemma find_map : forall (A B : Type) (f : A -> B) (p : B -> bool) l, find p (map f l) = option_map f (find (fun x => p (f x)) l).
Proof. induction l as [|x l IH]; cbn; [reflexivity|]. destruct (p (f x)); cbn; [reflexivity|exact IH]. Qed.

Lemma whole_find : forall t c, In c commands -> called c t -> find_subcommand command_names t = Some (lit (fst (fst c))).
Proof.
  intros t c Hc C. unfold find_subcommand. rewrite command_rows, find_map.
  destruct (find _ commands) as [c'|] eqn:F; cbn [option_map].
  - apply find_some in F as [H' C']. apply whole_iff in C'. rewrite (called_once c c' t Hc H' C C'). reflexivity.
  - pose proof (find_none _ _ F c Hc) as X. cbv beta in X. apply whole_iff in C. congruence.
Qed.

Lemma find_whole : forall t n, find_subcommand command_names t = Some n -> exists c, In c commands /\ called c t /\ n = lit (fst (fst c)).
Proof.
  intros t n H. unfold find_subcommand in H. rewrite command_rows, find_map in H. destruct (find _ commands) as [c'|] eqn:F; [|discriminate].
  injection H as <-. apply find_some in F as [H' C']. apply whole_iff in C'. exists c'. auto.
Qed.

Lemma infer_iff : forall t n, infer_subcommand command_names t = Some n <-> exists c, word_for c t /\ n = lit (fst (fst c)).
Proof.
  intros t n. unfold infer_subcommand, word_for. rewrite command_rows, filter_map, <- command_rows.
  set (l := filter (fun x => starts_with (fst (row x)) t || existsb (fun a => starts_with a t) (snd (row x))) commands).
  assert (L : forall c, In c l <-> In c commands /\ exists r, called c (t ++ r)).
  { intros c. unfold l. rewrite filter_In, begins_iff. reflexivity. }
  assert (N : NoDup l) by (apply NoDup_filter, commands_nodup).
  assert (W : forall c, In c commands -> called c t -> In c l).
  { intros c Hc C. apply L. split; [exact Hc|]. exists []. rewrite app_nil_r. exact C. }
  split.
  - intros H. destruct l as [|c [|c2 l']] eqn:E; cbn [map] in H.
    + apply find_whole in H as (c & Hc & C & ->). exists c. auto.
    + injection H as <-. exists c. split; [|reflexivity]. destruct (proj1 (L c) (or_introl eq_refl)) as [Hc Hr]. split; [exact Hc|]. right.
      split; [exact Hr|]. intros c' r Hc' C'. destruct (proj2 (L c') (conj Hc' (ex_intro _ r C'))) as [->|[]]. reflexivity.
    + apply find_whole in H as (d & Hd & C & ->). exists d. auto.
  - intros (c & (Hc & [C|[Hr U]]) & ->).
    + pose proof (W c Hc C) as In1. destruct l as [|c1 [|c2 l']] eqn:E; cbn [map].
      * apply whole_find; assumption.
      * destruct In1 as [->|[]]. reflexivity.
      * apply whole_find; assumption.
    + assert (In1 : In c l) by (apply L; auto).
      assert (Al : forall c', In c' l -> c' = c) by (intros c' H'; apply L in H' as [H1 [r H2]]; exact (U c' r H1 H2)).
      destruct l as [|c1 [|c2 l']]; [destruct In1| |].
      * destruct In1 as [->|[]]. reflexivity.
      * exfalso. inversion N as [|? ? N1 _]; subst. apply N1. left. rewrite (Al c1 (or_introl eq_refl)), (Al c2 (or_intror (or_introl eq_refl))). reflexivity.
Qed.

Lemma infer_dash : forall t, infer_subcommand command_names (45 :: t) = None.
Proof. intros t. reflexivity. Qed.

(** ** The words before it *)

Definition config_arg : arg := one (lit "config") (Some 99) VPath.

Lemma push_config : forall v m, push config_arg v m =
  match v with [] => PError | _ => if has m (lit "config") then PError else PGiven (m ++ [(lit "config", v)]) end.
Proof. intros v m. unfold push, config_arg. cbn [one g_arity g_type g_id value_ok]. destruct v; [reflexivity|]. destruct (has m _); reflexivity. Qed.

Definition main_waiting (m : list (bytes * bytes)) (rest : list bytes) :=
  match rest with
  | [] => PError
  | v :: rest' => if hyphen v then PError else pbind (push config_arg v m) (fun m' => parse_args main_args 0 m' rest')
  end.

Lemma main_cons : forall m t rest, parse_args main_args 0 m (t :: rest) =
  match infer_subcommand command_names t with
  | Some name => PGiven (m, Some (name, rest))
  | None =>
    if bytes_eqb t (lit "--") then pbind (positionals main_args 0 m rest) (fun m' => PGiven (m', None))
    else if starts_with t (lit "--") then
      let '(name, value) := split_eq (skipn 2 t) in
      if bytes_eqb (lit "config") name then
        match value with
        | Some v => pbind (push config_arg v m) (fun m' => parse_args main_args 0 m' rest)
        | None => main_waiting m rest
        end
      else match value with
          | Some _ => PError
          | None => if bytes_eqb name (lit "help") then PHelp
                    else if bytes_eqb name (lit "version") then PVersion else PError
          end
    else if hyphen t then
      pbind (shorts main_args m (skipn 1 t)) (fun '(a, m') => match a with Some a => main_waiting m' rest | None => parse_args main_args 0 m' rest end)
    else PError
  end.
Proof.
  intros m t rest. cbn [parse_args]. change (s_subcommand main_args t) with (infer_subcommand command_names t).
  destruct (infer_subcommand command_names t); [reflexivity|]. destruct (bytes_eqb t (lit "--")); [reflexivity|].
  destruct (starts_with t (lit "--")).
  - destruct (split_eq (skipn 2 t)) as [name value]. change (find_long main_args name) with (if bytes_eqb (lit "config") name then Some config_arg else None).
    destruct (bytes_eqb (lit "config") name); [destruct value; reflexivity|reflexivity].
  - destruct (hyphen t); [|destruct rest; reflexivity]. destruct (shorts main_args m (skipn 1 t)) as [[a m']| | |] eqn:E; try reflexivity. cbn [pbind].
    destruct a as [a|]; [|reflexivity].
    assert (a = config_arg) as ->; [|reflexivity].
    destruct (skipn 1 t) as [|x r]; cbn [shorts] in E; [discriminate|]. change (find_short main_args x) with (if 99 =? x then Some config_arg else None) in E.
    destruct (99 =? x); [|destruct (x =? 104); [discriminate|]; destruct (s_version main_args && (x =? 86)); discriminate].
    cbn [config_arg one g_arity] in E. destruct r as [|y v]; [congruence|]. destruct (push _ _ m); discriminate.
Qed.

Lemma main_shorts : forall m t, shorts main_args m t =
  match t with
  | [] => PGiven (None, m)
  | x :: rest => if 99 =? x then match rest with
                                 | [] => PGiven (Some config_arg, m)
                                 | y :: v => pbind (push config_arg (if y =? 61 then v else rest) m) (fun m' => PGiven (None, m'))
                                 end
                 else if x =? 104 then PHelp else if x =? 86 then PVersion else PError
  end.
Proof.
  intros m [|x r]; [reflexivity|]. cbn [shorts]. change (find_short main_args x) with (if 99 =? x then Some config_arg else None).
  destruct (99 =? x); [|reflexivity]. reflexivity.
Qed.

Lemma main_positionals : forall m rest m' s, pbind (positionals main_args 0 m rest) (fun m' => PGiven (m', @None (bytes * list bytes))) <> PGiven (m', Some s).
Proof. intros m rest m' s H. apply pbind_given in H as (x & _ & H). discriminate. Qed.

(** with a configuration, only the command may follow *)
Lemma after_config : forall v ts m' name rest,
  parse_args main_args 0 [(lit "config", v)] ts = PGiven (m', Some (name, rest)) <->
  m' = [(lit "config", v)] /\ exists word, ts = word :: rest /\ infer_subcommand command_names word = Some name.
Proof.
  intros v ts m' name rest. assert (P : forall x, push config_arg x [(lit "config", v)] = PError) by (intros [|y x]; rewrite push_config; reflexivity).
  split.
  - intros H. destruct ts as [|t ts]; [discriminate|]. rewrite main_cons in H. destruct (infer_subcommand command_names t) as [n|] eqn:I.
    + injection H as <- <- <-. split; [reflexivity|]. exists t. auto.
    + exfalso. unfold main_waiting in H. destruct (bytes_eqb t (lit "--")); [exact (main_positionals _ _ _ _ H)|].
      destruct (starts_with t (lit "--")).
      * destruct (split_eq (skipn 2 t)) as [nm [x|]].
        -- destruct (bytes_eqb (lit "config") nm); [rewrite P in H|]; discriminate.
        -- destruct (bytes_eqb (lit "config") nm).
           ++ destruct ts as [|y ts]; [discriminate|]. destruct (hyphen y); [discriminate|]. rewrite P in H. discriminate.
           ++ destruct (bytes_eqb nm (lit "help")); [discriminate|]. destruct (bytes_eqb nm (lit "version")); discriminate.
      * destruct (hyphen t) eqn:Hy; [|discriminate]. rewrite main_shorts in H. destruct t as [|d [|x r]]; [discriminate..|]. cbn [skipn] in H.
        destruct (99 =? x).
        -- destruct r as [|y r]; [|rewrite P in H; discriminate]. cbn [pbind] in H. destruct ts as [|y ts]; [discriminate|].
           destruct (hyphen y); [discriminate|]. rewrite P in H. discriminate.
        -- destruct (x =? 104); [discriminate|]. destruct (x =? 86); discriminate.
  - intros (-> & word & -> & I). rewrite main_cons, I. reflexivity.
Qed.

Lemma hyphen_bare : forall v, bare v -> hyphen v = false.
Proof. intros v H. apply hyphen_false, H. Qed.

Definition config_entry (config : option bytes) : list (bytes * bytes) := match config with Some v => [(lit "config", v)] | None => [] end.

Lemma main_iff : forall ts m name rest, parse_args main_args 0 [] ts = PGiven (m, Some (name, rest)) <->
  exists config before word, ts = before ++ word :: rest /\ config_words config before /\ infer_subcommand command_names word = Some name
    /\ m = config_entry config.
Proof.
  intros ts m name rest. split.
  - intros H. destruct ts as [|t ts]; [discriminate|]. rewrite main_cons in H. destruct (infer_subcommand command_names t) as [n|] eqn:I.
    { injection H as <- <- <-. exists None, [], t. repeat split; [constructor|exact I]. }
    assert (Pu : forall v r, v <> [] -> pbind (push config_arg v []) (fun m' => parse_args main_args 0 m' r) = PGiven (m, Some (name, rest)) ->
              m = [(lit "config", v)] /\ exists word, r = word :: rest /\ infer_subcommand command_names word = Some name).
    { intros v r Nv X. rewrite push_config in X. destruct v as [|y v]; [congruence|]. apply after_config in X. exact X. }
    assert (Pe : forall r, pbind (push config_arg [] []) (fun m' => parse_args main_args 0 m' r) <> PGiven (m, Some (name, rest))) by (intros r; discriminate).
    destruct (bytes_eqb t (lit "--")); [destruct (main_positionals _ _ _ _ H)|].
    destruct (starts_with t (lit "--")) eqn:S.
    + apply MatcherProofs.starts_with_iff in S as (t' & ->). change (skipn 2 (lit "--" ++ t')) with t' in H. destruct (split_eq t') as [nm val] eqn:Q.
      apply split_eq_inv in Q. destruct (bytes_eqb (lit "config") nm) eqn:E.
      * apply bytes_eqb_eq in E. subst nm. destruct val as [v|].
        -- destruct v as [|y v]; [destruct (Pe _ H)|]. apply Pu in H as (-> & w & -> & Iw); [|discriminate].
           exists (Some (y :: v)), [lit "--" ++ t'], w. split; [reflexivity|]. split; [|split; [exact Iw|reflexivity]].
           subst t'. apply cw_equals. discriminate.
        -- unfold main_waiting in H. destruct ts as [|v ts]; [discriminate|]. destruct (hyphen v) eqn:B; [discriminate|]. apply hyphen_false in B.
           destruct v as [|y v]; [destruct (Pe _ H)|]. apply Pu in H as (-> & w & -> & Iw); [|discriminate].
           exists (Some (y :: v)), [lit "--" ++ t'; y :: v], w. split; [reflexivity|]. split; [|split; [exact Iw|reflexivity]].
           subst t'. apply cw_apart; [discriminate|exact B].
      * exfalso. destruct val as [v|]; [discriminate|]. destruct (bytes_eqb nm (lit "help")); [discriminate|].
        destruct (bytes_eqb nm (lit "version")); discriminate.
    + destruct (hyphen t) eqn:Hy; [|discriminate]. destruct t as [|d [|x r]]; [discriminate..|]. cbn [hyphen] in Hy. apply N.eqb_eq in Hy. subst d.
      rewrite main_shorts in H. cbn [skipn] in H. destruct (99 =? x) eqn:X.
      2:{ destruct (x =? 104); [discriminate|]. destruct (x =? 86); discriminate. }
      apply N.eqb_eq in X. subst x. destruct r as [|y r].
      * cbn [pbind] in H. unfold main_waiting in H. destruct ts as [|v ts]; [discriminate|]. destruct (hyphen v) eqn:B; [discriminate|]. apply hyphen_false in B.
        destruct v as [|y v]; [destruct (Pe _ H)|]. apply Pu in H as (-> & w & -> & Iw); [|discriminate].
        exists (Some (y :: v)), [[45; 99]; y :: v], w. split; [reflexivity|]. split; [|split; [exact Iw|reflexivity]].
        apply cw_letter_apart; [discriminate|exact B].
      * assert (H' : pbind (push config_arg (if y =? 61 then r else y :: r) []) (fun m' => parse_args main_args 0 m' ts) = PGiven (m, Some (name, rest))).
        { destruct (push config_arg (if y =? 61 then r else y :: r) []); [exact H|discriminate..]. }
        clear H. destruct (N.eqb_spec y 61) as [->|Ny].
        -- destruct r as [|z r]; [destruct (Pe _ H')|]. apply Pu in H' as (-> & w & -> & Iw); [|discriminate].
           exists (Some (z :: r)), [45 :: 99 :: 61 :: z :: r], w. split; [reflexivity|]. split; [|split; [exact Iw|reflexivity]].
           apply (cw_letter_equals (z :: r)). discriminate.
        -- apply Pu in H' as (-> & w & -> & Iw); [|discriminate].
           exists (Some (y :: r)), [45 :: 99 :: y :: r], w. split; [reflexivity|]. split; [|split; [exact Iw|reflexivity]].
           apply (cw_letter (y :: r)); [discriminate|]. intros r' C. injection C as C _. congruence.
  - intros (config & before & word & -> & Hc & I & ->).
    assert (Pu : forall v r, v <> [] -> pbind (push config_arg v []) (fun m' => parse_args main_args 0 m' r) = parse_args main_args 0 [(lit "config", v)] r).
    { intros v r Nv. rewrite push_config. destruct v; [congruence|reflexivity]. }
    assert (Af : forall v, parse_args main_args 0 [(lit "config", v)] (word :: rest) = PGiven ([(lit "config", v)], Some (name, rest))).
    { intros v. apply after_config. split; [reflexivity|]. exists word. auto. }
    inversion Hc; subst; cbn [app].
    + rewrite main_cons, I. reflexivity.
    + rewrite main_cons. change (lit "--config=" ++ v) with (45 :: 45 :: lit "config" ++ 61 :: v). rewrite infer_dash.
      change (bytes_eqb (45 :: 45 :: lit "config" ++ 61 :: v) (lit "--")) with false. cbv iota.
      change (starts_with (45 :: 45 :: lit "config" ++ 61 :: v) (lit "--")) with true. cbv iota. cbn [skipn].
      rewrite split_eq_some by (vm_compute; intuition discriminate). change (bytes_eqb (lit "config") (lit "config")) with true. cbv iota beta.
      rewrite Pu by assumption. apply Af.
    + rewrite main_cons. change (lit "--config") with (45 :: 45 :: lit "config"). rewrite infer_dash.
      change (bytes_eqb (45 :: 45 :: lit "config") (lit "--")) with false. cbv iota.
      change (starts_with (45 :: 45 :: lit "config") (lit "--")) with true. cbv iota. cbn [skipn].
      rewrite split_eq_none by (vm_compute; intuition discriminate). change (bytes_eqb (lit "config") (lit "config")) with true. cbv iota beta.
      unfold main_waiting. rewrite hyphen_bare by assumption. rewrite Pu by assumption. apply Af.
    + rewrite main_cons. change (lit "-c" ++ v) with (45 :: 99 :: v). rewrite infer_dash.
      change (bytes_eqb (45 :: 99 :: v) (lit "--")) with false. cbv iota.
      change (starts_with (45 :: 99 :: v) (lit "--")) with false. cbv iota. change (hyphen (45 :: 99 :: v)) with true. cbv iota. cbn [skipn].
      rewrite main_shorts. change (99 =? 99) with true. cbv iota. destruct v as [|y v]; [congruence|].
      assert (Ny : (y =? 61) = false).
      { apply N.eqb_neq. intros ->. match goal with H : forall r, _ <> _ |- _ => apply (H v) end. reflexivity. }
      rewrite Ny. rewrite push_config. cbn [pbind]. apply Af.
    + rewrite main_cons. change (lit "-c=" ++ v) with (45 :: 99 :: 61 :: v). rewrite infer_dash.
      change (bytes_eqb (45 :: 99 :: 61 :: v) (lit "--")) with false. cbv iota.
      change (starts_with (45 :: 99 :: 61 :: v) (lit "--")) with false. cbv iota. change (hyphen (45 :: 99 :: 61 :: v)) with true. cbv iota. cbn [skipn].
      rewrite main_shorts. change (99 =? 99) with true. change (61 =? 61) with true. cbv iota. destruct v as [|y v]; [congruence|].
      rewrite push_config. cbn [pbind]. apply Af.
    + rewrite main_cons. change (lit "-c") with [45; 99]. rewrite infer_dash.
      change (bytes_eqb [45; 99] (lit "--")) with false. cbv iota.
      change (starts_with [45; 99] (lit "--")) with false. cbv iota. change (hyphen [45; 99]) with true. cbv iota. cbn [skipn].
      rewrite main_shorts. change (99 =? 99) with true. cbv iota. cbn [pbind].
      unfold main_waiting. rewrite hyphen_bare by assumption. rewrite Pu by assumption. apply Af.
Qed.

(** ** The line *)

Section Line.
  Variable e : env.
  Variable draws : option N -> N -> N.

  Lemma by_name : forall c, In c commands -> fst (fst c) <> "help"%string -> fst (fst c) <> "completions"%string ->
    exists s make, args_of e draws (lit (fst (fst c))) = Some (s, make) /\ tidy_table s /\ (forall t, s_subcommand s t = None)
      /\ table_of s = snd c /\ asked e draws (fst (fst c)) s make.
  Proof.
    intros c H N1 N2. unfold commands in H. cbn [In] in H.
    repeat destruct H as [<-|H]; cbn [fst snd] in N1, N2 |- *; try congruence; try destruct H;
      (eexists; eexists; split; [reflexivity|]; split; [apply tidy_ok; vm_compute; reflexivity|]; split; [reflexivity|]; split; [vm_compute; reflexivity|]).
    - apply check_asked.
    - apply concat_asked.
    - apply config_asked.
    - apply convert_asked.
    - apply count_asked.
    - apply describe_asked.
    - apply explode_asked.
    - apply filter_asked.
    - apply frequency_asked.
    - apply hash_asked.
    - apply invalid_asked.
    - apply partition_asked.
    - apply print_asked.
    - apply sample_asked.
    - apply select_asked.
    - apply slice_asked.
    - apply split_asked.
  Qed.

  Lemma completions_label : forall its, typed completions_args its ->
    match names its with
    | [] => exists m, label completions_args 0 its = Some m /\ get_many m (lit "shell") = []
    | [n] => exists m, label completions_args 0 its = Some m /\ get_many m (lit "shell") = [n]
    | _ => label completions_args 0 its = None
    end.
  Proof.
    intros its Ty. assert (T : tidy_table completions_args) by (apply tidy_ok; vm_compute; reflexivity).
    pose proof (label_by_names _ T its Ty 0) as B.
    assert (E : s_positionals completions_args = [required (unnamed (one (lit "shell") None (VOneOf shell_names)))]) by reflexivity.
    destruct (names its) as [|n [|x r]]; cbn [label_names nth_error option_map] in B; rewrite E in B; cbn [nth_error option_map g_arity required unnamed one conflicts] in B.
    - destruct (label completions_args 0 its) as [m|]; [|destruct B]. exists m. split; [reflexivity|]. exact (B _ (or_introl eq_refl)).
    - destruct (label completions_args 0 its) as [m|]; [|destruct B]. exists m. split; [reflexivity|]. exact (B _ (or_introl eq_refl)).
    - destruct (label completions_args 0 its) as [m|]; [destruct B|reflexivity].
  Qed.

  Lemma completions_asked : forall its shell output, typed completions_args its ->
    (names its = [shell] /\ (exists s, In s shells /\ shell = lit s) /\ value its "output" output
     <-> exists m, label completions_args 0 its = Some m /\ fits completions_args m /\ valid completions_args m = true
                   /\ (do s <- get_one m (lit "shell"); Some (AskCompletions s (output_of m))) = Some (AskCompletions shell output)).
  Proof.
    intros its shell output Ty. assert (T : tidy_table completions_args) by (apply tidy_ok; vm_compute; reflexivity).
    pose proof (completions_label its Ty) as Lb.
    assert (Sh : value_ok (VOneOf shell_names) shell = true <-> exists s, In s shells /\ shell = lit s).
    { cbn [value_ok]. rewrite existsb_exists. change shell_names with (map lit shells). split.
      - intros (x & Hx & E). apply bytes_eqb_eq in E. apply in_map_iff in Hx as (s & <- & Hs). eauto.
      - intros (s & Hs & ->). exists (lit s). split; [apply in_map, Hs|apply bytes_eqb_refl]. }
    assert (V : forall m, label completions_args 0 its = Some m ->
        (value its "output" output <-> fit_at (lit "output") AOne VOs m /\ get_one m (lit "output") = output)).
    { intros m L. rewrite (value_iff _ T its m Ty L "output"); [|exact (conj eq_refl eq_refl)]. split; intros (A & B); split; auto. }
    assert (FV : forall m, fits completions_args m /\ valid completions_args m = true
                 <-> (fit_at (lit "output") AOne VOs m /\ fit_at (lit "shell") AOne (VOneOf shell_names) m) /\ has m (lit "shell") = true).
    { intros m. unfold fits. rewrite valid_iff by exact T.
      replace (clashes completions_args) with (@nil (bytes * bytes)) by (vm_compute; reflexivity).
      replace (needs completions_args) with (@nil (bytes * bytes * list bytes)) by (vm_compute; reflexivity).
      replace (musts completions_args) with [(lit "shell", @nil bytes)] by (vm_compute; reflexivity).
      unfold completions_args, args. cbn [spec s_options s_positionals app]. rewrite !Forall_cons_iff, !Forall_nil_iff. unfold fit.
      cbn [g_id g_arity g_type one required unnamed fst snd]. rewrite ?Exists_nil. tauto. }
    split.
    - intros (N & S & O). rewrite N in Lb. destruct Lb as (m & L & G). exists m. split; [exact L|].
      destruct (proj1 (V m L) O) as [F1 O']. apply Sh in S.
      assert (G1 : get_one m (lit "shell") = Some shell) by (unfold get_one; rewrite G; reflexivity).
      assert (X : fits completions_args m /\ valid completions_args m = true).
      { apply FV. split; [split; [exact F1|]|rewrite has_one, G1; reflexivity]. unfold fit_at. rewrite G. split; [|cbn; auto].
        intros _. constructor; [exact S|constructor]. }
      destruct X as [X1 X2]. split; [exact X1|]. split; [exact X2|]. rewrite G1. unfold output_of. rewrite O'. reflexivity.
    - intros (m & L & F & Vm & M). destruct (proj1 (FV m) (conj F Vm)) as [[F1 F2] H]. unfold get_one in M.
      destruct (names its) as [|n [|x r]]; [| |congruence].
      + destruct Lb as (m' & L' & G). rewrite L in L'. injection L' as <-. rewrite G in M. discriminate.
      + destruct Lb as (m' & L' & G). rewrite L in L'. injection L' as <-. rewrite G in M. injection M as -> <-.
        split; [reflexivity|]. split.
        * apply Sh. unfold fit_at in F2. rewrite G in F2. destruct F2 as [F2 _]. assert (D : AOne <> AFlag) by discriminate. specialize (F2 D). inversion F2. assumption.
        * apply (V m L). split; [exact F1|reflexivity].
  Qed.

  Lemma word_name : forall c c' w, word_for c w -> word_for c' w -> fst (fst c) = fst (fst c').
  Proof.
    intros c c' w H H'. destruct H as [Hc [C|[[r C] U]]], H' as [Hc' [C'|[[r' C'] U']]].
    - rewrite (called_once c c' w Hc Hc' C C'). reflexivity.
    - rewrite (U' c [] Hc); [reflexivity|]. rewrite app_nil_r. exact C.
    - rewrite (U c' [] Hc'); [reflexivity|]. rewrite app_nil_r. exact C'.
    - rewrite (U c' r' Hc' C'). reflexivity.
  Qed.

  Lemma config_back : forall config, get_one (config_entry config) (lit "config") = config.
  Proof. intros [v|]; reflexivity. Qed.

  (** the line, up to the arguments of the command *)
  Lemma read_line_iff : forall ts config a,
    read_line e draws ts = PGiven (config, a) <->
    exists c before word after s make m,
      ts = before ++ word :: after /\ config_words config before /\ word_for c word /\ fst (fst c) <> "help"%string
      /\ args_of e draws (lit (fst (fst c))) = Some (s, make) /\ read_args s after = PGiven m /\ make m = Some a.
  Proof.
    intros ts config a. unfold read_line. split.
    - intros H. apply pbind_given in H as ([m [[name rest]|]] & P & H); [|discriminate].
      apply main_iff in P as (cf & before & word & -> & Cw & I & ->). apply infer_iff in I as (c & W & ->).
      destruct (bytes_eqb (lit (fst (fst c))) (lit "help")) eqn:E.
      + exfalso. destruct rest as [|x [|y r]]; [discriminate| |discriminate]. destruct (find_subcommand command_names x); discriminate.
      + destruct (args_of e draws (lit (fst (fst c)))) as [[s make]|] eqn:A; [|discriminate]. apply pbind_given in H as (m' & R & H).
        destruct (make m') as [k|] eqn:M; [|discriminate]. rewrite config_back in H. injection H as <- <-.
        exists c, before, word, rest, s, make, m'. split; [reflexivity|]. split; [exact Cw|]. split; [exact W|].
        split; [intros X; rewrite X in E; discriminate|]. auto.
    - intros (c & before & word & after & s & make & m & -> & Cw & W & N & A & R & M).
      assert (P : parse_args main_args 0 [] (before ++ word :: after) = PGiven (config_entry config, Some (lit (fst (fst c)), after))).
      { apply main_iff. exists config, before, word. split; [reflexivity|]. split; [exact Cw|]. split; [|reflexivity]. apply infer_iff. exists c. auto. }
      rewrite P. cbn [pbind]. replace (bytes_eqb (lit (fst (fst c))) (lit "help")) with false.
      + rewrite A, R. cbn [pbind]. rewrite M, config_back. reflexivity.
      + symmetry. apply bytes_eqb_neq. intros X. apply N. destruct W as [Hc _].
        assert (Hh : In ("help"%string, @nil string, @nil opt) commands) by (unfold commands; repeat (first [left; reflexivity|right])).
        rewrite (called_once c _ (lit "help") Hc Hh); [reflexivity| |].
        * exists (fst (fst c)). split; [left; reflexivity|congruence].
        * exists "help"%string. split; [left|]; reflexivity.
  Qed.

  Definition make_completions (m : list (bytes * bytes)) : option ask := do s <- get_one m (lit "shell"); Some (AskCompletions s (output_of m)).

  Lemma completions_row : forall c, In c commands -> fst (fst c) = "completions"%string ->
    args_of e draws (lit (fst (fst c))) = Some (completions_args, make_completions)
    /\ snd c = table_of completions_args.
  Proof.
    intros c H E. unfold commands in H. cbn [In] in H.
    repeat destruct H as [<-|H]; cbn [fst snd] in E |- *; try discriminate E; try destruct H. split; vm_compute; reflexivity.
  Qed.

  Lemma asks_name : forall name its k, asks e draws name its k -> name <> "help"%string /\ name <> "completions"%string.
  Proof. intros name its k H. inversion H; split; discriminate. Qed.

  Lemma completions_tidy : tidy_table completions_args.
  Proof. apply tidy_ok. vm_compute. reflexivity. Qed.

  Theorem line_iff : forall ts config k, read_line e draws ts = PGiven (config, AskRun k) <-> line_asks e draws ts config k.
  Proof.
    intros ts config k. rewrite read_line_iff. unfold line_asks. split.
    - intros (c & before & word & after & s & make & m & -> & Cw & W & N & A & R & M).
      destruct (string_dec (fst (fst c)) "completions") as [Ec|Nc].
      + exfalso. destruct (completions_row c (proj1 W) Ec) as [A' _]. rewrite A in A'. assert (s = completions_args) as -> by congruence. assert (make = make_completions) as -> by congruence.
        unfold make_completions in M. destruct (get_one m (lit "shell")); discriminate.
      + destruct (by_name c (proj1 W) N Nc) as (s' & make' & A' & T & Ns & Tb & As). rewrite A in A'. injection A' as <- <-.
        apply (read_args_iff s T Ns) in R as (its & S & L & F & V). exists c, before, word, after, its.
        repeat (split; [solve [assumption|reflexivity]|]). split; [rewrite <- Tb; exact S|]. apply As; [eapply spelled_typed; eassumption|].
        exists m. auto.
    - intros (c & before & word & after & its & -> & Cw & W & S & Ak). destruct (asks_name _ _ _ Ak) as [N Nc].
      destruct (by_name c (proj1 W) N Nc) as (s & make & A & T & Ns & Tb & As). rewrite <- Tb in S.
      apply As in Ak as (m & L & F & V & M); [|eapply spelled_typed; eassumption].
      exists c, before, word, after, s, make, m. repeat (split; [solve [assumption|reflexivity]|]). split; [|exact M].
      apply (read_args_iff s T Ns). exists its. auto.
  Qed.

  Lemma runs_only : forall c, In c commands -> fst (fst c) <> "help"%string -> fst (fst c) <> "completions"%string ->
    forall s make, args_of e draws (lit (fst (fst c))) = Some (s, make) -> forall m a, make m = Some a -> exists k, a = AskRun k.
  Proof.
    intros c H N1 N2 s make A m a M. unfold commands in H. cbn [In] in H.
    repeat destruct H as [<-|H]; cbn [fst snd] in N1, N2, A; try congruence; try destruct H; injection A as <- <-; cbv beta in M;
      repeat match type of M with context [match ?x with _ => _ end] => destruct x; try discriminate end; injection M as <-; eexists; reflexivity.
  Qed.

  Theorem completes_iff : forall ts config shell output,
    read_line e draws ts = PGiven (config, AskCompletions shell output) <-> line_completes ts config shell output.
  Proof.
    intros ts config shell output. rewrite read_line_iff. unfold line_completes. split.
    - intros (c & before & word & after & s & make & m & -> & Cw & W & N & A & R & M).
      destruct (string_dec (fst (fst c)) "completions") as [Ec|Nc].
      + destruct (completions_row c (proj1 W) Ec) as [A' Tb]. rewrite A in A'. assert (s = completions_args) as -> by congruence. assert (make = make_completions) as -> by congruence.
        apply (read_args_iff _ completions_tidy (fun _ => eq_refl)) in R as (its & S & L & F & V).
        exists c, before, word, after, its. repeat (split; [solve [assumption|reflexivity]|]). rewrite Tb. split; [exact S|].
        apply completions_asked; [eapply spelled_typed; [exact completions_tidy|exact S]|]. exists m. auto.
      + destruct (runs_only c (proj1 W) N Nc _ _ A _ _ M) as [k C]. discriminate.
    - intros (c & before & word & after & its & -> & Cw & W & Ec & S & Ak).
      destruct (completions_row c (proj1 W) Ec) as [A Tb]. rewrite Tb in S.
      apply completions_asked in Ak as (m & L & F & V & M); [|eapply spelled_typed; [exact completions_tidy|exact S]].
      exists c, before, word, after. eexists. eexists. exists m. split; [reflexivity|]. split; [exact Cw|]. split; [exact W|].
      split; [rewrite Ec; discriminate|]. split; [exact A|]. split; [|exact M].
      apply (read_args_iff _ completions_tidy (fun _ => eq_refl)). exists its. auto.
  Qed.

End Line.

(** * Proofs about the runs that can be asked for *)

From Coq Require Import String Lia.
From Verif Require Import Bytes BaseProofs Utf8Spec Utf8Proofs RecordModel MatcherModel PathModel CliModel ExplodeModel ConvertModel CsvModel OptionsModel
  OptionsSpec MainModel ArgsSpec ArgsEffects AskableSpec ClapModel ArgsModel ArgsLine.

(** ** Every number can be written *)

Lemma decimal_text : forall n, exists t, decimal t n.
Proof.
  intros n. induction n as [n IH] using (well_founded_induction N.lt_wf_0).
  destruct (N.lt_ge_cases n 10) as [L|L]; [exists [48 + n]; apply de_one, L|].
  destruct (IH (n / 10)) as (t & Ht); [apply N.div_lt; lia|].
  exists (t ++ [48 + n mod 10]). rewrite (N.div_mod n 10) at 2 by lia. apply de_more; [apply N.mod_lt; lia|exact Ht].
Qed.
Lemma number_given : forall n, n < 2 ^ 64 -> exists t, number_text t n.
Proof. intros n H. destruct (decimal_text n) as (t & Ht). exists t. split; [exact H|left; exact Ht]. Qed.
Lemma range_given : forall lo hi n, lo <= n <= hi -> exists t, range_text lo hi t n.
Proof. intros lo hi n H. destruct (decimal_text n) as (t & Ht). exists t. split; [exact H|left; exact Ht]. Qed.

(** ** Items by the dozen *)

Inductive gift := GS (n : string) (b : bool) | GO (n : string) (o : option bytes) | GM (n : string) (l : list bytes).

Definition opt_list {A} (o : option A) : list A := match o with Some x => [x] | None => [] end.
Definition gift_items (g : gift) : list item :=
  match g with
  | GS n b => if b then [ISwitch (lit n)] else []
  | GO n o => map (IOption (lit n)) (opt_list o)
  | GM n l => map (IOption (lit n)) l
  end.
Definition items_of (gs : list gift) (ns : list bytes) : list item := flat_map gift_items gs ++ map IName ns.

Lemma names_items : forall gs ns, names (items_of gs ns) = ns.
Proof.
  intros gs ns. unfold names, items_of. rewrite flat_map_app.
  assert (H : flat_map (fun i => match i with IName v => [v] | _ => [] end) (map IName ns) = ns).
  { induction ns as [|v ns IH]; [reflexivity|]. cbn. rewrite IH. reflexivity. }
  rewrite H. assert (G : flat_map (fun i => match i with IName v => [v] | _ => [] end) (flat_map gift_items gs) = []).
  { induction gs as [|g gs IH]; [reflexivity|]. cbn [flat_map]. rewrite flat_map_app, IH, app_nil_r.
    destruct g as [n [|]|n [v|]|n l]; try reflexivity. cbn. induction l as [|v l IHl]; [reflexivity|exact IHl]. }
  rewrite G. reflexivity.
Qed.

Definition gift_values (m : bytes) (g : gift) : list bytes :=
  match g with
  | GS _ _ => []
  | GO n o => if bytes_eqb (lit n) m then opt_list o else []
  | GM n l => if bytes_eqb (lit n) m then l else []
  end.
Lemma values_options : forall n m l, values (map (IOption n) l) m = if bytes_eqb n m then l else [].
Proof.
  intros n m l. unfold values. induction l as [|v l IH]; cbn; [destruct (bytes_eqb n m); reflexivity|].
  rewrite IH. destruct (bytes_eqb n m); reflexivity.
Qed.
Lemma values_items : forall gs ns m, values (items_of gs ns) m = flat_map (gift_values m) gs.
Proof.
  intros gs ns m. unfold items_of. unfold values. rewrite flat_map_app.
  assert (H : flat_map (fun i => match i with IOption x v => if bytes_eqb x m then [v] else [] | _ => [] end) (map IName ns) = []).
  { induction ns as [|v ns IH]; [reflexivity|exact IH]. }
  rewrite H, app_nil_r. induction gs as [|g gs IH]; [reflexivity|]. cbn [flat_map]. rewrite flat_map_app, IH. f_equal.
  destruct g as [n [|]|n o|n l]; try reflexivity; apply values_options.
Qed.
Definition gift_switched (m : bytes) (g : gift) : nat :=
  match g with
  | GS n b => if b then if bytes_eqb (lit n) m then 1%nat else 0%nat else 0%nat
  | _ => 0%nat
  end.
Lemma switched_items : forall gs ns m, length (switched (items_of gs ns) m) = fold_right plus 0%nat (map (gift_switched m) gs).
Proof.
  intros gs ns m. unfold items_of, switched. rewrite filter_app, app_length.
  assert (H : filter (fun i => match i with ISwitch x => bytes_eqb x m | _ => false end) (map IName ns) = []).
  { induction ns as [|v ns IH]; [reflexivity|exact IH]. }
  rewrite H. cbn [length]. rewrite PeanoNat.Nat.add_0_r. induction gs as [|g gs IH]; [reflexivity|].
  cbn [flat_map map fold_right]. rewrite filter_app, app_length, IH. f_equal.
  assert (O : forall n l, filter (fun i => match i with ISwitch x => bytes_eqb x m | _ => false end) (map (IOption n) l) = []).
  { intros n l. induction l as [|v l IHl]; [reflexivity|exact IHl]. }
  destruct g as [n [|]|n o|n l]; cbn [gift_items gift_switched]; [|reflexivity|rewrite O; reflexivity|rewrite O; reflexivity].
  cbn. destruct (bytes_eqb (lit n) m); reflexivity.
Qed.

(** ** Spelling them *)

Definition spellable (takes : bool) (n : string) (o : opt) : bool :=
  bytes_eqb (op_name o) (lit n) && Bool.eqb (op_takes o) takes && (op_long o || match op_letter o with Some _ => true | None => false end).
Definition gift_spellable (options : list opt) (g : gift) : bool :=
  match g with
  | GS n _ => existsb (spellable false n) options
  | GO n _ | GM n _ => existsb (spellable true n) options
  end.
Lemma spellable_in : forall takes n options, existsb (spellable takes n) options = true ->
  written_out options (lit n) takes \/ exists x, letter options (lit n) x takes.
Proof.
  intros takes n options H. apply existsb_exists in H as ([n' l x t] & Hin & H). unfold spellable in H. cbn in H.
  apply andb_true_iff in H as [H L]. apply andb_true_iff in H as [H1 H2]. apply bytes_eqb_eq in H1. apply Bool.eqb_prop in H2. subst n' t.
  destruct l; [left; exists x; exact Hin|right]. destruct x as [x|]; [|discriminate]. exists x, false. exact Hin.
Qed.
Lemma spell_switch : forall options n its ts, existsb (spellable false n) options = true -> spelled options its ts ->
  exists ts', spelled options (ISwitch (lit n) :: its) ts'.
Proof.
  intros options n its ts H S. apply spellable_in in H as [H|(x & H)].
  - eexists. apply sp_switch; eassumption.
  - eexists. apply (sp_letters _ [ISwitch (lit n)] [x] its ts); [|discriminate|exact S]. constructor; [exact H|constructor].
Qed.
Lemma spell_option : forall options n v its ts, existsb (spellable true n) options = true -> spelled options its ts ->
  exists ts', spelled options (IOption (lit n) v :: its) ts'.
Proof.
  intros options n v its ts H S. apply spellable_in in H as [H|(x & H)].
  - eexists. apply sp_equals; eassumption.
  - eexists. apply (sp_letter_equals _ [] [] (lit n) x v its ts); [constructor|exact H|exact S].
Qed.
Lemma spell_items : forall options gs ns, forallb (gift_spellable options) gs = true ->
  exists ts, spelled options (items_of gs ns) ts.
Proof.
  intros options gs ns. unfold items_of. induction gs as [|g gs IH]; intros H.
  - eexists. apply sp_rest.
  - cbn [forallb] in H. apply andb_true_iff in H as [Hg H]. destruct (IH H) as (ts & Hts). cbn [flat_map]. rewrite <- app_assoc.
    assert (M : forall n l, existsb (spellable true n) options = true ->
              exists ts, spelled options (map (IOption (lit n)) l ++ flat_map gift_items gs ++ map IName ns) ts).
    { intros n l Hn. induction l as [|v l (ts1 & H1)]; [exists ts; exact Hts|]. eapply spell_option; eassumption. }
    destruct g as [n [|]|n o|n l]; cbn [gift_items gift_spellable] in *.
    + eapply spell_switch; eassumption.
    + exists ts. exact Hts.
    + apply M, Hg.
    + apply M, Hg.
Qed.

(** ** The options of most commands *)

Definition shared_gifts (o : file_opts) (limit threshold : bytes) : list gift :=
  [GS "skip-invalid" (o_skip o); GO "limit" (Some limit); GS "ignore-case" (o_ci o); GO "strsim-threshold" (Some threshold);
   GM "allow-list" (o_allow o); GM "deny-list" (o_deny o); GO "filter-set-column" (o_column o); GO "filter-set-source" (o_source o);
   GM "and" (o_and o); GM "or" (o_or o); GM "not" (o_not o)].

Lemma switch_of : forall gs ns n (b : bool), fold_right plus 0%nat (map (gift_switched (lit n)) gs) = (if b then 1 else 0)%nat ->
  switch (items_of gs ns) n b.
Proof. intros gs ns n b H. unfold switch. rewrite switched_items. exact H. Qed.
Lemma values_of : forall gs ns n l, flat_map (gift_values (lit n)) gs = l -> values (items_of gs ns) (lit n) = l.
Proof. intros gs ns n l H. rewrite values_items. exact H. Qed.

Definition gift_name (g : gift) : bytes := match g with GS n _ | GO n _ | GM n _ => lit n end.
Definition apart (ns : list string) (gs : list gift) : bool :=
  forallb (fun n => forallb (fun g => negb (bytes_eqb (gift_name g) (lit n))) gs) ns.
Lemma apart_values : forall ns gs n, apart ns gs = true -> In n ns -> flat_map (gift_values (lit n)) gs = [].
Proof.
  intros ns gs n H Hn. unfold apart in H. apply (proj1 (forallb_forall _ _) H) in Hn. clear H.
  induction gs as [|g gs IH]; [reflexivity|]. cbn [forallb] in Hn. apply andb_true_iff in Hn as [Hg Hn].
  cbn [flat_map]. rewrite (IH Hn), app_nil_r. apply negb_true_iff in Hg. destruct g; cbn [gift_name gift_values] in *; try reflexivity; rewrite Hg; reflexivity.
Qed.
Lemma apart_switched : forall ns gs n, apart ns gs = true -> In n ns -> fold_right plus 0%nat (map (gift_switched (lit n)) gs) = 0%nat.
Proof.
  intros ns gs n H Hn. unfold apart in H. apply (proj1 (forallb_forall _ _) H) in Hn. clear H.
  induction gs as [|g gs IH]; [reflexivity|]. cbn [forallb] in Hn. apply andb_true_iff in Hn as [Hg Hn].
  cbn [map fold_right]. rewrite (IH Hn). apply negb_true_iff in Hg. destruct g as [n' [|]| |]; cbn [gift_name gift_switched] in *; try reflexivity; rewrite Hg; reflexivity.
Qed.
Lemma sum_app : forall a b, fold_right plus 0%nat (a ++ b) = (fold_right plus 0 a + fold_right plus 0 b)%nat.
Proof. induction a as [|x a IH]; intros b; [reflexivity|]. cbn. rewrite IH. lia. Qed.

(** the sums and lists of the gifts of a command are computed *)
Ltac gifts := cbn [map flat_map fold_right gift_switched gift_values lit bytes_eqb app shared_gifts];
  cbn; rewrite ?app_nil_r; try reflexivity;
  repeat match goal with |- context [if ?b then _ else _] => destruct b; try reflexivity end;
  try (match goal with |- context [opt_list ?o] => destruct o; reflexivity end).

Lemma reading_same : forall l : list bytes, l <> [] -> reading l l.
Proof. intros l H. left. split; [exact H|reflexivity]. Qed.

Definition common_names : list string :=
  ["skip-invalid"; "limit"; "ignore-case"; "strsim-threshold"; "allow-list"; "deny-list"; "filter-set-column"; "filter-set-source"; "and"; "or"; "not"]%string.

Section Common.
  Variable e : env.

  Lemma common_asked : forall o limit threshold rest ns, orderly_opts o -> written e o ->
    number_text limit (o_limit o) -> range_text 0 99 threshold (o_threshold o) -> apart common_names rest = true ->
    asks_common e (items_of (shared_gifts o limit threshold ++ rest) ns) o.
  Proof.
    intros o limit threshold rest ns (_ & _ & Hor) (W1 & W2 & W3 & W4 & W5 & W6 & W7 & _) Hl Ht A.
    assert (V : forall n l, In n common_names -> flat_map (gift_values (lit n)) (shared_gifts o limit threshold) = l ->
                  values (items_of (shared_gifts o limit threshold ++ rest) ns) (lit n) = l).
    { intros n l Hn H. apply values_of. rewrite flat_map_app, (apart_values _ _ _ A Hn), app_nil_r. exact H. }
    assert (S : forall n (b : bool), In n common_names ->
                  fold_right plus 0%nat (map (gift_switched (lit n)) (shared_gifts o limit threshold)) = (if b then 1 else 0)%nat ->
                  switch (items_of (shared_gifts o limit threshold ++ rest) ns) n b).
    { intros n b Hn H. apply switch_of. rewrite map_app, sum_app, (apart_switched _ _ _ A Hn), H. destruct b; reflexivity. }
    assert (I : forall n, existsb (String.eqb n) common_names = true -> In n common_names).
    { intros n H. apply existsb_exists in H as (x & Hx & E). apply String.eqb_eq in E. subst x. exact Hx. }
    unfold asks_common.
    split; [apply S; [apply I; reflexivity|gifts]|].
    split; [right; exists limit; split; [apply V; [apply I; reflexivity|gifts]|exact Hl]|].
    split; [apply S; [apply I; reflexivity|gifts]|].
    split; [right; exists threshold; split; [apply V; [apply I; reflexivity|gifts]|exact Ht]|].
    split; [split; [apply V; [apply I; reflexivity|gifts]|exact W1]|].
    split; [split; [apply V; [apply I; reflexivity|gifts]|exact W2]|].
    split; [split; [apply V; [apply I; reflexivity|gifts]|exact W3]|].
    split; [apply V; [apply I; reflexivity|gifts]|].
    split; [exact W4|].
    split; [split; [apply V; [apply I; reflexivity|gifts]|exact W5]|].
    split; [split; [apply V; [apply I; reflexivity|gifts]|exact W6]|].
    split; [split; [apply V; [apply I; reflexivity|gifts]|exact W7]|].
    exact Hor.
  Qed.

  Lemma shared_asked : forall o limit threshold rest ns, with_where o -> written e o ->
    number_text limit (o_limit o) -> range_text 0 99 threshold (o_threshold o) ->
    apart (("where" :: common_names)%string) rest = true ->
    asks_shared e (items_of (shared_gifts o limit threshold ++ GO "where" (o_where o) :: rest) ns) o.
  Proof.
    intros o limit threshold rest ns [Ho Hw] W Hl Ht A. split; [|split; [|exact Hw]].
    - apply common_asked; try assumption. unfold apart in A |- *. cbn [forallb] in A. apply andb_true_iff in A as [_ A].
      apply forallb_forall. intros n Hn. cbn [forallb]. apply andb_true_iff. split; [|apply (proj1 (forallb_forall _ _) A n Hn)].
      repeat (destruct Hn as [<-|Hn]; [reflexivity|]). destruct Hn.
    - split; [|apply W]. unfold value. apply values_of. rewrite flat_map_app. cbn [flat_map].
      rewrite (apart_values _ _ _ A (or_introl eq_refl)), app_nil_r. cbn. destruct (o_where o); reflexivity.
  Qed.
End Common.

Section Ask.
  Variable e : env.
  Variable draws : option N -> N -> N.
  Variable k : command.
  Variable config : option bytes.
  Hypothesis Hc : config <> Some [].

  Lemma config_given : exists before, config_words config before.
  Proof.
    destruct config as [v|]; [|eexists; constructor]. eexists. apply cw_equals. congruence.
  Qed.

  Lemma line_given : forall name aliases options gs ns,
    In (name, aliases, options) commands -> forallb (gift_spellable options) gs = true ->
    asks e draws name (items_of gs ns) k -> exists ts, line_asks e draws ts config k.
  Proof.
    intros name aliases options gs ns Hin Hs Ha. destruct config_given as (before & Hb).
    destruct (spell_items options gs ns Hs) as (after & Hafter).
    exists (before ++ lit name :: after), (name, aliases, options), before, (lit name), after, (items_of gs ns).
    split; [reflexivity|]. split; [exact Hb|]. split; [|split; [exact Hafter|exact Ha]].
    split; [exact Hin|]. left. exists name. split; [left; reflexivity|reflexivity].
  Qed.

  Lemma shared_texts : forall o, orderly_opts o ->
    exists limit threshold, number_text limit (o_limit o) /\ range_text 0 99 threshold (o_threshold o).
  Proof.
    intros o (L & T & _). destruct (number_given _ L) as (a & Ha). destruct (range_given 0 99 (o_threshold o)) as (b & Hb); [lia|].
    exists a, b. split; assumption.
  Qed.
End Ask.

Lemma nf_given : forall nf : norm_form, exists s, In (s, nf) nf_texts.
Proof. intros []; eexists; cbn; eauto 8. Qed.
Lemma format_given : forall f : format, exists s, In (s, f) format_texts.
Proof. intros []; eexists; cbn; eauto 12. Qed.
Lemma quotes_given : forall q : quotes, exists s, In (s, q) quotes_texts.
Proof. intros []; eexists; cbn; eauto 8. Qed.
Lemma strategy_given : forall s : strategy, exists t, In (t, s) strategy_texts.
Proof. intros []; eexists; cbn; eauto 8. Qed.
Lemma level_given : forall l : level, exists s, In (s, l) level_texts.
Proof. intros []; eexists; cbn; eauto 8. Qed.

Ltac is_command := unfold commands; repeat (first [left; reflexivity|right]).
Ltac given_value := solve [apply values_of; gifts].
Ltac given_switch := solve [apply switch_of; gifts].
Ltac no_progress := solve [exists false; split; [apply switch_of; gifts|discriminate]].
Ltac given_text := split; [given_value|assumption].
(** the conditions of a command, one after the other *)
Ltac given := repeat first
  [ given_switch | no_progress
  | match goal with
    | |- value _ _ _ => given_value
    | |- text _ _ _ => given_text
    | |- texts _ _ _ => given_text
    | |- file _ _ _ => given_text
    | |- values _ _ = _ => given_value
    | |- ArgsSpec.text_or _ _ _ _ => right; given_text
    | |- ArgsSpec.file_or _ _ _ _ => right; given_text
    | |- ArgsSpec.number_or _ _ _ _ => right; eexists; split; [given_value|eassumption]
    | |- reading (names _) _ => rewrite names_items; apply reading_same; assumption
    | |- reading _ _ => apply reading_same; assumption
    | |- names _ = _ => apply names_items
    end
  | assumption ].

Section Lines.
  Variable e : env.
  Variable draws : option N -> N -> N.
  Variable config : option bytes.
  Hypothesis Hc : config <> Some [].

  Definition with_shared (o : file_opts) (limit threshold : bytes) (rest : list gift) : list gift :=
    shared_gifts o limit threshold ++ GO "where" (o_where o) :: rest.

  Lemma check_line : forall o rules filter tags output l, askable e draws (KCheck o rules filter tags output l) ->
    exists ts, line_asks e draws ts config (KCheck o rules filter tags output l).
  Proof.
    intros o rules filter tags output l [(Ho & Hr & Hout & Hl) (W & Hf & Ht)].
    destruct (shared_texts o (proj1 Ho)) as (limit & threshold & HL & HT).
    eapply (line_given e draws _ config Hc "check" _ _
      (with_shared o limit threshold [GM "rule-set" rules; GM "rule" filter; GO "tags" tags; GO "output" output]) l); [is_command|reflexivity|].
    apply as_check; [apply shared_asked; try assumption; reflexivity|given..].
  Qed.

  Lemma concat_line : forall skip append output tee unique l, askable e draws (KConcat skip append output tee unique l) ->
    exists ts, line_asks e draws ts config (KConcat skip append output tee unique l).
  Proof.
    intros skip append output tee unique l [Hl _].
    destruct unique as [st|].
    - destruct (strategy_given st) as (s & Hs).
      eapply (line_given e draws _ config Hc "concat" _ _
        [GS "skip-invalid" skip; GS "append" append; GO "output" output; GO "tee" tee; GS "unique" true; GO "unique-strategy" (Some (lit s))] l);
        [is_command|reflexivity|].
      apply (as_concat e draws _ skip append output tee true st l); given; [|discriminate].
      right. exists s. split; [given_value|exact Hs].
    - eapply (line_given e draws _ config Hc "concat" _ _
        [GS "skip-invalid" skip; GS "append" append; GO "output" output; GO "tee" tee] l); [is_command|reflexivity|].
      apply (as_concat e draws _ skip append output tee false SIdn l); given; [|intros _; given_value].
      left. split; [given_value|reflexivity].
  Qed.

  Lemma config_line : forall a, askable e draws (KConfig a) -> exists ts, line_asks e draws ts config (KConfig a).
  Proof.
    intros [get unset set_ name v] [(F1 & F2 & F3 & F4 & F5) (U1 & U2)]. cbn in *.
    eapply (line_given e draws _ config Hc "config" _ _ [GS "get" get; GS "unset" unset; GS "set" set_] (name :: opt_list v));
      [is_command|reflexivity|].
    apply as_config; given.
    - rewrite names_items. constructor; [exact U1|]. destruct v as [v|]; cbn; [constructor; [apply U2; reflexivity|constructor]|constructor].
    - intros ->. destruct get, unset, set_; split; try reflexivity; exfalso; intuition congruence.
    - intros N. destruct get, unset; split; try reflexivity; exfalso; intuition congruence.
  Qed.

  Lemma convert_line : forall skip from to output l, askable e draws (KConvert skip from to output l) ->
    exists ts, line_asks e draws ts config (KConvert skip from to output l).
  Proof.
    intros skip from to output l [Hl _]. destruct (format_given from) as (f & Hf). destruct (format_given to) as (t & Ht).
    eapply (line_given e draws _ config Hc "convert" _ _
      [GS "skip-invalid" skip; GO "from" (Some (lit f)); GO "to" (Some (lit t)); GO "output" output] l); [is_command|reflexivity|].
    apply as_convert; given; right; eexists; (split; [given_value|eassumption]).
  Qed.

  Lemma count_line : forall o append output m l, askable e draws (KCount o append output m l) ->
    exists ts, line_asks e draws ts config (KCount o append output m l).
  Proof.
    intros o append output m l [(Ho & Hl) W]. destruct (shared_texts o (proj1 Ho)) as (limit & threshold & HL & HT).
    pose (modes := match m with
                   | MPlain => (false, false, false, false, false, false)
                   | MRecords => (true, false, false, false, false, false)
                   | MFields => (false, true, false, false, false, false)
                   | MSubfields => (false, false, true, false, false, false)
                   | MCsv h => (false, false, false, true, false, h)
                   | MTsv h => (false, false, false, false, true, h)
                   end).
    destruct modes as [[[[[records fields] subfields] csv] tsv] no_header] eqn:E.
    eapply (line_given e draws _ config Hc "count" _ _
      (with_shared o limit threshold [GS "append" append; GO "output" output; GS "records" records; GS "fields" fields;
         GS "subfields" subfields; GS "csv" csv; GS "tsv" tsv; GS "no-header" no_header]) l); [is_command|reflexivity|].
    apply as_count; [apply shared_asked; try assumption; reflexivity|given..].
    exists records, fields, subfields, csv, tsv, no_header. do 6 (split; [given_switch|]).
    unfold modes in E. destruct m; injection E as <- <- <- <- <- <-; try reflexivity; split; reflexivity.
  Qed.

  Lemma describe_line : forall o discard keep csv tsv output l, askable e draws (KDescribe o discard keep csv tsv output l) ->
    exists ts, line_asks e draws ts config (KDescribe o discard keep csv tsv output l).
  Proof.
    intros o discard keep csv tsv output l [(Ho & Hx & Hout & Hl) (W & H1 & H2)].
    destruct (shared_texts o (proj1 Ho)) as (limit & threshold & HL & HT).
    eapply (line_given e draws _ config Hc "describe" _ _
      (with_shared o limit threshold [GO "discard" discard; GO "keep" keep; GS "csv" csv; GS "tsv" tsv; GO "output" output]) l);
      [is_command|reflexivity|].
    apply as_describe; [apply shared_asked; try assumption; reflexivity|given..].
    destruct csv, tsv; try reflexivity. exfalso. apply Hx. split; reflexivity.
  Qed.

  Lemma explode_line : forall o discard keep lev gzip output l, askable e draws (KExplode o discard keep lev gzip output l) ->
    exists ts, line_asks e draws ts config (KExplode o discard keep lev gzip output l).
  Proof.
    intros o discard keep lev gzip output l [(Ho & Hl) (W & H1 & H2)].
    destruct (shared_texts o (proj1 Ho)) as (limit & threshold & HL & HT). destruct (level_given lev) as (s & Hs).
    eapply (line_given e draws _ config Hc "explode" _ _
      (with_shared o limit threshold [GO "discard" discard; GO "keep" keep; GS "gzip" gzip; GO "output" output]) (lit s :: l));
      [is_command|reflexivity|].
    eapply as_explode; [apply shared_asked; try assumption; reflexivity|given..].
  Qed.

  Lemma filter_line : forall o f append gzip output tee l, askable e draws (KFilter o f append gzip output tee l) ->
    exists ts, line_asks e draws ts config (KFilter o f append gzip output tee l).
  Proof.
    intros o f append gzip output tee l [(Ho & Hw & Hx & Hot & Htee & Hfile & Hl) (W & H1 & H2 & H3)].
    destruct (shared_texts o Ho) as (limit & threshold & HL & HT).
    eapply (line_given e draws _ config Hc "filter" _ _
      (shared_gifts o limit threshold ++ [GO "file" (fi_expr_file f); GS "invert-match" (fi_invert f); GO "keep" (fi_keep f);
         GO "discard" (fi_discard f); GS "append" append; GS "gzip" gzip; GO "output" output; GO "tee" tee]) (fi_expr f :: l));
      [is_command|reflexivity|].
    eapply (as_filter e draws _ _ _ _ _ _ _ l l); [apply common_asked; try assumption; reflexivity|given..].
    - destruct append, gzip; try reflexivity. exfalso. apply Hx. split; reflexivity.
    - right. apply names_items.
  Qed.

  Lemma columns_asked : forall gs ns q, written_columns q -> ~ (co_squash q = true /\ co_merge q = true) ->
    values (items_of gs ns) (lit "separator") = [co_separator q] -> switch (items_of gs ns) "squash" (co_squash q) ->
    switch (items_of gs ns) "merge" (co_merge q) -> value (items_of gs ns) "header" (co_header q) ->
    asks_columns (items_of gs ns) q.
  Proof.
    intros gs ns q (W1 & W2 & W3) Hx V1 V2 V3 V4. split; [right; split; assumption|]. split; [exact V2|]. split; [exact V3|].
    split; [split; assumption|]. split; [exact W1|]. destruct (co_squash q), (co_merge q); try reflexivity. exfalso. apply Hx. split; reflexivity.
  Qed.

  Lemma choice_asked : forall A (table : list (string * A)) gs ns n (o : option A) t,
    values (items_of gs ns) (lit n) = opt_list t -> match o, t with
      | Some a, Some v => exists s, v = lit s /\ In (s, a) table | None, None => True | _, _ => False end ->
    choice (items_of gs ns) table n o.
  Proof.
    intros A table gs ns n [a|] [t|] V H; try contradiction.
    - destruct H as (s & -> & H). right. exists s, a. split; [exact V|]. split; [exact H|reflexivity].
    - left. split; [exact V|reflexivity].
  Qed.
  Lemma nf_option : forall nf : option norm_form, exists t, match nf, t with
      | Some a, Some v => exists s, v = lit s /\ In (s, a) nf_texts | None, None => True | _, _ => False end.
  Proof. intros [nf|]; [|exists None; exact I]. destruct (nf_given nf) as (s & H). exists (Some (lit s)), s. split; [reflexivity|exact H]. Qed.

  Lemma frequency_line : forall o q unique num threshold reverse nf tsv output l,
    askable e draws (KFrequency o q unique num threshold reverse nf tsv output l) ->
    exists ts, line_asks e draws ts config (KFrequency o q unique num threshold reverse nf tsv output l).
  Proof.
    intros o q unique num threshold reverse nf tsv output l [(Ho & Hx & Hn & Hth & Hl) (W & Hq)].
    destruct (shared_texts o (proj1 Ho)) as (limit & thr & HL & HT). destruct (nf_option nf) as (tr & Htr).
    destruct (number_given _ Hn) as (tn & Htn). destruct (number_given _ Hth) as (tt & Htt).
    eapply (line_given e draws _ config Hc "frequency" _ _
      (with_shared o limit thr [GO "separator" (Some (co_separator q)); GS "squash" (co_squash q); GS "merge" (co_merge q);
         GO "header" (co_header q); GS "unique" unique; GO "num" (Some tn); GO "threshold" (Some tt); GS "reverse" reverse;
         GO "translit" tr; GS "tsv" tsv; GO "output" output]) (co_query q :: l));
      [is_command|reflexivity|].
    eapply as_frequency; [apply shared_asked; try assumption; reflexivity|apply columns_asked; try assumption; given|given..].
    eapply choice_asked; [given_value|exact Htr].
  Qed.

  Lemma hash_line : forall o output tsv header l, askable e draws (KHash o output tsv header l) ->
    exists ts, line_asks e draws ts config (KHash o output tsv header l).
  Proof.
    intros o output tsv header l [(Ho & Hl) (W & Hh)]. destruct (shared_texts o (proj1 Ho)) as (limit & threshold & HL & HT).
    eapply (line_given e draws _ config Hc "hash" _ _
      (with_shared o limit threshold [GO "output" output; GS "tsv" tsv; GO "header" (Some header)]) l); [is_command|reflexivity|].
    apply as_hash; [apply shared_asked; try assumption; reflexivity|given..].
  Qed.

  Lemma invalid_line : forall output l, askable e draws (KInvalid output l) ->
    exists ts, line_asks e draws ts config (KInvalid output l).
  Proof.
    intros output l [Hl _].
    eapply (line_given e draws _ config Hc "invalid" _ _ [GO "output" output] l); [is_command|reflexivity|]. apply as_invalid; given.
  Qed.

  Lemma partition_line : forall o p gzip outdir template l, askable e draws (KPartition o p gzip outdir template l) ->
    exists ts, line_asks e draws ts config (KPartition o p gzip outdir template l).
  Proof.
    intros o p gzip outdir template l [(Ho & Hd & Hl) (W & (t & Ht) & Hte)].
    destruct (shared_texts o (proj1 Ho)) as (limit & threshold & HL & HT).
    eapply (line_given e draws _ config Hc "partition" _ _
      (with_shared o limit threshold [GS "gzip" gzip; GO "outdir" (Some outdir); GO "template" template]) (t :: l)); [is_command|reflexivity|].
    eapply as_partition; [apply shared_asked; try assumption; reflexivity|given..].
  Qed.

  Lemma print_line : forall o nf output l, askable e draws (KPrint o nf output l) ->
    exists ts, line_asks e draws ts config (KPrint o nf output l).
  Proof.
    intros o nf output l [(Ho & Hl) W]. destruct (shared_texts o (proj1 Ho)) as (limit & threshold & HL & HT).
    destruct (nf_option nf) as (tr & Htr).
    eapply (line_given e draws _ config Hc "print" _ _ (with_shared o limit threshold [GO "translit" tr; GO "output" output]) l);
      [is_command|reflexivity|].
    apply as_print; [apply shared_asked; try assumption; reflexivity|given..].
    eapply choice_asked; [given_value|exact Htr].
  Qed.

  Lemma size_given : forall n, 1 <= n < 2 ^ 32 -> exists t, range_text 1 4294967295 t n.
  Proof. intros n H. change (2 ^ 32) with 4294967296 in H. apply range_given. lia. Qed.

  Lemma sample_line : forall o gzip output draw n l, askable e draws (KSample o gzip output draw n l) ->
    exists ts, line_asks e draws ts config (KSample o gzip output draw n l).
  Proof.
    intros o gzip output draw n l [(Ho & Hn & Hl) (W & seed & -> & Hs)].
    destruct (shared_texts o (proj1 Ho)) as (limit & threshold & HL & HT). destruct (size_given n Hn) as (t & Ht).
    assert (S : exists ts, seed = None /\ ts = None \/ exists t k, ts = Some t /\ number_text t k /\ seed = Some k).
    { destruct seed as [k|]; [|exists None; left; split; reflexivity]. destruct (number_given k (Hs k eq_refl)) as (x & Hx).
      exists (Some x). right. exists x, k. split; [reflexivity|]. split; [exact Hx|reflexivity]. }
    destruct S as (ts & S).
    eapply (line_given e draws _ config Hc "sample" _ _
      (with_shared o limit threshold [GS "gzip" gzip; GO "output" output; GO "seed" ts]) (t :: l)); [is_command|reflexivity|].
    eapply as_sample; [apply shared_asked; try assumption; reflexivity|given..].
    assert (V : values (items_of (with_shared o limit threshold [GS "gzip" gzip; GO "output" output; GO "seed" ts]) (t :: l)) (lit "seed") = opt_list ts)
      by given_value.
    destruct S as [[-> ->]|(x & k & -> & Hx & ->)]; [left; split; [exact V|reflexivity]|].
    right. exists x, k. split; [exact V|]. split; [exact Hx|reflexivity].
  Qed.

  Lemma select_line : forall o q unique no_empty nf quote tsv append output l,
    askable e draws (KSelect o q unique no_empty nf quote tsv append output l) ->
    exists ts, line_asks e draws ts config (KSelect o q unique no_empty nf quote tsv append output l).
  Proof.
    intros o q unique no_empty nf quote tsv append output l [(Ho & Hx & Hl) (W & Hq)].
    destruct (shared_texts o (proj1 Ho)) as (limit & thr & HL & HT). destruct (nf_option nf) as (tr & Htr).
    destruct (quotes_given quote) as (qs & Hqs).
    eapply (line_given e draws _ config Hc "select" _ _
      (with_shared o limit thr [GO "separator" (Some (co_separator q)); GS "squash" (co_squash q); GS "merge" (co_merge q);
         GO "header" (co_header q); GS "unique" unique; GS "no-empty-columns" no_empty; GO "translit" tr;
         GO "quote-style" (Some (lit qs)); GS "tsv" tsv; GS "append" append; GO "output" output]) (co_query q :: l));
      [is_command|reflexivity|].
    eapply as_select; [apply shared_asked; try assumption; reflexivity|apply columns_asked; try assumption; given|given..].
    - eapply choice_asked; [given_value|exact Htr].
    - right. exists qs. split; [given_value|exact Hqs].
  Qed.

  Lemma slice_line : forall o gzip append output start end_ len l,
    askable e draws (KSlice o gzip append output start end_ len l) ->
    exists ts, line_asks e draws ts config (KSlice o gzip append output start end_ len l).
  Proof.
    intros o gzip append output start end_ len l [(Ho & H1 & H2 & H3 & Hx & Hl) W].
    destruct (shared_texts o (proj1 Ho)) as (limit & threshold & HL & HT).
    destruct (number_given _ H1) as (t1 & T1). destruct (number_given _ H2) as (t2 & T2). destruct (number_given _ H3) as (t3 & T3).
    destruct Hx as [->| ->].
    - eapply (line_given e draws _ config Hc "slice" _ _
        (with_shared o limit threshold [GS "gzip" gzip; GS "append" append; GO "output" output; GO "start" (Some t1); GO "length" (Some t3)]) l);
        [is_command|reflexivity|].
      apply as_slice; [apply shared_asked; try assumption; reflexivity|given_switch|given_switch|given_value|given| |given|left; given_value|no_progress|given].
      left. split; [given_value|reflexivity].
    - eapply (line_given e draws _ config Hc "slice" _ _
        (with_shared o limit threshold [GS "gzip" gzip; GS "append" append; GO "output" output; GO "start" (Some t1); GO "end" (Some t2)]) l);
        [is_command|reflexivity|].
      apply as_slice; [apply shared_asked; try assumption; reflexivity|given_switch|given_switch|given_value|given|given| |right; given_value|no_progress|given].
      left. split; [given_value|reflexivity].
  Qed.

  Lemma split_line : forall o gzip outdir template n l, askable e draws (KSplit o gzip outdir template n l) ->
    exists ts, line_asks e draws ts config (KSplit o gzip outdir template n l).
  Proof.
    intros o gzip outdir template n l [(Ho & Hd & Hn & Hl) (W & Hte)].
    destruct (shared_texts o (proj1 Ho)) as (limit & threshold & HL & HT). destruct (size_given n Hn) as (t & Ht).
    eapply (line_given e draws _ config Hc "split" _ _
      (with_shared o limit threshold [GS "gzip" gzip; GO "outdir" (Some outdir); GO "template" template]) (t :: l)); [is_command|reflexivity|].
    eapply as_split; [apply shared_asked; try assumption; reflexivity|given..].
  Qed.

  Lemma askable_line : forall k, askable e draws k -> exists ts, line_asks e draws ts config k.
  Proof.
    intros [] H; [apply check_line|apply concat_line|apply config_line|apply convert_line|apply count_line|apply describe_line
      |apply explode_line|apply filter_line|apply frequency_line|apply hash_line|apply invalid_line|apply partition_line|apply print_line
      |apply sample_line|apply select_line|apply slice_line|apply split_line]; exact H.
  Qed.
End Lines.

(** ** Whatever is asked for is askable *)

Section Asked.
  Variable e : env.
  Variable draws : option N -> N -> N.

  Lemma common_written : forall its o, asks_common e its o -> utf8_or_none (o_where o) -> written e o.
  Proof.
    intros its o (_ & _ & _ & _ & (_ & A1) & (_ & A2) & (_ & A3) & _ & A4 & (_ & A5) & (_ & A6) & (_ & A7) & _) W.
    repeat split; assumption.
  Qed.
  Lemma shared_written : forall its o, asks_shared e its o -> written e o.
  Proof. intros its o (H & (_ & W) & _). exact (common_written its o H W). Qed.
  Lemma lit_utf8_bar : is_utf8 (lit "|").
  Proof. apply utf8_valid_iff. reflexivity. Qed.
  Lemma lit_utf8_header : is_utf8 (lit "ppn,hash").
  Proof. apply utf8_valid_iff. reflexivity. Qed.
  Lemma text_or_utf8 : forall its n d v, is_utf8 d -> text_or its n d v -> is_utf8 v.
  Proof. intros its n d v Hd [[_ ->]|[_ H]]; assumption. Qed.
  Lemma columns_written : forall its q, asks_columns its q -> written_columns q.
  Proof.
    intros its q (A1 & _ & _ & (_ & A2) & A3 & _). split; [exact A3|]. split; [eapply text_or_utf8; [apply lit_utf8_bar|exact A1]|exact A2].
  Qed.

  Lemma asks_askable : forall name its k, asks e draws name its k -> askable e draws k.
  Proof.
    intros name its k H. split; [eapply asks_orderly, H|].
    inversion H; subst; cbn [written_command];
      repeat match goal with
             | |- _ /\ _ => split
             | |- True => exact I
             | |- written _ _ => first [eapply shared_written; eassumption
                 |eapply common_written; [eassumption|match goal with X : o_where _ = None |- _ => rewrite X end; discriminate]]
             | |- written_columns _ => eapply columns_written; eassumption
             | X : text _ _ ?o |- utf8_or_none ?o => exact (proj2 X)
             | X : texts _ _ ?o |- Forall is_utf8 ?o => exact (proj2 X)
             | |- exists t, path_for _ t _ => eexists; eassumption
             end; try assumption.
    - (* config *)
      match goal with X : Forall is_utf8 _, Y : names _ = _ |- _ => rewrite Y in X; inversion X; assumption end.
    - cbn. intros x E. subst.
      match goal with X : Forall is_utf8 _, Y : names _ = _ |- _ => rewrite Y in X; inversion X as [|? ? ? F]; inversion F; assumption end.
    - eapply text_or_utf8; [apply lit_utf8_header|eassumption].
    - exists seed. split; [reflexivity|]. intros m E.
      match goal with X : _ \/ _ |- _ => destruct X as [[_ X]|(t' & k' & _ & [X _] & Y)]; congruence end.
  Qed.

  Lemma askable_iff : forall config k, config <> Some [] ->
    (askable e draws k <-> exists ts, line_asks e draws ts config k).
  Proof.
    intros config k Hc. split; [apply askable_line; exact Hc|].
    intros (ts & c & before & word & after & its & _ & _ & _ & _ & H). exact (asks_askable _ _ _ H).
  Qed.

  Lemma askable_read : forall config k, config <> Some [] ->
    (askable e draws k <-> exists ts, read_line e draws ts = PGiven (config, AskRun k)).
  Proof.
    intros config k Hc. rewrite (askable_iff config k Hc). split; intros (ts & H); exists ts; apply line_iff; exact H.
  Qed.
  Lemma askable_runs : forall help version completions config k w, config <> Some [] -> askable e draws k ->
    exists ts, program e draws help version completions ts w = run e (mkInvocation config k) w.
  Proof.
    intros help version completions config k w Hc H. destruct (proj1 (askable_iff config k Hc) H) as (ts & L).
    exists ts. apply program_runs, L.
  Qed.
End Asked.

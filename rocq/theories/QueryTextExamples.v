(** * Sample texts of the languages of paths, formats and queries *)

From Coq Require Import String.
From Verif Require Import Bytes Winnow RecordModel RecordSpec Utf8Model Utf8Spec Utf8Proofs
  TagOccModel TagOccSpec StrParserModel StrSpec MatcherModel StateParser
  MatcherParserModel MatcherSpec GrammarSpec GrammarLeafProofs
  PathModel FmtModel QueryModel QuerySpec QueryProofs QueryGrammarSpec QueryTextProofs.

Lemma query_unambiguous : forall O T t Ms n Ms' n' qo r, regexes_compile O (qo_case_ignore qo) ->
  query_text O T true t Ms n -> n < 32 -> query_text O T true t Ms' n' -> n' < 32 ->
  forall rows, query_rows Ms qo r rows <-> query_rows Ms' qo r rows.
Proof.
  intros O T t Ms n Ms' n' qo r HR H Hn H' Hn' rows.
  destruct (query_complete O T t Ms n fresh H eq_refl Hn) as (q & E & A).
  destruct (query_complete O T t Ms' n' fresh H' eq_refl Hn') as (q' & E' & A').
  rewrite E in E'. injection E' as <-.
  destruct (A qo r HR) as (x & Ex & Hx). destruct (A' qo r HR) as (y & Ey & Hy).
  rewrite Ex in Ey. injection Ey as <-. rewrite Hx, Hy. reflexivity.
Qed.

Ltac member := cbn; tauto.
Ltac blank_run := match goal with |- blanks _ => unfold blanks; repeat (apply Forall_cons; [cbv; tauto|]); apply Forall_nil end.

Definition tag_is (a b c d : byte) : bytes -> Prop :=
  fun tag => exists a' b' c' d', tag = [a'; b'; c'; d'] /\ a' = a /\ b' = b /\ c' = c /\ d' = d.

Lemma tag_sample : tag_matcher_text (lit "012A") (tag_is 48 49 50 65).
Proof.
  change (lit "012A") with (([48] : bytes) ++ [49] ++ [50] ++ [65]).
  apply tmt_intro; apply pos_lit; member.
Qed.
Lemma tag_id : tag_matcher_text (lit "003@") (tag_is 48 48 51 64).
Proof.
  change (lit "003@") with (([48] : bytes) ++ [48] ++ [51] ++ [64]).
  apply tmt_intro; apply pos_lit; member.
Qed.
Lemma tag_is_iff : forall a b c d t, tag_is a b c d t <-> t = [a; b; c; d].
Proof.
  intros a b c d t. split; [intros (x & y & z & w & -> & -> & -> & -> & ->); reflexivity|].
  intros ->. exists a, b, c, d. auto.
Qed.

Lemma bc_codes : exists C, codes_text (lit "[bc]") C.
Proof.
  destruct (parse_codes (lit "[bc]")) as [[l r]|] eqn:E; [|vm_compute in E; discriminate].
  pose proof E as E0. vm_compute in E0. injection E0 as _ <-.
  apply codes_inv in E as (t & C & Et & H & _). rewrite app_nil_r in Et. subst t. eauto.
Qed.

Lemma path_text_sample : forall O, exists F Cs,
  path_text O true (lit " 012A/*{ (a, [bc]) | d? } ") F Cs /\ length Cs = 2%nat
  /\ forall ci f, F ci f <-> f_tag f = lit "012A" /\ exists s, In s (f_subfields f) /\ sf_code s = 100.
Proof.
  intros O. destruct bc_codes as (C & HC).
  pose (P := fun (ci : bool) (sfs : list subfield) => exists s, In s sfs /\ sf_code s = 100).
  assert (HG : guard_text O true (lit "| d? ") true P).
  { change (lit "| d? ") with (lit "|" ++ lit " " ++ lit "d?" ++ lit " ").
    apply (guard_some O true KNeg (lit " ") (lit "d?") (lit " ") P 0); [reflexivity| |reflexivity|blank_run|blank_run].
    apply expr_leaf; [reflexivity|]. apply sub_leaf_exists.
    change (lit "d?") with (([100] : bytes) ++ lit "?").
    apply (exists_intro [100] (fun x => x = 100)). apply codes_one. member. }
  exists (guarded (tag_is 48 49 50 65) (fun _ => True) P), [(fun x => x = 97); C].
  split; [|split; [reflexivity|]].
  - change (lit " 012A/*{ (a, [bc]) | d? } ") with
      (lit " " ++ lit "012A" ++ lit "/*" ++ [] ++ lit "{" ++ lit " " ++ lit "(a, [bc])" ++ lit " " ++ lit "| d? "
         ++ lit "}" ++ lit " ").
    apply (path_braces O true) with (g := true); try blank_run; [apply tag_sample|apply omt_any| |exact HG].
    change (lit "(a, [bc])") with (lit "(" ++ [] ++ lit "a, [bc]" ++ [] ++ lit ")").
    apply columns_parens; try constructor.
    change (lit "a, [bc]") with (([97] : bytes) ++ [] ++ lit "," ++ lit " " ++ lit "[bc]").
    apply groups_more; [apply codes_one; member|constructor|blank_run|]. apply groups_one. exact HC.
  - intros ci f. unfold guarded, tagged. rewrite tag_is_iff. split.
    + intros [[E _] Hp]. split; [exact E|exact Hp].
    + intros [E Hp]. split; [split; [exact E|exact I]|exact Hp].
Qed.

Lemma string_read : forall i v, parse_string i = Some (v, []) -> string_text i v.
Proof. intros i v H. apply string_iff in H as (t & -> & Ht). rewrite app_nil_r. exact Ht. Qed.

Definition upper_only : modifier := mkModifier false true false false false.

Lemma format_text_sample : forall O T, exists F R,
  format_text O T true FkBoth false (lit "012A{ (?u a..2 <$> b) <*> '; ' c }") F R 1
  /\ (forall ci f, F ci f <-> f_tag f = lit "012A" /\ (f_occ f = None \/ f_occ f = Some (lit "00")))
  /\ R false (mkField (lit "012A") None [mkSubfield 97 (lit "x"); mkSubfield 99 (lit "z")])
       (t_upper T (lit "x") ++ lit "; z").
Proof.
  intros O T.
  pose (Ra := values_meaning T (fun x => x = 97) [] [] 2 no_modifier).
  pose (Rb := values_meaning T (fun x => x = 98) [] [] 1 no_modifier).
  pose (Rc := values_meaning T (fun x => x = 99) (lit "; ") [] 1 no_modifier).
  pose (Rg := group_meaning T upper_only (then_meaning Ra Rb)).
  assert (Ha : frag_expr T FkValue (lit "a..2") Ra 0).
  { apply (frag_value T [] no_modifier [] [] [] [97] (fun x => x = 97) (lit "..2") 2 [] []);
      try constructor; try discriminate; try reflexivity; try member.
    - split; [discriminate|]. split; [constructor; [vm_compute; tauto|constructor]|]. split; reflexivity.
    - intros _ (c & t' & E & Hc). injection E as <- _. cbn in Hc. intuition discriminate.
    }
  assert (Hb : frag_expr T FkCode (lit "b") Rb 0).
  { apply (frag_value T [] no_modifier [] [] [] [98] (fun x => x = 98) [] 1 [] []);
      try constructor; try discriminate; try reflexivity; try member.
    - intros _ (c & t' & E & Hc). injection E as <- _. cbn in Hc. intuition discriminate.
    }
  assert (Hc : frag_expr T FkValue (lit "'; ' c") Rc 0).
  { apply (frag_value T [] no_modifier [] (lit "'; ' ") (lit "; ") [99] (fun x => x = 99) [] 1 [] []);
      try constructor; try discriminate; try reflexivity; try member.
    - change (lit "'; ' ") with (lit "'; '" ++ lit " "). apply prefix_some; [apply string_read; vm_compute; reflexivity|].
      blank_run.
    - intros _ (c & t' & E & Hc). injection E as <- _. cbn in Hc. intuition discriminate.
    }
  pose proof (frag_then T FkValue FkCode (lit "a..2") (lit " ") (lit " ") (lit "b") Ra Rb 0 0 eq_refl ltac:(discriminate)
                Ha Hb ltac:(blank_run) ltac:(blank_run)) as Ht.
  assert (Hm : modifier_text (lit "?u") upper_only).
  { apply (modifier_some (lit "u")); [discriminate|repeat constructor; member|].
    unfold letters_mean. cbn. intuition discriminate. }
  pose proof (frag_group T FkThen [] (lit "?u") upper_only (lit " ") (lit "a..2 <$> b") (then_meaning Ra Rb) 0 [] [] []
                usize_max eq_refl Ht Hm ltac:(constructor) ltac:(blank_run) ltac:(discriminate)) as Hg.
  specialize (Hg ltac:(split; discriminate) ltac:(constructor) ltac:(constructor) ltac:(constructor) ltac:(reflexivity)).
  pose proof (frag_both T FkGroup FkValue (lit "(?u a..2 <$> b)") (lit " ") (lit " ") (lit "'; ' c") Rg Rc 1 0 ltac:(discriminate)
                Hg Hc ltac:(blank_run) ltac:(blank_run)) as He.
  exists (guarded (tag_is 48 49 50 65) (fun o => o = None \/ o = Some (lit "00")) (fun _ _ => True)), (both_meaning Rg Rc).
  split; [|split].
  - change (lit "012A{ (?u a..2 <$> b) <*> '; ' c }") with
      (lit "012A" ++ [] ++ [] ++ lit "{" ++ lit " " ++ lit "(?u a..2 <$> b) <*> '; ' c" ++ lit " " ++ [] ++ lit "}" ++ []).
    apply (format_intro O T true FkBoth); try blank_run; [apply tag_sample|apply omt_empty|exact He|constructor].
  - intros ci f. unfold guarded, tagged. rewrite tag_is_iff. split.
    + intros [H _]. exact H.
    + intros H. split; [exact H|exact I].
  - assert (Mn : forall x, modified T no_modifier x x).
    { intros x. exists x, x, x, x. repeat split. }
    exists (t_upper T (lit "x")), (lit "; z"). split; [|split; [|reflexivity]].
    + exists (lit "x"). split.
      * exists (lit "x"). split.
        -- exists [lit "x"], [lit "x"]. split; [|split; [repeat constructor|apply Mn]]. cbn.
           apply (picks_yes (fun s => sf_code s = 97) sf_value (mkSubfield 97 (lit "x"))); [reflexivity|].
           apply picks_no; [discriminate|constructor].
        -- right. split; [discriminate|]. exists []. split; [|reflexivity].
           exists [], []. split; [|split; [constructor|apply Mn]]. cbn.
           do 2 (apply picks_no; [discriminate|]). constructor.
      * exists (lit "x"), (lit "x"), (lit "x"), (lit "x"). repeat split.
    + exists [lit "z"], [lit "z"]. split; [|split; [repeat constructor|apply Mn]]. cbn.
      apply picks_no; [discriminate|].
      apply (picks_yes (fun s => sf_code s = 99) sf_value (mkSubfield 99 (lit "z"))); [reflexivity|constructor].
Qed.

Lemma query_text_sample : forall O T, exists Ms,
  query_text O T true (lit "003@.0, 'x', 012A{ (?u a..2 <$> b) <*> '; ' c }") Ms 1
  /\ map fst Ms = [1%nat; 1%nat; 1%nat].
Proof.
  intros O T. destruct (format_text_sample O T) as (F & R & HF & _).
  pose proof (fragment_format O T true FkBoth false _ F R 1 HF (or_introl eq_refl)) as H3.
  pose proof (fragment_literal O T true (lit "'x'") (lit "x") ltac:(apply string_read; vm_compute; reflexivity)) as H2.
  assert (H1 : path_text O true (lit "003@.0") (fun _ f => tagged (tag_is 48 48 51 64)
                 (fun o => o = None \/ o = Some (lit "00")) f) [fun x => x = 48]).
  { apply (path_dot O true [] (lit "003@") _ [] _ (lit "0") _ []); try constructor; [apply tag_id|member]. }
  pose proof (fragment_path O T true _ _ _ H1) as H1'.
  pose proof (query_more O T true _ _ _ _ [] (lit " ") _ _ _ H2 ltac:(constructor) ltac:(blank_run)
                (query_one O T true _ _ _ _ H3)) as Q.
  pose proof (query_more O T true _ _ _ _ [] (lit " ") _ _ _ H1' ltac:(constructor) ltac:(blank_run) Q) as Q'.
  eexists. split; [exact Q'|reflexivity].
Qed.

Lemma braces_path : forall O T, exists q,
  query_new O fresh (lit "012A{a}") = (Some (Some q), fresh)
  /\ record_query O T (mkQueryOptions false (lit "|") false false) q
       [mkField (lit "012A") None [mkSubfield 97 (lit "x"); mkSubfield 97 (lit "y")]]
     = Some [[lit "x"]; [lit "y"]]
  /\ exists f, format_new O fresh (lit "012A{a}") = (Some (Some f), fresh)
     /\ record_format O T false false f
          [mkField (lit "012A") None [mkSubfield 97 (lit "x"); mkSubfield 97 (lit "y")]] = Some [lit "x"].
Proof.
  intros O T. eexists. split; [vm_compute; reflexivity|]. split; [vm_compute; reflexivity|].
  eexists. split; vm_compute; reflexivity.
Qed.

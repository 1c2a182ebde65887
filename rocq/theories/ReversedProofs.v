(** * Proofs about frequency --reverse *)

From Coq Require Import String ZArith Lia Sorted Permutation.
From Verif Require Import Bytes BaseProofs Winnow RecordModel TagOccModel Utf8Model ByteRecordModel ReaderModel
  MatcherModel StateParser MatcherParserModel BuilderModel PathModel FmtModel QueryModel CliModel TableModel
  ExplodeModel CheckModel ConvertModel CsvModel CsvSpec CsvProofs OptionsModel OptionsSpec ConfigModel PrepareModel IoModel IoSpec WriteSpec DiskModel DirModel RuleModel
  MainModel DiskSpec RuleSpec MainSpec PipeSpec FrontRunProofs PartsSpec FewerProofs FrequencyProofs TopmostProofs.

Section Write.
  Variable lossy : bytes -> bytes.
  Variable c : freq_cmd.
  Hypothesis En : fq_num c = 0.
  Hypothesis Et : fq_threshold c = 0.

  Lemma write_step : forall x l j rs, freq_write lossy c j (x :: l) rs = match csv_write rs (freq_row lossy c x) with None => (rs, true) | Some out => freq_write lossy c (j + 1) l out end.
  Proof.
    intros x l j rs. cbn [freq_write]. rewrite En, Et. cbn [N.ltb N.compare andb].
    replace (snd x <? 0) with false by (symmetry; apply N.ltb_ge; lia). reflexivity.
  Qed.

  Lemma write_all : forall l j rs out, even rs -> freq_write lossy c j l rs = (out, false) -> out = rs ++ map (freq_row lossy c) l /\ even out.
  Proof.
    induction l as [|x l IH]; intros j rs out He H.
    - injection H as <-. cbn [map]. rewrite app_nil_r. auto.
    - rewrite write_step in H. destruct (csv_write rs (freq_row lossy c x)) as [out1|] eqn:Ew; [|discriminate]. destruct (write_even _ _ _ He Ew) as [-> He1].
      destruct (IH _ _ _ He1 H) as [-> Ho]. cbn [map]. rewrite <- app_assoc in *. auto.
  Qed.

  Lemma write_can : forall l j rs, even (rs ++ map (freq_row lossy c) l) -> freq_write lossy c j l rs = (rs ++ map (freq_row lossy c) l, false).
  Proof.
    induction l as [|x l IH]; intros j rs He.
    - cbn [map freq_write]. rewrite app_nil_r. reflexivity.
    - rewrite write_step. rewrite (write_some rs rs).
      + rewrite IH; cbn [map] in *; rewrite <- app_assoc; [reflexivity|exact He].
      + intros a b Ha Hb. apply He; cbn [map]; [apply in_app_or in Ha; destruct Ha as [Ha|[<-|[]]]|apply in_app_or in Hb; destruct Hb as [Hb|[<-|[]]]];
          apply in_or_app; ((left; assumption) || (right; left; reflexivity)).
      + intros a Ha. exact Ha.
  Qed.
End Write.

Lemma sorted_asc : forall l, StronglySorted (fun a b : list bytes * N => snd a <= snd b) (sort_by (freq_cmp true) l).
Proof.
  intros l. apply sort_by_sorted.
  - intros x y H. unfold freq_cmp in H. destruct (N.compare_spec (snd x) (snd y)); [lia|lia|congruence].
  - intros x y H. unfold freq_cmp in H. destruct (N.compare_spec (snd x) (snd y)); [lia|discriminate|lia].
  - intros x y z. lia.
Qed.

Lemma sorted_map : forall A B (R : B -> B -> Prop) (f : A -> B) l, StronglySorted (fun a b => R (f a) (f b)) l -> StronglySorted R (map f l).
Proof.
  intros A B R f l H. induction H as [|x l _ IH Hf]; [constructor|]. cbn [map]. constructor; [exact IH|].
  apply Forall_forall. intros y Hy. apply in_map_iff in Hy. destruct Hy as (z & <- & Hz). exact (proj1 (Forall_forall _ _) Hf z Hz).
Qed.

Lemma run_reversed : forall e cfg w o q s squash merge unique nf tsv names t,
  (forall v, e_numeric e v = true -> Forall (plain_byte (if tsv : bool then 9 else 44)) v) ->
  run_writes e cfg w (KFrequency o (mkColumns q s squash merge None) unique 0 0 false nf tsv None names) t ->
  exists l l' t', csv_rows (if tsv then 9 else 44) (map (fun x => fst x ++ [dec (snd x)]) l) t
    /\ csv_rows (if tsv then 9 else 44) (map (fun x => fst x ++ [dec (snd x)]) l') t'
    /\ Permutation l l' /\ StronglySorted (fun x y => snd y <= snd x) l /\ StronglySorted (fun x y => snd x <= snd y) l'
    /\ run_writes e cfg w (KFrequency o (mkColumns q s squash merge None) unique 0 0 true nf tsv None names) t'.
Proof.
  intros e cfg w o q s squash merge unique nf tsv names t Hv H.
  assert (Hq : QNecessary <> QNever) by discriminate.
  destruct (run_freq_same _ _ _ _ _ _ _ _ _ _ 0 _ 0 _ true _ _ _ _ H) as [[-> R]|(qu & a & tb & rows & Ew & -> & R)].
  - exists [], [], []. split; [exact (csv_text_rows _ _ _ Hq Hv [] (Forall_nil _))|]. split; [exact (csv_text_rows _ _ _ Hq Hv [] (Forall_nil _))|].
    split; [constructor|]. split; [constructor|]. split; [constructor|exact R].
  - set (c1 := mkFreq qu a unique 0 0 false None (translit e nf)) in *. set (c2 := mkFreq qu a unique 0 0 true None (translit e nf)) in *.
    destruct (write_all (e_lossy e) c1 eq_refl eq_refl _ _ _ _ even_nil Ew) as [-> He]. cbn [app] in *.
    set (g := fun x : list bytes * N => (map (fun v => translit e nf (e_lossy e v)) (fst x), snd x)).
    assert (M1 : forall k, map (freq_row (e_lossy e) c1) k = map shown (map g k)) by (intros k; rewrite map_map; reflexivity).
    assert (M2 : forall k, map (freq_row (e_lossy e) c2) k = map shown (map g k)) by (intros k; rewrite map_map; reflexivity).
    assert (P : Permutation (sort_by (freq_cmp false) (e_freq_order e tb)) (sort_by (freq_cmp true) (e_freq_order e tb)))
      by (eapply Permutation_trans; [apply sort_by_perm|symmetry; apply sort_by_perm]).
    assert (Ew' : freq_write (e_lossy e) c2 0 (sort_by (freq_cmp true) (e_freq_order e tb)) [] = (map (freq_row (e_lossy e) c2) (sort_by (freq_cmp true) (e_freq_order e tb)), false)).
    { apply (write_can (e_lossy e) c2 eq_refl eq_refl _ 0 []). cbn [app]. change (freq_row (e_lossy e) c2) with (freq_row (e_lossy e) c1).
      intros x y Hx Hy. apply He; eapply Permutation_in; [apply Permutation_map; symmetry; exact P|exact Hx|apply Permutation_map; symmetry; exact P|exact Hy]. }
    exists (map g (sort_by (freq_cmp false) (e_freq_order e tb))), (map g (sort_by (freq_cmp true) (e_freq_order e tb))). eexists.
    split; [rewrite M1; exact (csv_text_rows _ _ _ Hq Hv _ (shown_there _))|]. split; [exact (csv_text_rows _ _ _ Hq Hv _ (shown_there _))|].
    split; [apply Permutation_map; exact P|]. split; [apply sorted_map; exact (sorted_desc _)|]. split; [apply sorted_map; exact (sorted_asc _)|].
    rewrite <- M2. exact (R _ Ew').
Qed.

(** * Proofs about reading in pieces and failing reads *)

From Verif Require Import Bytes Winnow RecordModel BaseProofs ByteRecordModel ByteRecordSpec ReaderModel
  ReaderProofs CliModel CliSpec CliProofs CliCommandProofs IoModel IoSpec.

(** ** read_until *)

Lemma split_lf_some : forall b x y, split_lf b = Some (x, y) ->
  read_until_lf b = (x, y) /\ b = x ++ y /\ In 10 x /\ x <> [].
Proof.
  induction b as [|c b IH]; cbn; intros x y H; [discriminate|].
  destruct (N.eqb_spec c LF) as [->|Hc].
  - injection H as <- <-. repeat split; try reflexivity; [left; reflexivity|discriminate].
  - destruct (split_lf b) as [[x' y']|]; [|discriminate]. injection H as <- <-.
    destruct (IH _ _ eq_refl) as (E & -> & Hi & _). rewrite E.
    repeat split; try reflexivity; [right; exact Hi|discriminate].
Qed.

Lemma split_lf_none : forall b, split_lf b = None -> read_until_lf b = (b, []) /\ ~ In 10 b.
Proof.
  induction b as [|c b IH]; cbn; intros H; [auto|].
  destruct (N.eqb_spec c LF) as [->|Hc]; [discriminate|].
  destruct (split_lf b) as [[x' y']|]; [discriminate|].
  destruct (IH eq_refl) as (E & Hi). rewrite E. split; [reflexivity|].
  intros [->|Hin]; [apply Hc; reflexivity|contradiction].
Qed.

Lemma split_lf_line : forall p r, ~ In 10 p -> split_lf (p ++ 10 :: r) = Some (p ++ [10], r).
Proof.
  induction p as [|c p IH]; intros r H; cbn; [reflexivity|].
  destruct (N.eqb_spec c LF) as [->|Hc]; [exfalso; apply H; left; reflexivity|].
  rewrite IH; [reflexivity|]. intros Hi. apply H. right. exact Hi.
Qed.

Lemma split_lf_no : forall b, ~ In 10 b -> split_lf b = None.
Proof.
  intros b H. destruct (split_lf b) as [[x y]|] eqn:E; [|reflexivity].
  destruct (split_lf_some _ _ _ E) as (_ & -> & Hi & _). exfalso. apply H. apply in_app_iff. auto.
Qed.

Lemma split_lf_app : forall a b, ~ In 10 a ->
  split_lf (a ++ b) = match split_lf b with Some (x, y) => Some (a ++ x, y) | None => None end.
Proof.
  induction a as [|c a IH]; intros b H; cbn.
  - destruct (split_lf b) as [[x y]|]; reflexivity.
  - destruct (N.eqb_spec c LF) as [->|Hc]; [exfalso; apply H; left; reflexivity|].
    rewrite IH by (intros Hi; apply H; right; exact Hi).
    destruct (split_lf b) as [[x y]|]; reflexivity.
Qed.

Lemma split_lf_more : forall a x y b, split_lf a = Some (x, y) -> split_lf (a ++ b) = Some (x, y ++ b).
Proof.
  induction a as [|c a IH]; intros x y b H; cbn in *; [discriminate|].
  destruct (c =? LF); [injection H as <- <-; reflexivity|].
  destruct (split_lf a) as [[x' y']|]; [|discriminate]. injection H as <- <-.
  rewrite (IH _ _ b eq_refl). reflexivity.
Qed.

(** what comes after the intact part of a source *)
Definition fault_reads (e : option (io_kind * list piece)) : list piece :=
  match e with None => [] | Some (k, later) => PError k :: later end.

Definition holds_bytes (s : source) (b : bytes) (e : option (io_kind * list piece)) : Prop :=
  exists rs d, so_reads s = rs ++ fault_reads e /\ delivers rs d /\ b = so_buf s ++ d.

Lemma read_more_spec : forall rs d, delivers rs d -> forall e acc, ~ In 10 acc ->
  match split_lf (acc ++ d) with
  | Some (x, y) =>
      exists s', read_more (rs ++ fault_reads e) acc = (inl x, s') /\ holds_bytes s' y e
  | None =>
      match e with
      | None => read_more (rs ++ fault_reads e) acc = (inl (acc ++ d), mkSource [] [])
      | Some (k, later) => read_more (rs ++ fault_reads e) acc = (inr k, mkSource [] later)
      end
  end.
Proof.
  induction 1 as [|rs d _ IH|p rs d Hp Hd IH]; intros e acc Ha.
  - rewrite app_nil_r. rewrite (split_lf_no _ Ha). destruct e as [[k later]|]; reflexivity.
  - cbn [app read_more]. apply IH. exact Ha.
  - cbn [app]. destruct p as [|c p]; [congruence|].
    rewrite split_lf_app by exact Ha. cbn [app read_more].
    change (c :: (p ++ d)) with ((c :: p) ++ d).
    destruct (split_lf (c :: p)) as [[x y]|] eqn:E.
    + rewrite (split_lf_more _ _ _ d E).
      eexists. split; [reflexivity|]. exists rs, d. cbn. auto.
    + destruct (split_lf_none _ E) as [_ Hn].
      specialize (IH e (acc ++ c :: p)).
      assert (Ha' : ~ In 10 (acc ++ c :: p)) by (intros Hi; apply in_app_iff in Hi; tauto).
      specialize (IH Ha'). rewrite <- app_assoc in IH. rewrite split_lf_app in IH by exact Ha.
      exact IH.
Qed.

Lemma io_read_spec : forall s b e, holds_bytes s b e ->
  match split_lf b with
  | Some (x, y) => exists s', io_read_until s = (inl x, s') /\ holds_bytes s' y e
  | None =>
      match e with
      | None => io_read_until s = (inl b, mkSource [] [])
      | Some (k, later) => io_read_until s = (inr k, mkSource [] later)
      end
  end.
Proof.
  intros [buf reads] b e (rs & d & E & Hd & ->). cbn [so_buf so_reads] in *. subst reads.
  unfold io_read_until. cbn [so_buf so_reads].
  destruct (split_lf buf) as [[x y]|] eqn:Es.
  - rewrite (split_lf_more _ _ _ d Es). eexists. split; [reflexivity|]. exists rs, d. cbn. auto.
  - destruct (split_lf_none _ Es) as [_ Hn]. apply read_more_spec; assumption.
Qed.

Lemma holds_size : forall s b e, holds_bytes s b e -> (length b <= source_size s)%nat.
Proof.
  intros [buf reads] b e (rs & d & E & Hd & ->). cbn [so_buf so_reads] in *. subst reads.
  unfold source_size. cbn [so_buf so_reads]. rewrite app_length. apply Nat.add_le_mono_l.
  generalize (fault_reads e). intros l. induction Hd as [|rs d _ IH|p rs d Hp _ IH]; cbn.
  - lia.
  - exact IH.
  - rewrite app_length. lia.
Qed.

(** ** The loops *)

Lemma reader_loop_fuel : forall S (f : S -> byte_record + read_error -> step S) n m s b src l,
  (length b < n)%nat -> (length b < m)%nat ->
  reader_loop n f s (mkReader b src l) = reader_loop m f s (mkReader b src l).
Proof.
  intros S f. induction n as [|n IH]; intros m s b src l Hn Hm; [lia|].
  destruct m as [|m]; [lia|]. cbn [reader_loop].
  unfold next_byte_record. cbn [rd_inner rd_source rd_line].
  destruct (read_until_lf b) as [a r] eqn:E. destruct (read_until_spec _ _ _ E) as (-> & _).
  destruct a as [|c a]; [reflexivity|]. rewrite app_length in Hn, Hm. cbn in Hn, Hm.
  destruct (br_from_bytes (c :: a)); destruct (f s _); try reflexivity; apply IH; lia.
Qed.

Lemma complete_cons : forall p r c, complete_lines (p ++ 10 :: r) c -> ~ In 10 p ->
  exists c', c = p ++ 10 :: c' /\ complete_lines r c'.
Proof.
  intros p r c (q & E & Hq & Hc) Hp.
  change (10 :: r) with ([10] ++ r) in E. rewrite app_assoc in E.
  apply app_eq_app in E as (l & [(E1 & E2)|(E1 & E2)]).
  - destruct l as [|x l _] using rev_ind.
    + rewrite app_nil_r in E1. cbn in E2. subst c q. exists [].
      split; [reflexivity|]. exists r. cbn. auto.
    + rewrite app_assoc in E1. apply app_inj_tail in E1 as [_ <-].
      exfalso. apply Hq. rewrite E2. apply in_app_iff. left. apply in_app_iff. right. left. reflexivity.
  - exists l. subst c r. split; [rewrite <- app_assoc; reflexivity|].
    exists q. split; [reflexivity|]. split; [exact Hq|].
    destruct l as [|x l _] using rev_ind; [left; reflexivity|right].
    destruct Hc as [Hc|(c' & Hc)]; [destruct p; discriminate|].
    rewrite app_assoc in Hc. apply app_inj_tail in Hc as [_ ->]. exists l. reflexivity.
Qed.

Lemma complete_none : forall b c, complete_lines b c -> ~ In 10 b -> c = [].
Proof.
  intros b c (q & -> & _ & [H|(c' & ->)]) Hn; [exact H|].
  exfalso. apply Hn. apply in_app_iff. left. apply in_app_iff. right. left. reflexivity.
Qed.

Lemma complete_exists : forall b, exists c, complete_lines b c.
Proof.
  intros b. induction b as [|x b (c & p & -> & Hp & Hc)] using rev_ind.
  - exists [], []. auto.
  - destruct (N.eq_dec x 10) as [->|Hx].
    + exists ((c ++ p) ++ [10]), []. rewrite app_nil_r. repeat split; [auto|]. right. eexists. reflexivity.
    + exists c, (p ++ [x]). rewrite app_assoc. repeat split; [|exact Hc].
      intros Hi. apply in_app_iff in Hi as [Hi|[->|[]]]; [contradiction|congruence].
Qed.

Section Loops.
  Context {S : Type}.
  Variables (f : S -> byte_record + read_error -> step S) (on_skip : S -> S)
    (body : S -> byte_record -> io_ending S) (skip : bool).
  Hypothesis Hf : loop_body f on_skip body skip.

  (** the part of the source that the loop sees *)
  Definition visible (e : option (io_kind * list piece)) (b c : bytes) : Prop :=
    match e with None => c = b | Some _ => complete_lines b c end.

  Definition ends_with (e : option (io_kind * list piece)) (x : step S) : io_ending S :=
    match e with None => as_io x | Some (k, _) => then_fails (CReadPica (PEIo k)) x end.

  Lemma visible_line : forall e p r c, visible e (p ++ 10 :: r) c -> ~ In 10 p ->
    exists c', c = p ++ 10 :: c' /\ visible e r c'.
  Proof.
    intros [x|] p r c H Hp.
    - apply complete_cons; assumption.
    - cbn in H. subst c. exists r. cbn. auto.
  Qed.

  Lemma io_reader_loop_spec : forall fuel src b e c name n s,
    holds_bytes src b e -> visible e b c -> (length b < fuel)%nat ->
    io_reader_loop on_skip body skip fuel s (mkIoReader src name n)
    = option_map (ends_with e) (reader_loop fuel f s (mkReader c name n)).
  Proof.
    induction fuel as [|fuel IH]; intros src b e c name n s Hs Hv Hlen; [lia|].
    cbn [io_reader_loop reader_loop].
    unfold io_next_byte_record, next_byte_record. cbn [io_inner io_source io_line rd_inner rd_source rd_line].
    pose proof (io_read_spec _ _ _ Hs) as Hr.
    destruct (split_lf b) as [[x y]|] eqn:Eb.
    - destruct (split_lf_some _ _ _ Eb) as (Eu & -> & Hin & Hne).
      destruct Hr as (src' & -> & Hs').
      destruct (read_until_spec _ _ _ Eu) as (_ & [(p & -> & Hp)|(_ & Hno)]); [|contradiction].
      rewrite <- app_assoc in Hv. cbn [app] in Hv.
      destruct (visible_line _ _ _ _ Hv Hp) as (c' & -> & Hv').
      rewrite read_until_line by exact Hp.
      assert (Hlen' : (length y < fuel)%nat) by (rewrite !app_length in Hlen; cbn in Hlen; lia).
      destruct (p ++ [10]) as [|z l] eqn:El; [destruct p; discriminate|].
      destruct Hf as (Hf1 & Hf2 & Hf3).
      destruct (br_from_bytes (z :: l)) as [r|].
      + rewrite Hf1. destruct (f s (inl r)) as [s'|s'|s' err|].
        * apply (IH _ _ _ _ _ _ _ Hs' Hv' Hlen').
        * destruct e as [[k l']|]; reflexivity.
        * destruct e as [[k l']|]; reflexivity.
        * destruct e as [[k l']|]; reflexivity.
      + rewrite Hf2. cbn [pica_skip]. destruct skip.
        * apply (IH _ _ _ _ _ _ _ Hs' Hv' Hlen').
        * destruct e as [[k l']|]; reflexivity.
    - destruct (split_lf_none _ Eb) as (Eu & Hno). destruct e as [[k later]|].
      + rewrite Hr. cbn [visible] in Hv. rewrite (complete_none _ _ Hv Hno). reflexivity.
      + rewrite Hr. cbn [visible] in Hv. subst c. rewrite Eu.
        destruct b as [|z l]; [reflexivity|].
        assert (Hl : (0 < fuel)%nat) by (cbn in Hlen; lia).
        assert (Hs' : holds_bytes (mkSource [] []) [] None).
        { exists [], []. repeat split. constructor. }
        assert (Hi : forall s', io_reader_loop on_skip body skip fuel s' (mkIoReader (mkSource [] []) name (n + 1))
          = option_map as_io (reader_loop fuel f s' (mkReader [] name (n + 1)))).
        { intros s'. apply (IH _ _ None _ _ _ _ Hs' eq_refl). cbn. lia. }
        destruct Hf as (Hf1 & Hf2 & Hf3).
        destruct (br_from_bytes (z :: l)) as [r|].
        * rewrite Hf1. destruct (f s (inl r)) as [s'|s'|s' err|]; try reflexivity. apply Hi.
        * rewrite Hf2. cbn [pica_skip]. destruct skip; [apply Hi|reflexivity].
  Qed.

  Lemma holds_new : forall rs d e, delivers rs d -> holds_bytes (mkSource [] (rs ++ fault_reads e)) d e.
  Proof. intros rs d e H. exists rs, d. cbn. auto. Qed.

  (** one input *)
  Lemma io_file_spec : forall rs d e c name s, delivers rs d -> visible e d c ->
    let rd := io_reader_new (rs ++ fault_reads e) (Some name) in
    io_reader_loop on_skip body skip (Datatypes.S (source_size (io_inner rd))) s rd
    = option_map (ends_with e)
        (reader_loop (Datatypes.S (length c)) f s (reader_new c (Some name))).
  Proof.
    intros rs d e c name s Hd Hv rd. unfold rd, io_reader_new. cbn [io_inner].
    pose proof (holds_new _ _ e Hd) as Hs. pose proof (holds_size _ _ _ Hs) as Hz.
    rewrite (io_reader_loop_spec _ _ _ _ _ _ _ _ Hs Hv) by lia.
    assert (Hc : (length c <= length d)%nat).
    { destruct e as [[k l]|]; cbn in Hv; [|subst; lia].
      destruct Hv as (p & -> & _). rewrite app_length. lia. }
    unfold reader_new. cbn [rd_source]. f_equal. apply reader_loop_fuel; lia.
  Qed.

  Lemma reader_loop_some : forall s c name, exists x,
    reader_loop (Datatypes.S (length c)) f s (reader_new c (Some name)) = Some x.
  Proof.
    intros s c name. destruct (is_lines_exists c) as [ls Hls].
    assert (D := drain_all c (Some name) ls Hls). unfold drain in D.
    change (rd_inner (reader_new c (Some name))) with c in D.
    rewrite (reader_loop_drain _ _ _ _ _ _ _ D). eexists. reflexivity.
  Qed.

  Lemma files_loop_some : forall files s, exists x, files_loop f s files = Some x.
  Proof.
    induction files as [|[name c] files IH]; intros s; cbn [files_loop]; [eexists; reflexivity|].
    destruct (reader_loop_some s c name) as [x ->]. destruct x; try (eexists; reflexivity). apply IH.
  Qed.

  Lemma files_loop_app : forall a b s, files_loop f s (a ++ b) =
    match files_loop f s a with Some (Next s') => files_loop f s' b | other => other end.
  Proof.
    induction a as [|[name c] a IH]; intros b s; cbn [app files_loop]; [reflexivity|].
    destruct (reader_loop _ _ _ _) as [[s'|s'|s' e|]|]; try reflexivity. apply IH.
  Qed.

  (** the inputs before [rest] are intact *)
  Lemma io_files_spec : forall files plain, Forall2 intact files plain -> forall rest s,
    io_files_loop on_skip body skip s (files ++ rest) =
    match files_loop f s plain with
    | Some (Next s') => io_files_loop on_skip body skip s' rest
    | other => option_map as_io other
    end.
  Proof.
    intros files plain H. induction H as [|[name src] [name' d] files plain Hi _ IH]; intros rest s.
    - reflexivity.
    - destruct Hi as (Hn & rs & Hsrc & Hd). cbn [fst snd] in *. subst name' src.
      cbn [app io_files_loop files_loop].
      pose proof (io_file_spec rs d None d name s Hd eq_refl) as E. cbn [fault_reads] in E.
      rewrite app_nil_r in E. rewrite E.
      destruct (reader_loop _ _ _ _) as [[s'|s'|s' err|]|]; try reflexivity. apply IH.
  Qed.

  (** *** the three theorems *)

  Lemma io_intact : forall files plain s, Forall2 intact files plain ->
    io_files_loop on_skip body skip s files = option_map as_io (files_loop f s plain).
  Proof.
    intros files plain s H. rewrite <- (app_nil_r files). rewrite (io_files_spec _ _ H).
    destruct (files_loop f s plain) as [[s'|s'|s' err|]|]; reflexivity.
  Qed.

  Lemma io_read_fails : forall files plain name rs k later rest d c s,
    Forall2 intact files plain -> delivers rs d -> complete_lines d c ->
    io_files_loop on_skip body skip s (files ++ (name, inl (rs ++ PError k :: later)) :: rest)
    = option_map (then_fails (CReadPica (PEIo k))) (files_loop f s (plain ++ [(name, c)])).
  Proof.
    intros files plain name rs k later rest d c s H Hd Hc.
    rewrite (io_files_spec _ _ H), files_loop_app.
    destruct (files_loop f s plain) as [[s'|s'|s' err|]|]; try reflexivity.
    cbn [io_files_loop files_loop].
    pose proof (io_file_spec rs d (Some (k, later)) c name s' Hd Hc) as E. cbn [fault_reads] in E.
    rewrite E. destruct (reader_loop _ _ _ _) as [[s1|s1|s1 err|]|]; reflexivity.
  Qed.

  Lemma io_open_fails : forall files plain name k rest s, Forall2 intact files plain ->
    io_files_loop on_skip body skip s (files ++ (name, inr k) :: rest)
    = option_map (then_fails (CIo k)) (files_loop f s plain).
  Proof.
    intros files plain name k rest s H. rewrite (io_files_spec _ _ H).
    destruct (files_loop f s plain) as [[s'|s'|s' err|]|]; reflexivity.
  Qed.
End Loops.

(** ** The reader by itself *)

Lemma io_next_intact : forall buf rs d name n, delivers rs d ->
  exists x buf' rs' d', delivers rs' d'
    /\ next_byte_record (mkReader (buf ++ d) name n) = (x, mkReader (buf' ++ d') name (n + 1))
    /\ io_next_byte_record (mkIoReader (mkSource buf rs) name n)
       = (match x with
          | None => None
          | Some (inl r) => Some (inl r)
          | Some (inr e) => Some (inr (PE e))
          end, mkIoReader (mkSource buf' rs') name (n + 1)).
Proof.
  intros buf rs d name n Hd.
  assert (Hs : holds_bytes (mkSource buf rs) (buf ++ d) None).
  { exists rs, d. cbn. rewrite app_nil_r. auto. }
  pose proof (io_read_spec _ _ _ Hs) as Hr.
  unfold io_next_byte_record, next_byte_record. cbn [io_inner io_source io_line rd_inner rd_source rd_line].
  destruct (split_lf (buf ++ d)) as [[x y]|] eqn:Eb.
  - destruct (split_lf_some _ _ _ Eb) as (-> & _ & _ & Hne).
    destruct Hr as ([buf' reads'] & -> & (rs' & d' & E & Hd' & Ey)). cbn [so_buf so_reads fault_reads] in *.
    rewrite app_nil_r in E. subst y reads'.
    destruct x as [|z l]; [congruence|].
    destruct (br_from_bytes (z :: l)) as [r|].
    + exists (Some (inl r)), buf', rs', d'. auto.
    + exists (Some (inr (EParse (n + 1) name))), buf', rs', d'. auto.
  - destruct (split_lf_none _ Eb) as (-> & _). rewrite Hr.
    destruct (buf ++ d) as [|z l].
    + exists None, [], [], []. repeat split. constructor.
    + destruct (br_from_bytes (z :: l)) as [r|].
      * exists (Some (inl r)), [], [], []. repeat split. constructor.
      * exists (Some (inr (EParse (n + 1) name))), [], [], []. repeat split. constructor.
Qed.

Lemma io_next_loses : forall buf rs d k later name n, delivers rs d -> ~ In 10 (buf ++ d) ->
  io_next_byte_record (mkIoReader (mkSource buf (rs ++ PError k :: later)) name n)
  = (Some (inr (PEIo k)), mkIoReader (mkSource [] later) name (n + 1)).
Proof.
  intros buf rs d k later name n Hd Hn.
  assert (Hs : holds_bytes (mkSource buf (rs ++ PError k :: later)) (buf ++ d) (Some (k, later))).
  { exists rs, d. cbn. auto. }
  pose proof (io_read_spec _ _ _ Hs) as Hr. rewrite (split_lf_no _ Hn) in Hr.
  unfold io_next_byte_record. cbn [io_inner io_source io_line]. rewrite Hr. reflexivity.
Qed.

(** ** The loop bodies of the commands *)

Lemma on_result_body : forall S (body : S -> byte_record -> step S) skip,
  loop_body (on_result skip body) (fun s => s) (fun s r => as_io (body s r)) skip.
Proof. intros S body skip. repeat split; intros; try reflexivity. Qed.

Lemma slice_step_body : forall O Od skip start length o,
  loop_body (slice_step O Od skip start length o) (slice_on_skip length)
    (fun s r => as_io (slice_body O Od start o s r)) skip.
Proof.
  intros O Od skip start length o.
  split; [reflexivity|]. split; intros; cbn; destruct skip; try reflexivity.
  unfold slice_on_skip. destruct ((0 <? length) && (sl_end s <? usize_max)); reflexivity.
Qed.

Lemma files_loop_no_halt : forall S (f : S -> byte_record + read_error -> step S),
  (forall s x s', f s x <> Halt s') -> forall files s s', files_loop f s files <> Some (Halt s').
Proof.
  intros S f Hf.
  assert (Hr : forall fuel s rd s', reader_loop fuel f s rd <> Some (Halt s')).
  { induction fuel as [|fuel IH]; intros s rd s'; cbn [reader_loop]; [discriminate|].
    destruct (next_byte_record rd) as [[x|] rd']; [|discriminate].
    specialize (Hf s x). destruct (f s x); try discriminate; [apply IH|congruence]. }
  induction files as [|[name c] files IH]; intros s s'; cbn [files_loop]; [discriminate|].
  specialize (Hr (Datatypes.S (length c)) s (reader_new c (Some name))).
  destruct (reader_loop _ _ _ _) as [[s1|s1|s1 e|]|]; try discriminate; [apply IH|].
  intros E. injection E as ->. apply (Hr s'). reflexivity.
Qed.

Lemma io_fault_status : forall S (f : S -> byte_record + read_error -> step S) on_skip body skip,
  loop_body f on_skip body skip ->
  forall files plain name rs k later rest d c s,
  Forall2 intact files plain -> delivers rs d -> complete_lines d c ->
  exists x y, io_files_loop on_skip body skip s (files ++ (name, inl (rs ++ PError k :: later)) :: rest) = Some x
    /\ files_loop f s (plain ++ [(name, c)]) = Some y
    /\ (main_status x = Some 0 <-> exists s', y = Halt s').
Proof.
  intros S f on_skip body skip Hf files plain name rs k later rest d c s H Hd Hc.
  destruct (files_loop_some f (plain ++ [(name, c)]) s) as [y Hy].
  exists (then_fails (CReadPica (PEIo k)) y), y.
  rewrite (io_read_fails f on_skip body skip Hf _ _ _ _ _ _ _ _ _ _ H Hd Hc), Hy.
  repeat split.
  - destruct y as [s'|s'|s' e|]; cbn; intros E; try discriminate. eauto.
  - intros [s' ->]. reflexivity.
Qed.

Lemma io_kind_status : forall (out : bytes) k,
  main_status (IFailed out (CIo k)) = Some (if match k with BrokenPipe => true | OtherKind => false end then 0 else 2).
Proof. intros out []; reflexivity. Qed.

(** ** invalid *)

Lemma io_invalid_file_spec : forall fuel src b e c out o,
  holds_bytes src b e -> visible e b c -> (length b < fuel)%nat -> invalid_file fuel c = Some o ->
  io_invalid_file fuel src out =
  Some (match e with None => IDone (out ++ o) | Some (k, _) => IFailed (out ++ o) (CIo k) end).
Proof.
  induction fuel as [|fuel IH]; intros src b e c out o Hs Hv Hlen Ho; [lia|].
  cbn [io_invalid_file invalid_file] in *.
  pose proof (io_read_spec _ _ _ Hs) as Hr.
  destruct (split_lf b) as [[x y]|] eqn:Eb.
  - destruct (split_lf_some _ _ _ Eb) as (Eu & -> & Hin & Hne).
    destruct Hr as (src' & -> & Hs').
    destruct (read_until_spec _ _ _ Eu) as (_ & [(p & -> & Hp)|(_ & Hno)]); [|contradiction].
    rewrite <- app_assoc in Hv. cbn [app] in Hv.
    destruct (visible_line _ _ _ _ Hv Hp) as (c' & -> & Hv').
    rewrite read_until_line in Ho by exact Hp.
    assert (Hlen' : (length y < fuel)%nat) by (rewrite !app_length in Hlen; cbn in Hlen; lia).
    destruct (p ++ [10]) as [|z l] eqn:El; [destruct p; discriminate|].
    destruct (invalid_file fuel c') as [o'|] eqn:Eo; [|discriminate]. injection Ho as <-.
    destruct (br_from_bytes (z :: l)) as [r|].
    + rewrite (IH _ _ _ _ _ _ Hs' Hv' Hlen' Eo). reflexivity.
    + rewrite (IH _ _ _ _ _ _ Hs' Hv' Hlen' Eo). rewrite <- app_assoc. reflexivity.
  - destruct (split_lf_none _ Eb) as (Eu & Hno). destruct e as [[k later]|].
    + rewrite Hr. cbn [visible] in Hv. rewrite (complete_none _ _ Hv Hno) in Ho.
      cbn in Ho. injection Ho as <-. rewrite app_nil_r. reflexivity.
    + rewrite Hr. cbn [visible] in Hv. subst c. rewrite Eu in Ho.
      destruct b as [|z l]; [injection Ho as <-; rewrite app_nil_r; reflexivity|].
      destruct (invalid_file fuel []) as [o'|] eqn:Eo; [|discriminate]. injection Ho as <-.
      assert (Hs' : holds_bytes (mkSource [] []) [] None).
      { exists [], []. repeat split. constructor. }
      assert (Hl : (length (@nil byte) < fuel)%nat) by (cbn in *; lia).
      destruct (br_from_bytes (z :: l)) as [r|].
      * rewrite (IH _ _ None [] _ _ Hs' eq_refl Hl Eo). reflexivity.
      * rewrite (IH _ _ None [] _ _ Hs' eq_refl Hl Eo). rewrite <- app_assoc. reflexivity.
Qed.

Lemma invalid_file_fuel : forall n m b, (length b < n)%nat -> (length b < m)%nat ->
  invalid_file n b = invalid_file m b.
Proof.
  induction n as [|n IH]; intros m b Hn Hm; [lia|]. destruct m as [|m]; [lia|].
  cbn [invalid_file]. destruct (read_until_lf b) as [a r] eqn:E.
  destruct (read_until_spec _ _ _ E) as (-> & _). destruct a as [|c a]; [reflexivity|].
  rewrite app_length in Hn, Hm. cbn in Hn, Hm. rewrite (IH m r) by lia. reflexivity.
Qed.

Lemma io_invalid_one : forall rs d e c out o, delivers rs d -> visible e d c ->
  invalid_file (S (length c)) c = Some o ->
  let src := mkSource [] (rs ++ fault_reads e) in
  io_invalid_file (S (source_size src)) src out =
  Some (match e with None => IDone (out ++ o) | Some (k, _) => IFailed (out ++ o) (CIo k) end).
Proof.
  intros rs d e c out o Hd Hv Ho src.
  pose proof (holds_new rs d e Hd) as Hs. pose proof (holds_size _ _ _ Hs) as Hz.
  fold src in Hs, Hz.
  assert (Hc : (length c <= length d)%nat).
  { destruct e as [[k l]|]; cbn in Hv; [|subst; lia].
    destruct Hv as (p & -> & _). rewrite app_length. lia. }
  apply (io_invalid_file_spec _ _ _ _ _ _ _ Hs Hv); [lia|].
  rewrite <- Ho. apply invalid_file_fuel; lia.
Qed.

Lemma io_invalid_spec : forall files plain, Forall2 intact files plain -> forall rest out o,
  invalid_run plain = Some o ->
  io_invalid_run (files ++ rest) out = io_invalid_run rest (out ++ o).
Proof.
  intros files plain H. induction H as [|[name src] [name' d] files plain Hi _ IH]; intros rest out o Ho.
  - cbn in Ho. injection Ho as <-. rewrite app_nil_r. reflexivity.
  - destruct Hi as (Hn & rs & Hsrc & Hd). cbn [fst snd] in *. subst name' src.
    cbn [app io_invalid_run]. cbn [invalid_run] in Ho.
    destruct (invalid_file (S (length d)) d) as [a|] eqn:Ea; [|discriminate].
    destruct (invalid_run plain) as [b|] eqn:Eb; [|discriminate]. injection Ho as <-.
    pose proof (io_invalid_one rs d None d out a Hd eq_refl Ea) as E. cbn [fault_reads] in E.
    rewrite app_nil_r in E. cbv zeta in E. rewrite E. rewrite (IH _ _ _ eq_refl), app_assoc. reflexivity.
Qed.

Lemma invalid_file_some : forall n b, (length b < n)%nat -> exists o, invalid_file n b = Some o.
Proof.
  induction n as [|n IH]; intros b Hn; [lia|].
  cbn [invalid_file]. destruct (read_until_lf b) as [a r] eqn:E.
  destruct (read_until_spec _ _ _ E) as (-> & _). destruct a as [|c a]; [eauto|].
  rewrite app_length in Hn. cbn in Hn. destruct (IH r ltac:(lia)) as [o ->]. cbn. eauto.
Qed.
Lemma invalid_run_some : forall files, exists o, invalid_run files = Some o.
Proof.
  induction files as [|[name c] files [o IH]]; [eexists; reflexivity|]. cbn [invalid_run].
  destruct (invalid_file_some (S (length c)) c ltac:(lia)) as [a ->]. rewrite IH. cbn. eauto.
Qed.

Lemma invalid_run_snoc : forall files name c o, invalid_run (files ++ [(name, c)]) = Some o ->
  exists a b, invalid_run files = Some a /\ invalid_file (S (length c)) c = Some b /\ o = a ++ b.
Proof.
  induction files as [|[n' c'] files IH]; intros name c o H; cbn [app invalid_run] in H.
  - destruct (invalid_file (S (length c)) c) as [b|]; [|discriminate]. cbn in H. injection H as <-.
    exists [], b. rewrite app_nil_r. auto.
  - cbn [invalid_run]. destruct (invalid_file (S (length c')) c') as [x|]; [|discriminate].
    destruct (invalid_run (files ++ [(name, c)])) as [y|] eqn:E; [|discriminate].
    injection H as <-. destruct (IH _ _ _ E) as (a & b & -> & Hb & ->).
    exists (x ++ a), b. cbn. rewrite app_assoc. auto.
Qed.

Lemma io_invalid_intact : forall files plain, Forall2 intact files plain ->
  exists o, invalid_run plain = Some o /\ io_invalid_run files [] = Some (IDone o).
Proof.
  intros files plain H. destruct (invalid_run_some plain) as [o Ho]. exists o. split; [exact Ho|].
  rewrite <- (app_nil_r files). rewrite (io_invalid_spec _ _ H _ _ _ Ho). reflexivity.
Qed.

Lemma io_invalid_read_fails : forall files plain name rs k later rest d c,
  Forall2 intact files plain -> delivers rs d -> complete_lines d c ->
  exists o, invalid_run (plain ++ [(name, c)]) = Some o
    /\ io_invalid_run (files ++ (name, inl (rs ++ PError k :: later)) :: rest) [] = Some (IFailed o (CIo k)).
Proof.
  intros files plain name rs k later rest d c H Hd Hc.
  destruct (invalid_run_some (plain ++ [(name, c)])) as [o Ho]. exists o. split; [exact Ho|].
  destruct (invalid_run_snoc _ _ _ _ Ho) as (a & b & Ha & Hb & ->).
  rewrite (io_invalid_spec _ _ H _ _ _ Ha). cbn [app io_invalid_run].
  pose proof (io_invalid_one rs d (Some (k, later)) c a b Hd Hc Hb) as E. cbn [fault_reads] in E.
  cbv zeta in E. rewrite E. reflexivity.
Qed.

Lemma io_invalid_open_fails : forall files plain name k rest, Forall2 intact files plain ->
  exists o, invalid_run plain = Some o
    /\ io_invalid_run (files ++ (name, inr k) :: rest) [] = Some (IFailed o (CIo k)).
Proof.
  intros files plain name k rest H. destruct (invalid_run_some plain) as [o Ho]. exists o.
  split; [exact Ho|]. rewrite (io_invalid_spec _ _ H _ _ _ Ho). reflexivity.
Qed.

(** ** concat *)

Lemma io_concat_fails : forall O sha lossy skip files plain name rs k later rest d c,
  Forall2 intact files plain -> delivers rs d -> complete_lines d c ->
  exists recs e out, reads skip (plain ++ [(name, c)]) recs e /\ lines_of recs out
    /\ io_files_loop (fun s => s) (fun s r => as_io (concat_body O sha lossy None s r)) skip ([], [], [])
         (files ++ (name, inl (rs ++ PError k :: later)) :: rest)
       = Some (IFailed ([], out, out)
                 (CReadPica (match e with Some e => PE e | None => PEIo k end))).
Proof.
  intros O sha lossy skip files plain name rs k later rest d c H Hd Hc.
  destruct (concat_plain O sha lossy skip (plain ++ [(name, c)])) as (recs & e & out & Hr & Ho & E).
  exists recs, e, out. split; [exact Hr|]. split; [exact Ho|].
  rewrite (io_read_fails _ _ _ _ (on_result_body _ (concat_body O sha lossy None) skip)
             _ _ _ _ _ _ _ _ _ _ H Hd Hc).
  unfold concat_run, run_loop in E.
  assert (Hn : forall s x s', on_result skip (concat_body O sha lossy None) s x <> Halt s').
  { intros [[s1 s2] s3] [r|x] s'; cbn; [discriminate|]. destruct (skip_parse_err x skip); discriminate. }
  pose proof (files_loop_no_halt _ _ Hn (plain ++ [(name, c)]) ([], [], [])) as Hh.
  destruct (files_loop _ _ _) as [[s'|s'|s' x|]|]; destruct e as [e|]; cbn in E; try discriminate;
    try (exfalso; eapply Hh; reflexivity); injection E; intros; subst; reflexivity.
Qed.

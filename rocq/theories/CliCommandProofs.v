(** * Proofs about the individual commands *)

From Coq Require Import String Sorted Decimal DecimalFacts DecimalPos DecimalN.
From Verif Require Import Bytes Winnow RecordModel RecordSpec BaseProofs RecordProofs TagOccModel Utf8Model
  Utf8Spec Utf8Proofs
  ByteRecordModel ByteRecordSpec ByteRecordProofs ReaderModel ReaderProofs MatcherModel MatcherSpec
  MatcherProofs PathModel QuerySpec QueryProofs QueryExtraProofs CliModel CliSpec CliProofs.

(** records as the reader returns them *)
Definition from_line (r : byte_record) : Prop :=
  exists l, br_raw r = Some l /\ record_text (br_record r) l.

Lemma reads_from_line : forall skip files recs e, reads skip files recs e -> Forall from_line recs.
Proof. intros skip files recs e (ls & _ & H). eapply seen_reachable. exact H. Qed.

Lemma from_line_write : forall r l, br_raw r = Some l -> br_write r = l.
Proof. intros r l E. unfold br_write. rewrite E. reflexivity. Qed.

Lemma from_line_bytes : forall r l, br_raw r = Some l -> record_text (br_record r) l ->
  br_from_bytes l = Some r.
Proof.
  intros [raw rec] l E H. cbn in *. subst raw. unfold br_from_bytes.
  rewrite (record_text_from _ _ H). reflexivity.
Qed.

Lemma lines_of_nil : lines_of [] [].
Proof. exists []. split; [constructor|reflexivity]. Qed.

Lemma lines_of_app : forall a b x y, lines_of a x -> lines_of b y -> lines_of (a ++ b) (x ++ y).
Proof.
  intros a b x y (ts & H & ->) (us & K & ->). exists (ts ++ us). split; [apply Forall2_app; assumption|].
  symmetry. apply concat_app.
Qed.

Lemma lines_of_one : forall r, from_line r -> lines_of [r] (br_write r).
Proof.
  intros r (l & E & _). exists [l]. rewrite (from_line_write _ _ E). split.
  - repeat constructor. exact E.
  - cbn. symmetry. apply app_nil_r.
Qed.

Lemma lines_of_flat : forall recs, Forall from_line recs -> lines_of recs (flat_map br_write recs).
Proof.
  induction 1 as [|r recs Hr _ IH]; [apply lines_of_nil|].
  cbn [flat_map]. change (r :: recs) with ([r] ++ recs). apply lines_of_app; [apply lines_of_one; exact Hr|exact IH].
Qed.

Lemma lines_of_fun : forall recs x y, lines_of recs x -> lines_of recs y -> x = y.
Proof.
  intros recs x y (ts & H & ->) (us & K & ->). f_equal.
  revert us K. induction H; intros us K; inversion K; subst; [reflexivity|]. f_equal; [congruence|auto].
Qed.

Lemma chosen_from_line : forall P l out, chosen P l out -> Forall from_line l -> Forall from_line out.
Proof.
  intros P l out H F. rewrite Forall_forall in *. intros x Hx. apply F. eapply chosen_In; eassumption.
Qed.

Lemma limited_incl : forall A limit (l l' : list A) e e', limited limit l e l' e' ->
  forall x, In x l' -> In x l.
Proof.
  intros A limit l l' e e' [(_ & -> & _)|(_ & _ & (rest & ->) & _)] x Hx; [exact Hx|].
  apply in_app_iff. auto.
Qed.

Lemma selects_from_line : forall O Od skip o files recs e, selects O Od skip o files recs e ->
  Forall from_line recs.
Proof.
  intros O Od skip o files recs e (all & sel & e0 & Hr & Hc & Hl).
  assert (F := chosen_from_line _ _ _ Hc (reads_from_line _ _ _ _ Hr)).
  rewrite Forall_forall in *. intros x Hx. apply F. eapply limited_incl; eassumption.
Qed.

(** ** concat *)

Lemma fold_write : forall recs seen out tee,
  fold_left (fun (s : concat_state) r => let '(seen, out, tee) := s in
               (seen, out ++ br_write r, tee ++ br_write r)) recs (seen, out, tee)
  = (seen, out ++ flat_map br_write recs, tee ++ flat_map br_write recs).
Proof.
  induction recs as [|r recs IH]; intros seen out tee; cbn; [rewrite !app_nil_r; reflexivity|].
  rewrite IH, !app_assoc. reflexivity.
Qed.

Lemma picks_all : forall A (l : list A), picks (fun _ => True) (fun x => x) l l.
Proof. induction l as [|x l IH]; [constructor|]. apply (picks_yes (fun _ => True) (fun x => x)); auto. Qed.

Lemma concat_plain : forall O sha lossy skip files,
  exists recs e out, reads skip files recs e /\ lines_of recs out
    /\ concat_run O sha lossy skip None files = Some (ended ([], out, out) e).
Proof.
  intros O sha lossy skip files. destruct (reads_exists skip files) as (recs & e & Hr).
  exists recs, e, (flat_map br_write recs). split; [exact Hr|].
  split; [apply lines_of_flat; eapply reads_from_line; exact Hr|].
  unfold concat_run. rewrite (run_loop_reads _ _ _ _ _ _ _ Hr).
  erewrite (fold_all_ended (fun _ => True) (fun _ => True)) with (sel := recs)
    (act := fun (s : concat_state) r => let '(seen, out, tee) := s in
               (seen, out ++ br_write r, tee ++ br_write r)).
  - rewrite fold_write. reflexivity.
  - intros s r []. exact I.
  - intros [[seen out] tee] r _ _. reflexivity.
  - apply picks_all.
  - apply Forall_true.
Qed.

(** ** invalid *)

Lemma invalid_file_lines : forall b ls fuel, is_lines b ls -> (length b < fuel)%nat ->
  invalid_file fuel b = Some (concat (filter (fun l => match record_from_bytes l with Some _ => false | None => true end) ls)).
Proof.
  intros b ls fuel H. revert fuel. induction H as [|b Hb Hn|a b ls Ha H IH]; intros fuel Hf.
  - destruct fuel; [lia|]. reflexivity.
  - destruct fuel as [|fuel]; [lia|]. cbn [invalid_file]. rewrite (read_until_last _ Hn).
    destruct b as [|c b]; [congruence|]. destruct fuel as [|fuel]; [cbn in Hf; lia|].
    cbn [invalid_file read_until_lf]. cbn [filter]. unfold br_from_bytes.
    destruct (record_from_bytes (c :: b)); reflexivity.
  - destruct fuel as [|fuel]; [lia|]. cbn [invalid_file].
    rewrite (read_until_line _ _ Ha). rewrite IH by (rewrite app_length in Hf; cbn in Hf; lia).
    cbn [filter]. unfold br_from_bytes.
    destruct a as [|c a]; cbn [app]; [|change (c :: a ++ [10]) with ((c :: a) ++ [10])];
      destruct (record_from_bytes _); reflexivity.
Qed.

Lemma numbered_lines : forall s n ls nls, numbered s n ls nls -> map snd nls = ls.
Proof. induction 1; cbn; [reflexivity|]. f_equal. assumption. Qed.

Lemma invalid_lines : forall files ls, input_lines files ls ->
  invalid_run files
  = Some (concat (filter (fun l => match record_from_bytes l with Some _ => false | None => true end) (map snd ls))).
Proof.
  induction 1 as [|name content rest s ls nls more Hs Hl Hn _ IH]; [reflexivity|].
  cbn [invalid_run]. rewrite (invalid_file_lines _ _ _ Hl) by lia. rewrite IH.
  rewrite map_app, (numbered_lines _ _ _ _ Hn), filter_app, concat_app. reflexivity.
Qed.

Lemma seen_skip_lines : forall skip ls recs e, seen skip ls recs e -> skip = true ->
  e = None /\ map br_write recs
  = filter (fun l => match record_from_bytes l with Some _ => true | None => false end) (map snd ls).
Proof.
  intros skip ls recs e H Heqskip.
  induction H as [|s n l r ls rs e Hr _ IH|s n l ls rs e Hk Hr _ IH|s n l ls Hk Hr]; cbn [map filter snd].
  - auto.
  - destruct IH as [-> IH2]. rewrite (record_text_from _ _ Hr). cbn. rewrite IH2. auto.
  - destruct IH as [-> IH2]. rewrite (no_record_from _ Hr). auto.
  - congruence.
Qed.

Lemma Split_filter : forall A (p : A -> bool) l,
  Split l (filter p l) (filter (fun x => negb (p x)) l).
Proof.
  induction l as [|x l IH]; cbn; [constructor|]. destruct (p x); cbn; constructor; exact IH.
Qed.

Lemma invalid_complement : forall O sha lossy files,
  exists ls valid invalid,
    input_lines files ls
    /\ Split (map snd ls) valid invalid
    /\ Forall (fun l => exists r, record_text r l) valid
    /\ Forall (fun l => forall r, ~ record_text r l) invalid
    /\ concat_run O sha lossy true None files = Some (Done ([], concat valid, concat valid))
    /\ invalid_run files = Some (concat invalid).
Proof.
  intros O sha lossy files. destruct (input_lines_exists files) as [ls Hl].
  destruct (seen_exists true ls) as (recs & e & Hs).
  set (p := fun l => match record_from_bytes l with Some _ => true | None => false end).
  exists ls, (filter p (map snd ls)), (filter (fun l => negb (p l)) (map snd ls)).
  split; [exact Hl|]. split; [apply Split_filter|]. split; [|split].
  - apply Forall_forall. intros l H. apply filter_In in H as [_ H]. unfold p in H.
    destruct (record_text_dec l) as [E|E]; [exact E|]. rewrite (no_record_from _ E) in H. discriminate.
  - apply Forall_forall. intros l H. apply filter_In in H as [_ H]. unfold p in H.
    intros r E. rewrite (record_text_from _ _ E) in H. discriminate.
  - split.
    + destruct (seen_skip_lines _ _ _ _ Hs eq_refl) as [-> E].
      assert (Hr : reads true files recs None) by (exists ls; auto).
      unfold concat_run. rewrite (run_loop_reads _ _ _ _ _ _ _ Hr).
      erewrite (fold_all_ended (fun _ => True) (fun _ => True)) with (sel := recs)
        (act := fun (s : concat_state) r => let '(seen, out, tee) := s in
                   (seen, out ++ br_write r, tee ++ br_write r)).
      * rewrite fold_write. cbn [app ended]. rewrite flat_map_concat_map, E. reflexivity.
      * intros s r []. exact I.
      * intros [[seen out] tee] r _ _. reflexivity.
      * apply picks_all.
      * apply Forall_true.
    + rewrite (invalid_lines _ _ Hl). do 2 f_equal. apply filter_ext. intros l. unfold p.
      destruct (record_from_bytes l); reflexivity.
Qed.

(** ** filter *)

Definition filter_act (c : filter_cmd) (s : filter_state) (r : byte_record) : filter_state :=
  let '(count, out, tee) := s in
  let r' := br_keep (fc_keep c) (br_discard (fc_discard c) r) in
  (count + 1, out ++ br_write r', tee ++ br_write r').

Lemma fold_filter_act : forall c recs n out tee,
  fold_left (filter_act c) recs (n, out, tee)
  = (n + N.of_nat (length recs),
     out ++ flat_map (fun r => br_write (br_keep (fc_keep c) (br_discard (fc_discard c) r))) recs,
     tee ++ flat_map (fun r => br_write (br_keep (fc_keep c) (br_discard (fc_discard c) r))) recs).
Proof.
  intros c. induction recs as [|r recs IH]; intros n out tee.
  - cbn. rewrite !app_nil_r, N.add_0_r. reflexivity.
  - cbn [fold_left filter_act flat_map length]. rewrite IH, !app_assoc. f_equal. f_equal. lia.
Qed.

Lemma edited_text_write : forall c r, from_line r ->
  edited_text c r (br_write (br_keep (fc_keep c) (br_discard (fc_discard c) r))).
Proof.
  intros c r (l & E & H).
  set (es := [EDiscard (fc_discard c); EKeep (fc_keep c)]).
  change (br_keep (fc_keep c) (br_discard (fc_discard c) r)) with (fold_left run_edit es r).
  exists (br_record (fold_left run_edit es r)). split; [apply run_edits_effect|].
  apply coherent_text, coherent_edits. apply (coherent_from_bytes l). apply from_line_bytes; assumption.
Qed.

Lemma filter_exact : forall O Od skip c files, filter_wf O Od c ->
  exists all e0 sel recs e texts,
    reads skip files all e0
    /\ chosen (filter_holds O Od c) all sel
    /\ limited (fc_limit c) sel e0 recs e
    /\ Forall2 (edited_text c) recs texts
    /\ filter_run O Od skip c files
       = Some (ended (N.of_nat (length recs), concat texts, concat texts) e).
Proof.
  intros O Od skip c files W.
  destruct (reads_exists skip files) as (all & e0 & Hr).
  assert (D := filter_decided O Od c W).
  destruct (chosen_exists _ _ D all) as [sel Hs].
  destruct (fold_limited (fun r => filter_holds O Od c (br_record r)) (fun _ => True)
              (filter_body O Od c) (filter_act c) (fun s => fst (fst s)) (fc_limit c)) with (recs := all)
              (sel := sel) (e := e0) (s := ((0, [], []) : filter_state)) as (recs & e & Hl & He); auto.
  - intros s r Hn. apply (guarded_no _ _ _ _ D). exact Hn.
  - intros [[n out] tee] r Hy _. unfold filter_body. rewrite (guarded_yes _ _ _ _ D) by exact Hy. reflexivity.
  - intros [[n out] tee] r. reflexivity.
  - apply Forall_true.
  - exists all, e0, sel, recs, e,
      (map (fun r => br_write (br_keep (fc_keep c) (br_discard (fc_discard c) r))) recs).
    split; [exact Hr|]. split; [exact Hs|]. split; [exact Hl|]. split.
    + assert (F : Forall from_line recs).
      { assert (F := chosen_from_line _ _ _ Hs (reads_from_line _ _ _ _ Hr)).
        rewrite Forall_forall in *. intros x Hx. apply F. eapply limited_incl; eassumption. }
      clear -F. induction F; constructor; auto. apply edited_text_write. assumption.
    + unfold filter_run. rewrite (run_loop_reads _ _ _ _ _ _ _ Hr), He.
      rewrite fold_filter_act. rewrite <- flat_map_concat_map, N.add_0_l. reflexivity.
Qed.

(** ** count *)

Definition count_act (s : count_state) (r : byte_record) : count_state :=
  let '(records, fields, subfields) := s in
  (records + 1, fields + N.of_nat (length (br_record r)),
   subfields + fold_right N.add 0 (map (fun f => N.of_nat (length (f_subfields f))) (br_record r))).

Lemma sum_subfields : forall fs,
  fold_right N.add 0 (map (fun f => N.of_nat (length (f_subfields f))) fs)
  = N.of_nat (length (flat_map f_subfields fs)).
Proof. induction fs as [|f fs IH]; cbn; [reflexivity|]. rewrite app_length, IH. lia. Qed.

Lemma fold_count_act : forall recs a b c,
  fold_left count_act recs (a, b, c)
  = (a + N.of_nat (length recs), b + N.of_nat (length (flat_map br_record recs)),
     c + N.of_nat (length (flat_map f_subfields (flat_map br_record recs)))).
Proof.
  induction recs as [|r recs IH]; intros a b c.
  - cbn. rewrite !N.add_0_r. reflexivity.
  - cbn [fold_left count_act flat_map length]. rewrite IH, sum_subfields, flat_map_app, !app_length.
    f_equal; [f_equal|]; lia.
Qed.

Lemma count_exact : forall O Od skip o files, opts_wf O Od o ->
  exists all sel e, reads skip files all e /\ chosen (opts_hold O Od o) all sel
    /\ count_run O Od skip o files
       = Some (ended (N.of_nat (length sel), N.of_nat (length (flat_map br_record sel)),
                      N.of_nat (length (flat_map f_subfields (flat_map br_record sel)))) e).
Proof.
  intros O Od skip o files W.
  destruct (reads_exists skip files) as (all & e & Hr).
  assert (D := opts_decided O Od o W).
  destruct (chosen_exists _ _ D all) as [sel Hs].
  exists all, sel, e. split; [exact Hr|]. split; [exact Hs|].
  unfold count_run. rewrite (run_loop_reads _ _ _ _ _ _ _ Hr).
  erewrite (fold_all_ended (fun r => opts_hold O Od o (br_record r)) (fun _ => True)) with (sel := sel)
    (act := count_act).
  - rewrite fold_count_act, !N.add_0_l. reflexivity.
  - intros s r Hn. apply (guarded_no _ _ _ _ D). exact Hn.
  - intros [[a b] c] r Hy _. unfold count_body. rewrite (guarded_yes _ _ _ _ D) by exact Hy. reflexivity.
  - exact Hs.
  - apply Forall_true.
Qed.

Lemma files_loop_app : forall S (f : S -> byte_record + read_error -> step S) a b s,
  files_loop f s (a ++ b) = match files_loop f s a with Some (Next s') => files_loop f s' b | x => x end.
Proof.
  intros S f. induction a as [|[n c] a IH]; intros b s; cbn [files_loop app]; [reflexivity|].
  destruct (reader_loop (Datatypes.S (length c)) f s (reader_new c (Some n))) as [[s'| | |]|]; try reflexivity. apply IH.
Qed.

Lemma triple_eq : forall A B C (a a' : A) (b b' : B) (c c' : C),
  a = a' -> b = b' -> c = c' -> (a, b, c) = (a', b', c').
Proof. congruence. Qed.

Lemma count_body_eq : forall O Od o s r,
  count_body O Od o s r = match opts_select O Od o (br_record r) with
                          | Some true => Next (count_act s r)
                          | Some false => Next s
                          | None => Panic
                          end.
Proof.
  intros O Od o [[x y] z] r. unfold count_body, guarded.
  destruct (opts_select O Od o (br_record r)) as [[|]|]; reflexivity.
Qed.

(** count never halts and is translation invariant *)
Lemma count_fold_shift : forall O Od skip o l x y z,
  fold_steps (on_result skip (count_body O Od o)) (x, y, z) l
  = match fold_steps (on_result skip (count_body O Od o)) (0, 0, 0) l with
    | Next (a, b, c) => Next (x + a, y + b, z + c)
    | Halt (a, b, c) => Halt (x + a, y + b, z + c)
    | Fail (a, b, c) e => Fail (x + a, y + b, z + c) e
    | Panic => Panic
    end.
Proof.
  intros O Od skip o. induction l as [|r l IH]; intros x y z; cbn [fold_steps].
  - rewrite !N.add_0_r. reflexivity.
  - destruct r as [r|err]; cbn [on_result].
    + rewrite !count_body_eq.
      destruct (opts_select O Od o (br_record r)) as [[|]|]; [| |reflexivity].
      * cbn [count_act]. rewrite (IH (x + 1)), (IH (0 + 1)).
        destruct (fold_steps (on_result skip (count_body O Od o)) (0, 0, 0) l) as [[[a b] c]|[[a b] c]|[[a b] c] e|]; try reflexivity;
          f_equal; apply triple_eq; lia.
      * apply IH.
    + destruct (skip_parse_err err skip); [apply IH|]. rewrite !N.add_0_r. reflexivity.
Qed.

Lemma count_additive : forall O Od skip o a b x1 y1 z1 x2 y2 z2,
  count_run O Od skip o a = Some (Done (x1, y1, z1)) ->
  count_run O Od skip o b = Some (Done (x2, y2, z2)) ->
  count_run O Od skip o (a ++ b) = Some (Done (x1 + x2, y1 + y2, z1 + z2)).
Proof.
  intros O Od skip o a b x1 y1 z1 x2 y2 z2. unfold count_run, run_loop. rewrite files_loop_app.
  destruct (input_lines_exists a) as [la Ha]. destruct (input_lines_exists b) as [lb Hb].
  rewrite (files_loop_fold _ _ _ _ Ha), !(files_loop_fold _ _ _ _ Hb).
  assert (NH : forall l s s', fold_steps (on_result skip (count_body O Od o)) s l <> Halt s').
  { clear. induction l as [|r l IH]; intros s s'; cbn [fold_steps]; [discriminate|].
    destruct r as [r|err]; cbn [on_result].
    - rewrite count_body_eq. destruct (opts_select O Od o (br_record r)) as [[|]|].
      + apply IH.
      + apply IH.
      + discriminate.
    - destruct (skip_parse_err err skip); [apply IH|discriminate]. }
  destruct (fold_steps _ _ (map result_of la)) as [s|s|s e|] eqn:Ea; cbn; try discriminate.
  - intros E. injection E as ->. rewrite (files_loop_fold _ _ _ _ Hb), (count_fold_shift _ _ _ _ _ x1).
    destruct (fold_steps _ _ (map result_of lb)) as [[[u v] w]|[[u v] w]|[[u v] w] e|] eqn:Eb; try discriminate.
    + cbn. intros E. injection E as -> -> ->. reflexivity.
    + exfalso. exact (NH _ _ _ Eb).
  - exfalso. exact (NH _ _ _ Ea).
Qed.

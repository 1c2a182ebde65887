(** * Proofs about reading what has been written *)

From Coq Require Import String ZArith Lia.
From Verif Require Import Bytes BaseProofs Winnow RecordModel RecordSpec RecordProofs TagOccModel Utf8Model ByteRecordModel ByteRecordProofs ReaderModel
  MatcherModel MatcherProofs StateParser MatcherParserModel BuilderModel PathModel FmtModel QueryModel CliModel CliProofs TableModel
  ExplodeModel ExplodeSpec ExplodeProofs ExplodeRunProofs CheckModel ConvertModel CsvModel OptionsModel OptionsSpec ConfigModel PrepareModel
  IoModel IoSpec WriteSpec DiskModel DirModel RuleModel
  MainModel DiskSpec RuleSpec MainSpec PipeSpec DiskProofs DirLoopProofs PipeProofs PipeInProofs FrontLoop FrontSpec FrontProofs FrontRunProofs FrontExplodeProofs LimitSpec LimitProofs PartsSpec PartsProofs
  RecordwiseProofs DealtProofs AgreedProofs ReadableSpec.
From Verif Require RunSpec RunProofs.

(** ** An invariant of a loop over lines *)

Section Lines.
  Context {S : Type}.
  Variable P : S -> Prop.
  Variable on_skip : S -> S.
  Variable body : S -> byte_record -> io_ending S.
  Variable skip : bool.
  Hypothesis Hskip : forall s, P s -> P (on_skip s).
  Hypothesis HP : forall s r, of_line r -> P s -> end_holds P (body s r).

  Lemma reader_lines : forall fuel s rd x, P s -> io_reader_loop on_skip body skip fuel s rd = Some x -> end_holds P x.
  Proof.
    induction fuel as [|fuel IH]; intros s rd x Hs H; cbn [io_reader_loop] in H; [discriminate|].
    destruct (io_next_byte_record rd) as [[[r|e]|] rd'] eqn:E.
    - assert (Hr : of_line r).
      { unfold io_next_byte_record in E. destruct (io_read_until (io_inner rd)) as [[[|c b]|k] src] eqn:Er; try discriminate.
        destruct (br_from_bytes (c :: b)) as [y|] eqn:Ex; [|discriminate]. injection E as <- _. exact (parsed_of_line _ _ (io_read_line _ _ _ Er) Ex). }
      pose proof (HP s r Hr Hs) as Hb. destruct (body s r) as [s'|s'|s' er|]; [eapply IH; eassumption|injection H as <-; exact Hb..].
    - destruct (pica_skip e skip); [eapply IH; [apply Hskip; exact Hs|exact H]|]. injection H as <-. exact Hs.
    - injection H as <-. exact Hs.
  Qed.

  Lemma files_lines : forall files s x, P s -> io_files_loop on_skip body skip s files = Some x -> end_holds P x.
  Proof.
    induction files as [|[name [rs|k]] files IH]; intros s x Hs H; cbn [io_files_loop] in H; cbv zeta in H.
    - injection H as <-. exact Hs.
    - destruct (io_reader_loop _ _ _ _ _ _) as [y|] eqn:E; [|discriminate]. pose proof (reader_lines _ _ _ _ Hs E) as Hy.
      destruct y as [s'|s'|s' e|]; [eapply IH; eassumption|injection H as <-; exact Hy..].
    - injection H as <-. exact Hs.
  Qed.
End Lines.

(** ** Texts made of records *)

Definition lines_text (t : bytes) : Prop := exists recs, Forall of_line recs /\ t = flat_map br_write recs.

Lemma lines_nil : lines_text [].
Proof. exists []. split; [constructor|reflexivity]. Qed.

Lemma lines_app : forall a b, lines_text a -> lines_text b -> lines_text (a ++ b).
Proof.
  intros a b (ra & Ha & ->) (rb & Hb & ->). exists (ra ++ rb). split; [apply Forall_app; auto|]. rewrite flat_map_app. reflexivity.
Qed.

Lemma lines_one : forall r, of_line r -> lines_text (br_write r).
Proof. intros r H. exists [r]. split; [constructor; [exact H|constructor]|]. cbn. rewrite app_nil_r. reflexivity. Qed.

(** some fields of a line *)
Lemma fields_of_line : forall r p, of_line r -> p <> [] -> (forall f, In f p -> In f (br_record r)) -> of_line (part_record p).
Proof.
  intros r p Hr Hn Hin. destruct (line_data r Hr) as (_ & Hv & _ & Ew).
  assert (G : good_part p) by (split; [exact Hn|exact (incl_Forall_field _ _ _ Hin Hv)]).
  eapply parsed_of_line; [|apply part_from_bytes; exact G]. left. exists (flat_map write_field p). split; [reflexivity|].
  intros H. apply in_flat_map in H. destruct H as (f & Hf & H10). destruct Hr as (x & Hx & Ew' & _). apply Hx.
  rewrite Ew' in Ew. apply app_inj_tail in Ew. destruct Ew as [-> _]. apply in_flat_map. exists f. auto.
Qed.

(** what is written of a record with some fields of a line *)
Lemma some_fields_text : forall r p, of_line r -> (forall f, In f p -> In f (br_record r)) -> lines_text (write_record p).
Proof.
  intros r p Hr Hin. destruct p as [|f p]; [exact lines_nil|].
  exact (lines_one _ (fields_of_line r (f :: p) Hr (fun X => eq_ind [] (fun l => match l with [] => True | _ => False end) I _ (eq_sym X)) Hin)).
Qed.

Lemma retain_in : forall f l seen x, In x (retain_mut f seen l) -> In x l.
Proof.
  intros f. induction l as [|y l IH]; intros seen x H; [exact H|]. cbn [retain_mut] in H.
  destruct (f seen y); [destruct H as [->|H]; [left; reflexivity|]|]; right; exact (IH _ _ H).
Qed.

(** a record that is a line or has lost fields *)
Definition rest_of (r q : byte_record) : Prop := q = r \/ br_raw q = None /\ forall f, In f (br_record q) -> In f (br_record r).

Lemma rest_retain : forall r q f, rest_of r q -> rest_of r (br_retain f q).
Proof.
  intros r q f H. right. split; [reflexivity|]. intros x Hx. apply retain_in in Hx. destruct H as [->|[_ H]]; auto.
Qed.

Lemma rest_keep : forall r q p, rest_of r q -> rest_of r (br_keep p q).
Proof. intros r q [|x p] H; [exact H|apply rest_retain; exact H]. Qed.

Lemma rest_discard : forall r q p, rest_of r q -> rest_of r (br_discard p q).
Proof. intros r q [|x p] H; [exact H|apply rest_retain; exact H]. Qed.

Lemma rest_text : forall r q, of_line r -> rest_of r q -> lines_text (br_write q).
Proof.
  intros r q Hr [->|[Hq H]]; [apply lines_one; exact Hr|]. unfold br_write. rewrite Hq. exact (some_fields_text r _ Hr H).
Qed.

(** ** The commands *)

Section Bodies.
  Variables O Od : oracles.

  Lemma filter_lines : forall c s r, of_line r -> lines_text (snd (fst s)) -> end_holds (fun s => lines_text (snd (fst s))) (as_io (filter_body O Od c s r)).
  Proof.
    intros c [[n a] b] r Hr Hs. unfold filter_body, guarded. destruct (filter_select O Od c (br_record r)) as [[|]|]; [|exact Hs|exact I].
    cbv zeta. assert (X : lines_text (a ++ br_write (br_keep (fc_keep c) (br_discard (fc_discard c) r)))).
    { apply lines_app; [exact Hs|]. apply (rest_text r); [exact Hr|]. apply rest_keep, rest_discard. left. reflexivity. }
    destruct (limit_reached _ _); exact X.
  Qed.

  Lemma concat_lines : forall sha lossy u s r, of_line r -> lines_text (snd (fst s)) -> end_holds (fun s => lines_text (snd (fst s))) (as_io (concat_body O sha lossy u s r)).
  Proof.
    intros sha lossy u [[n a] b] r Hr Hs. assert (X : lines_text (a ++ br_write r)) by (apply lines_app; [exact Hs|apply lines_one; exact Hr]).
    unfold concat_body. destruct u as [st|]; [|exact X]. destruct (record_key _ _ _ _ _) as [key|]; [|exact I]. destruct (_ || _); [exact Hs|exact X].
  Qed.

  Lemma slice_lines : forall start o s r, of_line r -> lines_text (sl_out s) -> end_holds (fun s => lines_text (sl_out s)) (as_io (slice_body O Od start o s r)).
  Proof.
    intros start o s r Hr Hs. assert (X : lines_text (sl_out s ++ br_write r)) by (apply lines_app; [exact Hs|apply lines_one; exact Hr]).
    unfold slice_body. destruct (opts_select O Od o (br_record r)) as [[|]|]; [|exact Hs|exact I].
    destruct (_ && _); [destruct (limit_reached _ _); exact X|]. destruct (_ <? _); exact Hs.
  Qed.

  Definition held (l : list bytes) : Prop := Forall (fun b => exists r, of_line r /\ b = br_write r) l.

  Lemma list_set_held : forall l n b, held l -> (exists r, of_line r /\ b = br_write r) -> held (list_set l n b).
  Proof.
    induction l as [|x l IH]; intros n b H Hb; [destruct n; exact H|]. inversion H as [|? ? H1 H2]. subst.
    destruct n; cbn [list_set]; constructor; auto. apply IH; auto.
  Qed.

  Lemma sample_lines : forall draw size o s r, of_line r -> held (snd s) -> end_holds (fun s => held (snd s)) (as_io (sample_body O Od draw size o s r)).
  Proof.
    intros draw size o [n l] r Hr Hs. unfold sample_body, guarded. destruct (opts_select O Od o (br_record r)) as [[|]|]; [|exact Hs|exact I]. cbv zeta.
    match goal with |- context [(n + 1, ?x)] => assert (X : held x) end.
    { assert (Hb : exists q, of_line q /\ br_write r = br_write q) by (exists r; auto). cbn [snd] in Hs.
      destruct (n <? size); [apply Forall_app; split; [exact Hs|constructor; [exact Hb|constructor]]|].
      destruct (draw n <? size); [apply list_set_held; assumption|exact Hs]. }
    destruct (limit_reached _ _); exact X.
  Qed.

  Lemma sample_text : forall l, held l -> lines_text (match sample_write l with Some t => t | None => [] end).
  Proof.
    intros l H. enough (exists t, sample_write l = Some t /\ lines_text t) as (t & -> & Ht) by exact Ht.
    induction H as [|b l (r & Hr & ->) _ (t & E & Ht)]; [exists []; split; [reflexivity|exact lines_nil]|]. cbn [sample_write].
    pose proof Hr as (p & _ & _ & Eb). rewrite Eb, E. eexists. split; [reflexivity|]. apply lines_app; [apply lines_one; exact Hr|exact Ht].
  Qed.

  Lemma part_lines : forall c ps s, (forall p, In p ps -> of_line (part_record p)) -> lines_text (snd s) ->
    end_holds (fun s => lines_text (snd s)) (as_io (for_each (explode_part O Od c) s ps)).
  Proof.
    intros c. induction ps as [|p ps IH]; intros [n a] Hp Hs; [exact Hs|]. cbn [for_each].
    pose proof (Hp p (or_introl eq_refl)) as Hr. assert (Hp' : forall q, In q ps -> of_line (part_record q)) by (intros q Hq; apply Hp; right; exact Hq).
    unfold explode_part at 1. cbv zeta. pose proof Hr as (x & _ & _ & Eb).
    change (br_write (part_record p)) with (part_data p) in Eb. rewrite Eb. unfold guarded. change (br_record (part_record p)) with p.
    destruct (opts_select O Od (ex_opts c) p) as [[|]|]; [|apply IH; assumption|exact I].
    assert (X : lines_text (a ++ br_write (br_discard (ex_discard c) (br_keep (ex_keep c) (part_record p))))).
    { apply lines_app; [exact Hs|]. apply (rest_text (part_record p)); [exact Hr|]. apply rest_discard, rest_keep. left. reflexivity. }
    destruct (limit_reached _ _); [exact X|]. apply IH; [exact Hp'|exact X].
  Qed.

  Lemma explode_lines : forall c s r, of_line r -> lines_text (snd s) -> end_holds (fun s => lines_text (snd s)) (as_io (explode_body O Od c s r)).
  Proof.
    intros c s r Hr Hs. unfold explode_body. pose proof (parts_lines (ex_level c) r Hr) as F. unfold parts_of in F.
    destruct (process (ex_level c) (br_record r)) as [ps|]; [|exact I]. apply part_lines; [|exact Hs].
    intros p Hp. rewrite Forall_forall in F. apply F. apply in_map. exact Hp.
  Qed.
End Bodies.

(** ** The whole *)

Definition plain_out : output := mkOut None false false.

Lemma process_lines : forall {S} gz_enc gz_dec (P : S -> Prop) (text ftext : S -> bytes) bad on_skip body skip s names w n w1,
  (forall s, P s -> lines_text (text s) /\ lines_text (ftext s)) -> (forall s, P s -> P (on_skip s)) ->
  (forall s r, of_line r -> P s -> end_holds P (body s r)) -> P s ->
  process_all gz_enc gz_dec [(plain_out, (text, ftext))] bad on_skip body skip s names w = Some (CEnded n, w1) ->
  exists t, lines_text t /\ w1 = mkWorld (w_disk w) (w_stdin w) (w_stdout w ++ t).
Proof.
  intros S gz_enc gz_dec P text ftext bad on_skip body skip s names w n w1 Ht Hk Hb Hs H. unfold process_all in H.
  destruct (io_files_loop _ _ _ _ _) as [x|] eqn:E; [|discriminate]. pose proof (files_lines P on_skip body skip Hk Hb _ _ _ Hs E) as Hx.
  destruct x as [s'|s'|s' er|]; cbn [end_holds] in Hx.
  - cbn [main_status] in H. injection H as _ <-. exists (text s'). split; [apply Ht; exact Hx|reflexivity].
  - cbn [main_status] in H. injection H as _ <-. exists (text s'). split; [apply Ht; exact Hx|reflexivity].
  - destruct (main_status (IFailed s' er)); [|discriminate]. injection H as _ <-. exists (ftext s'). split; [apply Ht; exact Hx|reflexivity].
  - discriminate.
Qed.

Lemma execute_lines : forall e c k w n w1, writes_records k -> execute e c k w = Some (CEnded n, w1) ->
  exists t, lines_text t /\ w1 = mkWorld (w_disk w) (w_stdin w) (w_stdout w ++ t).
Proof.
  intros e c k w n w1 Hk H. destruct Hk as [skip u names|o d kp l names|o f names|o draw size names|o a b len names]; cbn [execute] in H.
  - unfold concat_on_disk in H. change (wb_run wb_new [CAppend false]) with (Some wb_new) in H. cbv iota zeta in H.
    cbn [open_all open_output builder_output out_name app] in H. rewrite world_eta in H.
    eapply (process_lines _ _ (fun s : concat_state => lines_text (snd (fst s)))); [| | | |exact H]; [auto|auto|intros; apply concat_lines; assumption|exact lines_nil].
  - unfold explode_on_disk in H. destruct (parse_predicates d) as [d'|]; [|discriminate]. destruct (parse_predicates kp) as [k'|]; [|discriminate].
    cbn [prepared] in H. change (wb_run wb_new [CGzip false]) with (Some wb_new) in H. cbv iota zeta in H.
    cbn [open_all open_output builder_output out_name app] in H. rewrite world_eta in H.
    destruct (fst (opts_prepare _ _ _ _)) as [[op|]|]; [|discriminate|discriminate]. cbn [prepared] in H.
    eapply (process_lines _ _ (fun s : explode_state => lines_text (snd s))); [| | | |exact H]; [auto|auto|intros; apply explode_lines; assumption|exact lines_nil].
  - unfold filter_on_disk in H. destruct (filter_first _ _) as [[[]|]|]; [|discriminate|discriminate]. cbn [prepared] in H.
    change (wb_run wb_new [CAppend false; CGzip false]) with (Some wb_new) in H. cbv iota zeta in H.
    cbn [open_all open_output builder_output out_name app] in H. rewrite world_eta in H.
    destruct (if expr_there _ _ then _ else _) as [[op|]|]; [|discriminate|discriminate]. cbn [prepared] in H.
    eapply (process_lines _ _ (fun s : filter_state => lines_text (snd (fst s)))); [| | | |exact H]; [auto|auto|intros; apply filter_lines; assumption|exact lines_nil].
  - unfold sample_on_disk in H. destruct (fst (opts_prepare _ _ _ _)) as [[op|]|]; [|discriminate|discriminate]. cbn [prepared] in H.
    change (wb_run wb_new [CGzip false]) with (Some wb_new) in H. cbv iota zeta in H.
    cbn [open_all open_output builder_output out_name app] in H. rewrite world_eta in H.
    eapply (process_lines _ _ (fun s : sample_state => held (snd s))); [| | | |exact H].
    + intros s Hs. split; [apply sample_text; exact Hs|exact lines_nil].
    + auto.
    + intros; apply sample_lines; assumption.
    + constructor.
  - unfold slice_on_disk in H. destruct (fst (opts_prepare _ _ _ _)) as [[op|]|]; [|discriminate|discriminate]. cbn [prepared] in H.
    change (wb_run wb_new [CGzip false; CAppend false]) with (Some wb_new) in H. cbv iota zeta in H.
    cbn [open_all open_output builder_output out_name app] in H. rewrite world_eta in H.
    eapply (process_lines _ _ (fun s : slice_state => lines_text (sl_out s))); [| | | |exact H]; [auto| |intros; apply slice_lines; assumption|exact lines_nil].
    intros s Hs. unfold slice_on_skip. destruct (_ && _); exact Hs.
Qed.

(** whatever the status *)
Lemma run_readable_any : forall e cfg k w n w1 skip, writes_records k -> run e (mkInvocation cfg k) w = Some (CEnded n, w1) ->
  exists t, w_stdout w1 = w_stdout w ++ t /\ run_writes e cfg (fed t w) (concat_part skip None [lit "-"]) t.
Proof.
  intros e cfg k w n w1 skip Hk H. destruct (fun X => RunProofs.run_ended _ _ _ _ _ X H) as (cf & Hset & He); [destruct Hk; reflexivity|].
  cbn [in_command] in He. destruct (execute_lines _ _ _ _ _ _ Hk He) as (t & (recs & Hr & Et) & ->). exists t. split; [reflexivity|].
  eexists. split.
  - rewrite (RunProofs.run_settings e (mkInvocation cfg (concat_part skip None [lit "-"])) (fed t w) cf eq_refl) by exact (settings_same e cfg k _ w (fed t w) cf eq_refl Hset).
    apply (concat_all e cf skip [lit "-"] recs (fed t w)). cbn [inputs]. rewrite bytes_eqb_refl. cbn [fed w_stdin]. rewrite Et.
    exact (written_collected (skip || cf_skip_invalid cf) recs (lit "-") [] Hr).
  - cbn [fed w_stdout]. rewrite <- Et. reflexivity.
Qed.

Lemma run_readable : forall e cfg k w t skip, writes_records k -> run_writes e cfg w k t ->
  run_writes e cfg (fed t w) (concat_part skip None [lit "-"]) t.
Proof.
  intros e cfg k w t skip Hk (w1 & H & T). destruct (run_readable_any _ _ _ _ _ _ skip Hk H) as (t' & T' & R). rewrite T in T'. apply app_inv_head in T'.
  subst t'. exact R.
Qed.

(** ** invalid *)

Lemma reader_no_invalid : forall fuel rd l l' out, io_reader_loop (fun l => l) snoc false fuel l rd = Some (IDone l') ->
  io_invalid_file fuel (io_inner rd) out = Some (IDone out).
Proof.
  induction fuel as [|fuel IH]; intros rd l l' out H; [discriminate|]. cbn [io_reader_loop io_invalid_file] in *. unfold io_next_byte_record in H.
  destruct (io_read_until (io_inner rd)) as [[[|c b]|k] src].
  - reflexivity.
  - destruct (br_from_bytes (c :: b)) as [r|]; [|discriminate]. exact (IH _ _ _ out H).
  - discriminate.
Qed.

Lemma files_no_invalid : forall files l l' out, io_files_loop (fun l => l) snoc false l files = Some (IDone l') -> io_invalid_run files out = Some (IDone out).
Proof.
  induction files as [|[n [reads|k]] files IH]; intros l l' out H; cbn [io_files_loop] in H; cbv zeta in H; [reflexivity| |discriminate].
  destruct (io_reader_loop _ _ _ _ l _) as [[l1| | |]|] eqn:E; try discriminate. cbn [io_invalid_run]. cbv zeta.
  pose proof (reader_no_invalid _ _ _ _ out E) as X. cbn [io_reader_new io_inner] in X. rewrite X. exact (IH _ _ _ H).
Qed.

Lemma run_no_invalid : forall e cfg k w n w1, writes_records k -> run e (mkInvocation cfg k) w = Some (CEnded n, w1) ->
  exists t, w_stdout w1 = w_stdout w ++ t /\ run_writes e cfg (fed t w) (KInvalid None [lit "-"]) [].
Proof.
  intros e cfg k w n w1 Hk H. destruct (fun X => RunProofs.run_ended _ _ _ _ _ X H) as (cf & Hset & He); [destruct Hk; reflexivity|].
  cbn [in_command] in He. destruct (execute_lines _ _ _ _ _ _ Hk He) as (t & (recs & Hr & Et) & ->). exists t. split; [reflexivity|].
  eexists. split.
  - rewrite (RunProofs.run_settings e (mkInvocation cfg (KInvalid None [lit "-"])) (fed t w) cf eq_refl) by exact (settings_same e cfg k _ w (fed t w) cf eq_refl Hset).
    cbn [in_command execute]. unfold invalid_on_disk. cbv zeta. cbn [open_all open_output out_name app]. rewrite world_eta. cbn [inputs]. rewrite bytes_eqb_refl. cbn [fed w_stdin].
    rewrite Et, (files_no_invalid _ [] _ [] (written_collected false recs (lit "-") [] Hr)). cbn [main_status]. reflexivity.
  - reflexivity.
Qed.

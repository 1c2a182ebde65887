(** * The commands add to their outputs *)

From Coq Require Import String.
From Verif Require Import Bytes Winnow RecordModel BaseProofs ByteRecordModel ReaderModel MatcherModel PathModel
  QueryModel CliModel CliSpec CliProofs TableModel ExplodeModel ConvertModel CheckModel CsvModel
  IoModel IoSpec IoProofs WriteModel WriteSpec WriteProofs.

(** bodies in the form of [CliModel.v] *)
Definition grows {S} (out : S -> bytes) (s : S) (x : step S) : Prop :=
  match x with
  | Next s' | Halt s' | Fail s' _ => is_prefix (out s) (out s')
  | Panic => True
  end.

Lemma grows_appends : forall S (out : S -> bytes) on_skip body, (forall s, out (on_skip s) = out s) ->
  (forall s r, grows out s (body s r)) -> appends out on_skip (fun s r => as_io (body s r)).
Proof.
  intros S out on_skip body H1 H2. split; [exact H1|]. intros s r. specialize (H2 s r).
  destruct (body s r); exact H2.
Qed.

Lemma guarded_grows : forall S (out : S -> bytes) sel body s r,
  (forall s r, grows out s (body s r)) -> grows out s (guarded sel body s r).
Proof.
  intros S out sel body s r H. unfold guarded. destruct (sel (br_record r)) as [[]|]; cbn.
  - apply H.
  - apply prefix_refl.
  - exact I.
Qed.

Lemma filter_appends : forall O Od c,
  appends (fun s : filter_state => snd (fst s)) (fun s => s) (fun s r => as_io (filter_body O Od c s r)).
Proof.
  intros O Od c. apply grows_appends; [reflexivity|]. intros s r. apply guarded_grows.
  clear. intros [[n o] t] r. destruct (limit_reached _ _); cbn; apply prefix_app.
Qed.

Lemma concat_appends : forall O sha lossy unique,
  appends (fun s : concat_state => snd (fst s)) (fun s => s) (fun s r => as_io (concat_body O sha lossy unique s r)).
Proof.
  intros O sha lossy unique. apply grows_appends; [reflexivity|]. intros [[n o] t] r. unfold concat_body.
  destruct unique as [st|]; cbn; [|apply prefix_app].
  destruct (record_key O sha lossy st r) as [key|]; cbn; [|exact I].
  destruct (mem_bytes key n || bytes_eqb key []); cbn; [apply prefix_refl|apply prefix_app].
Qed.

Lemma slice_appends : forall O Od start length o,
  appends sl_out (slice_on_skip length) (fun s r => as_io (slice_body O Od start o s r)).
Proof.
  intros O Od start length o. apply grows_appends.
  - intros s. unfold slice_on_skip. destruct ((0 <? length) && (sl_end s <? usize_max)); reflexivity.
  - intros s r. unfold slice_body. destruct (opts_select O Od o (br_record r)) as [[]|]; cbn; try exact I;
      try apply prefix_refl.
    destruct ((start <=? sl_i s) && (sl_i s <? sl_end s)); cbn.
    + destruct (limit_reached _ _); cbn; apply prefix_app.
    + destruct (sl_i s <? start); cbn; apply prefix_refl.
Qed.

Lemma explode_appends : forall O Od c,
  appends (@snd N bytes) (fun s => s) (fun s r => as_io (explode_body O Od c s r)).
Proof.
  intros O Od c. apply grows_appends; [reflexivity|]. intros s r. unfold explode_body.
  destruct (process (ex_level c) (br_record r)) as [parts|]; [|exact I].
  assert (Hp : forall s p, grows (@snd N bytes) s (explode_part O Od c s p)).
  { intros s' p. unfold explode_part. destruct (br_from_bytes (part_data p)) as [r'|]; [|exact I].
    apply guarded_grows. intros [n o] r1. destruct (limit_reached _ _); cbn; apply prefix_app. }
  clear r. revert s. induction parts as [|p parts IH]; intros s; cbn [for_each].
  - cbn. apply prefix_refl.
  - specialize (Hp s p). destruct (explode_part O Od c s p) as [s'|s'|s' e|]; cbn in Hp |- *; try exact Hp.
    specialize (IH s'). destruct (for_each _ s' parts) as [s1|s1|s1 e1|]; cbn in IH |- *; try exact I;
      eapply prefix_trans; eassumption.
Qed.

Lemma print_appends : forall O Od T o,
  appends (@snd N bytes) (fun s => s) (fun s r => as_io (print_body O Od T o s r)).
Proof.
  intros O Od T o. apply grows_appends; [reflexivity|]. intros s r. apply guarded_grows.
  clear. intros [n out] r. destruct (print_fields _ (br_record r)) as [t|]; cbn; [|exact I].
  destruct (limit_reached _ _); cbn; apply prefix_app.
Qed.

Lemma convert_appends : forall lossy esc t,
  appends (@snd N bytes) (fun s => s) (fun s r => as_io (convert_body lossy esc t s r)).
Proof.
  intros lossy esc t. apply grows_appends; [reflexivity|]. intros [n out] r. unfold convert_body.
  destruct (conv_write lossy esc t _ r); cbn; [apply prefix_app|exact I].
Qed.

(** ** Tables *)

Lemma refused_appends : forall S (out : S -> bytes) refused body,
  (forall s r, grows out s (body s r)) -> appends out (fun s => s) (fun s r => with_refused refused (body s r)).
Proof.
  intros S out refused body H. split; [reflexivity|]. intros s r. specialize (H s r).
  destruct (body s r) as [s'|s'|s' e|]; cbn in *; try exact H. destruct (refused s'); exact H.
Qed.

Lemma csv_text_prefix : forall numeric q delim rows more,
  is_prefix (csv_text numeric q delim rows) (csv_text numeric q delim (rows ++ more)).
Proof. intros. unfold csv_text. rewrite flat_map_app. apply prefix_app. Qed.

Lemma csv_write_more : forall rows row rows', csv_write rows row = Some rows' -> rows' = rows ++ [row].
Proof.
  intros rows row rows' H. unfold csv_write in H. destruct rows as [|first rows].
  - injection H as <-. reflexivity.
  - destruct (Nat.eqb _ _); [|discriminate]. injection H as <-. reflexivity.
Qed.

Lemma hash_appends : forall numeric q delim O Od sha lossy o,
  appends (fun s : N * list (list bytes) * bool => csv_text numeric q delim (snd (fst s))) (fun s => s)
    (fun s r => with_refused snd (hash_csv_body O Od sha lossy o s r)).
Proof.
  intros numeric q delim O Od sha lossy o. apply refused_appends. intros s r. apply guarded_grows.
  clear. intros [[n rows] b] r. destruct (record_ppn O (br_record r)) as [ppn|]; [|exact I].
  cbv zeta beta. match goal with |- context[csv_write rows ?x] => destruct (csv_write rows x) as [rows'|] eqn:E end.
  - apply csv_write_more in E. subst rows'. destruct (limit_reached _ _); cbn [grows fst snd]; apply csv_text_prefix.
  - cbn. apply prefix_refl.
Qed.

Lemma select_loop_more : forall lossy hash c rows s, exists more,
  sel_rows (select_loop lossy hash c rows s) = sel_rows s ++ more.
Proof.
  intros lossy hash c. induction rows as [|row rows IH]; intros s; cbn [select_loop].
  - exists []. rewrite app_nil_r. reflexivity.
  - destruct (_ && _); [apply IH|]. destruct (_ && _); [apply IH|].
    destruct (negb _).
    + match goal with |- context[csv_write ?y ?x] => destruct (csv_write y x) as [out|] eqn:E end.
      * apply csv_write_more in E.
        match goal with |- context[select_loop _ _ _ _ ?s'] => destruct (IH s') as [more Hm] end.
        rewrite Hm. cbn [sel_rows]. rewrite E, <- app_assoc. eexists. reflexivity.
      * cbn. exists []. rewrite app_nil_r. reflexivity.
    + match goal with |- context[select_loop _ _ _ _ ?s'] => destruct (IH s') as [more Hm] end.
      rewrite Hm. cbn [sel_rows]. eexists. reflexivity.
Qed.

Lemma select_appends : forall numeric q delim O Od T lossy hash c o,
  appends (fun s : select_state => csv_text numeric q delim (sel_rows s)) (fun s => s)
    (fun s r => with_refused sel_failed (select_body O Od T lossy hash c o s r)).
Proof.
  intros numeric q delim O Od T lossy hash c o. apply refused_appends. intros s r. apply guarded_grows.
  clear. intros s r. destruct (record_query _ _ _ _ _) as [rows|]; [|exact I].
  destruct (select_loop_more lossy hash c rows s) as [more Hm].
  set (s1 := select_loop lossy hash c rows s) in *. clearbody s1.
  cbv zeta beta. destruct (sel_failed s1); cbn [grows]; [rewrite Hm; apply csv_text_prefix|].
  destruct (limit_reached _ _); cbn [grows sel_rows]; rewrite Hm; apply csv_text_prefix.
Qed.

Lemma report_table_prefix : forall delim rows more,
  is_prefix (report_table delim rows) (report_table delim (rows ++ more)).
Proof.
  intros delim [|r rows] more; [eexists; reflexivity|]. unfold report_table. cbn [app].
  change (r :: rows ++ more) with ((r :: rows) ++ more). rewrite map_app, app_comm_cons. apply csv_text_prefix.
Qed.

Lemma report_prefix : forall path rows more, is_prefix (report_text path rows) (report_text path (rows ++ more)).
Proof.
  intros path rows more. unfold report_text. cbv zeta.
  destruct (Bytes.ends_with _ (lit ".txt")); [|destruct (Bytes.ends_with _ (lit ".tsv")); apply report_table_prefix].
  unfold report_list. rewrite map_app. apply csv_text_prefix.
Qed.

Lemma check_appends : forall path Od T lossy freq_order O o,
  appends (fun s : check_state => report_text path (snd s)) (fun s => s)
    (fun s r => as_io (check_body Od T lossy freq_order O o s r)).
Proof.
  intros path Od T lossy fo O o. apply grows_appends; [reflexivity|]. intros s r. apply guarded_grows.
  clear. intros [[n sets] rows] r. match goal with |- context[match ?x with Some _ => _ | None => Panic end] => destruct x as [[sets' new]|] end; [|exact I].
  
  destruct (limit_reached _ _); cbn [grows snd]; apply report_prefix.
Qed.

(** ** From the runs of [CliModel.v] *)

Lemma io_of_run : forall S (body : S -> byte_record -> step S) skip s files contents s' e,
  Forall2 intact files contents ->
  run_loop (on_result skip body) s contents = Some (ended s' e) ->
  exists x, io_files_loop (fun s => s) (fun s r => as_io (body s r)) skip s files = Some x
    /\ match e with
       | None => x = IDone s' \/ x = IStopped s'
       | Some err => x = IFailed s' (CReadPica (PE err))
       end.
Proof.
  intros S body skip s files contents s' e Hf H.
  rewrite (io_intact _ _ _ _ (on_result_body _ body skip) _ _ _ Hf).
  unfold run_loop in H. destruct (files_loop _ _ _) as [y|]; [|discriminate]. injection H as H.
  eexists. split; [reflexivity|]. destruct y as [s1|s1|s1 e1|], e as [err|]; cbn in H; try discriminate;
    injection H; intros; subst; cbn; auto.
Qed.

Lemma filter_written : forall cap cut O Od skip c files contents n out tee e sinks,
  divides cut -> Forall2 intact files contents -> Forall (fun k => sk_data k = []) sinks ->
  filter_run O Od skip c contents = Some (ended (n, out, tee) e) ->
  exists st cs,
    record_run cap cut (fun s : filter_state => snd (fst s)) (fun _ => []) (fun s => s)
      (fun s r => as_io (filter_body O Od c s r)) skip (0, [], []) sinks files = Some (Exited st cs)
    /\ length cs = length sinks
    /\ Forall (fun content => is_prefix content out) cs
    /\ (st = 0 -> (e = None /\ cs = repeat out (length sinks)) \/ exists sk, In sk sinks /\ can_fail sk BrokenPipe).
Proof.
  intros cap cut O Od skip c files contents n out tee e sinks Hc Hf Hs H.
  destruct (io_of_run _ _ _ _ _ _ _ _ Hf H) as (x & Hx & He).
  assert (Ht : whole_output (fun s : filter_state => snd (fst s)) (fun _ => []) x out).
  { destruct e as [err|]; [subst x; reflexivity|]. destruct He as [-> | ->]; cbn; rewrite app_nil_r; reflexivity. }
  destruct (record_prefix cap cut _ _ _ _ skip Hc (filter_appends O Od c) _ sinks files x Hs Hx _ Ht)
    as (st & cs & E & Hl & Hp).
  exists st, cs. repeat split; try assumption. intros ->.
  destruct (record_complete cap cut _ _ _ _ skip Hc (filter_appends O Od c) _ sinks files x Hs Hx _ _ Ht E)
    as [[Hst Hcs]|[Hb|[s' Hb]]].
  - left. split; [|exact Hcs]. destruct e as [err|]; [subst x; discriminate|reflexivity].
  - right. exact Hb.
  - exfalso. subst x. destruct e as [err|]; [discriminate|destruct He; discriminate].
Qed.

Lemma at_end_appends : forall S on_skip body, appends (fun _ : S => []) on_skip body.
Proof. intros S on_skip body. split; [reflexivity|]. intros s r. destruct (body s r); try exact I; apply prefix_refl. Qed.

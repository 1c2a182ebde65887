(** * Proofs about tables as CSV text *)

From Coq Require Import String Permutation.
From Verif Require Import Bytes Winnow RecordModel RecordSpec BaseProofs RecordProofs TagOccModel Utf8Model Utf8Spec Utf8Proofs
  ByteRecordModel ByteRecordSpec ByteRecordProofs ReaderModel ReaderProofs MatcherModel MatcherSpec
  MatcherProofs PathModel FmtModel QueryModel QuerySpec QueryProofs QueryExtraProofs CliModel CliSpec CliProofs
  CliCommandProofs CliOutputProofs TableModel TableSpec TableProofs FrequencyProofs CheckModel CheckSpec CheckRunProofs CsvModel CsvSpec.

(** ** A text has at most one reading *)

Section Unique.
  Variable delim : byte.
  Hypothesis Hd : separates delim.

  (** what may follow a cell *)
  Definition stops (x : bytes) : Prop := exists x', x = delim :: x' \/ x = 10 :: x'.

  Lemma stops_special : forall b x, stops (b :: x) -> ~ plain_byte delim b.
  Proof. intros b x (x' & [E|E]) (P1 & P2 & P3 & P4); injection E as -> _; contradiction. Qed.

  Lemma stops_no_quote : forall x, ~ stops (34 :: x).
  Proof. intros x (x' & [E|E]); injection E; intros; [|discriminate]. destruct Hd as (D & _). auto. Qed.

  Lemma plain_unique : forall c c' x x', Forall (plain_byte delim) c -> Forall (plain_byte delim) c' ->
    stops x -> stops x' -> c ++ x = c' ++ x' -> c = c' /\ x = x'.
  Proof.
    induction c as [|b c IH]; intros [|b' c'] x x' F F' S S' E; cbn in E.
    - auto.
    - subst x. inversion F'; subst. exfalso. eapply stops_special; eauto.
    - subst x'. inversion F; subst. exfalso. eapply stops_special; eauto.
    - injection E as -> E. inversion F; inversion F'; subst.
      destruct (IH c' x x') as [-> ->]; auto.
  Qed.

  Lemma quoted_unique : forall c t, quoted_text c t -> forall c' t' x x', quoted_text c' t' ->
    stops x -> stops x' -> t ++ 34 :: x = t' ++ 34 :: x' -> c = c' /\ x = x'.
  Proof.
    induction 1 as [|c t H IH|b c t Hb H IH]; intros c' t' x x' H' S S' E.
    - destruct H' as [|c' t' H'|b' c' t' Hb' H']; cbn in E.
      + injection E as ->. auto.
      + injection E as ->. exfalso. eapply stops_no_quote; exact S.
      + injection E as E1 _. subst b'. contradiction.
    - destruct H' as [|c' t' H'|b' c' t' Hb' H']; cbn in E.
      + injection E as E. subst x'. exfalso. eapply stops_no_quote; exact S'.
      + injection E as E. destruct (IH _ _ _ _ H' S S' E) as [-> ->]. auto.
      + injection E as E1 _. subst b'. contradiction.
    - destruct H' as [|c' t' H'|b' c' t' Hb' H']; cbn in E.
      + injection E as E1 _. contradiction.
      + injection E as E1 _. contradiction.
      + injection E as -> E. destruct (IH _ _ _ _ H' S S' E) as [-> ->]. auto.
  Qed.

  Lemma cell_unique : forall c t, cell_text delim c t -> forall c' t' x x', cell_text delim c' t' ->
    stops x -> stops x' -> t ++ x = t' ++ x' -> c = c' /\ x = x'.
  Proof.
    intros c t H c' t' x x' H' S S' E. destruct H as [c F|c t H], H' as [c' F'|c' t' H'].
    - eapply plain_unique; eauto.
    - destruct c as [|b c]; cbn in E.
      + subst x. exfalso. eapply stops_no_quote; exact S.
      + injection E as -> _. inversion F as [|? ? (_ & P & _)]; subst. contradiction.
    - destruct c' as [|b c']; cbn in E.
      + subst x'. exfalso. eapply stops_no_quote; exact S'.
      + injection E as E _. subst b. inversion F' as [|? ? (_ & P & _)]; subst. contradiction.
    - cbn in E. injection E as E. rewrite <- !app_assoc in E. cbn in E.
      eapply quoted_unique; eauto.
  Qed.

  Lemma row_unique : forall r u, row_text delim r u -> forall r' u' x x', row_text delim r' u' ->
    u ++ 10 :: x = u' ++ 10 :: x' -> r = r' /\ x = x'.
  Proof.
    assert (S1 : forall x, stops (10 :: x)) by (intros x; exists x; auto).
    assert (S2 : forall x, stops (delim :: x)) by (intros x; exists x; auto).
    assert (N : forall x y, delim :: x <> 10 :: y).
    { intros x y E. injection E as E _. destruct Hd as (_ & H & _). auto. }
    induction 1 as [c t H|c t cs u H _ IH]; intros r' u' x x' [c' t' H'|c' t' cs' v' H' Hr'] E.
    - destruct (cell_unique _ _ H _ _ _ _ H' (S1 _) (S1 _) E) as [-> E']. injection E' as ->. auto.
    - rewrite <- app_assoc in E. destruct (cell_unique _ _ H _ _ _ _ H' (S1 _) (S2 _) E) as [_ E'].
      symmetry in E'. apply N in E'. contradiction.
    - rewrite <- app_assoc in E. destruct (cell_unique _ _ H _ _ _ _ H' (S2 _) (S1 _) E) as [_ E'].
      apply N in E'. contradiction.
    - rewrite <- !app_assoc in E. destruct (cell_unique _ _ H _ _ _ _ H' (S2 _) (S2 _) E) as [-> E'].
      injection E' as E'. destruct (IH _ _ _ _ Hr' E') as [-> ->]. auto.
  Qed.

  Lemma csv_unique : forall rows t, csv_rows delim rows t -> forall rows', csv_rows delim rows' t -> rows = rows'.
  Proof.
    induction 1 as [|r u rows t Hr Hu _ IH]; intros rows' H'.
    - inversion H' as [|r u rows0 t Hr Hu H0 E1 E2]; [reflexivity|]. destruct u; discriminate.
    - inversion H' as [E1 E2|r' u' rows0 t' Hr' Hu' H0 E1 E2]; subst.
      + destruct u; discriminate.
      + destruct (row_unique _ _ Hr' _ _ _ _ Hr E2) as [-> ->]. f_equal. auto.
  Qed.
End Unique.

(** ** What the writer writes *)

Section Writer.
  Variable numeric : bytes -> bool.
  Variables (q : quotes) (delim : byte).
  Hypothesis Hq : q <> QNever.
  Hypothesis Hn : forall c, numeric c = true -> Forall (plain_byte delim) c.

  Lemma escape_quoted : forall c, quoted_text c (flat_map (fun b => if b =? 34 then [34; 34] else [b]) c).
  Proof.
    induction c as [|b c IH]; cbn [flat_map]; [constructor|].
    destruct (N.eqb_spec b 34) as [->|N]; cbn [app]; [constructor|constructor]; auto.
  Qed.

  Lemma no_quotes_plain : forall c, needs_quotes delim c = false -> Forall (plain_byte delim) c.
  Proof.
    unfold needs_quotes. induction c as [|b c IH]; cbn [existsb]; intros H; [constructor|].
    apply orb_false_iff in H as [H1 H2]. constructor; [|auto].
    repeat (apply orb_false_iff in H1 as [H1 ?]).
    repeat match goal with H : (_ =? _) = false |- _ => apply N.eqb_neq in H end.
    repeat split; assumption.
  Qed.

  Lemma csv_cell_text : forall c, cell_text delim c (csv_cell numeric q delim c).
  Proof.
    intros c. unfold csv_cell. destruct (should_quote numeric q delim c) eqn:E.
    - apply cell_quoted, escape_quoted.
    - apply cell_plain. destruct q; cbn in E; [discriminate| | |contradiction].
      + apply no_quotes_plain. exact E.
      + apply Hn. apply negb_false_iff. exact E.
  Qed.

  Lemma csv_cells_text : forall r, r <> [] -> row_text delim r (csv_cells numeric q delim r).
  Proof.
    induction r as [|c r IH]; intros H; [contradiction|]. destruct r as [|c' r].
    - constructor. apply csv_cell_text.
    - change (csv_cells numeric q delim (c :: c' :: r))
        with (csv_cell numeric q delim c ++ delim :: csv_cells numeric q delim (c' :: r)).
      constructor; [apply csv_cell_text|]. apply IH. discriminate.
  Qed.

  (** only a single empty cell has an empty text *)
  Lemma csv_cells_empty : forall r, r <> [] -> csv_cells numeric q delim r = [] -> r = [[]].
  Proof.
    intros [|c [|c' r]] H E; [contradiction| |].
    - cbn in E. unfold csv_cell in E. destruct (should_quote _ _ _ _); [discriminate|]. subst c. reflexivity.
    - change (csv_cells numeric q delim (c :: c' :: r))
        with (csv_cell numeric q delim c ++ delim :: csv_cells numeric q delim (c' :: r)) in E.
      destruct (csv_cell numeric q delim c); discriminate.
  Qed.

  Lemma csv_text_rows : forall rows, Forall (fun r => r <> []) rows -> csv_rows delim rows (csv_text numeric q delim rows).
  Proof.
    induction 1 as [|r rows H _ IH]; [constructor|].
    unfold csv_text. cbn [flat_map]. fold (csv_text numeric q delim rows). unfold csv_line.
    assert (T := csv_cells_text r H). assert (E := csv_cells_empty r H).
    destruct (csv_cells numeric q delim r) as [|b t].
    - rewrite (E eq_refl). apply (csv_row delim [[]] [34; 34]); [|discriminate|exact IH].
      constructor. apply (cell_quoted delim [] []). constructor.
    - rewrite <- app_assoc. apply (csv_row delim r (b :: t)); [exact T|discriminate|exact IH].
  Qed.
End Writer.

Lemma csv_delim_separates : forall tsv, separates (csv_delim tsv).
Proof. intros [|]; repeat split; discriminate. Qed.

(** without quotes different rows have the same text *)
Lemma csv_never : forall numeric, exists rows rows', rows <> rows' /\ length rows = length rows'
  /\ csv_text numeric QNever 44 rows = csv_text numeric QNever 44 rows'.
Proof.
  intros numeric. exists [[lit "a,b"; lit "c"]], [[lit "a"; lit "b,c"]]. split; [discriminate|]. split; reflexivity.
Qed.

(** ** select *)

Lemma not_blank_nonempty : forall r : list bytes, ~ blank r -> r <> [].
Proof. intros r H ->. apply H. constructor. Qed.

Lemma select_text : forall numeric quote tsv O Od T lossy hash c skip o files,
  quote <> QNever -> (forall v, numeric v = true -> Forall (plain_byte (if tsv : bool then 9 else 44)) v) ->
  opts_wf O Od o -> query_wf O (se_qo c) (se_query c) ->
  header_fits (se_header c) (query_columns (se_query c)) -> se_header c <> Some [] ->
  exists recs e rss out text, selects O Od skip o files recs e
    /\ Forall2 (query_rows O T (se_qo c) (se_query c)) recs rss
    /\ select_writes hash (se_unique c) (se_no_empty c) (concat rss) out
    /\ csv_rows (if tsv then 9 else 44)
         (header_rows (se_header c)
          ++ map (fun row => match se_nf c with
                             | None => row
                             | Some nf => map (fun v => nf (lossy v)) row
                             end) out) text
    /\ table_text numeric quote tsv (select_run O Od T lossy hash c skip o files) = Some (ended (text, false) e).
Proof.
  intros numeric quote tsv O Od T lossy hash c skip o files Hq Hn W Wq Wh Hh.
  destruct (select_exact O Od T lossy hash c skip o files W Wq Wh) as (recs & e & rss & out & H1 & H2 & H3 & H4).
  eexists recs, e, rss, out, _. split; [exact H1|]. split; [exact H2|]. split; [exact H3|]. split.
  2:{ rewrite H4. destruct e; reflexivity. }
  apply (csv_text_rows numeric quote _ Hq Hn). apply Forall_app. split.
  - destruct (se_header c) as [h|]; cbn; constructor; [|constructor]. intros ->. apply Hh. reflexivity.
  - destruct H3 as (rows1 & rows2 & _ & _ & Hp). clear -Hp.
    assert (F : Forall (fun r : list bytes => r <> []) out).
    { remember (fun r => ~ blank r) as P eqn:EP. remember (fun r : list bytes => r) as f eqn:Ef. induction Hp; subst; auto.
      constructor; auto. apply not_blank_nonempty. assumption. }
    apply Forall_map. rewrite Forall_forall in *. intros r Hr. specialize (F r Hr).
    destruct (se_nf c); [|exact F]. destruct r; [contradiction|discriminate].
Qed.

(** ** frequency *)

Lemma frequency_rows_nonempty : forall text l rows, Forall2 (written_frequency text) l rows ->
  Forall (fun r : list bytes => r <> []) rows.
Proof.
  induction 1 as [|e r l rows (d & _ & ->) _ IH]; constructor; auto. intros E. destruct (map _ _); discriminate.
Qed.

Lemma header_rows_nonempty : forall h, h <> Some [] -> Forall (fun r : list bytes => r <> []) (header_rows h).
Proof. intros [h|] H; cbn; constructor; [|constructor]. intros ->. apply H. reflexivity. Qed.

(** ** hash *)

Definition hash_csv_act (O : oracles) (sha lossy : bytes -> bytes) (s : N * list (list bytes) * bool) (r : byte_record) :=
  (hash_act O sha lossy (fst s) r, false).

Definition two_wide (rows : list (list bytes)) : Prop :=
  match rows with first :: _ => length first = 2%nat | [] => False end.

Lemma hash_fold : forall O sha lossy recs, Forall from_line recs -> forall n rows, exists rows',
  Forall2 (hash_row sha lossy) recs rows'
  /\ fold_left (hash_act O sha lossy) recs (n, rows) = (n + N.of_nat (length recs), rows ++ rows').
Proof.
  induction 1 as [|r recs (l & El & _) _ IH]; intros n rows.
  - exists []. split; [constructor|]. cbn. rewrite N.add_0_r, app_nil_r. reflexivity.
  - cbn [fold_left]. unfold hash_act at 2. cbn [fst snd].
    destruct (ppn_identifiers O (br_record r)) as (ids & Hi & ->).
    edestruct IH as (rows' & H1 & H2). eexists. split; [constructor; [|exact H1]|].
    + exists ids, l, (hex_string (sha l)). split; [exact Hi|]. split; [exact El|].
      split; [apply hex_string_ok|]. reflexivity.
    + rewrite H2, <- app_assoc. unfold br_sha256. rewrite (from_line_write _ _ El).
      destruct ids; (apply f_equal2; [cbn [length]; lia|reflexivity]).
Qed.

Lemma hash_csv_fold : forall O sha lossy recs s,
  fold_left (hash_csv_act O sha lossy) recs (s, false) = (fold_left (hash_act O sha lossy) recs s, false).
Proof. intros O sha lossy. induction recs as [|r recs IH]; intros s; [reflexivity|]. cbn [fold_left]. apply IH. Qed.

Lemma hash_csv_exact : forall O Od sha lossy header skip o files, opts_wf O Od o -> length header = 2%nat ->
  exists recs e rows, selects O Od skip o files recs e
    /\ Forall2 (hash_row sha lossy) recs rows
    /\ hash_csv_run O Od sha lossy header skip o files = Some (ended (header :: rows, false) e).
Proof.
  intros O Od sha lossy header skip o files W Hh.
  set (body := fun (s : N * list (list bytes) * bool) r =>
     if limit_reached (fo_limit o) (fst (fst s) + 1) then Halt (hash_csv_act O sha lossy s r)
     else Next (hash_csv_act O sha lossy s r)).
  destruct (run_selects _ O Od skip o body (hash_csv_act O sha lossy) (fun s => fst (fst s)) files
              (0, [header], false) W) as (recs & e & Hs & He).
  - intros s r. reflexivity.
  - intros s r. reflexivity.
  - reflexivity.
  - assert (F := selects_from_line _ _ _ _ _ _ _ Hs).
    destruct (hash_fold O sha lossy recs F 0 [header]) as (rows & H1 & H2).
    exists recs, e, rows. split; [exact Hs|]. split; [exact H1|].
    rewrite hash_csv_fold, H2 in He. unfold hash_csv_run.
    destruct (reads_exists skip files) as (all & e0 & Hr).
    rewrite (run_loop_reads _ _ _ _ _ _ _ Hr) in He. rewrite (run_loop_reads _ _ _ _ _ _ _ Hr).
    rewrite (fold_steps_inv _ _ (fun s => two_wide (snd (fst s))) _ (guarded (opts_select O Od o) body)).
    + etransitivity; [exact (f_equal (finish_with _ _) He)|]. destruct e; reflexivity.
    + intros [[n rws] b] r I. unfold hash_csv_body, guarded. destruct (opts_select O Od o (br_record r)) as [[|]|]; [|reflexivity|reflexivity].
      unfold body, hash_csv_act, hash_act. cbn [fst snd]. destruct (ppn_identifiers O (br_record r)) as (ids & _ & ->).
      destruct rws as [|h rws]; [destruct I|]. cbn in I. unfold csv_write. rewrite I. cbn [length Nat.eqb].
      destruct ids; reflexivity.
    + intros [[n rws] b] r s' I G. unfold guarded in G. destruct (opts_select O Od o (br_record r)) as [[|]|]; try discriminate.
      * unfold body in G. destruct (limit_reached _ _); [discriminate|]. injection G as <-.
        unfold hash_csv_act, hash_act. cbn [fst snd]. destruct rws; [destruct I|]. exact I.
      * injection G as <-. exact I.
    + exact Hh.
Qed.

(** a header of another width: the first record ends the run *)
Lemma hash_csv_header : forall O Od sha lossy header skip o files, opts_wf O Od o -> length header <> 2%nat ->
  exists recs e, selects O Od skip o files recs e
    /\ hash_csv_run O Od sha lossy header skip o files
       = Some (match recs with [] => ended ([header], false) e | _ => Done ([header], true) end).
Proof.
  intros O Od sha lossy header skip o files W Hh.
  destruct (reads_exists skip files) as (all & e0 & Hr).
  destruct (chosen_exists _ _ (opts_decided _ _ _ W) all) as [sl Hc].
  assert (exists recs e, limited (fo_limit o) sl e0 recs e) as (recs & e & Hl).
  { destruct (N.eq_dec (fo_limit o) 0) as [E|E].
    - exists sl, e0. left. auto.
    - destruct (N.ltb_spec (N.of_nat (length sl)) (fo_limit o)).
      + exists sl, e0. left. auto.
      + exists (firstn (N.to_nat (fo_limit o)) sl), None. right. split; [lia|]. split.
        * rewrite firstn_length_le by lia. lia.
        * split; [|reflexivity]. exists (skipn (N.to_nat (fo_limit o)) sl). symmetry. apply firstn_skipn. }
  exists recs, e. split; [exists all, sl, e0; auto|].
  unfold hash_csv_run. rewrite (run_loop_reads _ _ _ _ _ _ _ Hr).
  rewrite (fold_chosen _ (opts_hold O Od o) (hash_csv_body O Od sha lossy o) all sl)
    by (exact Hc || (intros s r H; apply (guarded_no _ _ _ _ (opts_decided _ _ _ W)); exact H)).
  destruct sl as [|r sl].
  - assert (recs = [] /\ e = e0) as [-> ->].
    { destruct Hl as [(_ & -> & ->)|(L & _)]; [auto|cbn in L; lia]. }
    cbn [fold_steps]. destruct e0; reflexivity.
  - assert (recs <> []).
    { destruct Hl as [(_ & -> & _)|(L & L2 & _)]; [discriminate|]. intros ->. cbn in L2. lia. }
    destruct recs as [|r0 recs]; [contradiction|].
    cbn [fold_steps]. unfold hash_csv_body at 1.
    rewrite (guarded_yes _ _ _ _ (opts_decided _ _ _ W)) by (apply (proj2 (proj1 (picks_id_In _ _ _ _ Hc r) (or_introl eq_refl)))).
    destruct (ppn_identifiers O (br_record r)) as (ids & _ & ->).
    unfold csv_write. cbn [length]. destruct (Nat.eqb_spec (length header) 2) as [E|_]; [contradiction|].
    destruct ids, e0; reflexivity.
Qed.

(** ** The texts of frequency and hash *)

Lemma reaching_all : forall (A : Type) threshold (l : list (A * N)), Forall (fun e => threshold <= snd e) l \/ ~ Forall (fun e => threshold <= snd e) l.
Proof.
  intros A threshold l. induction l as [|x l [IH|IH]]; [left; constructor| |right; intros F; inversion F; auto].
  destruct (N.le_gt_cases threshold (snd x)) as [H|H]; [left; constructor; assumption|].
  right. intros F. inversion F as [|y z Hy _]; subst. lia.
Qed.

Lemma freq_exact : forall O Od T lossy order c skip o files,
  (forall t, Permutation (order t) t) ->
  opts_wf O Od o -> query_wf O (fq_qo c) (fq_query c) ->
  header_fits (fq_header c) (query_columns (fq_query c) + 1) ->
  exists recs e rss l reached listed rows, selects O Od skip o files recs e
    /\ Forall2 (query_rows O T (fq_qo c) (fq_query c)) recs rss
    /\ frequencies (fq_unique c) (fq_reverse c) rss l
    /\ reaching (fq_reverse c) (fq_threshold c) l reached
    /\ first_num (fq_num c) reached listed
    /\ Forall2 (written_frequency (fun v => fq_nf c (lossy v))) listed rows
    /\ freq_run O Od T lossy order c skip o files
       = Some (match e with
               | None => Done (header_rows (fq_header c) ++ rows, false)
               | Some err => Failed ([], false) err
               end).
Proof.
  intros O Od T lossy order c skip o files Ho W Wq Wh. destruct (fq_reverse c) eqn:Hr.
  - destruct (freq_exact_asc O Od T lossy order c skip o files Ho W Wq Wh Hr)
      as (recs & e & rss & l & listed & rows & H1 & H2 & H3 & H4 & H5 & H6 & H7).
    destruct (reaching_all _ (fq_threshold c) l) as [F|F].
    + exists recs, e, rss, l, l, listed, rows. repeat (split; [assumption|]). split; [left; auto|]. auto.
    + exists recs, e, rss, l, [], listed, rows. repeat (split; [assumption|]). split; [right; auto|].
      split; [|auto]. rewrite (H5 F). destruct (N.eq_0_gt_0_cases (fq_num c)) as [E|E]; [left; auto|].
      right. split; [exact E|]. split; [cbn; lia|]. exists []. reflexivity.
  - exact (freq_exact_desc O Od T lossy order c skip o files Ho W Wq Wh Hr).
Qed.

Lemma frequency_text : forall tsv O Od T lossy order c skip o files,
  (forall t, Permutation (order t) t) ->
  opts_wf O Od o -> query_wf O (fq_qo c) (fq_query c) ->
  header_fits (fq_header c) (query_columns (fq_query c) + 1) ->
  exists recs e rss l reached listed rows text, selects O Od skip o files recs e
    /\ Forall2 (query_rows O T (fq_qo c) (fq_query c)) recs rss
    /\ frequencies (fq_unique c) (fq_reverse c) rss l
    /\ reaching (fq_reverse c) (fq_threshold c) l reached
    /\ first_num (fq_num c) reached listed
    /\ Forall2 (written_frequency (fun v => fq_nf c (lossy v))) listed rows
    /\ csv_rows (if tsv : bool then 9 else 44) (header_rows (fq_header c) ++ rows) text
    /\ table_text (fun _ => false) QNecessary tsv (freq_run O Od T lossy order c skip o files)
       = Some (match e with None => Done (text, false) | Some err => Failed ([], false) err end).
Proof.
  intros tsv O Od T lossy order c skip o files Ho W Wq Wh.
  destruct (freq_exact O Od T lossy order c skip o files Ho W Wq Wh)
    as (recs & e & rss & l & reached & listed & rows & H1 & H2 & H3 & H4 & H5 & H6 & H7).
  eexists recs, e, rss, l, reached, listed, rows, _. do 6 (split; [eassumption|]). split.
  2:{ rewrite H7. destruct e; reflexivity. }
  apply csv_text_rows; [discriminate|discriminate|]. apply Forall_app. split.
  - apply header_rows_nonempty. intros E. specialize (Wh _ E). cbn in Wh. lia.
  - eapply frequency_rows_nonempty. exact H6.
Qed.

Lemma hash_text : forall tsv O Od sha lossy header skip o files, opts_wf O Od o -> length header = 2%nat ->
  exists recs e rows text, selects O Od skip o files recs e
    /\ Forall2 (hash_row sha lossy) recs rows
    /\ csv_rows (if tsv : bool then 9 else 44) (header :: rows) text
    /\ table_text (fun _ => false) QNecessary tsv (hash_csv_run O Od sha lossy header skip o files)
       = Some (ended (text, false) e).
Proof.
  intros tsv O Od sha lossy header skip o files W Hh.
  destruct (hash_csv_exact O Od sha lossy header skip o files W Hh) as (recs & e & rows & H1 & H2 & H3).
  eexists recs, e, rows, _. split; [exact H1|]. split; [exact H2|]. split.
  2:{ rewrite H3. destruct e; reflexivity. }
  apply csv_text_rows; [discriminate|discriminate|]. constructor; [destruct header; discriminate|].
  clear -H2. induction H2 as [|r row recs rows (ids & l & d & _ & _ & _ & ->) _ IH]; constructor; auto. discriminate.
Qed.

(** ** The reports of check *)

Lemma report_name : forall path suffix,
  ends_with (match path with Some p => if utf8_valid p then p else [] | None => [] end) suffix = true
  <-> named path suffix \/ suffix = [].
Proof.
  intros path suffix. rewrite ends_with_iff. unfold is_suffix, named. split.
  - intros [x E]. destruct path as [p|].
    + destruct (utf8_valid p) eqn:U.
      * left. exists x. rewrite <- E. split; [reflexivity|]. apply utf8_valid_iff. exact U.
      * right. destruct x; [cbn in E; auto|discriminate].
    + right. destruct x; [cbn in E; auto|discriminate].
  - intros [(x & -> & U)|E].
    + apply utf8_valid_iff in U. rewrite U. exists x. reflexivity.
    + subst suffix. eexists. rewrite app_nil_r. reflexivity.
Qed.

Lemma report_ok : forall path rows, report path rows (report_text path rows).
Proof.
  intros path rows.
  assert (NE : forall (g : check_row -> list bytes), (forall r, g r <> []) -> Forall (fun r : list bytes => r <> []) (map g rows)).
  { intros g Hg. apply Forall_map. apply Forall_forall. intros r _. apply Hg. }
  assert (TB : forall d, match rows with
                         | [] => report_table d rows = []
                         | _ => csv_rows d (report_columns :: map report_row rows) (report_table d rows)
                         end).
  { intros d. unfold report_table. destruct rows as [|r rows']; [reflexivity|].
    apply (csv_text_rows (fun _ => false) QNecessary d ltac:(discriminate) ltac:(discriminate)
             (report_columns :: map report_row (r :: rows'))).
    constructor; [discriminate|]. apply NE. intros r'. discriminate. }
  unfold report, report_text. set (name := match path with Some p => if utf8_valid p then p else [] | None => [] end).
  assert (N1 := report_name path (lit ".txt")). assert (N2 := report_name path (lit ".tsv")).
  fold name in N1, N2.
  destruct (ends_with name (lit ".txt")).
  - left. split; [destruct (proj1 N1 eq_refl) as [H|H]; [exact H|discriminate]|].
    apply csv_text_rows; [discriminate|discriminate|]. apply NE. discriminate.
  - right. split; [intros H; assert (X := proj2 N1 (or_introl H)); discriminate|].
    destruct (ends_with name (lit ".tsv")).
    + exists 9. split; [|apply TB]. left. split; [|reflexivity].
      destruct (proj1 N2 eq_refl) as [H|H]; [exact H|discriminate].
    + exists 44. split; [|apply TB]. right. split; [|reflexivity].
      intros H. assert (X := proj2 N2 (or_introl H)). discriminate.
Qed.

Lemma csv_rows_nonempty : forall d r rows, ~ csv_rows d (r :: rows) [].
Proof. intros d r rows H. inversion H as [E1 E2|r0 u rows0 t Hr Hu H0 E1 E2]. destruct u; discriminate. Qed.

(** the text tells the rows of a report apart, up to a missing identifier or
    message being written like an empty one *)
Lemma report_unique : forall path rows rows' text, report path rows text -> report path rows' text ->
  ~ named path (lit ".txt") -> map report_row rows = map report_row rows'.
Proof.
  intros path rows rows' text [[H _]|(_ & d & Hd & H)] H' Ht; [contradiction|].
  destruct H' as [[H' _]|(_ & d' & Hd' & H')]; [contradiction|].
  assert (d' = d) as ->.
  { destruct Hd as [[? ->]|[? ->]], Hd' as [[? ->]|[? ->]]; auto; contradiction. }
  assert (S : separates d) by (destruct Hd as [[_ ->]|[_ ->]]; repeat split; discriminate).
  destruct rows as [|r rows], rows' as [|r' rows'].
  - reflexivity.
  - subst text. exfalso. eapply csv_rows_nonempty. exact H'.
  - subst text. exfalso. eapply csv_rows_nonempty. exact H.
  - assert (E := csv_unique d S _ _ H _ H'). injection E as E1 E2 E3 E4 E5.
    cbn [map]. unfold report_row at 1 3. rewrite E1, E2, E3, E4, E5. reflexivity.
Qed.

Lemma check_text : forall path Od T lossy, (forall v, lossy v = [] <-> v = []) ->
  forall freq_order, (forall l, Permutation (freq_order l) l) ->
  forall unseen_order, (forall l, Permutation (unseen_order l) l) ->
  forall O skip o sets files, opts_wf O Od o -> Forall (set_wf Od) sets ->
  exists recs e rowss finals text, selects O Od skip o files recs e
    /\ Forall2 (fun r rows => exists parts, Forall2 (set_rows Od T lossy (br_record r)) sets parts /\ rows = concat parts)
         recs rowss
    /\ Forall2 (set_final Od T lossy (map br_record recs)) sets finals
    /\ report path (concat rowss ++ match e with None => concat finals | Some _ => [] end) text
    /\ check_output path (check_run Od T lossy freq_order unseen_order O skip o sets files) = Some (ended text e).
Proof.
  intros path Od T lossy Hl fo Hfo uo Huo O skip o sets files W Ws.
  destruct (check_exact Od T lossy Hl fo Hfo uo Huo O skip o sets files W Ws)
    as (recs & e & rowss & finals & H1 & H2 & H3 & H4).
  eexists recs, e, rowss, finals, _. do 3 (split; [assumption|]). split; [apply report_ok|].
  rewrite H4. destruct e; [rewrite app_nil_r|]; reflexivity.
Qed.

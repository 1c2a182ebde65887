(** * Proofs about the reader and the writer *)

From Coq Require Import String.
From Verif Require Import Bytes Winnow RecordModel RecordSpec BaseProofs RecordProofs
  Utf8Model Utf8Spec Utf8Proofs ByteRecordModel ByteRecordSpec ByteRecordProofs ReaderModel.

Lemma read_until_spec : forall i a r, read_until_lf i = (a, r) ->
  i = a ++ r /\ ((exists p, a = p ++ [10] /\ ~ In 10 p) \/ (r = [] /\ ~ In 10 a)).
Proof.
  induction i as [|c i IH]; cbn; intros a r H.
  - injection H as <- <-. split; [reflexivity|]. right. auto.
  - destruct (N.eqb_spec c LF) as [->|Hc].
    + injection H as <- <-. split; [reflexivity|]. left. exists []. auto.
    + destruct (read_until_lf i) as [a' r'] eqn:E. injection H as <- <-.
      destruct (IH _ _ eq_refl) as (-> & [(p & -> & Hp)|(-> & Hp)]).
      * split; [reflexivity|]. left. exists (c :: p). split; [reflexivity|].
        cbn. intros [H|H]; [unfold LF in Hc; congruence|contradiction].
      * split; [reflexivity|]. right. split; [reflexivity|].
        cbn. intros [H|H]; [unfold LF in Hc; congruence|contradiction].
Qed.

Lemma read_until_line : forall p r, ~ In 10 p -> read_until_lf (p ++ 10 :: r) = (p ++ [10], r).
Proof.
  induction p as [|c p IH]; intros r H; cbn; [reflexivity|].
  destruct (N.eqb_spec c LF) as [->|Hc]; [exfalso; apply H; left; reflexivity|].
  rewrite IH; [reflexivity|]. intros Hi. apply H. right. exact Hi.
Qed.

Lemma read_until_last : forall p, ~ In 10 p -> read_until_lf p = (p, []).
Proof.
  induction p as [|c p IH]; intros H; cbn; [reflexivity|].
  destruct (N.eqb_spec c LF) as [->|Hc]; [exfalso; apply H; left; reflexivity|].
  rewrite IH; [reflexivity|]. intros Hi. apply H. right. exact Hi.
Qed.

Lemma is_lines_exists : forall b, exists ls, is_lines b ls.
Proof.
  intros b. remember (length b) as n eqn:Hn. assert (Hle : (length b <= n)%nat) by lia. clear Hn.
  revert b Hle. induction n as [|n IH]; intros b Hn.
  - destruct b; [|cbn in Hn; lia]. exists []. constructor.
  - destruct b as [|c b]; [exists []; constructor|].
    destruct (read_until_lf (c :: b)) as [a r] eqn:E.
    apply read_until_spec in E as (E & [(p & -> & Hp)|(-> & Hp)]).
    + rewrite E in Hn |- *. destruct (IH r) as [ls Hls].
      { rewrite !app_length in Hn. cbn in Hn. lia. }
      exists ((p ++ [10]) :: ls). rewrite <- app_assoc. constructor; assumption.
    + rewrite app_nil_r in E. subst a. exists [c :: b]. constructor; [discriminate|exact Hp].
Qed.

Lemma is_lines_concat : forall b ls, is_lines b ls -> concat ls = b.
Proof.
  induction 1 as [|b Hb Hn|a b ls Ha _ IH]; cbn; [reflexivity|apply app_nil_r|].
  rewrite IH, <- app_assoc. reflexivity.
Qed.

Lemma split_at_lf : forall (a a' b b' : bytes), ~ In 10 a -> ~ In 10 a' ->
  a ++ 10 :: b = a' ++ 10 :: b' -> a = a' /\ b = b'.
Proof.
  induction a as [|x a IH]; intros a' b b' Ha Ha' H.
  - destruct a' as [|y a']; [injection H as ->; auto|].
    injection H as <- _. exfalso. apply Ha'. left. reflexivity.
  - destruct a' as [|y a'].
    + injection H as -> _. exfalso. apply Ha. left. reflexivity.
    + injection H as -> H. apply IH in H as [-> ->]; [auto| |].
      * intros Hi. apply Ha. right. exact Hi.
      * intros Hi. apply Ha'. right. exact Hi.
Qed.

Lemma is_lines_unique : forall b ls, is_lines b ls -> forall ls', is_lines b ls' -> ls = ls'.
Proof.
  induction 1 as [|b Hb Hn|a b ls Ha _ IH]; intros ls' H'.
  - inversion H' as [E|b0 Hb0 Hn0 E|a' b' ls'' Ha' Hl E]; subst.
    + reflexivity.
    + congruence.
    + destruct a'; discriminate.
  - inversion H' as [E|b0 Hb0 Hn0 E|a' b' ls'' Ha' Hl E]; subst.
    + congruence.
    + reflexivity.
    + exfalso. apply Hn. apply in_app_iff. right. left. reflexivity.
  - inversion H' as [E|b0 Hb0 Hn0 E|a' b' ls'' Ha' Hl E]; subst.
    + destruct a; discriminate.
    + exfalso. apply Hn0. apply in_app_iff. right. left. reflexivity.
    + apply split_at_lf in E as [-> ->]; auto. f_equal. apply IH. exact Hl.
Qed.

(** what the reader returns for a line *)
Definition line_result (src : option bytes) (n : N) (l : bytes) : byte_record + read_error :=
  match record_from_bytes l with
  | Some r => inl (mkBR (Some l) r)
  | None => inr (EParse n src)
  end.

Fixpoint line_results (src : option bytes) (n : N) (ls : list bytes) : list (byte_record + read_error) :=
  match ls with
  | [] => []
  | l :: ls' => line_result src (n + 1) l :: line_results src (n + 1) ls'
  end.

Lemma next_byte_eof : forall src n, next_byte_record (mkReader [] src n) = (None, mkReader [] src (n + 1)).
Proof. reflexivity. Qed.

Lemma next_byte_line : forall l r src n,
  l <> [] -> read_until_lf (l ++ r) = (l, r) ->
  next_byte_record (mkReader (l ++ r) src n) = (Some (line_result src (n + 1) l), mkReader r src (n + 1)).
Proof.
  intros l r src n Hl E. unfold next_byte_record. cbn [rd_inner rd_source rd_line].
  rewrite E. destruct l as [|c l]; [congruence|].
  unfold line_result, br_from_bytes. destruct (record_from_bytes (c :: l)); reflexivity.
Qed.

Lemma drain_lines : forall ls b src n fuel,
  is_lines b ls -> (length b < fuel)%nat ->
  drain_fuel next_byte_record fuel (mkReader b src n)
  = Some (line_results src n ls, mkReader [] src (n + N.of_nat (length ls) + 1)).
Proof.
  intros ls b src n fuel H. revert n fuel. induction H as [|b Hb Hn|a b ls Ha H IH]; intros n fuel Hf.
  - destruct fuel as [|fuel]; [lia|]. cbn [drain_fuel]. rewrite next_byte_eof.
    cbn. rewrite N.add_0_r. reflexivity.
  - destruct fuel as [|fuel]; [lia|]. cbn [drain_fuel].
    assert (E := next_byte_line b [] src n Hb). rewrite app_nil_r in E.
    rewrite E by (apply read_until_last; exact Hn).
    destruct fuel as [|fuel]; [destruct b; [congruence|cbn in Hf; lia]|]. cbn [drain_fuel].
    rewrite next_byte_eof. cbn. repeat f_equal; lia.
  - destruct fuel as [|fuel]; [lia|]. cbn [drain_fuel].
    assert (E := next_byte_line (a ++ [10]) b src n).
    rewrite <- app_assoc in E. cbn [app] in E.
    rewrite E; [|destruct a; discriminate|apply read_until_line; exact Ha].
    rewrite IH by (rewrite app_length in Hf; cbn in Hf; lia).
    cbn [line_results length]. f_equal. f_equal. f_equal. lia.
Qed.

Lemma drain_all : forall b src ls, is_lines b ls ->
  drain next_byte_record (reader_new b src)
  = Some (line_results (rd_source (reader_new b src)) 0 ls,
          mkReader [] (rd_source (reader_new b src)) (N.of_nat (length ls) + 1)).
Proof.
  intros b src ls H. unfold drain, reader_new. cbn [rd_inner rd_source].
  rewrite (drain_lines ls) by (auto; lia). f_equal.
Qed.

Lemma line_results_nth : forall src ls n k l,
  nth_error ls k = Some l ->
  nth_error (line_results src n ls) k = Some (line_result src (n + N.of_nat k + 1) l).
Proof.
  intros src. induction ls as [|x ls IH]; intros n [|k] l; cbn; try discriminate.
  - intros E. injection E as ->. do 2 f_equal. lia.
  - intros E. rewrite (IH _ _ _ E). do 2 f_equal. lia.
Qed.

Lemma line_results_length : forall src ls n, length (line_results src n ls) = length ls.
Proof. intros src. induction ls as [|x ls IH]; intros n; cbn; auto. Qed.

(** C09 *)
Lemma reader_line_results : forall input source,
  exists ls results rd,
    is_lines input ls /\ concat ls = input
    /\ drain next_byte_record (reader_new input source) = Some (results, rd)
    /\ length results = length ls
    /\ (forall k l, nth_error ls k = Some l ->
          (forall r, record_text r l -> nth_error results k = Some (inl (mkBR (Some l) r)))
          /\ ((forall r, ~ record_text r l) ->
              nth_error results k = Some (inr (EParse (N.of_nat k + 1) (rd_source (reader_new input source))))))
    /\ next_byte_record rd = (None, mkReader [] (rd_source rd) (rd_line rd + 1)).
Proof.
  intros input source. destruct (is_lines_exists input) as [ls Hls].
  exists ls. eexists. eexists. split; [exact Hls|]. split; [apply is_lines_concat; exact Hls|].
  split; [apply drain_all; exact Hls|]. split; [apply line_results_length|]. split; [|reflexivity].
  intros k l Hk. rewrite (line_results_nth _ _ _ _ _ Hk). rewrite N.add_0_l. unfold line_result.
  split; intros.
  - rewrite (proj2 (record_accept_iff l r)) by assumption. reflexivity.
  - rewrite (proj2 (record_reject_iff l)) by assumption. reflexivity.
Qed.

(** the string reader, call by call *)
Lemma string_vs_byte : forall rd,
  snd (next_string_record rd) = snd (next_byte_record rd)
  /\ match fst (next_byte_record rd) with
     | None => fst (next_string_record rd) = None
     | Some (inr e) => fst (next_string_record rd) = Some (inr e)
     | Some (inl r) =>
         (record_validate (br_record r) = true /\ fst (next_string_record rd) = Some (inl r))
         \/ (record_validate (br_record r) = false
             /\ fst (next_string_record rd) = Some (inr (EUtf8 (rd_line rd))))
     end.
Proof.
  intros rd. unfold next_string_record.
  destruct (next_byte_record rd) as [[[r|e]|] rd'] eqn:E; cbn; try (split; reflexivity).
  unfold sr_try_from. destruct (record_validate (br_record r)); cbn; auto.
Qed.

(** C10 *)
Lemma not_in_digit : forall c, is_digit c = true -> c <> 10.
Proof. intros c H ->. discriminate. Qed.

Lemma write_subfield_no_lf : forall s, valid_subfield s -> ~ In 10 (sf_value s) ->
  ~ In 10 (write_subfield s).
Proof.
  intros s [Hc _] Hv. unfold write_subfield. cbn. intros [H|[H|H]]; [discriminate| |contradiction].
  rewrite H in Hc. apply valid_code_iff in Hc. discriminate.
Qed.

Lemma write_field_no_lf : forall f, valid_field f ->
  (forall s, In s (f_subfields f) -> ~ In 10 (sf_value s)) -> ~ In 10 (write_field f).
Proof.
  intros f (Ht & Ho & Hs) Hv H. unfold write_field in H. rewrite !in_app_iff in H.
  destruct H as [H|[H|[H|[H|H]]]].
  - destruct Ht as (a & b & c & d & E & Ha & Hb & Hc & Hd). rewrite E in H.
    unfold digits, uppers in *. rewrite in_digits_iff in Hb, Hc. apply in_app_iff in Hd.
    cbn in H. destruct H as [H|[H|[H|[H|[]]]]]; subst.
    + cbn in Ha. intuition discriminate.
    + discriminate.
    + discriminate.
    + destruct Hd as [Hd|Hd]; [apply in_uppers_iff in Hd; discriminate|cbn in Hd; intuition discriminate].
  - destruct (f_occ f) as [o|]; [|contradiction].
    destruct (Ho o eq_refl) as [_ Hd]. destruct H as [H|H]; [discriminate|].
    rewrite Forall_forall in Hd. apply Hd in H. apply in_digits_iff in H. discriminate.
  - cbn in H. intuition discriminate.
  - apply in_flat_map in H as (s & Hin & H). rewrite Forall_forall in Hs.
    apply (write_subfield_no_lf s); auto.
  - cbn in H. intuition discriminate.
Qed.

Lemma flat_map_no_lf : forall r, Forall valid_field r -> lf_free r -> ~ In 10 (flat_map write_field r).
Proof.
  intros r Hr Hl H. apply in_flat_map in H as (f & Hf & H). rewrite Forall_forall in Hr.
  revert H. apply write_field_no_lf; [auto|]. intros s Hs. exact (Hl f s Hf Hs).
Qed.

Lemma written_is_lines : forall recs : list byte_record,
  Forall (fun r => coherent r /\ br_record r <> [] /\ lf_free (br_record r)) recs ->
  is_lines (flat_map br_write recs) (map br_write recs).
Proof.
  induction 1 as [|r recs (Hc & Hne & Hl) _ IH]; cbn [flat_map map]; [constructor|].
  destruct Hc as [Hw Hv]. rewrite Hw, write_record_nonempty by exact Hne.
  rewrite <- app_assoc. cbn [app]. constructor; [|exact IH].
  apply flat_map_no_lf; assumption.
Qed.

Lemma line_results_written : forall src recs n,
  Forall (fun r => coherent r /\ br_record r <> []) recs ->
  line_results src n (map br_write recs)
  = map (fun r => inl (mkBR (Some (br_write r)) (br_record r))) recs.
Proof.
  intros src. induction recs as [|r recs IH]; intros n H; cbn; [reflexivity|].
  inversion H as [|? ? [[Hw Hv] Hne] H']; subst. rewrite IH by exact H'. f_equal.
  unfold line_result. rewrite Hw, record_write_parse by assumption. reflexivity.
Qed.

Lemma write_read_roundtrip : forall recs source,
  Forall reachable recs ->
  Forall (fun r => br_record r <> [] /\ lf_free (br_record r)) recs ->
  exists data results rd,
    write_file wb_new false None recs = Some (FPlain data)
    /\ read_file false (FPlain data) = Some data
    /\ drain next_byte_record (reader_new data source) = Some (results, rd)
    /\ Forall2 (fun r res => exists r', res = inl r' /\ br_record r' = br_record r) recs results.
Proof.
  intros recs source Hr Hn.
  exists (flat_map br_write recs). eexists. eexists. split; [reflexivity|]. split; [reflexivity|].
  split.
  - apply drain_all. apply written_is_lines.
    rewrite Forall_forall in *. intros r Hin. specialize (Hn r Hin). specialize (Hr r Hin).
    apply coherent_reachable in Hr. tauto.
  - rewrite line_results_written.
    + clear. induction recs as [|r recs IH]; cbn; constructor; [|exact IH]. eexists. split; reflexivity.
    + rewrite Forall_forall in *. intros r Hin. specialize (Hn r Hin). specialize (Hr r Hin).
      apply coherent_reachable in Hr. tauto.
Qed.

Lemma fresh_file_roundtrip : forall w ext_gz old recs source,
  (wb_gzip w = false \/ ext_gz = true) ->
  (wb_append w = false \/ old = None \/ old = Some (FPlain [])) ->
  Forall reachable recs ->
  Forall (fun r => br_record r <> [] /\ lf_free (br_record r)) recs ->
  exists f data results rd,
    write_file w ext_gz old recs = Some f
    /\ read_file ext_gz f = Some data
    /\ drain next_byte_record (reader_new data source) = Some (results, rd)
    /\ Forall2 (fun r res => exists r', res = inl r' /\ br_record r' = br_record r) recs results.
Proof.
  intros [a g] ext old recs source Hk Ho Hr Hn. cbn in Hk, Ho.
  destruct (write_read_roundtrip recs source Hr Hn) as (data & results & rd & E & _ & Hd & Hf).
  injection E as <-. unfold write_file, wb_kind, wb_gzip, wb_append.
  assert (Hb : (if a then old else None) = None \/ (if a then old else None) = Some (FPlain [])).
  { destruct a; [|auto]. destruct Ho as [X|Ho]; [discriminate|exact Ho]. }
  destruct ext.
  - rewrite orb_true_r. exists (FGzip [flat_map br_write recs]). do 3 eexists.
    split; [destruct Hb as [-> | ->]; reflexivity|]. split; [reflexivity|]. split; [exact Hd|exact Hf].
  - destruct Hk as [-> |X]; [|discriminate]. cbn [orb].
    exists (FPlain (flat_map br_write recs)). do 3 eexists.
    split; [destruct Hb as [-> | ->]; reflexivity|]. split; [reflexivity|]. split; [exact Hd|exact Hf].
Qed.

(** C31 *)
Lemma wb_step_spec : forall w c,
  wb_append w && wb_gzip w = false ->
  match c with
  | CGzip y => wb_step w c = if y && wb_append w then None else Some (mkWB (wb_append w) y)
  | CAppend y => wb_step w c = if y && wb_gzip w then None else Some (mkWB y (wb_gzip w))
  end.
Proof.
  intros [a g] [y|y] H; cbn in *; unfold wb_set_gzip, wb_set_append; cbn;
    destruct a, g, y; try reflexivity; discriminate.
Qed.

Lemma wb_run_inv : forall cs w w', wb_append w && wb_gzip w = false ->
  wb_run w cs = Some w' -> wb_append w' && wb_gzip w' = false.
Proof.
  induction cs as [|c cs IH]; cbn; intros w w' H E; [congruence|].
  pose proof (wb_step_spec w c H) as S. destruct (wb_step w c) as [w1|] eqn:F; [|discriminate].
  apply (IH w1 w'); [|exact E]. destruct w as [a g]. cbn [wb_append wb_gzip] in *.
  destruct c as [[|]|[|]], a, g; cbn in S; try discriminate; injection S as ->; reflexivity.
Qed.

(** C11: the string reader's UTF-8 errors are off by one on every line *)
Definition string_line_result (src : option bytes) (n : N) (l : bytes) : byte_record + read_error :=
  match record_from_bytes l with
  | Some r => if record_validate r then inl (mkBR (Some l) r) else inr (EUtf8 n)
  | None => inr (EParse (n + 1) src)
  end.

Fixpoint string_line_results (src : option bytes) (n : N) (ls : list bytes) :=
  match ls with
  | [] => []
  | l :: ls' => string_line_result src n l :: string_line_results src (n + 1) ls'
  end.

Lemma next_string_line : forall l r src n,
  l <> [] -> read_until_lf (l ++ r) = (l, r) ->
  next_string_record (mkReader (l ++ r) src n) = (Some (string_line_result src n l), mkReader r src (n + 1)).
Proof.
  intros l r src n Hl E. unfold next_string_record. cbn [rd_line].
  rewrite next_byte_line by assumption. unfold line_result, string_line_result.
  destruct (record_from_bytes l); [|reflexivity].
  unfold sr_try_from. cbn [br_record]. destruct (record_validate l0); reflexivity.
Qed.

Lemma drain_string_lines : forall ls b src n fuel,
  is_lines b ls -> (length b < fuel)%nat ->
  drain_fuel next_string_record fuel (mkReader b src n)
  = Some (string_line_results src n ls, mkReader [] src (n + N.of_nat (length ls) + 1)).
Proof.
  intros ls b src n fuel H. revert n fuel. induction H as [|b Hb Hn|a b ls Ha H IH]; intros n fuel Hf.
  - destruct fuel as [|fuel]; [lia|]. cbn. rewrite N.add_0_r. reflexivity.
  - destruct fuel as [|fuel]; [lia|]. cbn [drain_fuel].
    assert (E := next_string_line b [] src n Hb). rewrite app_nil_r in E.
    rewrite E by (apply read_until_last; exact Hn).
    destruct fuel as [|fuel]; [destruct b; [congruence|cbn in Hf; lia]|].
    cbn. repeat f_equal; lia.
  - destruct fuel as [|fuel]; [lia|]. cbn [drain_fuel].
    assert (E := next_string_line (a ++ [10]) b src n).
    rewrite <- app_assoc in E. cbn [app] in E.
    rewrite E; [|destruct a; discriminate|apply read_until_line; exact Ha].
    rewrite IH by (rewrite app_length in Hf; cbn in Hf; lia).
    cbn [string_line_results length]. f_equal. f_equal. f_equal. lia.
Qed.

Lemma string_line_results_nth : forall src ls n k l,
  nth_error ls k = Some l ->
  nth_error (string_line_results src n ls) k = Some (string_line_result src (n + N.of_nat k) l).
Proof.
  intros src. induction ls as [|x ls IH]; intros n [|k] l; cbn; try discriminate.
  - intros E. injection E as ->. do 2 f_equal. lia.
  - intros E. rewrite (IH _ _ _ E). do 2 f_equal. lia.
Qed.

Lemma string_reader_results : forall input source ls k l,
  is_lines input ls -> nth_error ls k = Some l ->
  exists results rd,
    drain next_string_record (reader_new input source) = Some (results, rd)
    /\ ((forall r, ~ record_text r l) ->
         nth_error results k = Some (inr (EParse (N.of_nat k + 1) (rd_source (reader_new input source)))))
    /\ (forall r, record_text r l ->
         (forall f s, In f r -> In s (f_subfields f) -> is_utf8 (sf_value s)) ->
         nth_error results k = Some (inl (mkBR (Some l) r)))
    /\ (forall r, record_text r l ->
         ~ (forall f s, In f r -> In s (f_subfields f) -> is_utf8 (sf_value s)) ->
         nth_error results k = Some (inr (EUtf8 (N.of_nat k)))).
Proof.
  intros input source ls k l Hls Hk. eexists. eexists. split.
  { unfold drain, reader_new. cbn [rd_inner]. apply (drain_string_lines ls); [exact Hls|lia]. }
  rewrite (string_line_results_nth _ _ _ _ _ Hk). rewrite N.add_0_l. unfold string_line_result.
  split; [|split].
  - intros H. rewrite (proj2 (record_reject_iff l)) by assumption. reflexivity.
  - intros r Hr Hu. rewrite (proj2 (record_accept_iff l r) Hr).
    rewrite (proj2 (record_validate_iff r) Hu). reflexivity.
  - intros r Hr Hu. rewrite (proj2 (record_accept_iff l r) Hr).
    destruct (record_validate r) eqn:E; [|reflexivity].
    exfalso. apply Hu. apply record_validate_iff. exact E.
Qed.

Lemma string_reader_skips : forall input source ls k l skip,
  is_lines input ls -> nth_error ls k = Some l ->
  exists results rd,
    drain next_string_record (reader_new input source) = Some (results, rd)
    /\ ((exists e, nth_error results k = Some (inr e) /\ skip_parse_err e skip = true)
        <-> skip = true /\ forall r, ~ record_text r l).
Proof.
  intros input source ls k l skip Hls Hk. eexists. eexists. split.
  { unfold drain, reader_new. cbn [rd_inner]. apply (drain_string_lines ls); [exact Hls|lia]. }
  rewrite (string_line_results_nth _ _ _ _ _ Hk). unfold string_line_result.
  destruct (record_from_bytes l) as [r|] eqn:E.
  - split.
    + intros (e & He & Hs). destruct (record_validate r); injection He as He; subst; discriminate.
    + intros [_ H]. contradiction (H r). apply record_accept_iff. exact E.
  - split.
    + intros (e & He & Hs). injection He as He. subst. cbn in Hs. split; [exact Hs|]. apply record_reject_iff. exact E.
    + intros [-> H]. eexists. split; reflexivity.
Qed.

(** C57 *)
Lemma is_lines_app : forall a la b lb, is_lines (a ++ [10]) la -> is_lines b lb ->
  is_lines ((a ++ [10]) ++ b) (la ++ lb).
Proof.
  intros a la b lb H Hb. remember (a ++ [10]) as x eqn:Ex. revert a Ex.
  induction H as [|x Hx Hn|p q ls Hp Hq IH]; intros a Ex.
  - destruct a; discriminate.
  - exfalso. apply Hn. subst. apply in_app_iff. right. left. reflexivity.
  - rewrite <- app_assoc. cbn [app]. constructor; [exact Hp|].
    destruct q as [|c q].
    + inversion Hq as [E|b0 Hb0 Hn0 E|a' b' ls'' Ha' Hl E]; subst; [exact Hb|congruence|].
      destruct a'; discriminate.
    + assert (exists a', c :: q = a' ++ [10]) as [a' Ea'].
      { assert (E : removelast (p ++ 10 :: c :: q) ++ [last (p ++ 10 :: c :: q) 0] = a ++ [10]).
        { rewrite <- app_removelast_last; [exact Ex|]. destruct p; discriminate. }
        apply app_inj_tail in E as [_ E].
        exists (removelast (c :: q)).
        rewrite (app_removelast_last (l := c :: q) 0) at 1; [|discriminate].
        f_equal. f_equal. rewrite <- E.
        clear. induction p as [|y p IHp]; [reflexivity|].
        cbn [app]. cbn [last]. destruct (p ++ 10 :: c :: q) eqn:F; [destruct p; discriminate|].
        exact IHp. }
      apply (IH a'). exact Ea'.
Qed.

Lemma line_results_app : forall src a b n,
  line_results src n (a ++ b) = line_results src n a ++ line_results src (n + N.of_nat (length a)) b.
Proof.
  intros src. induction a as [|x a IH]; intros b n; cbn [app line_results length].
  - rewrite N.add_0_r. reflexivity.
  - rewrite IH. cbn. do 3 f_equal. lia.
Qed.

Lemma append_plain_roundtrip : forall w old recs source,
  wb_append w = true -> wb_gzip w = false ->
  (old = [] \/ exists p, old = p ++ [10]) ->
  Forall reachable recs ->
  Forall (fun r => br_record r <> [] /\ lf_free (br_record r)) recs ->
  exists data before after rd rd',
    write_file w false (Some (FPlain old)) recs = Some (FPlain data)
    /\ read_file false (FPlain data) = Some data
    /\ drain next_byte_record (reader_new old source) = Some (before, rd)
    /\ drain next_byte_record (reader_new data source) = Some (before ++ after, rd')
    /\ Forall2 (fun r res => exists r', res = inl r' /\ br_record r' = br_record r) recs after.
Proof.
  intros [ap gz] old recs source Ha Hg Hold Hr Hn. cbn in Ha, Hg. subst ap gz.
  destruct (is_lines_exists old) as [lo Hlo].
  assert (Hw : is_lines (flat_map br_write recs) (map br_write recs)).
  { apply written_is_lines. rewrite Forall_forall in *. intros r Hin.
    specialize (Hn r Hin). specialize (Hr r Hin). apply coherent_reachable in Hr. tauto. }
  assert (Hall : is_lines (old ++ flat_map br_write recs) (lo ++ map br_write recs)).
  { destruct Hold as [->|[p ->]].
    - rewrite (is_lines_unique [] lo Hlo [] lines_nil). exact Hw.
    - apply is_lines_app; assumption. }
  exists (old ++ flat_map br_write recs). do 4 eexists.
  split; [reflexivity|]. split; [reflexivity|].
  split; [apply drain_all; exact Hlo|].
  split.
  - rewrite (drain_all _ source _ Hall). rewrite line_results_app.
    cbn [rd_source reader_new]. reflexivity.
  - rewrite line_results_written.
    + clear. induction recs as [|r recs IH]; cbn; constructor; [|exact IH]. eexists. split; reflexivity.
    + rewrite Forall_forall in *. intros r Hin. specialize (Hn r Hin). specialize (Hr r Hin).
      apply coherent_reachable in Hr. tauto.
Qed.

Lemma append_gz_lost : forall w m ms recs,
  wb_append w = true ->
  exists f, write_file w true (Some (FGzip (m :: ms))) recs = Some f
    /\ read_file true f = Some m.
Proof.
  intros [a g] m ms recs Ha. cbn in Ha. subst a. unfold write_file, wb_kind. cbn.
  rewrite orb_true_r. eexists. split; reflexivity.
Qed.

Lemma wb_panics : forall cs w c,
  wb_run wb_new cs = Some w ->
  (wb_step w c = None <->
   (c = CGzip true /\ wb_append w = true) \/ (c = CAppend true /\ wb_gzip w = true))
  /\ (forall w', wb_step w c = Some w' ->
        match c with
        | CGzip y => w' = mkWB (wb_append w) y
        | CAppend y => w' = mkWB y (wb_gzip w)
        end).
Proof.
  intros cs w c H. pose proof (wb_run_inv cs wb_new w eq_refl H) as Hw.
  pose proof (wb_step_spec w c Hw) as S. destruct w as [a g]. cbn [wb_append wb_gzip] in *.
  destruct c as [y|y]; rewrite S; destruct y; cbn [andb];
    [destruct a|destruct a|destruct g|destruct g];
    (split; [split; [intros E; try discriminate; auto|intros [[E1 E2]|[E1 E2]]; try discriminate; auto]
            |intros w' E; try discriminate; injection E as <-; reflexivity]).
Qed.

(** * Proofs about concat --unique, hash, print, sample and slice *)

From Coq Require Import String Sorted.
From Verif Require Import Bytes Winnow RecordModel RecordSpec BaseProofs RecordProofs TagOccModel Utf8Model
  Utf8Spec Utf8Proofs
  ByteRecordModel ByteRecordSpec ByteRecordProofs ReaderModel ReaderProofs MatcherModel MatcherSpec
  MatcherProofs PathModel QuerySpec QueryProofs QueryExtraProofs CliModel CliSpec CliProofs CliCommandProofs.

(** ** Reading an output again *)

Lemma record_text_lf : forall r l, record_text r l -> exists p, l = p ++ [10].
Proof. intros r l (body & _ & ->). eauto. Qed.

Lemma is_lines_shape : forall b ls, is_lines b ls -> Forall (fun l => forall p, l = p ++ [10] -> ~ In 10 p) ls.
Proof.
  induction 1 as [|b Hb Hn|a b ls Ha _ IH]; constructor; auto.
  - intros p ->. intros H. apply Hn. apply in_app_iff. auto.
  - intros p E. apply app_inj_tail in E as [<- _]. exact Ha.
Qed.

Lemma input_lines_shape : forall files ls, input_lines files ls ->
  Forall (fun l => forall p, l = p ++ [10] -> ~ In 10 p) (map snd ls).
Proof.
  induction 1 as [|name content rest s ls nls more Hs Hl Hn _ IH]; [constructor|].
  rewrite map_app, (numbered_lines _ _ _ _ Hn). apply Forall_app. split; [|exact IH].
  eapply is_lines_shape. exact Hl.
Qed.

Lemma seen_one_line : forall skip ls recs e, seen skip ls recs e ->
  Forall (fun l => forall p, l = p ++ [10] -> ~ In 10 p) (map snd ls) -> Forall one_line recs.
Proof.
  induction 1 as [|s n l r ls rs e Hr _ IH|s n l ls rs e Hk Hr _ IH|s n l ls Hk Hr]; cbn [map snd]; intros F;
    [constructor| | |constructor]; inversion F as [|? ? Fl Fls]; subst; auto.
  constructor; auto. destruct (record_text_lf _ _ Hr) as [p ->]. exists p. cbn. auto.
Qed.

Lemma reads_one_line : forall skip files recs e, reads skip files recs e -> Forall one_line recs.
Proof.
  intros skip files recs e (ls & Hl & Hs). eapply seen_one_line; [exact Hs|].
  eapply input_lines_shape. exact Hl.
Qed.

Lemma one_line_from : forall r, one_line r -> from_line r.
Proof. intros r (p & H1 & _ & H2). exists (p ++ [10]). auto. Qed.

Lemma written_lines : forall recs, Forall one_line recs ->
  is_lines (flat_map br_write recs) (map br_write recs).
Proof.
  induction 1 as [|r recs (p & Hp & Hn & _) _ IH]; cbn [flat_map map]; [constructor|].
  rewrite (from_line_write _ _ Hp), <- app_assoc. cbn [app]. constructor; assumption.
Qed.

Lemma numbered_exists : forall s ls n, exists nls, numbered s n ls nls.
Proof.
  intros s. induction ls as [|l ls IH]; intros n; [exists []; constructor|].
  destruct (IH (n + 1)) as [nls H]. eexists. constructor. exact H.
Qed.

Lemma seen_written : forall skip s recs n nls, Forall one_line recs ->
  numbered s n (map br_write recs) nls -> seen skip nls recs None.
Proof.
  intros skip s. induction recs as [|r recs IH]; intros n nls F H; inversion H; subst; [constructor|].
  inversion F as [|? ? (p & Hp & _ & Ht) Fs]; subst.
  destruct r as [raw rec]. cbn in Hp, Ht. subst raw. cbn [br_write br_raw].
  constructor; [exact Ht|]. eapply IH; eassumption.
Qed.

(** a file holding the lines of records is read as these records *)
Lemma reads_back : forall skip name recs out, Forall one_line recs -> lines_of recs out ->
  reads skip [(name, out)] recs None.
Proof.
  intros skip name recs out F H.
  assert (E : out = flat_map br_write recs).
  { eapply lines_of_fun; [exact H|]. apply lines_of_flat. rewrite Forall_forall in *.
    intros r Hr. apply one_line_from. auto. }
  subst out.
  assert (exists s, shown_name name s) as [s Hs].
  { destruct (bytes_eqb name (lit "-")) eqn:E.
    - apply bytes_eqb_eq in E. exists (lit "<stdin>"). left. auto.
    - exists name. right. split; [|reflexivity]. intros ->. rewrite bytes_eqb_refl in E. discriminate. }
  destruct (numbered_exists s (map br_write recs) 1) as [nls Hn].
  exists (nls ++ []). split.
  - econstructor; [exact Hs|apply written_lines; exact F|exact Hn|constructor].
  - rewrite app_nil_r. eapply seen_written; eassumption.
Qed.

(** ** What is read is determined by the input *)

Lemma numbered_fun : forall s n ls out, numbered s n ls out -> forall out', numbered s n ls out' -> out = out'.
Proof. induction 1; intros out' H'; inversion H'; subst; [reflexivity|]. f_equal. auto. Qed.

Lemma shown_name_fun : forall n a b, shown_name n a -> shown_name n b -> a = b.
Proof. unfold shown_name. intros n a b [[-> ->]|[H ->]] [[K ->]|[K ->]]; congruence. Qed.

Lemma input_lines_fun : forall files ls, input_lines files ls -> forall ls', input_lines files ls' -> ls = ls'.
Proof.
  induction 1 as [|name content rest s ls nls more Hs Hl Hn _ IH]; intros ls' H'; inversion H'; subst; [reflexivity|].
  assert (s0 = s) by (eapply shown_name_fun; eassumption). subst s0.
  assert (ls0 = ls) by (eapply is_lines_unique; eassumption). subst ls0.
  f_equal; [eapply numbered_fun; eassumption|auto].
Qed.

Lemma record_text_fun : forall r r' l, record_text r l -> record_text r' l -> r = r'.
Proof. intros r r' l H H'. apply record_text_from in H, H'. congruence. Qed.

Lemma seen_fun : forall skip ls recs e, seen skip ls recs e -> forall recs' e', seen skip ls recs' e' ->
  recs = recs' /\ e = e'.
Proof.
  induction 1 as [|s n l r ls rs e Hr _ IH|s n l ls rs e Hk Hr _ IH|s n l ls Hk Hr]; intros recs' e' H';
    inversion H'; subst; auto; try congruence;
    repeat match goal with H : forall r, ~ record_text r ?l, K : record_text _ ?l |- _ => destruct (H _ K) end.
  edestruct IH as [-> ->]; [eassumption|]. split; [|reflexivity]. f_equal. f_equal. eapply record_text_fun; eassumption.
Qed.

Lemma reads_fun : forall skip files recs e, reads skip files recs e ->
  forall recs' e', reads skip files recs' e' -> recs = recs' /\ e = e'.
Proof.
  intros skip files recs e (ls & H1 & H2) recs' e' (ls' & H1' & H2').
  assert (ls' = ls) by (eapply input_lines_fun; eassumption). subst ls'. eapply seen_fun; eassumption.
Qed.

Lemma limited_fun : forall A limit (l : list A) e l1 e1 l2 e2,
  limited limit l e l1 e1 -> limited limit l e l2 e2 -> l1 = l2 /\ e1 = e2.
Proof.
  intros A limit l e l1 e1 l2 e2 [(H1 & -> & ->)|(H1 & H2 & (r1 & E1) & ->)]
    [(K1 & -> & ->)|(K1 & K2 & (r2 & E2) & ->)]; auto; try lia.
  split; [|reflexivity]. subst l.
  assert (L : length l1 = length l2) by lia.
  revert L E2. clear. revert l2. induction l1 as [|x l1 IH]; destruct l2 as [|y l2]; cbn; intros L E; try discriminate; auto.
  injection E as -> E. f_equal. apply IH; [lia|exact E].
Qed.

Lemma selects_fun : forall O Od skip o files recs e, selects O Od skip o files recs e ->
  forall recs' e', selects O Od skip o files recs' e' -> recs = recs' /\ e = e'.
Proof.
  intros O Od skip o files recs e (all & sel & e0 & H1 & H2 & H3) recs' e' (all' & sel' & e0' & K1 & K2 & K3).
  destruct (reads_fun _ _ _ _ H1 _ _ K1) as [<- <-].
  assert (sel' = sel) by (eapply picks_fun; eassumption). subst sel'.
  eapply limited_fun; eassumption.
Qed.

(** ** concat --unique *)

Lemma hex_char_ok : forall v, hex_char v (hex_digit v).
Proof. intros v. unfold hex_char, hex_digit. destruct (N.ltb_spec v 10); [left|right]; lia. Qed.

Lemma hex_string_ok : forall b, hex_text b (hex_string b).
Proof. induction b as [|c b IH]; cbn [hex_string flat_map app]; constructor; auto using hex_char_ok. Qed.

Lemma hex_text_fun : forall b t, hex_text b t -> t = hex_string b.
Proof.
  assert (E : forall v c, hex_char v c -> c = hex_digit v).
  { intros v c [[H ->]|[H ->]]; unfold hex_digit; destruct (N.ltb_spec v 10); lia. }
  induction 1 as [|c b h l t Hh Hl _ IH]; [reflexivity|].
  cbn [hex_string flat_map app]. rewrite (E _ _ Hh), (E _ _ Hl). f_equal. f_equal. exact IH.
Qed.

Lemma record_key_of : forall O sha lossy st r k, from_line r ->
  (record_key O sha lossy st r = Some k <-> key_of sha lossy st r k).
Proof.
  intros O sha lossy st r k (l & E & _). destruct st; cbn [record_key key_of].
  - destruct (ppn_identifiers O (br_record r)) as (ids & Hi & ->). cbn. split.
    + destruct ids as [|v ids]; cbn; [discriminate|]. intros K. injection K as <-. eauto.
    + intros (v & ids' & Hi' & ->). rewrite (identifiers_fun _ _ Hi _ Hi'). reflexivity.
  - unfold br_sha256. rewrite (from_line_write _ _ E). split.
    + intros K. injection K as <-. exists l. auto using hex_string_ok.
    + intros (l' & E' & K). apply hex_text_fun in K. congruence.
Qed.

Lemma key_fun : forall sha lossy st r k k', key_of sha lossy st r k -> key_of sha lossy st r k' -> k = k'.
Proof.
  intros sha lossy [|] r k k'; cbn.
  - intros (v & ids & H & ->) (v' & ids' & H' & ->). pose proof (identifiers_fun _ _ H _ H') as E. congruence.
  - intros (l & H & K) (l' & H' & K'). apply hex_text_fun in K, K'. congruence.
Qed.

Lemma unique_fold : forall O sha lossy st recs before seen out tee,
  Forall from_line recs -> Forall (has_key sha lossy st) recs ->
  (forall k, In k seen <-> k <> [] /\ exists r, In r before /\ key_of sha lossy st r k) ->
  exists kept seen', firsts (key_of sha lossy st) before recs kept
    /\ fold_steps (concat_body O sha lossy (Some st)) (seen, out, tee) recs
       = Next (seen', out ++ flat_map br_write kept, tee ++ flat_map br_write kept).
Proof.
  intros O sha lossy st. induction recs as [|r recs IH]; intros before seen out tee F K Hs.
  - exists [], seen. cbn. rewrite !app_nil_r. split; [constructor|reflexivity].
  - inversion F as [|? ? Fr Frs]; inversion K as [|? ? [k Hk] Krs]; subst.
    cbn [fold_steps concat_body]. rewrite (proj2 (record_key_of O sha lossy st r k Fr) Hk).
    assert (Snoc : forall k', (exists r', In r' (before ++ [r]) /\ key_of sha lossy st r' k')
                     <-> (exists r', In r' before /\ key_of sha lossy st r' k') \/ k' = k).
    { intros k'. split.
      - intros (r' & Hi & Hk'). apply in_app_iff in Hi as [Hi|[<-|[]]]; [left; eauto|right].
        eapply key_fun; eassumption.
      - intros [(r' & Hi & Hk')| ->]; [|exists r; rewrite in_app_iff; cbn; auto].
        exists r'. rewrite in_app_iff. auto. }
    destruct (mem_bytes k seen || bytes_eqb k []) eqn:E.
    + assert (D : k = [] \/ exists r', In r' before /\ key_of sha lossy st r' k).
      { apply orb_true_iff in E as [E|E].
        - apply mem_bytes_In, Hs in E. tauto.
        - left. apply bytes_eqb_eq. exact E. }
      destruct (IH (before ++ [r]) seen out tee Frs Krs) as (kept & seen' & H1 & H2).
      { intros k'. rewrite Hs, Snoc. split; [tauto|].
        intros [Hne [H| ->]]; [tauto|]. split; [exact Hne|]. destruct D as [D|D]; [congruence|exact D]. }
      exists kept, seen'. split; [eapply firsts_no; eassumption|exact H2].
    + apply orb_false_iff in E as [E1 E2].
      assert (Hne : k <> []). { intros ->. discriminate. }
      assert (Hnew : forall r', In r' before -> ~ key_of sha lossy st r' k).
      { intros r' Hi Hk'. assert (In k seen) by (apply Hs; eauto).
        apply mem_bytes_In in H. congruence. }
      destruct (IH (before ++ [r]) (k :: seen) (out ++ br_write r) (tee ++ br_write r) Frs Krs)
        as (kept & seen' & H1 & H2).
      { intros k'. rewrite Snoc. cbn [In]. rewrite Hs. intuition (subst; auto). }
      exists (r :: kept), seen'. split; [eapply firsts_yes; eassumption|].
      rewrite H2. cbn [flat_map]. rewrite !app_assoc. reflexivity.
Qed.

Lemma firsts_incl : forall key before recs kept, firsts key before recs kept ->
  forall r, In r kept -> In r recs.
Proof. induction 1; cbn; intros r' Hr; auto. destruct Hr; auto. Qed.

Lemma firsts_again : forall key before recs kept, firsts key before recs kept ->
  forall before', (forall r, In r before' -> In r before) -> firsts key before' kept kept.
Proof.
  induction 1 as [before|before r k l out Hk Hne Hnew _ IH|before r k l out Hk Hd _ IH]; intros before' Hi.
  - constructor.
  - eapply firsts_yes; [exact Hk|exact Hne| |].
    + intros r' Hr'. apply Hnew. auto.
    + apply IH. intros r' Hr'. apply in_app_iff in Hr' as [Hr'|Hr']; apply in_app_iff; auto.
  - apply IH. intros r' Hr'. apply in_app_iff. auto.
Qed.

Lemma firsts_fun : forall sha lossy st before recs kept,
  firsts (key_of sha lossy st) before recs kept ->
  forall kept', firsts (key_of sha lossy st) before recs kept' -> kept = kept'.
Proof.
  induction 1 as [before|before r k l out Hk Hne Hnew _ IH|before r k l out Hk Hd _ IH]; intros kept' H'.
  - inversion H'. reflexivity.
  - inversion H' as [|? k' ? out' Hk' _ _ H1|? k' ? out' Hk' Hd' H1]; subst.
    + f_equal. auto.
    + exfalso. rewrite <- (key_fun _ _ _ _ _ _ Hk Hk') in Hd'. destruct Hd' as [E|(r' & Hi & Hr')]; [auto|].
      exact (Hnew r' Hi Hr').
  - inversion H' as [|? k' ? out' Hk' Hne' Hnew' H1|? k' ? out' Hk' Hd' H1]; subst.
    + exfalso. rewrite <- (key_fun _ _ _ _ _ _ Hk Hk') in *. destruct Hd as [E|(r' & Hi & Hr')]; [auto|].
      exact (Hnew' r' Hi Hr').
    + auto.
Qed.

Lemma ended_map : forall A B (f : A -> B) (s : A) e,
  (match ended s e with Done s => Done (f s) | Failed s e => Failed (f s) e | Panicked => Panicked end)
  = ended (f s) e.
Proof. intros A B f s [e|]; reflexivity. Qed.

Lemma unique_run : forall O sha lossy st skip files recs e,
  reads skip files recs e -> Forall (has_key sha lossy st) recs ->
  exists kept seen out, firsts (key_of sha lossy st) [] recs kept /\ lines_of kept out
    /\ concat_run O sha lossy skip (Some st) files = Some (ended (seen, out, out) e).
Proof.
  intros O sha lossy st skip files recs e Hr HK.
  assert (F := reads_from_line _ _ _ _ Hr).
  destruct (unique_fold O sha lossy st recs [] [] [] [] F HK) as (kept & seen & H1 & H2).
  { intros k. cbn. split; [tauto|]. intros (_ & r & [] & _). }
  exists kept, seen, (flat_map br_write kept). split; [exact H1|]. split.
  - apply lines_of_flat. rewrite Forall_forall in *. intros r Hin. apply F. eapply firsts_incl; eassumption.
  - unfold concat_run. rewrite (run_loop_reads _ _ _ _ _ _ _ Hr), H2. destruct e; reflexivity.
Qed.

Lemma unique_exact : forall O sha lossy st skip files recs e,
  reads skip files recs e -> Forall (has_key sha lossy st) recs ->
  exists kept seen out, firsts (key_of sha lossy st) [] recs kept /\ lines_of kept out
    /\ concat_run O sha lossy skip (Some st) files = Some (ended (seen, out, out) e)
    /\ forall skip' name, exists seen',
         concat_run O sha lossy skip' (Some st) [(name, out)] = Some (Done (seen', out, out)).
Proof.
  intros O sha lossy st skip files recs e Hr HK.
  destruct (unique_run O sha lossy st skip files recs e Hr HK) as (kept & seen & out & H1 & H2 & H3).
  exists kept, seen, out. split; [exact H1|]. split; [exact H2|]. split; [exact H3|].
  intros skip' name.
  assert (F1 : Forall one_line kept).
  { assert (F := reads_one_line _ _ _ _ Hr). rewrite Forall_forall in *. intros r Hin. apply F.
    eapply firsts_incl; eassumption. }
  assert (HK' : Forall (has_key sha lossy st) kept).
  { rewrite Forall_forall in *. intros r Hin. apply HK. eapply firsts_incl; eassumption. }
  assert (Hb := reads_back skip' name kept out F1 H2).
  destruct (unique_run O sha lossy st skip' _ kept None Hb HK') as (kept' & seen' & out' & G1 & G2 & G3).
  assert (kept' = kept).
  { symmetry. eapply firsts_fun; [|exact G1]. eapply firsts_again; [exact H1|tauto]. }
  subst kept'. assert (out' = out) by (eapply lines_of_fun; eassumption). subst out'.
  exists seen'. exact G3.
Qed.

(** a record without identifier makes the idn strategy panic *)
Lemma unique_panic : forall O sha lossy st skip files recs e,
  reads skip files recs e -> ~ Forall (has_key sha lossy st) recs ->
  concat_run O sha lossy skip (Some st) files = Some Panicked.
Proof.
  intros O sha lossy st skip files recs e Hr HK.
  assert (F := reads_from_line _ _ _ _ Hr).
  unfold concat_run. rewrite (run_loop_reads _ _ _ _ _ _ _ Hr).
  assert (E : forall s, fold_steps (concat_body O sha lossy (Some st)) s recs = Panic).
  { clear Hr. induction F as [|r recs Fr _ IH]; intros [[seen out] tee].
    - exfalso. apply HK. constructor.
    - cbn [fold_steps concat_body].
      destruct (record_key O sha lossy st r) as [k|] eqn:Ek; [|reflexivity].
      assert (HK' : ~ Forall (has_key sha lossy st) recs).
      { intros H. apply HK. constructor; [|exact H]. exists k. apply (record_key_of O); assumption. }
      destruct (mem_bytes k seen || bytes_eqb k []); apply IH; exact HK'. }
  rewrite E. destruct e; reflexivity.
Qed.

(** ** hash *)

Definition hash_act (O : oracles) (sha lossy : bytes -> bytes) (s : N * list (list bytes)) (r : byte_record) :=
  (fst s + 1, snd s ++ [[lossy (match record_ppn O (br_record r) with Some (Some p) => p | _ => [] end);
                         hex_string (br_sha256 sha r)]]).

Lemma hash_exact : forall O Od sha lossy skip o files, opts_wf O Od o ->
  exists recs e rows, selects O Od skip o files recs e
    /\ Forall2 (hash_row sha lossy) recs rows
    /\ hash_run O Od sha lossy skip o files = Some (ended (N.of_nat (length recs), rows) e).
Proof.
  intros O Od sha lossy skip o files W.
  destruct (run_selects _ O Od skip o
              (fun s r => let '(count, rows) := s in
                match record_ppn O (br_record r) with
                | None => Panic
                | Some ppn =>
                    let row := [lossy (match ppn with Some p => p | None => [] end); hex_string (br_sha256 sha r)] in
                    let s' := (count + 1, rows ++ [row]) in
                    if limit_reached (fo_limit o) (count + 1) then Halt s' else Next s'
                end) (hash_act O sha lossy) fst files (0, []) W) as (recs & e & Hs & He).
  - intros [n rows] r. unfold hash_act. destruct (ppn_identifiers O (br_record r)) as (ids & _ & ->).
    destruct ids; reflexivity.
  - intros [n rows] r. reflexivity.
  - reflexivity.
  - assert (F := selects_from_line _ _ _ _ _ _ _ Hs).
    assert (G : forall n rows, exists rows', Forall2 (hash_row sha lossy) recs rows'
              /\ fold_left (hash_act O sha lossy) recs (n, rows) = (n + N.of_nat (length recs), rows ++ rows')).
    { clear He Hs. induction F as [|r recs (l & El & _) _ IH]; intros n rows.
      - exists []. split; [constructor|]. cbn. rewrite N.add_0_r, app_nil_r. reflexivity.
      - cbn [fold_left]. unfold hash_act at 2. cbn [fst snd].
        destruct (ppn_identifiers O (br_record r)) as (ids & Hi & ->).
        edestruct IH as (rows' & H1 & H2). eexists. split; [constructor; [|exact H1]|].
        + exists ids, l, (hex_string (sha l)). split; [exact Hi|]. split; [exact El|].
          split; [apply hex_string_ok|]. reflexivity.
        + rewrite H2, <- app_assoc. unfold br_sha256. rewrite (from_line_write _ _ El).
          destruct ids; (apply f_equal2; [cbn [length]; lia|reflexivity]). }
    destruct (G 0 []) as (rows & H1 & H2). exists recs, e, rows.
    split; [exact Hs|]. split; [exact H1|]. etransitivity; [exact He|]. rewrite H2. reflexivity.
Qed.

(** ** print *)

Lemma print_subfields_some : forall tr l, (forall s, In s l -> is_utf8 (sf_value s)) ->
  exists ts, Forall2 (printed_subfield tr) l ts /\ print_subfields tr l = Some (concat ts).
Proof.
  intros tr. induction l as [|s l IH]; intros H; [exists []; split; [constructor|reflexivity]|].
  destruct IH as (ts & H1 & H2); [intros s' Hs'; apply H; right; exact Hs'|].
  eexists. split; [constructor; [reflexivity|exact H1]|].
  cbn [print_subfields]. rewrite (proj2 (utf8_valid_iff _) (H s (or_introl eq_refl))), H2.
  reflexivity.
Qed.

Lemma print_fields_some : forall tr l, utf8_record l ->
  exists ts, Forall2 (printed_field tr) l ts /\ print_fields tr l = Some (concat ts).
Proof.
  intros tr. induction l as [|f l IH]; intros H; [exists []; split; [constructor|reflexivity]|].
  destruct IH as (ts & H1 & H2); [intros f' s' Hf'; apply H; right; exact Hf'|].
  destruct (print_subfields_some tr (f_subfields f)) as (us & K1 & K2).
  { intros s Hs. apply (H f s); [left; reflexivity|exact Hs]. }
  eexists. split; [constructor; [exists us; split; [exact K1|reflexivity]|exact H1]|].
  cbn [print_fields]. rewrite K2, H2. cbn [concat]. rewrite <- !app_assoc. reflexivity.
Qed.

Definition print_act (tr : bytes -> bytes) (s : N * bytes) (r : byte_record) : N * bytes :=
  (fst s + 1, snd s ++ (match print_fields tr (br_record r) with Some t => t | None => [] end) ++ [LF]).

Lemma print_exact : forall O Od tr skip o files all e0, opts_wf O Od o ->
  reads skip files all e0 ->
  Forall (fun r => opts_hold O Od o (br_record r) -> utf8_record (br_record r)) all ->
  exists recs e texts, selects O Od skip o files recs e
    /\ Forall2 (printed_record tr) recs texts
    /\ print_run O Od tr skip o files = Some (ended (N.of_nat (length recs), concat texts) e).
Proof.
  intros O Od tr skip o files all e0 W Hr HU.
  destruct (run_selects_gen _ O Od skip o (opts_select_print O Od o)
              (fun s r => let '(count, out) := s in
                match print_fields tr (br_record r) with
                | None => Panic
                | Some text =>
                    let s' := (count + 1, out ++ text ++ [LF]) in
                    if limit_reached (fo_limit o) (count + 1) then Halt s' else Next s'
                end) (print_act tr) fst
              (fun r => opts_hold O Od o (br_record r) -> utf8_record (br_record r)) files (0, []) all e0
              (opts_print_decided O Od o W)) as (recs & e & Hs & He); auto.
  - intros [n out] r Hy Hu. unfold print_act. destruct (print_fields_some tr _ (Hu Hy)) as (ts & _ & ->). reflexivity.
  - assert (F : Forall (fun r => utf8_record (br_record r)) recs).
    { destruct Hs as (all' & sel & e1 & Hr' & Hc & Hl).
      assert (all' = all) as ->.
      { symmetry. exact (proj1 (reads_fun _ _ _ _ Hr _ _ Hr')). }
      rewrite Forall_forall in *. intros r Hin. assert (Hin' := limited_incl _ _ _ _ _ _ Hl _ Hin).
      apply (picks_id_In _ _ _ _ Hc r) in Hin' as [Hin' Hy]. apply HU; assumption. }
    assert (G : forall n out, exists texts, Forall2 (printed_record tr) recs texts
              /\ fold_left (print_act tr) recs (n, out) = (n + N.of_nat (length recs), out ++ concat texts)).
    { clear He Hs. induction F as [|r recs Hu _ IH]; intros n out.
      - exists []. split; [constructor|]. cbn. rewrite N.add_0_r, app_nil_r. reflexivity.
      - cbn [fold_left]. unfold print_act at 2. cbn [fst snd].
        destruct (print_fields_some tr _ Hu) as (ts & H1 & ->).
        edestruct IH as (texts & H2 & H3). eexists. split; [constructor; [|exact H2]|].
        + exists ts. split; [exact H1|reflexivity].
        + rewrite H3. cbn [concat length]. rewrite <- !app_assoc. apply f_equal2; [lia|reflexivity]. }
    destruct (G 0 []) as (texts & H1 & H2). exists recs, e, texts.
    split; [exact Hs|]. split; [exact H1|]. etransitivity; [exact He|]. rewrite H2. reflexivity.
Qed.

(** * Proofs about split and partition *)

From Coq Require Import String Sorted Decimal DecimalFacts DecimalPos DecimalN.
From Verif Require Import Bytes Winnow RecordModel RecordSpec BaseProofs RecordProofs TagOccModel TagOccProofs
  Utf8Model ByteRecordModel ByteRecordSpec ByteRecordProofs ReaderModel ReaderProofs MatcherModel MatcherSpec
  MatcherProofs PathModel QuerySpec QueryProofs QueryExtraProofs CliModel CliSpec CliProofs
  CliCommandProofs CliOutputProofs CliRangeProofs.

(** ** Decimal numbers *)

Lemma uint_bytes_acc : forall u acc,
  fold_left (fun a d => 10 * a + (d - 48)) (uint_bytes u) (N.pos acc) = N.pos (Pos.of_uint_acc u acc).
Proof.
  induction u as [|u IH|u IH|u IH|u IH|u IH|u IH|u IH|u IH|u IH|u IH]; intros acc;
    cbn [uint_bytes fold_left Pos.of_uint_acc]; [reflexivity|..]; rewrite <- IH; f_equal; lia.
Qed.

Lemma uint_bytes_value : forall u,
  fold_left (fun a d => 10 * a + (d - 48)) (uint_bytes u) 0 = N.of_uint u.
Proof.
  intros u. unfold N.of_uint.
  induction u as [|u IH|u IH|u IH|u IH|u IH|u IH|u IH|u IH|u IH|u IH];
    cbn [uint_bytes fold_left Pos.of_uint]; [reflexivity|exact IH|..]; apply uint_bytes_acc.
Qed.

Lemma uint_bytes_digits : forall u, Forall (fun c => In c digits) (uint_bytes u).
Proof. induction u; cbn [uint_bytes]; constructor; auto; cbn; auto 12. Qed.

Lemma dec_spec : forall n, decimal n (dec n).
Proof.
  intros n. unfold dec.
  assert (E : N.to_uint n = unorm (N.to_uint n)) by (rewrite <- Unsigned.to_of, Unsigned.of_to; reflexivity).
  split; [apply uint_bytes_digits|]. split; [|split].
  - rewrite E. unfold unorm. destruct (nzhead (N.to_uint n)); discriminate.
  - rewrite E. unfold unorm. destruct (nzhead (N.to_uint n)) as [|u|u|u|u|u|u|u|u|u|u] eqn:Ez;
      [left; reflexivity|destruct (nzhead_nonzero _ _ Ez)|..]; right; cbn; discriminate.
  - rewrite uint_bytes_value. apply Unsigned.of_to.
Qed.

Lemma count_output_ok : forall m r f s, count_text m r f s (count_output m (r, f, s)).
Proof.
  intros m r f s. exists (dec r), (dec f), (dec s). repeat (split; [apply dec_spec|]).
  destruct m as [| | |[]|[]|]; reflexivity.
Qed.

Lemma filter_names_ok : forall arg names,
  filter_names false arg names = names
  /\ filter_names true [] names = names
  /\ (arg <> [] -> filter_names true arg [lit "-"] = [arg])
  /\ (arg <> [] -> names <> [lit "-"] -> filter_names true arg names = arg :: names).
Proof.
  intros arg names. split; [reflexivity|]. split; [reflexivity|].
  assert (E : arg <> [] -> bytes_eqb arg [] = false) by (destruct arg; [contradiction|reflexivity]).
  split; intros Ha; unfold filter_names; rewrite E by exact Ha; [reflexivity|].
  intros Hn. cbn [negb andb]. destruct (list_eqb bytes_eqb names [lit "-"]) eqn:El; [|reflexivity].
  destruct Hn. destruct names as [|x [|y l]]; cbn [list_eqb] in El; try discriminate.
  - rewrite andb_true_r in El. apply bytes_eqb_eq in El as ->. reflexivity.
  - rewrite andb_false_r in El. discriminate.
Qed.

Lemma decimal_value : forall n m t, decimal n t -> decimal m t -> n = m.
Proof. intros n m t (_ & _ & _ & <-) (_ & _ & _ & <-). reflexivity. Qed.

Lemma digits_uint : forall t, Forall (fun c => In c digits) t -> exists u, t = uint_bytes u.
Proof.
  induction 1 as [|c t Hc _ [u ->]]; [exists Decimal.Nil; reflexivity|].
  cbn in Hc. repeat destruct Hc as [<-|Hc]; [..|destruct Hc];
    [exists (D0 u)|exists (D1 u)|exists (D2 u)|exists (D3 u)|exists (D4 u)|exists (D5 u)|exists (D6 u)
    |exists (D7 u)|exists (D8 u)|exists (D9 u)]; reflexivity.
Qed.

Lemma decimal_dec : forall n t, decimal n t -> t = dec n.
Proof.
  intros n t (HD & Hne & Hz & HV). destruct (digits_uint t HD) as [u ->].
  rewrite uint_bytes_value in HV. unfold dec. rewrite <- HV, Unsigned.to_of. f_equal.
  destruct Hz as [Hz|Hz].
  - destruct u as [|u|u|u|u|u|u|u|u|u|u]; try discriminate. cbn in Hz. destruct u; try discriminate. reflexivity.
  - destruct u as [|u|u|u|u|u|u|u|u|u|u]; try reflexivity; exfalso; [apply Hne; reflexivity|apply Hz; reflexivity].
Qed.

Lemma decimal_unique : forall n t u, decimal n t -> decimal n u -> t = u.
Proof. intros n t u Ht Hu. apply decimal_dec in Ht, Hu. congruence. Qed.

Lemma dec_inj : forall n m, dec n = dec m -> n = m.
Proof. intros n m E. eapply decimal_value; [apply dec_spec|]. rewrite E. apply dec_spec. Qed.

(** ** Templates *)

Lemma replace_braces_cons : forall x c t,
  replace_braces x (c :: t)
  = match t with
    | d :: t' => if (c =? 123) && (d =? 125) then x ++ replace_braces x t' else c :: replace_braces x t
    | [] => [c]
    end.
Proof.
  intros x c t. destruct t as [|d t].
  - destruct c as [|p]; [reflexivity|]. do 7 (destruct p as [p|p|]; try reflexivity).
  - destruct (N.eqb_spec c 123) as [->|H]; cbn [andb].
    + destruct (N.eqb_spec d 125) as [->|K]; [reflexivity|].
      destruct d as [|p]; [reflexivity|]. do 7 (destruct p as [p|p|]; try reflexivity). congruence.
    + destruct c as [|p]; [reflexivity|]. do 7 (destruct p as [p|p|]; try reflexivity). congruence.
Qed.

Lemma replace_filled : forall x t, filled x t (replace_braces x t).
Proof.
  intros x t. remember (length t) as n eqn:Hn. assert (Hle : (length t <= n)%nat) by lia. clear Hn.
  revert t Hle. induction n as [|n IH]; intros t Hn.
  - destruct t; [|cbn in Hn; lia]. constructor.
  - destruct t as [|c t]; [constructor|]. rewrite replace_braces_cons. cbn [length] in Hn.
    destruct t as [|d t].
    + apply (fill_skip x c [] []); [|constructor]. intros t'. discriminate.
    + destruct ((c =? 123) && (d =? 125)) eqn:E.
      * apply andb_true_iff in E as [E1 E2]. apply N.eqb_eq in E1, E2. subst c d.
        apply (fill_here x t). apply IH. cbn [length] in Hn. lia.
      * apply fill_skip; [|apply IH; lia].
        intros t' K. injection K as -> -> _. cbn in E. discriminate.
Qed.

Lemma filled_fun : forall x t a, filled x t a -> forall b, filled x t b -> a = b.
Proof.
  induction 1 as [|t out _ IH|c t out Hc _ IH]; intros b Hb.
  - inversion Hb. reflexivity.
  - inversion Hb as [|t' out' H' E1 E2|c' t' out' Hc' H' E1 E2].
    + f_equal. apply IH. assert (t' = t) by congruence. subst t'. exact H'.
    + exfalso. subst. apply (Hc' t). reflexivity.
  - inversion Hb as [|t' out' H' E1 E2|c' t' out' Hc' H' E1 E2].
    + exfalso. subst. apply (Hc t'). reflexivity.
    + subst. f_equal. auto.
Qed.

Lemma filled_length : forall x y t a b, filled x t a -> filled y t b ->
  has_braces t -> length a = length b -> length x = length y.
Proof.
  intros x y t a b Ha Hb Ht HL.
  assert (G : (length x < length y -> length a < length b /\ True)%nat
              /\ (length y < length x -> length b < length a /\ True)%nat).
  { clear HL.
    assert (M : forall x y t a b, filled x t a -> filled y t b -> (length x <= length y)%nat ->
                 (length a <= length b)%nat).
    { clear. intros x y t a b Ha. revert b. induction Ha as [|t out _ IH|c t out Hc _ IH]; intros b Hb HL.
      - cbn. lia.
      - inversion Hb as [|t' out' H' E1 E2|c' t' out' Hc' H' E1 E2].
        + assert (t' = t) by congruence. subst t'. rewrite !app_length. specialize (IH _ H' HL). lia.
        + exfalso. subst. apply (Hc' t). reflexivity.
      - inversion Hb as [|t' out' H' E1 E2|c' t' out' Hc' H' E1 E2].
        + exfalso. subst. apply (Hc t'). reflexivity.
        + subst. cbn [length]. specialize (IH _ H' HL). lia. }
    assert (St : forall x y t a b, filled x t a -> filled y t b -> has_braces t ->
                 (length x < length y)%nat -> (length a < length b)%nat).
    { clear -M. intros x y t a b Ha. revert b. induction Ha as [|t out Ht' IH|c t out Hc _ IH]; intros b Hb HB HL.
      - destruct HB as (p & q & E). destruct p; discriminate.
      - inversion Hb as [|t' out' H' E1 E2|c' t' out' Hc' H' E1 E2].
        + assert (t' = t) by congruence. subst t'. rewrite !app_length.
          assert (K := M _ _ _ _ _ Ht' H' ltac:(lia)). lia.
        + exfalso. subst. apply (Hc' t). reflexivity.
      - inversion Hb as [|t' out' H' E1 E2|c' t' out' Hc' H' E1 E2].
        + exfalso. subst. apply (Hc t'). reflexivity.
        + subst. cbn [length]. assert (HB' : has_braces t).
          { destruct HB as (p & q & E). destruct p as [|c0 p]; [exfalso; exact (Hc q E)|].
            injection E as -> E. exists p, q. exact E. }
          specialize (IH _ H' HB' HL). lia. }
    split; intros H; (split; [|exact I]); eapply St; eassumption. }
  destruct (Nat.lt_trichotomy (length x) (length y)) as [H|[H|H]]; [|exact H|].
  - apply G in H. lia.
  - apply G in H. lia.
Qed.

Lemma app_inj_length : forall A (a b c d : list A), a ++ b = c ++ d -> length a = length c -> a = c /\ b = d.
Proof.
  induction a as [|x a IH]; destruct c as [|y c]; cbn; intros d E L; try discriminate; [auto|].
  injection E as -> E. destruct (IH b c d E ltac:(lia)) as [-> ->]. auto.
Qed.

Lemma filled_inj : forall x y t a, filled x t a -> filled y t a -> has_braces t -> x = y.
Proof.
  intros x y t a Ha Hb HB. assert (HL := filled_length x y t a a Ha Hb HB eq_refl).
  revert Hb HB. induction Ha as [|t out Ht' IH|c t out Hc _ IH]; intros Hb HB.
  - destruct HB as (p & q & E). destruct p; discriminate.
  - inversion Hb as [|t' out' H' E1 E2|c' t' out' Hc' H' E1 E2].
    + destruct (app_inj_length _ _ _ _ _ E2 (eq_sym HL)) as [E _]. auto.
    + exfalso. subst. apply (Hc' t). reflexivity.
  - inversion Hb as [|t' out' H' E1 E2|c' t' out' Hc' H' E1 E2].
    + exfalso. subst. apply (Hc t'). reflexivity.
    + subst. apply IH; [exact H'|]. destruct HB as (p & q & E). destruct p as [|c0 p]; [exfalso; exact (Hc q E)|].
      injection E as -> E. exists p, q. exact E.
Qed.

Lemma replace_inj : forall t x y, has_braces t -> replace_braces x t = replace_braces y t -> x = y.
Proof.
  intros t x y HB E. eapply filled_inj; [apply replace_filled| |exact HB]. rewrite E. apply replace_filled.
Qed.

(** ** split *)

Definition split_core (template : bytes) (size : N) (s : split_state) (r : byte_record) : split_state :=
  let s1 :=
    if (0 <? sp_count s) && (u32 (sp_count s) mod size =? 0) then
      let chunks := u32 (sp_chunks s + 1) in
      mkSplit chunks (sp_count s) (file_create (replace_braces (dec chunks) template) (sp_files s))
    else s in
  mkSplit (sp_chunks s1) (sp_count s1 + 1)
    (file_append (replace_braces (dec (sp_chunks s1)) template) (br_write r) (sp_files s1)).

Definition chunk_name (template : bytes) (n : N) : bytes := replace_braces (dec n) template.

Fixpoint named_chunks (template : bytes) (n : N) (chunks : list (list byte_record)) : list (bytes * bytes) :=
  match chunks with
  | [] => []
  | c :: cs => (chunk_name template n, flat_map br_write c) :: named_chunks template (n + 1) cs
  end.

Lemma named_chunks_app : forall t a b n,
  named_chunks t n (a ++ b) = named_chunks t n a ++ named_chunks t (n + N.of_nat (length a)) b.
Proof.
  intros t. induction a as [|c a IH]; intros b n; cbn [app named_chunks length].
  - rewrite N.add_0_r. reflexivity.
  - rewrite IH. cbn [app]. do 3 f_equal. lia.
Qed.

Lemma named_chunks_fresh : forall t, has_braces t -> forall a n m, n + N.of_nat (length a) <= m ->
  Forall (fun f => fst f <> chunk_name t m) (named_chunks t n a).
Proof.
  intros t HB. induction a as [|c a IH]; intros n m H; cbn [named_chunks]; constructor.
  - cbn [fst]. intros E. apply replace_inj in E; [|exact HB]. apply dec_inj in E. cbn [length] in H. lia.
  - apply IH. cbn [length] in H. lia.
Qed.

Lemma file_create_fresh : forall name fs, Forall (fun f => fst f <> name) fs ->
  file_create name fs = (name, []) :: fs.
Proof.
  intros name fs F. unfold file_create. f_equal. induction F as [|f fs Hf _ IH]; cbn; [reflexivity|].
  rewrite (proj2 (bytes_eqb_neq _ _) Hf). cbn. f_equal. exact IH.
Qed.

Lemma file_append_fresh : forall name data text fs, Forall (fun f => fst f <> name) fs ->
  file_append name data ((name, text) :: fs) = (name, text ++ data) :: fs.
Proof.
  intros name data text fs F. unfold file_append. cbn [map fst snd]. rewrite bytes_eqb_refl. f_equal.
  induction F as [|f fs Hf _ IH]; cbn [map]; [reflexivity|]. rewrite (proj2 (bytes_eqb_neq _ _) Hf). f_equal. exact IH.
Qed.

(** chunks so far, the last being written *)
Definition split_inv (template : bytes) (size : N) (recs : list byte_record) (s : split_state) : Prop :=
  exists full last,
    concat full ++ last = recs
    /\ Forall (fun c => N.of_nat (length c) = size) full
    /\ N.of_nat (length last) <= size
    /\ (recs = [] \/ 1 <= N.of_nat (length last))
    /\ sp_count s = N.of_nat (length recs)
    /\ sp_chunks s = N.of_nat (length full)
    /\ sp_files s = (chunk_name template (N.of_nat (length full)), flat_map br_write last)
                     :: rev (named_chunks template 0 full).

Lemma concat_length_const : forall A (l : list (list A)) n,
  Forall (fun c => N.of_nat (length c) = n) l -> N.of_nat (length (concat l)) = n * N.of_nat (length l).
Proof.
  induction 1 as [|c l Hc _ IH]; cbn [concat length]; [lia|]. rewrite app_length. lia.
Qed.

Lemma split_core_same : forall template s r,
  has_braces template -> forall full last,
  sp_chunks s = N.of_nat (length full) ->
  sp_files s = (chunk_name template (N.of_nat (length full)), flat_map br_write last)
                 :: rev (named_chunks template 0 full) ->
  mkSplit (sp_chunks s) (sp_count s + 1)
    (file_append (replace_braces (dec (sp_chunks s)) template) (br_write r) (sp_files s))
  = mkSplit (sp_chunks s) (sp_count s + 1)
      ((chunk_name template (N.of_nat (length full)), flat_map br_write (last ++ [r]))
         :: rev (named_chunks template 0 full)).
Proof.
  intros template s r HB full last Hc Hf. rewrite Hf, Hc. f_equal.
  fold (chunk_name template (N.of_nat (length full))).
  rewrite file_append_fresh.
  - rewrite flat_map_app. cbn [flat_map]. rewrite app_nil_r. reflexivity.
  - apply Forall_rev. apply named_chunks_fresh; [exact HB|lia].
Qed.

Lemma split_core_new : forall template s r,
  has_braces template -> forall full last,
  u32 (sp_chunks s + 1) = N.of_nat (S (length full)) ->
  sp_files s = (chunk_name template (N.of_nat (length full)), flat_map br_write last)
                 :: rev (named_chunks template 0 full) ->
  mkSplit (u32 (sp_chunks s + 1)) (sp_count s + 1)
    (file_append (replace_braces (dec (u32 (sp_chunks s + 1))) template) (br_write r)
       (file_create (replace_braces (dec (u32 (sp_chunks s + 1))) template) (sp_files s)))
  = mkSplit (N.of_nat (length (full ++ [last]))) (sp_count s + 1)
      ((chunk_name template (N.of_nat (length (full ++ [last]))), flat_map br_write [r])
         :: rev (named_chunks template 0 (full ++ [last]))).
Proof.
  intros template s r HB full last Hc Hf. rewrite Hc, app_length, Nat.add_1_r. f_equal.
  fold (chunk_name template (N.of_nat (S (length full)))).
  assert (E : sp_files s = rev (named_chunks template 0 (full ++ [last]))).
  { rewrite Hf, named_chunks_app, rev_app_distr. reflexivity. }
  assert (Fr : Forall (fun f => fst f <> chunk_name template (N.of_nat (S (length full))))
                 (rev (named_chunks template 0 (full ++ [last])))).
  { apply Forall_rev. apply named_chunks_fresh; [exact HB|]. rewrite app_length. cbn [length]. lia. }
  rewrite E, file_create_fresh by exact Fr. rewrite file_append_fresh by exact Fr.
  cbn [flat_map app]. rewrite app_nil_r. reflexivity.
Qed.

Lemma split_step : forall template size recs s r,
  has_braces template -> 1 <= size -> split_inv template size recs s ->
  N.of_nat (length recs) < 4294967296 ->
  split_inv template size (recs ++ [r]) (split_core template size s r).
Proof.
  intros template size recs s r HB Hsz (full & last & E & HF & HL & HN & Hcnt & Hch & Hf) HM.
  assert (Len : N.of_nat (length recs) = size * N.of_nat (length full) + N.of_nat (length last)).
  { rewrite <- E, app_length, Nat2N.inj_add, (concat_length_const _ _ _ HF). reflexivity. }
  assert (U : u32 (sp_count s) = N.of_nat (length recs)).
  { unfold u32. rewrite Hcnt. apply N.mod_small. exact HM. }
  unfold split_core. rewrite U, Hcnt, Len.
  replace ((size * N.of_nat (length full) + N.of_nat (length last)) mod size)
    with (N.of_nat (length last) mod size)
    by (rewrite (N.mul_comm size), (N.add_comm (_ * size)), N.mod_add by lia; reflexivity).
  destruct (N.eq_dec (N.of_nat (length last)) size) as [Hfull|Hpart].
  - (* a new chunk *)
    rewrite Hfull, N.mod_same by lia. rewrite N.eqb_refl, andb_true_r.
    destruct (N.ltb_spec 0 (size * N.of_nat (length full) + size)) as [_|H]; [|lia].
    assert (Hu : u32 (sp_chunks s + 1) = N.of_nat (S (length full))).
    { unfold u32. rewrite Hch. rewrite N.mod_small; [lia|]. nia. }
    cbn [sp_chunks sp_count sp_files].
    replace (size * N.of_nat (length full) + size) with (sp_count s) by lia.
    rewrite (split_core_new _ _ _ HB _ _ Hu Hf).
    exists (full ++ [last]), [r]. cbn [sp_chunks sp_count sp_files].
    split; [rewrite concat_app, <- E; cbn [concat]; rewrite app_nil_r; reflexivity|].
    split; [apply Forall_app; auto|]. split; [cbn [length]; lia|]. split; [right; cbn [length]; lia|].
    split; [rewrite Hcnt, app_length; cbn [length]; lia|]. split; reflexivity.
  - (* the same chunk *)
    assert (Hno : (0 <? size * N.of_nat (length full) + N.of_nat (length last))
                  && (N.of_nat (length last) mod size =? 0) = false).
    { rewrite N.mod_small by lia. destruct HN as [->|HN].
      - cbn [length] in Len. destruct (N.ltb_spec 0 (size * N.of_nat (length full) + N.of_nat (length last))); [lia|reflexivity].
      - destruct (N.eqb_spec (N.of_nat (length last)) 0); [lia|]. apply andb_false_r. }
    rewrite Hno. rewrite (split_core_same _ _ r HB _ _ Hch Hf).
    exists full, (last ++ [r]). cbn [sp_chunks sp_count sp_files].
    rewrite app_assoc, E, !app_length. cbn [length].
    split; [reflexivity|]. split; [exact HF|]. split; [lia|]. split; [right; lia|]. split; [lia|]. split; auto.
Qed.

Lemma split_fold : forall template size recs, has_braces template -> 1 <= size ->
  N.of_nat (length recs) <= 4294967296 ->
  split_inv template size recs
    (fold_left (split_core template size) recs (mkSplit 0 0 (file_create (replace_braces (dec 0) template) []))).
Proof.
  intros template size recs HB Hsz. induction recs as [|r recs IH] using rev_ind; intros HM.
  - exists [], []. cbn [length fold_left sp_count sp_chunks sp_files]. repeat split; auto; try (cbn; lia).
  - rewrite app_length in HM. cbn [length] in HM. rewrite fold_left_app. cbn [fold_left].
    apply split_step; auto; [apply IH|]; lia.
Qed.

Lemma named_chunks_nth : forall t chunks n k c, nth_error chunks k = Some c ->
  In (chunk_name t (n + N.of_nat k), flat_map br_write c) (named_chunks t n chunks).
Proof.
  intros t. induction chunks as [|x chunks IH]; intros n [|k] c H; cbn [nth_error] in H; try discriminate; cbn [named_chunks].
  - injection H as ->. left. rewrite N.add_0_r. reflexivity.
  - right. replace (n + N.of_nat (S k)) with (n + 1 + N.of_nat k) by lia. apply IH. exact H.
Qed.

Lemma named_chunks_length : forall t chunks n, length (named_chunks t n chunks) = length chunks.
Proof. intros t. induction chunks; intros n; cbn; auto. Qed.

Lemma named_chunks_NoDup : forall t, has_braces t -> forall chunks n, NoDup (map fst (named_chunks t n chunks)).
Proof.
  intros t HB. induction chunks as [|c chunks IH]; intros n; cbn; constructor; [|apply IH].
  intros H. apply in_map_iff in H as ((name & text) & E & Hin). cbn in E. subst name.
  revert Hin. generalize (N.lt_succ_diag_r n). rewrite <- N.add_1_r. generalize (n + 1).
  clear -HB. intros m. revert m. induction chunks as [|c chunks IH]; intros m Hm; cbn; [tauto|].
  intros [E|H].
  - injection E as E _. apply replace_inj in E; [|exact HB]. apply dec_inj in E. lia.
  - apply (IH (m + 1)); [lia|exact H].
Qed.

Lemma split_inv_files : forall template size recs s, has_braces template -> 1 <= size ->
  Forall from_line recs ->
  split_inv template size recs s ->
  exists chunks, chunked size recs chunks /\ chunk_files template chunks (sp_files s).
Proof.
  intros template size recs s HB Hsz F (full & last & E & HF & HL & HN & Hcnt & Hch & Hf).
  exists (full ++ [last]).
  assert (EF : sp_files s = rev (named_chunks template 0 (full ++ [last]))).
  { rewrite Hf, named_chunks_app, rev_app_distr. reflexivity. }
  split; [split|split; [|split]].
  - rewrite concat_app. cbn [concat]. rewrite app_nil_r. exact E.
  - destruct recs as [|r0 recs].
    + left. split; [reflexivity|]. apply app_eq_nil in E as [E1 ->].
      destruct full as [|c full]; [reflexivity|].
      exfalso. inversion HF as [|? ? Hc _]; subst. cbn in E1. apply app_eq_nil in E1 as [-> _].
      cbn in Hsz. lia.
    + right. exists full, last. split; [reflexivity|]. split; [exact HF|].
      destruct HN as [HN|HN]; [discriminate|]. auto.
  - intros k c Hk. exists (dec (N.of_nat k)), (chunk_name template (N.of_nat k)), (flat_map br_write c).
    split; [apply dec_spec|]. split; [apply replace_filled|]. split.
    + apply lines_of_flat. rewrite Forall_forall in *. intros r Hr. apply F. rewrite <- E.
      apply nth_error_In in Hk. apply in_app_iff in Hk as [Hk|[<-|[]]]; apply in_app_iff; [left|auto].
      apply in_concat. eauto.
    + rewrite EF. apply in_rev. rewrite rev_involutive.
      apply (named_chunks_nth template (full ++ [last]) 0 k c Hk).
  - rewrite EF, rev_length, named_chunks_length. reflexivity.
  - rewrite EF, map_rev. apply NoDup_rev. apply named_chunks_NoDup. exact HB.
Qed.

Lemma split_core_count : forall template size s r, sp_count (split_core template size s r) = sp_count s + 1.
Proof.
  intros template size s r. unfold split_core.
  destruct ((0 <? sp_count s) && (u32 (sp_count s) mod size =? 0)); reflexivity.
Qed.

Lemma split_run_fold : forall O Od template size skip o inputs, opts_wf O Od o ->
  exists recs e, selects O Od skip o inputs recs e
    /\ split_run O Od template size skip o inputs
       = Some (ended (sp_files (fold_left (split_core template size) recs
                 (mkSplit 0 0 (file_create (replace_braces (dec 0) template) [])))) e).
Proof.
  intros O Od template size skip o inputs W.
  destruct (run_selects _ O Od skip o
              (fun s r =>
                let s2 := split_core template size s r in
                if limit_reached (fo_limit o) (sp_count s2) then Halt s2 else Next s2)
              (split_core template size) sp_count inputs
              (mkSplit 0 0 (file_create (replace_braces (dec 0) template) [])) W) as (recs & e & Hs & He).
  - intros s r. cbv zeta. rewrite split_core_count. reflexivity.
  - intros s r. apply split_core_count.
  - reflexivity.
  - exists recs, e. split; [exact Hs|].
    etransitivity; [exact (f_equal (finish_with (fun s => Some (sp_files s)) sp_files) He)|].
    destruct e; reflexivity.
Qed.

Lemma split_exact : forall O Od template size skip o inputs recs e, opts_wf O Od o ->
  has_braces template -> 1 <= size ->
  selects O Od skip o inputs recs e -> N.of_nat (length recs) <= 4294967296 ->
  exists chunks fs, chunked size recs chunks /\ chunk_files template chunks fs
    /\ split_run O Od template size skip o inputs = Some (ended fs e).
Proof.
  intros O Od template size skip o inputs recs e W HB Hsz Hs HM.
  destruct (split_run_fold O Od template size skip o inputs W) as (recs' & e' & Hs' & He).
  destruct (selects_fun _ _ _ _ _ _ _ Hs _ _ Hs') as [<- <-].
  destruct (split_inv_files template size recs _ HB Hsz (selects_from_line _ _ _ _ _ _ _ Hs)
              (split_fold template size recs HB Hsz HM)) as (chunks & H1 & H2).
  exists chunks. eexists. split; [exact H1|]. split; [exact H2|exact He].
Qed.

(** more than 2^32 records *)

Definition open_opts : filter_opts := mkOpts (mkFSet None None ppn_path) None false 0.

Lemma open_opts_wf : forall O Od, opts_wf O Od open_opts.
Proof. intros O Od. split; [exact I|]. cbn. discriminate. Qed.

Lemma open_opts_hold : forall O Od r, opts_hold O Od open_opts r.
Proof.
  intros O Od r. split; [|cbn; discriminate].
  destruct (record_path_lists Od false ppn_path r I) as (vs & _ & H).
  exists vs. split; [exact H|]. split; cbn; discriminate.
Qed.

Lemma chosen_open : forall O Od l, chosen (opts_hold O Od open_opts) l l.
Proof.
  intros O Od. induction l as [|r l IH]; [constructor|].
  apply (picks_yes (fun r => opts_hold O Od open_opts (br_record r)) (fun r => r)); [|exact IH].
  apply open_opts_hold.
Qed.

Lemma selects_open : forall O Od skip name recs out, Forall one_line recs -> lines_of recs out ->
  selects O Od skip open_opts [(name, out)] recs None.
Proof.
  intros O Od skip name recs out F H. exists recs, recs, None.
  split; [apply reads_back; assumption|]. split; [apply chosen_open|]. left. auto.
Qed.

Lemma NoDup_fst : forall A B (l : list (A * B)) a x y, NoDup (map fst l) -> In (a, x) l -> In (a, y) l -> x = y.
Proof.
  induction l as [|[b z] l IH]; intros a x y ND Hx Hy; [destruct Hx|].
  cbn in ND. inversion ND as [|? ? Hn ND']; subst.
  destruct Hx as [Ex|Hx]; destruct Hy as [Ey|Hy].
  - congruence.
  - injection Ex as -> ->. exfalso. apply Hn. apply in_map_iff. exists (a, y). auto.
  - injection Ey as -> ->. exfalso. apply Hn. apply in_map_iff. exists (a, x). auto.
  - eapply IH; eassumption.
Qed.

Lemma flat_map_length_const : forall (l : list byte_record) n,
  Forall (fun r => length (br_write r) = n) l -> length (flat_map br_write l) = (n * length l)%nat.
Proof. induction 1 as [|r l Hr _ IH]; cbn [flat_map length]; [lia|]. rewrite app_length, Hr, IH. lia. Qed.

Lemma split_truncates : forall O Od skip template r name, has_braces template -> one_line r ->
  exists recs out,
    Forall (fun r' => r' = r) recs /\ N.of_nat (length recs) = 4294967297 /\ lines_of recs out
    /\ selects O Od skip open_opts [(name, out)] recs None
    /\ ~ exists chunks fs, chunked 3 recs chunks /\ chunk_files template chunks fs
           /\ split_run O Od template 3 skip open_opts [(name, out)] = Some (Done fs).
Proof.
  intros O Od skip template r name HB Hr.
  set (init := repeat r (N.to_nat 4294967296)).
  assert (Linit : N.of_nat (length init) = 4294967296) by (subst init; rewrite repeat_length; lia).
  assert (Finit : Forall (fun r' => r' = r) init).
  { apply Forall_forall. intros x Hx. eapply repeat_spec. exact Hx. }
  clearbody init.
  set (recs := init ++ [r]).
  assert (Frecs : Forall (fun r' => r' = r) recs) by (apply Forall_app; auto).
  assert (Lrecs : N.of_nat (length recs) = 4294967297) by (subst recs; rewrite app_length; cbn [length]; lia).
  assert (F1 : Forall one_line recs) by (eapply Forall_impl; [|exact Frecs]; cbn; intros ? ->; exact Hr).
  assert (FL : Forall from_line recs) by (eapply Forall_impl; [|exact F1]; exact one_line_from).
  assert (HL := lines_of_flat recs FL).
  exists recs, (flat_map br_write recs). split; [exact Frecs|]. split; [exact Lrecs|]. split; [exact HL|].
  assert (Hs := selects_open O Od skip name recs _ F1 HL). split; [exact Hs|].
  intros (chunks & fs & [Hc1 Hc2] & (Hf1 & _ & Hf3) & Hrun).
  destruct (split_run_fold O Od template 3 skip open_opts [(name, flat_map br_write recs)] (open_opts_wf O Od))
    as (recs' & e' & Hs' & He).
  destruct (selects_fun _ _ _ _ _ _ _ Hs _ _ Hs') as [<- <-]. rewrite Hrun in He. cbn [ended] in He.
  injection He as ->.
  set (s0 := mkSplit 0 0 (file_create (replace_braces (dec 0) template) [])) in *.
  assert (Inv := split_fold template 3 init HB ltac:(lia) ltac:(lia)). fold s0 in Inv.
  destruct Inv as (full & last & E & HF & HLt & HN & Hcnt & Hch & Hf).
  assert (Len : N.of_nat (length init) = 3 * N.of_nat (length full) + N.of_nat (length last)).
  { rewrite <- E, app_length, Nat2N.inj_add, (concat_length_const _ _ _ HF). reflexivity. }
  rewrite Linit in Len.
  assert (K1 : N.of_nat (length full) = 1431655765 /\ N.of_nat (length last) = 1) by lia.
  destruct K1 as [K1 K2].
  assert (U : u32 (sp_chunks (fold_left (split_core template 3) init s0) + 1) = N.of_nat (S (length full))).
  { rewrite Hch. unfold u32. rewrite N.mod_small by lia. lia. }
  assert (In1 : In (chunk_name template (N.of_nat (length full)), flat_map br_write last)
            (sp_files (fold_left (split_core template 3) recs s0))).
  { subst recs. rewrite fold_left_app. cbn [fold_left]. unfold split_core at 1.
    rewrite Hcnt, Linit.
    replace ((0 <? 4294967296) && (u32 4294967296 mod 3 =? 0)) with true by reflexivity.
    cbn [sp_chunks sp_count sp_files].
    assert (Q := split_core_new template _ r HB _ _ U Hf).
    apply (f_equal sp_files) in Q. cbn [sp_files] in Q. rewrite Q.
    right. apply in_rev. rewrite rev_involutive.
    apply (named_chunks_nth template (full ++ [last]) 0 (length full) last).
    rewrite nth_error_app2, Nat.sub_diag by lia. reflexivity. }
  destruct Hc2 as [[Hc2 _]|(full' & last' & -> & HF' & HL')].
  { rewrite Hc2 in Lrecs. cbn in Lrecs. discriminate. }
  assert (Len' : N.of_nat (length recs) = 3 * N.of_nat (length full') + N.of_nat (length last')).
  { rewrite <- Hc1, concat_app, app_length. cbn [concat]. rewrite app_nil_r, Nat2N.inj_add.
    rewrite (concat_length_const _ _ _ HF'). reflexivity. }
  rewrite Lrecs in Len'.
  assert (K3 : N.of_nat (length full') = 1431655765 /\ N.of_nat (length last') = 2) by lia.
  destruct K3 as [K3 K4].
  destruct (Hf1 (length full') last') as (num & nm & text & D1 & D2 & D3 & D4).
  { rewrite nth_error_app2, Nat.sub_diag by lia. reflexivity. }
  assert (nm = chunk_name template (N.of_nat (length full))).
  { assert (Hsub : N.of_nat (length full') = N.of_nat (length full)) by lia. rewrite Hsub in D1.
    assert (num = dec (N.of_nat (length full))).
    { eapply decimal_unique; [exact D1|apply dec_spec]. }
    subst num. eapply filled_fun; [exact D2|apply replace_filled]. }
  subst nm.
  assert (Et := NoDup_fst _ _ _ _ _ _ Hf3 In1 D4).
  assert (Fl : Forall (fun x => x = r) last').
  { rewrite <- Hc1, concat_app in Frecs. apply Forall_app in Frecs as [_ Fx]. cbn in Fx.
    rewrite app_nil_r in Fx. exact Fx. }
  assert (Fl0 : Forall (fun x => x = r) last).
  { rewrite <- E in Finit. apply Forall_app in Finit. tauto. }
  assert (W : forall l, Forall (fun x => x = r) l -> length (flat_map br_write l) = (length (br_write r) * length l)%nat).
  { intros l Hl. apply flat_map_length_const. eapply Forall_impl; [|exact Hl]. cbn. intros ? ->. reflexivity. }
  assert (Tx : text = flat_map br_write last').
  { eapply lines_of_fun; [exact D3|]. apply lines_of_flat. eapply Forall_impl; [|exact Fl]. cbn. intros ? ->.
    apply one_line_from. exact Hr. }
  apply (f_equal (@length N)) in Et. rewrite Tx, (W _ Fl), (W _ Fl0) in Et.
  destruct Hr as (p & Hp & _). rewrite (from_line_write _ _ Hp), app_length in Et. cbn [length] in Et. nia.
Qed.

(** ** partition *)

Definition vle (a b : bytes) : Prop := bytes_cmp a b <> Gt.
Definition vlt (a b : bytes) : Prop := bytes_cmp a b = Lt.

Lemma vle_cases : forall a b, vle a b -> a = b \/ vlt a b.
Proof.
  intros a b H. unfold vle, vlt in *. destruct (bytes_cmp a b) eqn:E; auto; [|congruence].
  left. apply bytes_cmp_eq. exact E.
Qed.
Lemma vlt_le : forall a b, vlt a b -> vle a b.
Proof. unfold vlt, vle. congruence. Qed.
Lemma vle_refl : forall a, vle a a.
Proof. intros a. unfold vle. rewrite bytes_cmp_refl. discriminate. Qed.
Lemma vle_trans : forall a b c, vle a b -> vle b c -> vle a c.
Proof.
  intros a b c H K. apply vle_cases in H as [->|H]; [exact K|]. apply vle_cases in K as [<-|K]; [apply vlt_le; exact H|].
  apply vlt_le. eapply bytes_cmp_lt_trans; eassumption.
Qed.
Lemma bytes_leb_vle : forall a b, bytes_leb a b = true <-> vle a b.
Proof. intros a b. unfold bytes_leb, vle. destruct (bytes_cmp a b); split; congruence. Qed.
Lemma bytes_leb_false : forall a b, bytes_leb a b = false -> vle b a.
Proof. intros a b. unfold bytes_leb, vle. rewrite (bytes_cmp_antisym a b). destruct (bytes_cmp a b); cbn; congruence. Qed.

Lemma insert_In : forall v l x, In x (insert_value v l) <-> x = v \/ In x l.
Proof.
  intros v. induction l as [|w l IH]; intros x; cbn.
  - intuition.
  - destruct (bytes_leb v w); cbn; [intuition|]. rewrite IH. intuition.
Qed.

Lemma insert_sorted : forall v l, StronglySorted vle l -> StronglySorted vle (insert_value v l).
Proof.
  intros v l H. induction H as [|w l Hs IH Hf]; cbn; [repeat constructor|].
  destruct (bytes_leb v w) eqn:E.
  - apply bytes_leb_vle in E. constructor; [constructor; assumption|]. constructor; [exact E|].
    eapply Forall_impl; [|exact Hf]. intros x Hx. eapply vle_trans; eassumption.
  - apply bytes_leb_false in E. constructor; [exact IH|]. rewrite Forall_forall in *.
    intros x Hx. apply insert_In in Hx as [->|Hx]; auto.
Qed.

Lemma sort_sorted : forall l, StronglySorted vle (sort_values l) /\ forall x, In x (sort_values l) <-> In x l.
Proof.
  induction l as [|v l [IH1 IH2]]; [split; [constructor|tauto]|].
  unfold sort_values in *. cbn [fold_right]. split; [apply insert_sorted; exact IH1|].
  intros x. rewrite insert_In, IH2. cbn. intuition.
Qed.

Lemma dedup_sorted : forall l, StronglySorted vle l ->
  StronglySorted vlt (dedup l) /\ forall x, In x (dedup l) <-> In x l.
Proof.
  induction 1 as [|v l Hs IH Hf]; [split; [constructor|tauto]|].
  destruct IH as [IH1 IH2]. destruct l as [|w l]; [split; [repeat constructor|tauto]|].
  change (dedup (v :: w :: l)) with (if bytes_eqb v w then dedup (w :: l) else v :: dedup (w :: l)).
  destruct (bytes_eqb v w) eqn:E.
  - apply bytes_eqb_eq in E. subst w. split; [exact IH1|]. intros x. rewrite IH2. cbn. intuition.
  - apply bytes_eqb_neq in E. split.
    + constructor; [exact IH1|]. rewrite Forall_forall in *. intros x Hx. apply IH2 in Hx.
      inversion Hs as [|? ? Hs' Hf']; subst.
      assert (Hvw : vlt v w) by (destruct (vle_cases v w) as [?|?]; [apply Hf; left; reflexivity|congruence|assumption]).
      destruct Hx as [<-|Hx]; [exact Hvw|]. rewrite Forall_forall in Hf'. specialize (Hf' x Hx).
      apply vle_cases in Hf' as [<-|Hf']; [exact Hvw|]. eapply bytes_cmp_lt_trans; eassumption.
    + intros x. cbn [In]. rewrite IH2. cbn. tauto.
Qed.

Lemma dedup_value_set : forall vs, value_set vs (dedup (sort_values vs)).
Proof.
  intros vs. destruct (sort_sorted vs) as [H1 H2]. destruct (dedup_sorted _ H1) as [H3 H4].
  split; [exact H3|]. intros v. rewrite H4. apply H2.
Qed.

(** the writes in order, with the limit *)
Definition write_act (s : partition_state) (w : bytes * byte_record) : partition_state :=
  (fst s + 1, writer_write (fst w) (br_write (snd w)) (snd s)).
Definition write_body (limit : N) (s : partition_state) (w : bytes * byte_record) : step partition_state :=
  if limit_reached limit (fst s + 1) then Halt (write_act s w) else Next (write_act s w).

Lemma partition_values_fold : forall limit r vs s,
  (let (s', stop) := partition_values limit (br_write r) vs s in if stop then Halt s' else Next s')
  = fold_steps (write_body limit) s (map (fun v => (v, r)) vs).
Proof.
  intros limit r. induction vs as [|v vs IH]; intros s; cbn [partition_values map fold_steps]; [reflexivity|].
  unfold write_body at 1. unfold write_act at 1 2. cbn [fst snd].
  destruct (limit_reached limit (fst s + 1)); [reflexivity|]. apply IH.
Qed.

Lemma fold_steps_app : forall S A (f : S -> A -> step S) a b s,
  fold_steps f s (a ++ b) = match fold_steps f s a with Next s' => fold_steps f s' b | x => x end.
Proof.
  intros S A f. induction a as [|x a IH]; intros b s; cbn [fold_steps app]; [reflexivity|].
  destruct (f s x); try reflexivity. apply IH.
Qed.

Lemma partition_fold : forall O ci p limit sel, opt_sm_wf O ci (p_sub p) ->
  exists wss, Forall2 (record_writes O ci p) sel wss
    /\ forall s, fold_steps (fun s r =>
          match record_path O ci p (br_record r) with
          | None => Panic
          | Some values =>
              let (s', stop) := partition_values limit (br_write r) (dedup (sort_values values)) s in
              if stop then Halt s' else Next s'
          end) s sel = fold_steps (write_body limit) s (concat wss).
Proof.
  intros O ci p limit sel W. induction sel as [|r sel (wss & H1 & H2)]; [exists []; split; [constructor|reflexivity]|].
  destruct (record_path_lists O ci p (br_record r) W) as (vs & E & Hp).
  exists (map (fun v => (v, r)) (dedup (sort_values vs)) :: wss). split.
  - constructor; [|exact H1]. exists vs, (dedup (sort_values vs)). split; [exact Hp|]. split; [apply dedup_value_set|reflexivity].
  - intros s. cbn [fold_steps concat]. rewrite E, partition_values_fold, fold_steps_app.
    destruct (fold_steps (write_body limit) s _); auto.
Qed.

Lemma writer_write_In : forall v data ws u, In u (map fst (writer_write v data ws)) <-> u = v \/ In u (map fst ws).
Proof.
  intros v data ws u. unfold writer_write. destruct (existsb _ ws) eqn:E.
  - rewrite map_map. assert (Em : map (fun x => fst (if bytes_eqb (fst x) v then (fst x, snd x ++ data) else x)) ws = map fst ws).
    { apply map_ext. intros x. destruct (bytes_eqb (fst x) v); reflexivity. }
    rewrite Em. split; [auto|]. intros [->|H]; [|exact H].
    apply existsb_exists in E as (x & Hx & Ex). apply bytes_eqb_eq in Ex. subst v. apply in_map. exact Hx.
  - rewrite map_app, in_app_iff. cbn. intuition.
Qed.

Lemma writer_write_NoDup : forall v data ws, NoDup (map fst ws) -> NoDup (map fst (writer_write v data ws)).
Proof.
  intros v data ws H. unfold writer_write. destruct (existsb _ ws) eqn:E.
  - rewrite map_map. erewrite map_ext; [exact H|]. intros x. cbn. destruct (bytes_eqb (fst x) v); reflexivity.
  - rewrite map_app. cbn. pose proof (Add_app v (map fst ws) []) as HA. rewrite app_nil_r in HA.
    apply (NoDup_Add HA). split; [exact H|]. intros Hin. apply in_map_iff in Hin as (x & Ex & Hx).
    assert (existsb (fun w => bytes_eqb (fst w) v) ws = true); [|congruence].
    apply existsb_exists. exists x. split; [exact Hx|]. apply bytes_eqb_eq. exact Ex.
Qed.

Lemma picks_app : forall A B (P : A -> Prop) (f : A -> B) a b x y,
  picks P f a x -> picks P f b y -> picks P f (a ++ b) (x ++ y).
Proof. induction 1; cbn; intros; [assumption|constructor; auto|apply picks_no; auto]. Qed.

Lemma picks_none : forall A B (P : A -> Prop) (f : A -> B) l, (forall x, In x l -> ~ P x) -> picks P f l [].
Proof.
  induction l as [|x l IH]; intros H; [constructor|]. apply picks_no; [apply H; left; reflexivity|].
  apply IH. intros y Hy. apply H. right. exact Hy.
Qed.

Lemma value_files_step : forall ws fs v r, value_files ws fs -> from_line r ->
  value_files (ws ++ [(v, r)]) (writer_write v (br_write r) fs).
Proof.
  intros ws fs v r (ND & Hv & Hc) Hr. split; [apply writer_write_NoDup; exact ND|]. split.
  - intros u. rewrite writer_write_In, Hv, map_app, in_app_iff. cbn. intuition.
  - intros u text Hin. unfold writer_write in Hin. destruct (existsb _ fs) eqn:E.
    + apply in_map_iff in Hin as ([u' t'] & Eq & Hin). cbn [fst snd] in Eq.
      destruct (bytes_eqb u' v) eqn:Ev.
      * apply bytes_eqb_eq in Ev. injection Eq as <- <-. subst u'. destruct (Hc _ _ Hin) as (recs & H1 & H2).
        exists (recs ++ [r]). split.
        { apply picks_app; [exact H1|]. apply (picks_yes (fun w => fst w = v) snd (v, r)); [reflexivity|constructor]. }
        { apply lines_of_app; [exact H2|]. apply lines_of_one. exact Hr. }
      * apply bytes_eqb_neq in Ev. injection Eq as <- <-. destruct (Hc _ _ Hin) as (recs & H1 & H2).
        exists (recs ++ []). split; [|rewrite app_nil_r; exact H2].
        apply picks_app; [exact H1|]. apply picks_no; [cbn; congruence|constructor].
    + apply in_app_iff in Hin as [Hin|[Eq|[]]].
      * destruct (Hc _ _ Hin) as (recs & H1 & H2). exists (recs ++ []). split; [|rewrite app_nil_r; exact H2].
        apply picks_app; [exact H1|]. apply picks_no; [|constructor]. cbn. intros <-.
        assert (existsb (fun w => bytes_eqb (fst w) v) fs = true); [|congruence].
        apply existsb_exists. exists (v, text). split; [exact Hin|]. apply bytes_eqb_refl.
      * injection Eq as <- <-. exists [r]. split; [|apply lines_of_one; exact Hr].
        change [r] with ([] ++ [r]). apply picks_app.
        { apply picks_none. intros [u x] Hx. cbn. intros ->.
          assert (Hn : In v (map fst fs)) by (apply Hv; apply in_map_iff; exists (v, x); auto).
          apply in_map_iff in Hn as (w & Ew & Hw).
          assert (existsb (fun w => bytes_eqb (fst w) v) fs = true); [|congruence].
          apply existsb_exists. exists w. split; [exact Hw|]. apply bytes_eqb_eq. exact Ew. }
        { apply (picks_yes (fun w => fst w = v) snd (v, r)); [reflexivity|constructor]. }
Qed.

Lemma value_files_fold : forall ws, Forall (fun w => from_line (snd w)) ws ->
  value_files ws (snd (fold_left write_act ws (0, []))).
Proof.
  intros ws. induction ws as [|[v r] ws IH] using rev_ind; intros F.
  - split; [constructor|]. split; [cbn; tauto|]. intros v text [].
  - apply Forall_app in F as [F1 F2]. inversion F2; subst. rewrite fold_left_app. cbn [fold_left write_act snd fst].
    apply value_files_step; auto.
Qed.

Lemma partition_exact : forall O Od p skip o inputs, opts_wf O Od o -> opt_sm_wf O (fo_ci o) (p_sub p) ->
  exists all e0 sel wss ws e fs,
    reads skip inputs all e0 /\ chosen (opts_hold O Od o) all sel
    /\ Forall2 (record_writes O (fo_ci o) p) sel wss
    /\ limited (fo_limit o) (concat wss) e0 ws e
    /\ value_files ws fs
    /\ partition_run O Od p skip o inputs = Some (ended fs e).
Proof.
  intros O Od p skip o inputs W Wp.
  destruct (reads_exists skip inputs) as (all & e0 & Hr).
  assert (D := opts_decided O Od o W).
  destruct (chosen_exists _ _ D all) as [sel Hs].
  destruct (partition_fold O (fo_ci o) p (fo_limit o) sel Wp) as (wss & H1 & H2).
  destruct (fold_limited (fun _ => True) (fun _ => True) (write_body (fo_limit o)) write_act fst (fo_limit o))
    with (recs := concat wss) (sel := concat wss) (e := e0) (s := ((0, []) : partition_state))
    as (ws & e & Hl & He); auto.
  - intros s r H. destruct H. exact I.
  - apply picks_all.
  - apply Forall_true.
  - exists all, e0, sel, wss, ws, e, (snd (fold_left write_act ws (0, []))).
    split; [exact Hr|]. split; [exact Hs|]. split; [exact H1|]. split; [exact Hl|]. split.
    + apply value_files_fold. apply Forall_forall. intros w Hw.
      apply (limited_incl _ _ _ _ _ _ Hl) in Hw. apply in_concat in Hw as (l & Hl1 & Hl2).
      assert (F := chosen_from_line _ _ _ Hs (reads_from_line _ _ _ _ Hr)).
      clear -H1 Hl1 Hl2 F. induction H1 as [|r ws sel wss (vs & set & _ & _ & E) _ IH]; [destruct Hl1|].
      inversion F; subst. destruct Hl1 as [<-|Hl1]; [|auto].
      apply in_map_iff in Hl2 as (v & <- & _). assumption.
    + unfold partition_run. rewrite (run_loop_reads _ _ _ _ _ _ _ Hr).
      unfold partition_body. rewrite (fold_chosen _ (opts_hold O Od o) _ _ _ (guarded_no _ _ _ _ D) Hs).
      rewrite (fold_steps_ext _ _ _ (fun s r =>
          match record_path O (fo_ci o) p (br_record r) with
          | None => Panic
          | Some values =>
              let (s', stop) := partition_values (fo_limit o) (br_write r) (dedup (sort_values values)) s in
              if stop then Halt s' else Next s'
          end)).
      * rewrite H2, He. destruct e; reflexivity.
      * intros s x Hx. rewrite (guarded_yes _ _ _ _ D); [reflexivity|].
        apply (picks_id_In _ _ _ _ Hs x) in Hx. tauto.
Qed.

(** different values have different files *)
Lemma partition_names : forall (lossy : bytes -> bytes) template v w,
  has_braces template -> lossy v = v -> lossy w = w ->
  partition_name lossy template v = partition_name lossy template w -> v = w.
Proof.
  intros lossy template v w HB Hv Hw E. unfold partition_name in E. apply replace_inj in E; [|exact HB]. congruence.
Qed.

(** ** partition by value, without limit *)

Lemma sorted_NoDup : forall l, StronglySorted vlt l -> NoDup l.
Proof.
  induction 1 as [|v l _ IH Hf]; constructor; [|exact IH].
  intros H. rewrite Forall_forall in Hf. apply Hf in H. unfold vlt in H. rewrite bytes_cmp_refl in H. discriminate.
Qed.

Lemma picks_values : forall v (r : byte_record) set, NoDup set ->
  (In v set -> picks (fun w : bytes * byte_record => fst w = v) snd (map (fun v => (v, r)) set) [r])
  /\ (~ In v set -> picks (fun w : bytes * byte_record => fst w = v) snd (map (fun v => (v, r)) set) []).
Proof.
  intros v r set ND. induction ND as [|u set Hu _ [IH1 IH2]]; cbn [map]; [split; [intros []|constructor]|].
  split; intros H.
  - destruct H as [->|H].
    + apply (picks_yes (fun w => fst w = v) snd (v, r)); [reflexivity|]. auto.
    + apply picks_no; [cbn; congruence|]. auto.
  - apply picks_no; [cbn; intros ->; apply H; left; reflexivity|]. apply IH2. intros K. apply H. right. exact K.
Qed.

Lemma writes_by_value : forall O ci p v sel wss, Forall2 (record_writes O ci p) sel wss ->
  exists recs, chosen (has_value O ci p v) sel recs /\ picks (fun w => fst w = v) snd (concat wss) recs.
Proof.
  intros O ci p v. induction 1 as [|r ws sel wss (vs & set & Hp & [Hs Hv] & ->) _ (recs & I1 & I2)].
  - exists []. split; constructor.
  - destruct (picks_values v r set (sorted_NoDup _ Hs)) as [P1 P2]. cbn [concat].
    destruct (in_dec (list_eq_dec N.eq_dec) v set) as [H|H].
    + exists (r :: recs). split.
      * apply (picks_yes (fun r => has_value O ci p v (br_record r)) (fun r => r)); [|exact I1].
        exists vs. split; [exact Hp|]. apply Hv. exact H.
      * change (r :: recs) with ([r] ++ recs). apply picks_app; auto.
    + exists recs. split.
      * apply picks_no; [|exact I1]. intros (vs' & Hp' & Hin).
        rewrite (path_lists_fun O ci p _ _ Hp' _ Hp) in Hin. apply H, Hv. exact Hin.
      * change recs with ([] ++ recs). apply picks_app; auto.
Qed.

Lemma picks_nil_iff : forall A B (P : A -> Prop) (f : A -> B) l out, picks P f l out ->
  (out <> [] <-> exists x, In x l /\ P x).
Proof.
  induction 1 as [|x l out HP _ IH|x l out HP _ IH].
  - split; [congruence|]. intros (x & [] & _).
  - split; [|discriminate]. intros _. exists x. split; [left; reflexivity|exact HP].
  - rewrite IH. split.
    + intros (y & Hy & Py). exists y. split; [right; exact Hy|exact Py].
    + intros (y & [<-|Hy] & Py); [contradiction|eauto].
Qed.

Lemma partition_by_value : forall O Od p skip o inputs, opts_wf O Od o -> opt_sm_wf O (fo_ci o) (p_sub p) ->
  fo_limit o = 0 ->
  exists all e sel fs,
    reads skip inputs all e /\ chosen (opts_hold O Od o) all sel
    /\ partition_run O Od p skip o inputs = Some (ended fs e)
    /\ NoDup (map fst fs)
    /\ forall v text, In (v, text) fs <->
         exists recs, chosen (has_value O (fo_ci o) p v) sel recs /\ recs <> [] /\ lines_of recs text.
Proof.
  intros O Od p skip o inputs W Wp L.
  destruct (partition_exact O Od p skip o inputs W Wp)
    as (all & e0 & sel & wss & ws & e & fs & H1 & H2 & H3 & H4 & (H5 & H6 & H7) & H8).
  rewrite L in H4. destruct H4 as [(_ & -> & ->)|(H & _)]; [|lia].
  exists all, e0, sel, fs. split; [exact H1|]. split; [exact H2|]. split; [exact H8|]. split; [exact H5|].
  intros v text. destruct (writes_by_value O (fo_ci o) p v sel wss H3) as (recs & C1 & C2).
  split.
  - intros Hin. destruct (H7 _ _ Hin) as (recs' & P1 & P2).
    assert (recs' = recs) by (eapply picks_fun; eassumption). subst recs'.
    exists recs. split; [exact C1|]. split; [|exact P2].
    apply (picks_nil_iff _ _ _ _ _ _ C2).
    assert (Hv : In v (map fst (concat wss))). { apply H6. apply in_map_iff. exists (v, text). auto. }
    apply in_map_iff in Hv as (w & Ew & Hw). eauto.
  - intros (recs' & K1 & K2 & K3). assert (recs' = recs) by (eapply picks_fun; eassumption). subst recs'.
    apply (picks_nil_iff _ _ _ _ _ _ C2) in K2 as (w & Hw & Ew).
    assert (Hv : In v (map fst fs)). { apply H6. apply in_map_iff. eauto. }
    apply in_map_iff in Hv as ([v' text'] & Ev & Hin). cbn in Ev. subst v'.
    destruct (H7 _ _ Hin) as (recs' & P1 & P2).
    assert (recs' = recs) by (eapply picks_fun; eassumption). subst recs'.
    rewrite (lines_of_fun _ _ _ K3 P2). exact Hin.
Qed.

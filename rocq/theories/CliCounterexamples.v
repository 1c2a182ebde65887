(** * Counterexamples and consequences for the commands *)

From Coq Require Import String.
From Verif Require Import Bytes Winnow RecordModel RecordSpec BaseProofs RecordProofs TagOccModel ByteRecordModel ByteRecordSpec
  ByteRecordProofs ReaderModel ReaderProofs MatcherModel MatcherSpec MatcherProofs PathModel QuerySpec QueryProofs
  QueryExtraProofs CliModel CliSpec CliProofs CliCommandProofs CliOutputProofs CliRangeProofs CliChunkProofs
  CliListProofs.

(** ** One record per key *)

Lemma firsts_one_aux : forall sha lossy st before recs kept, firsts (key_of sha lossy st) before recs kept ->
  forall k, k <> [] ->
  ((exists r, In r before /\ key_of sha lossy st r k) -> Forall (fun r' => ~ key_of sha lossy st r' k) kept)
  /\ ((forall r, In r before -> ~ key_of sha lossy st r k) ->
      (exists r, In r recs /\ key_of sha lossy st r k) ->
      exists pre r post, kept = pre ++ r :: post /\ key_of sha lossy st r k
        /\ Forall (fun r' => ~ key_of sha lossy st r' k) (pre ++ post)).
Proof.
  intros sha lossy st before recs kept H.
  induction H as [before|before r k0 l out Hk Hne Hnew _ IH|before r k0 l out Hk Hd _ IH]; intros k Hk0.
  - split; [constructor|]. intros _ (r & [] & _).
  - destruct (IH k Hk0) as [IH1 IH2]. split.
    + intros (r' & Hi & Hr'). constructor.
      * intros Hr. rewrite (key_fun _ _ _ _ _ _ Hr Hk) in Hr'. exact (Hnew r' Hi Hr').
      * apply IH1. exists r'. rewrite in_app_iff. auto.
    + intros Hb Hex. destruct (list_eq_dec N.eq_dec k k0) as [->|Hd].
      * exists [], r, out. split; [reflexivity|]. split; [exact Hk|]. apply IH1. exists r.
        rewrite in_app_iff. cbn. auto.
      * destruct IH2 as (pre & x & post & -> & Hx & HF).
        { intros r' Hi Hr'. apply in_app_iff in Hi as [Hi|[<-|[]]]; [exact (Hb r' Hi Hr')|].
          apply Hd. eapply key_fun; eassumption. }
        { destruct Hex as (r' & [<-|Hi] & Hr'); [|eauto]. exfalso. apply Hd. eapply key_fun; eassumption. }
        exists (r :: pre), x, post. split; [reflexivity|]. split; [exact Hx|]. cbn. constructor; [|exact HF].
        intros Hr. apply Hd. eapply key_fun; eassumption.
  - destruct (IH k Hk0) as [IH1 IH2]. split.
    + intros (r' & Hi & Hr'). apply IH1. exists r'. rewrite in_app_iff. auto.
    + intros Hb Hex.
      assert (Hd' : k <> k0). { intros ->. destruct Hd as [->|(r' & Hi & Hr')]; [congruence|exact (Hb r' Hi Hr')]. }
      apply IH2.
      * intros r' Hi Hr'. apply in_app_iff in Hi as [Hi|[<-|[]]]; [exact (Hb r' Hi Hr')|].
        apply Hd'. eapply key_fun; eassumption.
      * destruct Hex as (r' & [<-|Hi] & Hr'); [|eauto]. exfalso. apply Hd'. eapply key_fun; eassumption.
Qed.

Lemma firsts_one_per_key : forall sha lossy st recs kept, firsts (key_of sha lossy st) [] recs kept ->
  forall k, k <> [] -> (exists r, In r recs /\ key_of sha lossy st r k) ->
  exists pre r post, kept = pre ++ r :: post /\ key_of sha lossy st r k
    /\ Forall (fun r' => ~ key_of sha lossy st r' k) (pre ++ post).
Proof.
  intros sha lossy st recs kept H k Hk Hex.
  apply (proj2 (firsts_one_aux _ _ _ _ _ _ H k Hk)); [|exact Hex]. intros r [].
Qed.

(** ** filter without edits *)

Lemma unedited_text : forall c r t, from_line r -> fc_discard c = [] -> fc_keep c = [] ->
  edited_text c r t -> br_raw r = Some t.
Proof.
  intros c r t (l & El & Tl) Ed Ek (fs & Ee & Tt).
  rewrite Ed, Ek in Ee.
  assert (E : fs = br_record r).
  { inversion Ee as [|? ? ? l1 ? E1 R1]; subst. inversion R1 as [|? ? ? l2 ? E2 R2]; subst.
    inversion R2; subst. inversion E2; subst; [|congruence]. inversion E1; subst; [|congruence]. reflexivity. }
  rewrite E in Tt. rewrite El. f_equal. destruct Tt as [[E' _]|Tt].
  - exfalso. destruct Tl as (body & Hb & _). rewrite E' in Hb. inversion Hb.
  - apply record_accept_iff in Tt, Tl. apply record_parse_write in Tt, Tl. congruence.
Qed.

(** ** print *)

Lemma print_panics : exists r l, record_text r l /\
  forall O Od tr skip name, print_run O Od tr skip open_opts [(name, l)] = Some Panicked.
Proof.
  exists [mkField (lit "003@") None [mkSubfield 48 [255]]], (lit "003@ " ++ [31; 48; 255; 30; 10]).
  split; [apply record_accept_iff; vm_compute; reflexivity|].
  intros O Od tr skip name. vm_compute. reflexivity.
Qed.

(** ** sample *)

Definition ex_line (c : byte) : bytes := lit "003@ " ++ [31; 48; c; 30; 10].
Definition ex_rec (c : byte) : byte_record := mkBR (Some (ex_line c)) [mkField (lit "003@") None [mkSubfield 48 [c]]].

Lemma ex_one_line : forall c, In c [49; 50] -> one_line (ex_rec c).
Proof.
  intros c Hc. exists (removelast (ex_line c)). split; [|split].
  - repeat (destruct Hc as [<-|Hc]; [reflexivity|]). destruct Hc.
  - repeat (destruct Hc as [<-|Hc]; [cbn; intuition discriminate|]). destruct Hc.
  - repeat (destruct Hc as [<-|Hc]; [apply record_accept_iff; vm_compute; reflexivity|]). destruct Hc.
Qed.

Lemma ex_selects : forall O Od skip name,
  selects O Od skip open_opts [(name, ex_line 49 ++ ex_line 50)] [ex_rec 49; ex_rec 50] None.
Proof.
  intros O Od skip name. apply selects_open.
  - repeat constructor; apply ex_one_line; cbn; auto.
  - exists [ex_line 49; ex_line 50]. split; [repeat constructor|reflexivity].
Qed.

Lemma sample_unfair : exists r1 r2 l1 l2, record_text r1 l1 /\ record_text r2 l2 /\ l1 <> l2 /\
  forall O Od draw skip name, (forall n, 0 < n -> draw n < n) ->
    sample_run O Od draw 1 skip open_opts [(name, l1 ++ l2)] = Some (Done l2).
Proof.
  exists (br_record (ex_rec 49)), (br_record (ex_rec 50)), (ex_line 49), (ex_line 50).
  split; [apply record_accept_iff; vm_compute; reflexivity|].
  split; [apply record_accept_iff; vm_compute; reflexivity|].
  split; [discriminate|].
  intros O Od draw skip name Hd.
  destruct (sample_run_fold O Od draw 1 skip open_opts [(name, ex_line 49 ++ ex_line 50)] (open_opts_wf O Od))
    as (recs & e & Hs & ->).
  destruct (selects_fun _ _ _ _ _ _ _ (ex_selects O Od skip name) _ _ Hs) as [<- <-].
  assert (E : draw 1 = 0) by (specialize (Hd 1 ltac:(lia)); lia).
  cbn [fold_left]. unfold sample_act. change (0 <? 1) with true. cbv iota.
  change (0 + 1) with 1. change (1 <? 1) with false. cbv iota. rewrite E. vm_compute. reflexivity.
Qed.

(** ** slice *)

Lemma ex_bad : forall r, ~ record_text r (lit "bad" ++ [10]).
Proof. intros r H. apply record_accept_iff in H. vm_compute in H. discriminate. Qed.

Lemma slice_length_skip : exists inputs recs,
  reads true inputs recs None /\
  forall O Od, exists out,
    slice_run O Od true 0 0 1 open_opts inputs = Some (Done out)
    /\ ~ exists range, index_range 0 1 recs range /\ lines_of range out.
Proof.
  exists [(lit "f", lit "bad" ++ [10] ++ ex_line 49 ++ ex_line 50)], [ex_rec 49; ex_rec 50]. split.
  - exists ([(lit "f", 1, lit "bad" ++ [10]); (lit "f", 2, ex_line 49); (lit "f", 3, ex_line 50)] ++ []). split.
    + apply (il_file (lit "f") _ [] (lit "f") [lit "bad" ++ [10]; ex_line 49; ex_line 50]).
      * right. split; [discriminate|reflexivity].
      * apply (lines_cons (lit "bad")); [cbn; intuition discriminate|].
        apply (lines_cons (removelast (ex_line 49))); [cbn; intuition discriminate|].
        apply (lines_cons (removelast (ex_line 50)) []); [cbn; intuition discriminate|]. constructor.
      * repeat constructor.
      * constructor.
    + apply seen_skip; [reflexivity|exact ex_bad|].
      apply seen_record; [apply record_accept_iff; vm_compute; reflexivity|].
      apply seen_record; [apply record_accept_iff; vm_compute; reflexivity|]. constructor.
  - intros O Od. exists (ex_line 49 ++ ex_line 50). split; [vm_compute; reflexivity|].
    intros (range & (pre & post & E & _ & HL) & ts & HF & HT).
    change (N.min (1 - 0) (N.of_nat (length [ex_rec 49; ex_rec 50]) - 0)) with 1 in HL.
    destruct range as [|x [|y range]]; cbn [length] in HL; try lia.
    inversion HF as [|? t ? ts' Ht HF']; subst. inversion HF'; subst.
    assert (Hin : In x [ex_rec 49; ex_rec 50]). { rewrite E. apply in_app_iff. right. left. reflexivity. }
    cbn [concat] in HT. rewrite app_nil_r in HT. subst t.
    destruct Hin as [<-|[<-|[]]]; discriminate.
Qed.

(** ** split *)

Lemma split_overwrites : exists inputs recs,
  reads true inputs recs None /\ (length recs = 2)%nat /\
  forall O Od, exists text, split_run O Od (lit "out") 1 true open_opts inputs = Some (Done [(lit "out", text)])
    /\ exists r, In r recs /\ br_raw r = Some text.
Proof.
  exists [(lit "f", ex_line 49 ++ ex_line 50)], [ex_rec 49; ex_rec 50]. split; [|split; [reflexivity|]].
  - apply reads_back.
    + repeat constructor; apply ex_one_line; cbn; auto.
    + exists [ex_line 49; ex_line 50]. split; [repeat constructor|reflexivity].
  - intros O Od. exists (ex_line 50). split; [vm_compute; reflexivity|].
    exists (ex_rec 50). split; [right; left; reflexivity|reflexivity].
Qed.

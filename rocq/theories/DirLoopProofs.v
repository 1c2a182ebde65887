(** * Loops that open outputs while they read *)

From Coq Require Import String.
From Verif Require IoProofs MatcherProofs MatcherSpec.
From Verif Require Import Bytes Winnow RecordModel BaseProofs TagOccModel Utf8Model ByteRecordModel ReaderModel
  MatcherModel StateParser MatcherParserModel BuilderModel PathModel FmtModel QueryModel CliModel CliSpec CliProofs
  CliCommandProofs TableModel CheckModel ConvertModel OptionsModel PrepareModel IoModel IoSpec DiskModel DiskSpec
  DiskProofs DiskEndProofs DirModel DirSpec.

(** ** What a reader gives *)

Inductive delivered : io_reader -> byte_record -> Prop :=
| dv_now : forall rd r rd', io_next_byte_record rd = (Some (inl r), rd') -> delivered rd r
| dv_later : forall rd x rd' r, io_next_byte_record rd = (Some x, rd') -> delivered rd' r -> delivered rd r.

Definition delivered_by (i : bytes * (list piece + io_kind)) (r : byte_record) : Prop :=
  match snd i with inl rs => delivered (io_reader_new rs (Some (fst i))) r | inr _ => False end.

(** a loop that collects *)
Definition collect (s : list byte_record) (r : byte_record) : step (list byte_record) := Next (s ++ [r]).

Lemma collect_fold : forall l s, fold_steps collect s l = Next (s ++ l).
Proof.
  induction l as [|r l IH]; intros s; cbn; [rewrite app_nil_r; reflexivity|]. rewrite IH, <- app_assoc. reflexivity.
Qed.

Lemma collect_reader : forall fuel s rd s',
  io_reader_loop (fun s => s) (fun s r => as_io (collect s r)) true fuel s rd = Some (IDone s') ->
  incl s s' /\ forall r, delivered rd r -> In r s'.
Proof.
  induction fuel as [|fuel IH]; intros s rd s' H; cbn [io_reader_loop] in H; [discriminate|].
  destruct (io_next_byte_record rd) as [[[r0|e]|] rd'] eqn:E.
  - cbn in H. apply IH in H as [H1 H2]. split; [intros x Hx; apply H1; apply in_or_app; left; exact Hx|].
    intros r D. inversion D as [rd0 r1 rd1 E1|rd0 x rd1 r1 E1 D1]; subst.
    + rewrite E in E1. injection E1 as -> ->. apply H1. apply in_or_app. right. left. reflexivity.
    + rewrite E in E1. injection E1 as <- <-. apply H2. exact D1.
  - destruct (pica_skip e true); [|discriminate]. apply IH in H as [H1 H2]. split; [exact H1|].
    intros r D. inversion D as [rd0 r1 rd1 E1|rd0 x rd1 r1 E1 D1]; subst; rewrite E in E1; [discriminate|].
    injection E1 as <- <-. apply H2. exact D1.
  - injection H as ->. split; [intros x Hx; exact Hx|].
    intros r D. inversion D as [rd0 r1 rd1 E1|rd0 x rd1 r1 E1 D1]; subst; rewrite E in E1; discriminate.
Qed.

Lemma collect_files : forall files s s',
  io_files_loop (fun s => s) (fun s r => as_io (collect s r)) true s files = Some (IDone s') ->
  incl s s' /\ forall i r, In i files -> delivered_by i r -> In r s'.
Proof.
  induction files as [|[name [rs|k]] files IH]; intros s s' H; cbn [io_files_loop] in H; cbv zeta in H.
  - injection H as ->. split; [intros x Hx; exact Hx|]. intros i r [].
  - destruct (io_reader_loop _ _ _ _ _ _) as [[s1|s1|s1 e|]|] eqn:E; try discriminate.
    apply collect_reader in E as [E1 E2]. apply IH in H as [H1 H2]. split.
    + intros x Hx. apply H1, E1, Hx.
    + intros i r [<-|Hi] D; [apply H1, E2, D|eapply H2; eassumption].
  - discriminate.
Qed.

Lemma delivered_reads : forall gz_dec d stdin names cs all e, available gz_dec d stdin names cs -> reads true cs all e ->
  forall i r, In i (inputs gz_dec d stdin names) -> delivered_by i r -> In r all.
Proof.
  intros gz_dec d stdin names cs all e Ha (ls & Hl & Hs).
  pose proof (available_loop _ _ _ _ _ _ _ _ _ _ [] (IoProofs.on_result_body _ collect true) Ha) as E.
  rewrite (files_loop_fold _ _ _ _ Hl), (fold_seen _ _ _ _ _ _ Hs), collect_fold in E.
  assert (He : e = None).
  { clear -Hs. remember true as skip eqn:Es. induction Hs; auto. congruence. }
  subst e. cbn in E. apply collect_files in E as [_ E]. exact E.
Qed.

(** ** Invariants *)

(** what holds of the state of an end *)
Definition end_holds {S} (P : S -> Prop) (x : io_ending S) : Prop :=
  match x with IDone s | IStopped s | IFailed s _ => P s | IPanicked => True end.

Section Invariant.
  Context {S : Type}.
  Variable P : S -> Prop.
  Variable body : S -> byte_record -> io_ending S.
  Variable skip : bool.
  Hypothesis HP : forall s r, P s -> end_holds P (body s r).

  Lemma reader_invariant : forall fuel s rd x, P s ->
    io_reader_loop (fun s => s) body skip fuel s rd = Some x -> end_holds P x.
  Proof.
    induction fuel as [|fuel IH]; intros s rd x Hs H; cbn [io_reader_loop] in H; [discriminate|].
    destruct (io_next_byte_record rd) as [[[r|e]|] rd'].
    - pose proof (HP s r Hs) as Hb. destruct (body s r) as [s'|s'|s' e|]; [eapply IH; eassumption|injection H as <-; exact Hb..].
    - destruct (pica_skip e skip); [eapply IH; eassumption|]. injection H as <-. exact Hs.
    - injection H as <-. exact Hs.
  Qed.

  Lemma files_invariant : forall files s x, P s -> io_files_loop (fun s => s) body skip s files = Some x -> end_holds P x.
  Proof.
    induction files as [|[name [rs|k]] files IH]; intros s x Hs H; cbn [io_files_loop] in H; cbv zeta in H.
    - injection H as <-. exact Hs.
    - destruct (io_reader_loop _ _ _ _ _ _) as [y|] eqn:E; [|discriminate]. pose proof (reader_invariant _ _ _ _ Hs E) as Hy.
      destruct y as [s'|s'|s' e|]; [eapply IH; eassumption|injection H as <-; exact Hy..].
    - injection H as <-. exact Hs.
  Qed.

  Lemma live_invariant : forall gz_dec view names s stdin x, P s ->
    live_files_loop gz_dec view body skip s stdin names = Some x -> end_holds P x.
  Proof.
    intros gz_dec view. induction names as [|n names IH]; intros s stdin x Hs H; cbn [live_files_loop] in H.
    - injection H as <-. exact Hs.
    - destruct (io_files_loop _ _ _ _ _) as [y|] eqn:E; [|discriminate]. pose proof (files_invariant _ _ _ Hs E) as Hy.
      destruct y as [s'|s'|s' e|]; [eapply IH; eassumption|injection H as <-; exact Hy..].
  Qed.
End Invariant.

(** ** Simulation *)

Definition end_rel {S1 S2} (R : S1 -> S2 -> Prop) (x : io_ending S1) (y : io_ending S2) : Prop :=
  match x, y with
  | IDone a, IDone b | IStopped a, IStopped b => R a b
  | IFailed a e, IFailed b e' => R a b /\ e = e'
  | IPanicked, IPanicked => True
  | _, _ => False
  end.

Section Simulation.
  Context {S1 S2 : Type}.
  Variable R : S1 -> S2 -> Prop.
  Variable Q : byte_record -> Prop.
  Variable body1 : S1 -> byte_record -> io_ending S1.
  Variable body2 : S2 -> byte_record -> io_ending S2.
  Variable skip : bool.
  Hypothesis HR : forall a b r, Q r -> R a b -> end_rel R (body1 a r) (body2 b r).

  Definition opt_rel (x : option (io_ending S1)) (y : option (io_ending S2)) : Prop :=
    match x, y with Some x, Some y => end_rel R x y | None, None => True | _, _ => False end.

  Lemma reader_sim : forall fuel a b rd, (forall r, delivered rd r -> Q r) -> R a b ->
    opt_rel (io_reader_loop (fun s => s) body1 skip fuel a rd) (io_reader_loop (fun s => s) body2 skip fuel b rd).
  Proof.
    induction fuel as [|fuel IH]; intros a b rd HQ Hab; cbn [io_reader_loop]; [exact I|].
    destruct (io_next_byte_record rd) as [[[r|e]|] rd'] eqn:E.
    - assert (Qr : Q r) by (apply HQ; eapply dv_now; exact E).
      pose proof (HR a b r Qr Hab) as Hb.
      assert (HQ' : forall r, delivered rd' r -> Q r) by (intros r' D; apply HQ; eapply dv_later; eassumption).
      destruct (body1 a r) as [a'|a'|a' e|], (body2 b r) as [b'|b'|b' e'|]; cbn in Hb; try contradiction;
        first [apply IH; assumption|exact Hb].
    - destruct (pica_skip e skip); [|cbn; auto].
      apply IH; [|exact Hab]. intros r' D. apply HQ. eapply dv_later; eassumption.
    - exact Hab.
  Qed.

  Lemma files_sim : forall files a b, (forall i r, In i files -> delivered_by i r -> Q r) -> R a b ->
    opt_rel (io_files_loop (fun s => s) body1 skip a files) (io_files_loop (fun s => s) body2 skip b files).
  Proof.
    induction files as [|[name [rs|k]] files IH]; intros a b HQ Hab; cbn [io_files_loop]; cbv zeta.
    - exact Hab.
    - match goal with |- context [io_reader_loop _ body1 _ ?f _ ?rd] =>
        pose proof (reader_sim f a b rd (fun r D => HQ (name, inl rs) r (or_introl eq_refl) D) Hab) as Hr end.
      destruct (io_reader_loop _ body1 _ _ _ _) as [[a'|a'|a' e|]|], (io_reader_loop _ body2 _ _ _ _) as [[b'|b'|b' e'|]|];
        cbn in Hr; try contradiction; auto.
      apply IH; [|exact Hr]. intros i r Hi. apply HQ. right. exact Hi.
    - split; [exact Hab|reflexivity].
  Qed.

  (** the outputs are not among the inputs: the files read are those of the
      beginning *)
  Lemma live_sim : forall gz_dec view d0 names a b stdin,
    (forall a b, R a b -> forall n, In n names -> disk_get (view a) n = disk_get d0 n) ->
    (forall i r, In i (inputs gz_dec d0 stdin names) -> delivered_by i r -> Q r) -> R a b ->
    opt_rel (live_files_loop gz_dec view body1 skip a stdin names)
            (io_files_loop (fun s => s) body2 skip b (inputs gz_dec d0 stdin names)).
  Proof.
    intros gz_dec view d0. induction names as [|n names IH]; intros a b stdin HV HQ Hab; cbn [live_files_loop].
    - exact Hab.
    - rewrite (inputs_same gz_dec [n] d0).
      2:{ intros m [<-|[]]. apply (HV _ _ Hab). left. reflexivity. }
      set (stdin' := if bytes_eqb n (lit "-") then [] else stdin).
      assert (E : inputs gz_dec d0 stdin (n :: names)
                  = inputs gz_dec d0 stdin [n] ++ inputs gz_dec d0 stdin' names).
      { unfold stdin'. cbn [inputs]. destruct (bytes_eqb n (lit "-")); reflexivity. }
      rewrite E in HQ |- *.
      assert (El : exists i, inputs gz_dec d0 stdin [n] = [i]).
      { cbn [inputs]. destruct (bytes_eqb n (lit "-")); eexists; reflexivity. }
      destruct El as [i El]. rewrite El in HQ |- *.
      pose proof (files_sim [i] a b (fun j r Hj => HQ j r (in_or_app _ _ _ (or_introl Hj))) Hab) as Hf.
      assert (Ea : io_files_loop (fun s => s) body2 skip b ([i] ++ inputs gz_dec d0 stdin' names)
                   = match io_files_loop (fun s => s) body2 skip b [i] with
                     | Some (IDone b') => io_files_loop (fun s => s) body2 skip b' (inputs gz_dec d0 stdin' names)
                     | other => other
                     end).
      { destruct i as [name [rs|k]]; cbn [app io_files_loop]; cbv zeta; [|reflexivity].
        destruct (io_reader_loop _ body2 _ _ _ _) as [[b'|b'|b' e'|]|]; reflexivity. }
      rewrite Ea. clear Ea.
      destruct (io_files_loop _ body1 _ _ _) as [[a'|a'|a' e|]|], (io_files_loop _ body2 _ _ [i]) as [[b'|b'|b' e'|]|];
        cbn in Hf; try contradiction; auto.
      apply IH; [|intros j r Hj; apply HQ; apply in_or_app; right; exact Hj|exact Hf].
      intros x y Hxy m Hm. apply (HV x y Hxy). right. exact Hm.
  Qed.
End Simulation.

(** ** Names *)

Lemma ends_slash : forall d, Bytes.ends_with d [47] = true <-> exists d', d = d' ++ [47].
Proof.
  intros d. rewrite MatcherProofs.ends_with_iff. unfold MatcherSpec.is_suffix. split; intros (x & ->); exists x; reflexivity.
Qed.

Lemma path_join_joined : forall dir p, joined dir p (path_join dir p).
Proof.
  intros dir p. destruct p as [|c p'] eqn:Ep.
  - cbn. destruct dir as [|x dir]; [apply jn_empty; [discriminate|reflexivity]|].
    destruct (Bytes.ends_with (x :: dir) [47]) eqn:E.
    + apply ends_slash in E as (d & E). apply jn_slash with d; [discriminate|exact E].
    + apply jn_plain; [discriminate..|]. intros d Ed. rewrite (proj2 (ends_slash _) (ex_intro _ d Ed)) in E. discriminate.
  - destruct (N.eq_dec c 47) as [->|Hc]; [apply jn_absolute with p'; reflexivity|].
    assert (Hq : forall q, c :: p' <> 47 :: q) by (intros q E; injection E as -> _; contradiction).
    replace (path_join dir (c :: p')) with (match dir with
         | [] => c :: p'
         | _ => if Bytes.ends_with dir [47] then dir ++ c :: p' else dir ++ 47 :: c :: p'
         end).
    2:{ destruct c as [|c]; [reflexivity|]. unfold path_join.
        do 6 (destruct c as [c|c|]; try reflexivity). contradiction. }
    destruct dir as [|x dir]; [apply jn_empty; [exact Hq|reflexivity]|].
    destruct (Bytes.ends_with (x :: dir) [47]) eqn:E.
    + apply ends_slash in E as (d & E). apply jn_slash with d; [exact Hq|exact E].
    + apply jn_plain; [exact Hq|discriminate|].
      intros d Ed. rewrite (proj2 (ends_slash _) (ex_intro _ d Ed)) in E. discriminate.
Qed.

Lemma joined_fun : forall dir p a b, joined dir p a -> joined dir p b -> a = b.
Proof.
  intros dir p a b Ha Hb. destruct Ha as [q E|H E|d H E|H E1 E2]; destruct Hb as [q' E'|H' E'|d' H' E'|H' E1' E2'];
    try reflexivity; exfalso;
    first [eapply H'; eassumption|eapply H; eassumption|eapply E2'; eassumption|eapply E2; eassumption
          |subst dir; destruct d'; discriminate|subst dir; destruct d; discriminate|congruence].
Qed.

Definition absolute (p : bytes) : Prop := exists q, p = 47 :: q.

Lemma joined_inj : forall dir p q n, joined dir p n -> joined dir q n -> (absolute p <-> absolute q) -> p = q.
Proof.
  intros dir p q n Hp Hq A. revert Hq.
  destruct Hp as [p' E|H E|d H E|H E1 E2];
    [remember p as m eqn:Em|remember p as m eqn:Em|remember (dir ++ p) as m eqn:Em|remember (dir ++ [47] ++ p) as m eqn:Em];
    intros Hq; destruct Hq as [q' E'|H' E'|d' H' E'|H' E1' E2'].
  all: try (exfalso; destruct A as [A1 A2];
      first [ destruct (A1 (ex_intro _ _ E)) as [x Hx]; exact (H' x Hx)
            | destruct (A2 (ex_intro _ _ E')) as [x Hx]; exact (H x Hx) ]).
  all: try (exfalso; first [eapply E2'; eassumption|eapply E2; eassumption
          |subst dir; destruct d'; discriminate|subst dir; destruct d; discriminate|congruence]).
  all: try (apply app_inv_head in Em; congruence).
  1-2: reflexivity. apply app_inv_head in Em. injection Em as Em. auto.
Qed.

(** * Commands one after the other *)

From Coq Require Import String.
From Verif Require QueryProofs.
From Verif Require Import Bytes RecordModel BaseProofs ByteRecordModel ReaderModel MatcherModel MatcherSpec CliModel CliSpec CliProofs CliCommandProofs
  CliOutputProofs GrammarSpec OptionsModel QuerySpec PrepareModel PrepareSpec IoModel IoSpec WriteSpec DiskModel DirModel DiskSpec DirSpec
  DiskProofs DiskCommandProofs DiskEndProofs DiskFullProofs DirLoopProofs DirSplitProofs EndSpec.

Section Round.
  Variable gz_enc : bytes -> bytes.
  Variable gz_dec : bytes -> list piece.
  Variable writable : bytes -> bool.
  Variables O Od : oracles.
  Variable transform : bytes -> bytes.
  Variable sha : bytes -> bytes.
  Variable lossy : bytes -> bytes.

  Lemma split_concat : forall a M V gzip outdir template size skip skip' names w cs recs e m,
    gz_first gz_enc gz_dec ->
    regexes_compile O (oa_ci a) -> regexes_compile Od false -> opts_say O Od true transform a M V ->
    placeholder template -> 1 <= size ->
    (forall k n, chunk_file template gzip outdir k n ->
       writable n = true /\ ~ In n names /\ n <> m /\ (gzip = true -> gz_extension n)) ->
    writable m = true ->
    available gz_dec (w_disk w) (w_stdin w) names cs ->
    opts_records a M V skip cs recs e -> N.of_nat (length recs) <= 4294967296 ->
    exists files w1 w2 text, lines_of recs text
      /\ (forall k n, nth_error files k = Some n -> chunk_file template gzip outdir (N.of_nat k) n)
      /\ split_on_disk gz_enc gz_dec writable O Od transform a gzip outdir true template size skip names w = Some (CEnded (status_of e), w1)
      /\ concat_on_disk gz_enc gz_dec writable O sha lossy false (Some m) None None skip' files w1 = Some (CEnded 0, w2)
      /\ reads_as gz_dec (w_disk w2) m text.
  Proof.
    intros a M V gzip outdir template size skip skip' names w cs recs e m Hg R Rd Hs Hp H1 Hf Hm Ha Hr Hl.
    destruct (split_disk_accepted gz_enc gz_dec writable O Od transform a M V gzip outdir template size skip names w cs recs e R Rd Hs Hp H1)
      as (chunks & fs & w1 & Hc & Ht & E1 & Ho); [intros k n Hk; destruct (Hf k n Hk) as (A & B & _); auto|assumption..|].
    pose proof (proj1 Hc) as Ec.
    assert (Hn : forall k n, nth_error (map fst fs) k = Some n -> chunk_file template gzip outdir (N.of_nat k) n).
    { intros k n E. rewrite nth_error_map in E. destruct (nth_error fs k) as [[n' text]|] eqn:Ef; [|discriminate].
      cbn in E. injection E as ->. destruct Ht as (Lt & _ & Ht). destruct (nth_error chunks k) as [c|] eqn:Ek.
      - apply (Ht k c n text Ek Ef).
      - apply nth_error_None in Ek. assert (k < length fs)%nat by (apply nth_error_Some; congruence). lia. }
    assert (Hi : forall n, In n (map fst fs) -> exists k, chunk_file template gzip outdir k n).
    { intros n Hin. apply In_nth_error in Hin as [k Hk]. eauto. }
    assert (Hx : forall n text, In (n, text) fs -> n <> lit "-" /\ (gzip = true -> gz_extension n)).
    { intros n text Hin. destruct (Hi n) as [k Hk]; [apply in_map_iff; exists (n, text); auto|].
      split; [eapply chunk_not_stdin; eassumption|]. apply (Hf k n Hk). }
    pose proof (files_available gz_enc gz_dec gzip fs w w1 (w_stdin w1) Hg Hx Ho) as Hav.
    assert (O1 : Forall one_line (concat chunks)).
    { rewrite Ec. destruct Hr as (all & sel & e0 & R1 & R2 & R3). apply reads_one_line in R1.
      rewrite Forall_forall in *. intros r Hr. apply R1. apply (limited_incl _ _ _ _ _ _ R3) in Hr. apply (QueryProofs.picks_id_In _ _ _ _ R2) in Hr. apply Hr. }
    pose proof (reads_chunks template gzip outdir skip' chunks fs O1 Ht) as Hrd.
    destruct (concat_plain O sha lossy skip' fs) as (recs' & e' & out & P1 & P2 & P3).
    destruct (reads_fun _ _ _ _ Hrd _ _ P1) as [<- <-]. rewrite Ec in P2.
    assert (Y : yields gz_enc writable (concat_on_disk gz_enc gz_dec writable O sha lossy false (Some m) None None skip' (map fst fs) w1)
                  (status_of None) (map (fun o => (builder_output (mkWB false false) o, out)) [Some m]) w1).
    { apply (concat_texts gz_enc gz_dec writable O sha lossy false (Some m) None None skip' (map fst fs) w1 fs [] out None Hav); [discriminate| |exact P3].
      intros n [<-|[]] Hin. destruct (Hi _ Hin) as [k Hk]. destruct (Hf k _ Hk) as (_ & _ & N & _). congruence. }
    destruct Y as [_ Y].
    destruct Y as (w2 & E2 & Rc); [intros n [<-|[]]; exact Hm|].
    exists (map fst fs), w1, w2, out. split; [exact P2|]. split; [exact Hn|]. split; [exact E1|]. split; [exact E2|].
    eapply read_back; [exact Hg|exact Rc|left; reflexivity|reflexivity|reflexivity|reflexivity].
  Qed.
End Round.

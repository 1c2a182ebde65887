(** * Proofs about the tables of hash *)

From Coq Require Import String ZArith Lia.
From Verif Require Import Bytes BaseProofs Winnow RecordModel TagOccModel Utf8Model ByteRecordModel ReaderModel
  MatcherModel StateParser MatcherParserModel BuilderModel PathModel FmtModel QueryModel CliModel TableModel
  ExplodeModel CheckModel ConvertModel CsvModel CsvSpec CsvProofs OptionsModel OptionsSpec ConfigModel PrepareModel IoModel IoSpec WriteSpec DiskModel DirModel RuleModel
  MainModel DiskSpec RuleSpec MainSpec PipeSpec FrontRunProofs PartsSpec TitledProofs FewerProofs StyledProofs.
From Verif Require RunSpec RunProofs.

Section Digest.
  Variables h1 h2 : list bytes.
  Hypothesis El : length h1 = length h2.

  Definition digested (a b : N * list (list bytes) * bool) : Prop :=
    fst (fst a) = fst (fst b) /\ snd a = false /\ snd b = false /\ exists rs, snd (fst a) = h1 :: rs /\ snd (fst b) = h2 :: rs /\ cells_there rs.

  Lemma digested_body : forall O Od sha lossy o a b r, digested a b ->
    follows digested (with_refused snd (hash_csv_body O Od sha lossy o a r)) (with_refused snd (hash_csv_body O Od sha lossy o b r)).
  Proof.
    intros O Od sha lossy o [[n rows1] f1] [[n2 rows2] f2] r H. unfold hash_csv_body, guarded.
    destruct (opts_select O Od o (br_record r)) as [[|]|]; [|eexists; split; [reflexivity|exact H]|exact I].
    destruct H as (H1 & H2 & H3 & rs & H4 & H5 & H6). cbn [fst snd] in *. subst n2 f1 f2 rows1 rows2.
    destruct (record_ppn O (br_record r)) as [ppn|]; [|exact I]. cbv zeta. cbn [csv_write]. rewrite <- El.
    destruct (_ =? _)%nat.
    - destruct (limit_reached _ _); cbn; (eexists; split; [reflexivity|]); unfold digested; cbn [fst snd]; (split; [reflexivity|split; [reflexivity|split; [reflexivity|]]]);
        (eexists; split; [reflexivity|split; [reflexivity|]]); apply Forall_app; (split; [exact H6|repeat constructor; discriminate]).
    - cbn. intros X. discriminate.
  Qed.
End Digest.

Lemma run_digests : forall e cfg w o tsv1 tsv2 h1 h2 names t, length (split_on 44 h1) = length (split_on 44 h2) ->
  (forall v, e_numeric e v = true -> Forall (plain_byte 44) v /\ Forall (plain_byte 9) v) ->
  run_writes e cfg w (KHash o None tsv1 h1 names) t ->
  exists rows t', csv_rows (if tsv1 : bool then 9 else 44) (map str_trim (split_on 44 h1) :: rows) t
    /\ csv_rows (if tsv2 : bool then 9 else 44) (map str_trim (split_on 44 h2) :: rows) t'
    /\ run_writes e cfg w (KHash o None tsv2 h2 names) t'.
Proof.
  intros e cfg w o tsv1 tsv2 h1 h2 names t El Hv (w1 & H & T).
  assert (Hq : QNecessary <> QNever) by discriminate.
  assert (Hv1 : forall v, e_numeric e v = true -> Forall (plain_byte (if tsv1 : bool then 9 else 44)) v) by (intros v X; destruct tsv1; apply Hv; exact X).
  assert (Hv2 : forall v, e_numeric e v = true -> Forall (plain_byte (if tsv2 : bool then 9 else 44)) v) by (intros v X; destruct tsv2; apply Hv; exact X).
  destruct (fun X => RunProofs.run_ended _ _ _ _ _ X H) as (cf & Hset & He); [reflexivity|].
  set (k2 := KHash o None tsv2 h2 names).
  assert (RS := RunProofs.run_settings e (mkInvocation cfg k2) w cf eq_refl (settings_same e cfg _ k2 w w cf eq_refl Hset)).
  unfold run_writes. rewrite RS. cbn [in_command k2 execute] in *. unfold hash_on_disk in *. cbv zeta in *.
  destruct (fst (opts_prepare _ _ _ _)) as [[op|]|]; [|discriminate|discriminate]. cbn [prepared] in *.
  cbn [open_all open_output out_name app] in *. rewrite world_eta in *. unfold process_all in *. cbn [fst snd] in *.
  set (g1 := map str_trim (split_on 44 h1)) in *. set (g2 := map str_trim (split_on 44 h2)) in *.
  assert (Eg : length g1 = length g2) by (unfold g1, g2; rewrite !map_length; exact El).
  assert (G1 := header_there (Some h1)). assert (G2 := header_there (Some h2)). cbn [option_map csv_header] in G1, G2. fold g1 in G1. fold g2 in G2.
  match type of He with context [io_files_loop _ ?b ?k ?s0 ?fs] => set (b1 := b) in *; set (files := fs) in *; set (sk := k) in *; set (s1 := s0) in * end.
  match goal with |- context [io_files_loop _ _ _ ?s0 _] => set (s2 := s0) in * end.
  assert (HR : forall x y r, digested g1 g2 x y -> follows (digested g1 g2) (b1 x r) (b1 y r)) by (intros x y r Hxy; apply digested_body; assumption).
  destruct (io_files_loop (fun s => s) b1 sk s1 files) as [x|] eqn:E; [|discriminate].
  assert (Hx : main_status x = Some 0).
  { destruct x as [s0|s0|s0 er|]; cbn [main_status] in *; try reflexivity; [|discriminate]. destruct er as [|[]| |]; try discriminate; reflexivity. }
  destruct (files_follow (digested g1 g2) b1 b1 sk HR files s1 s2 x) as (y & Ey & F).
  { unfold digested. cbn. repeat (split; [reflexivity|]). exists []. repeat (split; [reflexivity|]). constructor. }
  { exact E. }
  { exact Hx. }
  rewrite Ey.
  destruct x as [u|u|u er|]; cbn [follows] in F; [| |specialize (F Hx)|discriminate]; destruct F as (v & -> & _ & _ & _ & rs & F1 & F2 & F3); exists rs.
  3: rewrite Hx in He; change (main_status (IFailed u er)) with (main_status (IFailed v er)) in Hx; rewrite Hx.
  all: cbn [main_status] in *; injection He as <-; cbn [map fst snd close_all close_output out_name with_disk w_stdout] in T |- *.
  all: exists (csv_text (e_numeric e) QNecessary (csv_delim tsv2) (g2 :: rs)); rewrite F1 in T; rewrite F2.
  all: apply app_inv_head in T; rewrite <- T.
  all: inversion G1; inversion G2; subst.
  all: (split; [apply (csv_text_rows _ _ _ Hq Hv1); constructor; assumption|]); (split; [apply (csv_text_rows _ _ _ Hq Hv2); constructor; assumption|]).
  all: eexists; split; reflexivity.
Qed.

(** * Properties of inputs dealt out to several runs *)

From Coq Require Import String.
From Verif Require Import Bytes BaseProofs RecordModel MatcherModel BuilderModel CliModel CsvModel ConvertModel OptionsModel IoModel DiskModel MainModel QuerySpec MainSpec PipeSpec
  LimitSpec PartsSpec DealtSpec DealtProofs PropertiesDisk PropertiesMain PropertiesFront PropertiesRecordwise.

(** ** C137: filter and filter --invert-match deal out the records

    Every valid record that concat writes is written by exactly one of "pica filter W" and "pica filter -v W", and both keep the order. *)
Theorem C137_dealt : forall e cfg o W names w t1 t2, o_limit o = 0 -> o_allow o = [] -> o_deny o = [] ->
  run_writes e cfg w (sifted o W false names) t1 -> run_writes e cfg w (sifted o W true names) t2 ->
  exists t, run_writes e cfg w (concat_part (o_skip o) None names) t /\ dealt t1 t2 t.
Proof. exact run_sifted. Qed.
Print Assumptions C137_dealt.

Example C137_sample : exists t, run_writes main_env None wise_world (concat_part false None [lit "b.dat"; lit "-"]) t
  /\ dealt (main_line "1" (lit "x") umlaut ++ main_line "3" (lit "xz") []) (main_line "2" (lit "y") umlaut) t.
Proof.
  apply (C137_dealt main_env None no_opts (lit "012A.a =^ 'x'") [lit "b.dat"; lit "-"]); try reflexivity;
    (eexists; split; [vm_compute; reflexivity|reflexivity]).
Qed.

(** With an allow list, a record that is not on it is written by neither. *)
Definition dealt_world : world :=
  mkWorld [(lit "b.dat", main_line "1" (lit "x") umlaut ++ main_line "2" (lit "y") umlaut); (lit "l.csv", lit "ppn" ++ [10] ++ lit "1" ++ [10])] [] [].
Definition dealt_opts : file_opts := mkFileOpts false 0 false 80 [lit "l.csv"] [] None None None [] [] [].

Theorem C137_allow_refuted : exists e cfg o W names w t1 t2 t, o_limit o = 0 /\ o_deny o = []
  /\ run_writes e cfg w (sifted o W false names) t1 /\ run_writes e cfg w (sifted o W true names) t2
  /\ run_writes e cfg w (concat_part (o_skip o) None names) t /\ (length t1 + length t2 < length t)%nat.
Proof.
  exists main_env, None, dealt_opts, (lit "012A.a =^ 'x'"), [lit "b.dat"], dealt_world. do 3 eexists.
  split; [reflexivity|]. split; [reflexivity|].
  split; [eexists; split; [vm_compute; reflexivity|reflexivity]|]. split; [eexists; split; [vm_compute; reflexivity|reflexivity]|].
  split; [eexists; split; [vm_compute; reflexivity|reflexivity]|]. vm_compute. repeat constructor.
Qed.
Print Assumptions C137_allow_refuted.

(** ** C138: slices put together

    Where the records are cut, the slices after each other are the records again. *)
Theorem C138_all : forall e cfg skip names w t cuts, in_order 0 cuts -> N.of_nat (length t) <= usize_max ->
  run_writes e cfg w (concat_part skip None names) t ->
  exists ts, Forall2 (fun p u => run_writes e cfg w (slice_of skip false false None (fst p) (snd p) 0 names) u) (cut_at 0 cuts) ts /\ concat ts = t.
Proof. exact run_cuts_all. Qed.
Print Assumptions C138_all.

Theorem C138_two : forall e cfg skip a b c names w t, 0 < b -> b <= usize_max -> a <= b -> c = 0 \/ b <= c ->
  run_writes e cfg w (concat_part skip None names) t ->
  exists t1 t2, run_writes e cfg w (slice_of skip false false None a b 0 names) t1 /\ run_writes e cfg w (slice_of skip false false None b c 0 names) t2
    /\ run_writes e cfg w (slice_of skip false false None a c 0 names) (t1 ++ t2).
Proof. exact run_cut. Qed.
Print Assumptions C138_two.

Example C138_sample : exists t ts, run_writes main_env None wise_world (concat_part false None [lit "b.dat"; lit "-"]) t
  /\ cut_at 0 [1; 2] = [(0, 1); (1, 2); (2, 0)]
  /\ Forall2 (fun p u => run_writes main_env None wise_world (slice_of false false false None (fst p) (snd p) 0 [lit "b.dat"; lit "-"]) u) (cut_at 0 [1; 2]) ts
  /\ concat ts = t /\ t = main_line "1" (lit "x") umlaut ++ main_line "2" (lit "y") umlaut ++ main_line "3" (lit "xz") [].
Proof.
  assert (H : run_writes main_env None wise_world (concat_part false None [lit "b.dat"; lit "-"])
    (main_line "1" (lit "x") umlaut ++ main_line "2" (lit "y") umlaut ++ main_line "3" (lit "xz") [])) by (eexists; split; [vm_compute; reflexivity|reflexivity]).
  destruct (fun O L => C138_all main_env None false [lit "b.dat"; lit "-"] wise_world _ [1; 2] O L H) as (ts & F & E).
  { cbn [in_order]. unfold usize_max. repeat split; discriminate. }
  { intros X. vm_compute in X. discriminate. }
  eexists. exists ts. split; [exact H|]. split; [reflexivity|]. split; [exact F|]. split; [exact E|reflexivity].
Qed.

(** --end 0 is no end: a cut at 0 does not give an empty first slice, and the records are written twice. *)
Theorem C138_zero_refuted : exists e cfg names w t t1 t2, run_writes e cfg w (concat_part false None names) t
  /\ run_writes e cfg w (slice_of false false false None 0 0 0 names) t1 /\ run_writes e cfg w (slice_of false false false None 0 0 0 names) t2 /\ t1 ++ t2 <> t.
Proof.
  exists main_env, None, [lit "b.dat"], main_world. do 3 eexists. do 3 (split; [eexists; split; [vm_compute; reflexivity|reflexivity]|]). vm_compute. discriminate.
Qed.
Print Assumptions C138_zero_refuted.

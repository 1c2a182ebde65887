(** * Pipes: C118 *)

From Coq Require Import String Permutation.
From Verif Require DiskEndProofs DirCommandProofs.
From Verif Require Import Bytes CliModel DiskModel MainModel DiskSpec MainSpec PipeSpec PipeProofs PipeInProofs PropertiesMain.

(** ** C118: a pipe does what a file in between does

    What a command writes to stdout is what it writes to a file that is given with
    --output, and its end is the same.  The name of the file must not ask for
    compression or for another kind of report, and the file must not be used
    otherwise. *)
Theorem C118_output : forall e cfg k m w x v, to_stdout k = true -> e_writable e m = true -> plain m ->
  ~ In m (output_names k) -> ~ needs e (mkInvocation cfg k) w m -> run e (mkInvocation cfg k) w = Some (x, v) ->
  exists v', run e (mkInvocation cfg (with_output m k)) w = Some (x, v')
    /\ (forall n, n <> m -> disk_get (w_disk v') n = disk_get (w_disk v) n) /\ w_stdout v' = w_stdout w
    /\ (forall st, x = CEnded st -> redirected m (appends k) w v v').
Proof. exact run_move. Qed.
Print Assumptions C118_output.

(** A command that reads "-" does what it does with a file in which the same is,
    whatever comes from stdin then. *)
Theorem C118_input : forall e cfg k m a b w other x v, m <> lit "-" -> ~ gz_extension m ->
  ~ In (lit "-") a -> ~ In (lit "-") b -> input_names k = a ++ lit "-" :: b -> expression_free k ->
  ~ may_change e (mkInvocation cfg k) m -> disk_get (w_disk w) m = Some (w_stdin w) ->
  run e (mkInvocation cfg k) w = Some (x, v) ->
  run e (mkInvocation cfg (with_inputs (a ++ m :: b) k)) (fed other w) = Some (x, fed other v).
Proof. exact run_fed. Qed.
Print Assumptions C118_input.

(** One command writes to stdout, and the other one reads this from stdin: they end
    and do to all files but [m] what they do if [m] is in between. *)
Theorem C118_pipe : forall e1 e2 cfg1 cfg2 k1 k2 m a b w s1 s2 st w1 t x w2,
  (forall l, Permutation (e_writer_order e2 l) l) ->
  to_stdout k1 = true -> e_writable e1 m = true -> plain m -> m <> lit "-" ->
  disk_get (w_disk w) m = None \/ appends k1 = false ->
  ~ In m (output_names k1) -> ~ needs e1 (mkInvocation cfg1 k1) (fed s1 w) m ->
  input_names k2 = a ++ lit "-" :: b -> ~ In (lit "-") a -> ~ In (lit "-") b -> expression_free k2 ->
  ~ may_change e2 (mkInvocation cfg2 k2) m -> ~ needs e2 (mkInvocation cfg2 k2) (mkWorld (w_disk w1) t (w_stdout w)) m ->
  run e1 (mkInvocation cfg1 k1) (fed s1 w) = Some (CEnded st, w1) -> w_stdout w1 = w_stdout w ++ t ->
  run e2 (mkInvocation cfg2 k2) (mkWorld (w_disk w1) t (w_stdout w)) = Some (x, w2) ->
  exists w', session [(e1, mkInvocation cfg1 (with_output m k1), s1); (e2, mkInvocation cfg2 (with_inputs (a ++ m :: b) k2), s2)] w
               = Some ([CEnded st; x], w')
    /\ (forall n, n <> m -> disk_get (w_disk w') n = disk_get (w_disk w2) n)
    /\ w_stdout w' = w_stdout w2 /\ disk_get (w_disk w') m = Some t.
Proof. exact run_pipe. Qed.
Print Assumptions C118_pipe.

(** ** Samples *)

(** filter | count *)
Definition pipe_filter : command :=
  KFilter no_opts (mkFilterOnly (lit "012A.a == 'x'") None false None None) false false None None [lit "b.dat"].
Definition pipe_count : command := KCount no_opts false None MRecords [lit "-"].

Lemma filter_needs : forall w n, needs main_env (mkInvocation None pipe_filter) w n -> n = lit "home.toml" \/ n = lit "b.dat".
Proof.
  intros w n [n' E|n' H].
  - injection E as <-. left. reflexivity.
  - destruct H as [m Hi|o m Ho Hl|o f ap gz out' tee ns x m E Ex|o rules fi ts out' ns m E|o rules fi ts out' ns r b nf v m E]; try discriminate.
    + destruct Hi as [<-|[]]. right. reflexivity.
    + injection Ho as <-. destruct Hl as [[]|[]].
    + injection E as <- <- <- <- <- <- <-. discriminate.
Qed.
Lemma count_needs : forall w n, needs main_env (mkInvocation None pipe_count) w n -> n = lit "home.toml" \/ n = lit "-".
Proof.
  intros w n [n' E|n' H].
  - injection E as <-. left. reflexivity.
  - destruct H as [m Hi|o m Ho Hl|o f ap gz out' tee ns x m E Ex|o rules fi ts out' ns m E|o rules fi ts out' ns r b nf v m E]; try discriminate.
    + destruct Hi as [<-|[]]. right. reflexivity.
    + injection Ho as <-. destruct Hl as [[]|[]].
Qed.
Lemma count_changes : forall n, ~ may_change main_env (mkInvocation None pipe_count) n.
Proof.
  intros n H. destruct H as [m Ho|o gz od t s ns k m E|o p gz od t ns v m E|a name v m E]; try discriminate. exact Ho.
Qed.

Example C118_sample : exists w1 w2 t,
  run main_env (mkInvocation None pipe_filter) (fed [] main_world) = Some (CEnded 0, w1) /\ w_stdout w1 = t
  /\ t = main_line "1" (lit "x") umlaut
  /\ run main_env (mkInvocation None pipe_count) (mkWorld (w_disk w1) t []) = Some (CEnded 0, w2) /\ w_stdout w2 = lit "1" ++ [10]
  /\ exists w', session [(main_env, mkInvocation None (with_output (lit "m.dat") pipe_filter), []);
                         (main_env, mkInvocation None (with_inputs [lit "m.dat"] pipe_count), lit "x")] main_world = Some ([CEnded 0; CEnded 0], w')
       /\ (forall n, n <> lit "m.dat" -> disk_get (w_disk w') n = disk_get (w_disk w2) n)
       /\ w_stdout w' = w_stdout w2 /\ disk_get (w_disk w') (lit "m.dat") = Some t.
Proof.
  do 3 eexists. split; [vm_compute; reflexivity|]. split; [reflexivity|]. split; [vm_compute; reflexivity|].
  split; [vm_compute; reflexivity|]. split; [reflexivity|].
  eapply (C118_pipe main_env main_env None None pipe_filter pipe_count (lit "m.dat") [] []).
  - intros l. apply Permutation_refl.
  - reflexivity.
  - reflexivity.
  - split; [|split].
    + intros H. apply DiskEndProofs.gz_name_iff in H. discriminate.
    + intros p E. pose proof (DirCommandProofs.suffix_dec (lit "m.dat") (lit ".txt")) as D. exact (D p E).
    + intros p E. pose proof (DirCommandProofs.suffix_dec (lit "m.dat") (lit ".tsv")) as D. exact (D p E).
  - discriminate.
  - right. reflexivity.
  - intros [].
  - intros H. apply filter_needs in H. destruct H; discriminate.
  - reflexivity.
  - intros [].
  - intros [].
  - intros o f append gzip output tee names E. discriminate.
  - apply count_changes.
  - intros H. apply count_needs in H. destruct H; discriminate.
  - vm_compute. reflexivity.
  - reflexivity.
  - vm_compute. reflexivity.
Qed.

(** * Properties of two runs of filter after each other *)

From Coq Require Import String.
From Verif Require Import Bytes RecordModel MatcherModel CliModel OptionsModel DiskModel MainModel MainSpec PipeSpec FrontSpec MergeSpec MergeProofs PropertiesMain.

(** ** C130: filters after each other are one filter

    "pica filter A --and B .. --not C .. FILES" ends and does what "pica filter A FILES | pica filter B --and ..
    --not C .." ends and does, if the first comes to its end; "pica filter A --not C .. FILES" is "pica filter A FILES |
    pica filter -v C --or .."; and "pica filter -v A --or B .. FILES" is "pica filter -v A FILES | pica filter -v B
    --or ..".  The lists belong to the first, --limit, --keep, --discard and the outputs to the second. *)
Theorem C130_and : forall e cfg o A B Bs Cs keep discard append gzip output tee names w w1 t x w2,
  leaves_levels e o A -> (forall n, output = Some n \/ tee = Some n -> ~ In n names) ->
  run e (mkInvocation cfg (filter_before o false A names)) w = Some (CEnded 0, w1) -> w_stdout w1 = w_stdout w ++ t ->
  run e (mkInvocation cfg (filter_behind o false B Bs [] Cs keep discard append gzip output tee)) (mkWorld (w_disk w) t (w_stdout w)) = Some (x, w2) ->
  run e (mkInvocation cfg (filter_whole o false A (B :: Bs) [] Cs keep discard append gzip output tee names)) w = Some (x, fed (w_stdin w) w2).
Proof. exact merge_and. Qed.
Print Assumptions C130_and.

Theorem C130_not : forall e cfg o A C Cs keep discard append gzip output tee names w w1 t x w2,
  leaves_levels e o A -> (forall n, output = Some n \/ tee = Some n -> ~ In n names) ->
  run e (mkInvocation cfg (filter_before o false A names)) w = Some (CEnded 0, w1) -> w_stdout w1 = w_stdout w ++ t ->
  run e (mkInvocation cfg (filter_behind o true C [] Cs [] keep discard append gzip output tee)) (mkWorld (w_disk w) t (w_stdout w)) = Some (x, w2) ->
  run e (mkInvocation cfg (filter_whole o false A [] [] (C :: Cs) keep discard append gzip output tee names)) w = Some (x, fed (w_stdin w) w2).
Proof. exact merge_not. Qed.
Print Assumptions C130_not.

Theorem C130_or : forall e cfg o A B Bs keep discard append gzip output tee names w w1 t x w2,
  leaves_levels e o A -> (forall n, output = Some n \/ tee = Some n -> ~ In n names) ->
  run e (mkInvocation cfg (filter_before o true A names)) w = Some (CEnded 0, w1) -> w_stdout w1 = w_stdout w ++ t ->
  run e (mkInvocation cfg (filter_behind o true B [] Bs [] keep discard append gzip output tee)) (mkWorld (w_disk w) t (w_stdout w)) = Some (x, w2) ->
  run e (mkInvocation cfg (filter_whole o true A [] (B :: Bs) [] keep discard append gzip output tee names)) w = Some (x, fed (w_stdin w) w2).
Proof. exact merge_or. Qed.
Print Assumptions C130_or.

(** ** Samples *)

Definition merge_opts : file_opts := mkFileOpts true 3 false 80 [] [] None None None [] [] [].

Lemma no_parens : forall o A, (forall nf, ~ In 40 (translit main_env nf A)) -> o_source o = None -> leaves_levels main_env o A.
Proof. intros o A H E. split; [left; exact E|]. intros nf. left. apply H. Qed.

Ltac no_paren := intros nf; destruct nf as [f|]; cbn; intros H; repeat (destruct H as [H|H]; [discriminate|]); exact H.

Definition merge_names : list bytes := [lit "a.dat"; lit "b.dat"].

Example C130_and_sample : exists w1 w2 t,
  run main_env (mkInvocation None (filter_before merge_opts false (lit "012A?") merge_names)) main_world = Some (CEnded 0, w1) /\ w_stdout w1 = t
  /\ run main_env (mkInvocation None (filter_behind merge_opts false (lit "012A.b?") [] [] [lit "012A.a == 'x'"] (Some (lit "012A")) None false false (Some (lit "o.dat")) None))
       (mkWorld (w_disk main_world) t []) = Some (CEnded 0, w2)
  /\ disk_get (w_disk w2) (lit "o.dat") = Some (skipn 9 (main_line "2" (lit "y") umlaut) ++ skipn 9 (main_line "2" (lit "y") umlaut))
  /\ run main_env (mkInvocation None (filter_whole merge_opts false (lit "012A?") [lit "012A.b?"] [] [lit "012A.a == 'x'"] (Some (lit "012A")) None false false
       (Some (lit "o.dat")) None merge_names)) main_world = Some (CEnded 0, fed [] w2).
Proof.
  do 3 eexists. split; [vm_compute; reflexivity|]. split; [reflexivity|]. split; [vm_compute; reflexivity|]. split; [vm_compute; reflexivity|].
  eapply (C130_and main_env None merge_opts).
  - apply no_parens; [no_paren|reflexivity].
  - intros n [E|E]; [injection E as <-; intros [X|[X|[]]]; discriminate|discriminate].
  - vm_compute. reflexivity.
  - reflexivity.
  - vm_compute. reflexivity.
Qed.

Example C130_not_sample : exists w1 w2 t,
  run main_env (mkInvocation None (filter_before merge_opts false (lit "012A?") merge_names)) main_world = Some (CEnded 0, w1) /\ w_stdout w1 = t
  /\ run main_env (mkInvocation None (filter_behind merge_opts true (lit "012A.a == 'y'") [] [lit "012A.a == 'z'"] [] None None false false None None))
       (mkWorld (w_disk main_world) t []) = Some (CEnded 0, w2)
  /\ w_stdout w2 = main_line "1" (lit "x") umlaut ++ main_line "1" (lit "x") umlaut
  /\ run main_env (mkInvocation None (filter_whole merge_opts false (lit "012A?") [] [] [lit "012A.a == 'y'"; lit "012A.a == 'z'"] None None false false
       None None merge_names)) main_world = Some (CEnded 0, fed [] w2).
Proof.
  do 3 eexists. split; [vm_compute; reflexivity|]. split; [reflexivity|]. split; [vm_compute; reflexivity|]. split; [vm_compute; reflexivity|].
  eapply (C130_not main_env None merge_opts).
  - apply no_parens; [no_paren|reflexivity].
  - intros n [E|E]; discriminate.
  - vm_compute. reflexivity.
  - reflexivity.
  - vm_compute. reflexivity.
Qed.

Example C130_or_sample : exists w1 w2 t,
  run main_env (mkInvocation None (filter_before merge_opts true (lit "012A.a == 'z'") merge_names)) main_world = Some (CEnded 0, w1) /\ w_stdout w1 = t
  /\ run main_env (mkInvocation None (filter_behind merge_opts true (lit "012A.a == 'y'") [] [] [] None None false false None None))
       (mkWorld (w_disk main_world) t []) = Some (CEnded 0, w2)
  /\ w_stdout w2 = main_line "1" (lit "x") umlaut ++ main_line "1" (lit "x") umlaut
  /\ run main_env (mkInvocation None (filter_whole merge_opts true (lit "012A.a == 'z'") [] [lit "012A.a == 'y'"] [] None None false false
       None None merge_names)) main_world = Some (CEnded 0, fed [] w2).
Proof.
  do 3 eexists. split; [vm_compute; reflexivity|]. split; [reflexivity|]. split; [vm_compute; reflexivity|]. split; [vm_compute; reflexivity|].
  eapply (C130_or main_env None merge_opts).
  - apply no_parens; [no_paren|reflexivity].
  - intros n [E|E]; discriminate.
  - vm_compute. reflexivity.
  - reflexivity.
  - vm_compute. reflexivity.
Qed.

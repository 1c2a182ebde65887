(** * Proofs: what the commands read from their arguments *)

From Coq Require Import String.
From Verif Require Import Bytes BaseProofs Winnow Utf8Spec Utf8Model Utf8Proofs RecordModel MatcherModel StateParser MatcherParserModel BuilderModel PathModel CliModel
  ExplodeModel ConvertModel CsvModel OptionsModel ConfigModel DiskModel DirModel RuleModel ClapModel MainModel ArgsModel ArgsSpec ClapProofs ClapValues ArgsProofs.

Lemma nf_choices : forall v, nf_parse v = choices nf_texts v.
Proof.
  intros v. unfold nf_parse, choices, nf_texts. cbn [find fst snd].
  repeat match goal with |- context [bytes_eqb v ?x] => destruct (bytes_eqb v x); [reflexivity|] end. reflexivity.
Qed.
Lemma format_choices : forall v, format_parse v = choices format_texts v.
Proof.
  intros v. unfold format_parse, choices, format_texts. cbn [find fst snd].
  repeat match goal with |- context [bytes_eqb v ?x] => destruct (bytes_eqb v x); [reflexivity|] end. reflexivity.
Qed.
Lemma quotes_choices : forall v, quotes_parse v = choices quotes_texts v.
Proof.
  intros v. unfold quotes_parse, choices, quotes_texts. cbn [find fst snd].
  repeat match goal with |- context [bytes_eqb v ?x] => destruct (bytes_eqb v x); [reflexivity|] end. reflexivity.
Qed.
Lemma strategy_choices : forall v, strategy_parse v = choices strategy_texts v.
Proof.
  intros v. unfold strategy_parse, choices, strategy_texts. cbn [find fst snd].
  repeat match goal with |- context [bytes_eqb v ?x] => destruct (bytes_eqb v x); [reflexivity|] end. reflexivity.
Qed.
Lemma level_choices : forall v, level_parse v = choices level_texts v.
Proof.
  intros v. unfold level_parse, choices, level_texts. cbn [find fst snd].
  repeat match goal with |- context [bytes_eqb v ?x] => destruct (bytes_eqb v x); [reflexivity|] end. reflexivity.
Qed.

Ltac nodup := apply (distinct_nodup _ bytes_eqb bytes_eqb_refl); vm_compute; reflexivity.

Lemma nf_nodup : NoDup (map (fun p => lit (fst p)) nf_texts). Proof. nodup. Qed.
Lemma format_nodup : NoDup (map (fun p => lit (fst p)) format_texts). Proof. nodup. Qed.
Lemma quotes_nodup : NoDup (map (fun p => lit (fst p)) quotes_texts). Proof. nodup. Qed.
Lemma strategy_nodup : NoDup (map (fun p => lit (fst p)) strategy_texts). Proof. nodup. Qed.
Lemma level_nodup : NoDup (map (fun p => lit (fst p)) level_texts). Proof. nodup. Qed.

Section Commands.
  Variable e : env.
  Variable draws : option N -> N -> N.

  Definition asked (name : string) (c : arg_spec) (make : list (bytes * bytes) -> option ask) : Prop :=
    forall its k, typed c its ->
      (asks e draws name its k
       <-> exists m, label c 0 its = Some m /\ fits c m /\ valid c m = true /\ make m = Some (AskRun k)).

  Ltac ho := exact (conj eq_refl eq_refl).
  Ltac tables := unfold have; apply Forall_forall; let a := fresh "a" in let Ha := fresh "Ha" in intros a Ha; cbv [filter_opts_args common_args] in Ha;
    repeat (destruct Ha as [<-|Ha]; [ho|]); destruct Ha.

  Lemma check_args_clashes : clashes (check_args e) = [(lit "and", lit "or"); (lit "or", lit "and"); (lit "or", lit "not"); (lit "not", lit "or")]. Proof. vm_compute. reflexivity. Qed.
  Lemma check_args_needs : needs (check_args e) = [(lit "progress", lit "output", []); (lit "and", lit "where", []); (lit "or", lit "where", []); (lit "not", lit "where", [])]. Proof. vm_compute. reflexivity. Qed.
  Lemma check_args_musts : musts (check_args e) = [(lit "rule-set", [])]. Proof. vm_compute. reflexivity. Qed.
  Lemma concat_args_clashes : clashes concat_args = []. Proof. vm_compute. reflexivity. Qed.
  Lemma concat_args_needs : needs concat_args = [(lit "unique-strategy", lit "unique", []); (lit "progress", lit "output", [])]. Proof. vm_compute. reflexivity. Qed.
  Lemma concat_args_musts : musts concat_args = []. Proof. vm_compute. reflexivity. Qed.
  Lemma convert_args_clashes : clashes convert_args = []. Proof. vm_compute. reflexivity. Qed.
  Lemma convert_args_needs : needs convert_args = [(lit "progress", lit "output", [])]. Proof. vm_compute. reflexivity. Qed.
  Lemma convert_args_musts : musts convert_args = []. Proof. vm_compute. reflexivity. Qed.
  Lemma count_args_clashes : clashes (count_args e) = [(lit "records", lit "fields"); (lit "records", lit "subfields"); (lit "records", lit "csv"); (lit "records", lit "tsv"); (lit "records", lit "no-header"); (lit "fields", lit "records"); (lit "fields", lit "subfields"); (lit "fields", lit "csv"); (lit "fields", lit "tsv"); (lit "fields", lit "no-header"); (lit "subfields", lit "records"); (lit "subfields", lit "fields"); (lit "subfields", lit "csv"); (lit "subfields", lit "tsv"); (lit "subfields", lit "no-header"); (lit "csv", lit "records"); (lit "csv", lit "fields"); (lit "csv", lit "subfields"); (lit "csv", lit "tsv"); (lit "tsv", lit "records"); (lit "tsv", lit "fields"); (lit "tsv", lit "subfields"); (lit "tsv", lit "csv"); (lit "no-header", lit "records"); (lit "no-header", lit "fields"); (lit "no-header", lit "subfields"); (lit "and", lit "or"); (lit "or", lit "and"); (lit "or", lit "not"); (lit "not", lit "or")]. Proof. vm_compute. reflexivity. Qed.
  Lemma count_args_needs : needs (count_args e) = [(lit "progress", lit "output", []); (lit "and", lit "where", []); (lit "or", lit "where", []); (lit "not", lit "where", [])]. Proof. vm_compute. reflexivity. Qed.
  Lemma count_args_musts : musts (count_args e) = []. Proof. vm_compute. reflexivity. Qed.
  Lemma describe_args_clashes : clashes (describe_args e) = [(lit "csv", lit "tsv"); (lit "tsv", lit "csv"); (lit "and", lit "or"); (lit "or", lit "and"); (lit "or", lit "not"); (lit "not", lit "or")]. Proof. vm_compute. reflexivity. Qed.
  Lemma describe_args_needs : needs (describe_args e) = [(lit "csv", lit "output", []); (lit "tsv", lit "output", []); (lit "progress", lit "output", []); (lit "and", lit "where", []); (lit "or", lit "where", []); (lit "not", lit "where", [])]. Proof. vm_compute. reflexivity. Qed.
  Lemma describe_args_musts : musts (describe_args e) = []. Proof. vm_compute. reflexivity. Qed.
  Lemma explode_args_clashes : clashes (explode_args e) = [(lit "and", lit "or"); (lit "or", lit "and"); (lit "or", lit "not"); (lit "not", lit "or")]. Proof. vm_compute. reflexivity. Qed.
  Lemma explode_args_needs : needs (explode_args e) = [(lit "progress", lit "output", []); (lit "and", lit "where", []); (lit "or", lit "where", []); (lit "not", lit "where", [])]. Proof. vm_compute. reflexivity. Qed.
  Lemma explode_args_musts : musts (explode_args e) = [(lit "level", [])]. Proof. vm_compute. reflexivity. Qed.
  Lemma filter_args_spec_clashes : clashes (filter_args_spec e) = [(lit "and", lit "or"); (lit "or", lit "and"); (lit "or", lit "not"); (lit "not", lit "or"); (lit "gzip", lit "append"); (lit "append", lit "gzip"); (lit "tee", lit "output"); (lit "output", lit "tee")]. Proof. vm_compute. reflexivity. Qed.
  Lemma filter_args_spec_needs : needs (filter_args_spec e) = [(lit "progress", lit "output", [lit "tee"])]. Proof. vm_compute. reflexivity. Qed.
  Lemma filter_args_spec_musts : musts (filter_args_spec e) = []. Proof. vm_compute. reflexivity. Qed.
  Lemma frequency_args_clashes : clashes (frequency_args e) = [(lit "squash", lit "merge"); (lit "merge", lit "squash"); (lit "and", lit "or"); (lit "or", lit "and"); (lit "or", lit "not"); (lit "not", lit "or")]. Proof. vm_compute. reflexivity. Qed.
  Lemma frequency_args_needs : needs (frequency_args e) = [(lit "progress", lit "output", []); (lit "and", lit "where", []); (lit "or", lit "where", []); (lit "not", lit "where", [])]. Proof. vm_compute. reflexivity. Qed.
  Lemma frequency_args_musts : musts (frequency_args e) = [(lit "query", [])]. Proof. vm_compute. reflexivity. Qed.
  Lemma hash_args_clashes : clashes (hash_args e) = [(lit "and", lit "or"); (lit "or", lit "and"); (lit "or", lit "not"); (lit "not", lit "or")]. Proof. vm_compute. reflexivity. Qed.
  Lemma hash_args_needs : needs (hash_args e) = [(lit "progress", lit "output", []); (lit "and", lit "where", []); (lit "or", lit "where", []); (lit "not", lit "where", [])]. Proof. vm_compute. reflexivity. Qed.
  Lemma hash_args_musts : musts (hash_args e) = []. Proof. vm_compute. reflexivity. Qed.
  Lemma invalid_args_clashes : clashes invalid_args = []. Proof. vm_compute. reflexivity. Qed.
  Lemma invalid_args_needs : needs invalid_args = [(lit "progress", lit "output", [])]. Proof. vm_compute. reflexivity. Qed.
  Lemma invalid_args_musts : musts invalid_args = []. Proof. vm_compute. reflexivity. Qed.
  Lemma partition_args_clashes : clashes (partition_args e) = [(lit "and", lit "or"); (lit "or", lit "and"); (lit "or", lit "not"); (lit "not", lit "or")]. Proof. vm_compute. reflexivity. Qed.
  Lemma partition_args_needs : needs (partition_args e) = [(lit "and", lit "where", []); (lit "or", lit "where", []); (lit "not", lit "where", [])]. Proof. vm_compute. reflexivity. Qed.
  Lemma partition_args_musts : musts (partition_args e) = [(lit "path", [])]. Proof. vm_compute. reflexivity. Qed.
  Lemma print_args_clashes : clashes (print_args e) = [(lit "and", lit "or"); (lit "or", lit "and"); (lit "or", lit "not"); (lit "not", lit "or")]. Proof. vm_compute. reflexivity. Qed.
  Lemma print_args_needs : needs (print_args e) = [(lit "progress", lit "output", []); (lit "and", lit "where", []); (lit "or", lit "where", []); (lit "not", lit "where", [])]. Proof. vm_compute. reflexivity. Qed.
  Lemma print_args_musts : musts (print_args e) = []. Proof. vm_compute. reflexivity. Qed.
  Lemma sample_args_clashes : clashes (sample_args e) = [(lit "and", lit "or"); (lit "or", lit "and"); (lit "or", lit "not"); (lit "not", lit "or")]. Proof. vm_compute. reflexivity. Qed.
  Lemma sample_args_needs : needs (sample_args e) = [(lit "progress", lit "output", []); (lit "and", lit "where", []); (lit "or", lit "where", []); (lit "not", lit "where", [])]. Proof. vm_compute. reflexivity. Qed.
  Lemma sample_args_musts : musts (sample_args e) = [(lit "sample-size", [])]. Proof. vm_compute. reflexivity. Qed.
  Lemma select_args_clashes : clashes (select_args e) = [(lit "squash", lit "merge"); (lit "merge", lit "squash"); (lit "and", lit "or"); (lit "or", lit "and"); (lit "or", lit "not"); (lit "not", lit "or")]. Proof. vm_compute. reflexivity. Qed.
  Lemma select_args_needs : needs (select_args e) = [(lit "progress", lit "output", []); (lit "and", lit "where", []); (lit "or", lit "where", []); (lit "not", lit "where", [])]. Proof. vm_compute. reflexivity. Qed.
  Lemma select_args_musts : musts (select_args e) = [(lit "query", [])]. Proof. vm_compute. reflexivity. Qed.
  Lemma slice_args_clashes : clashes (slice_args e) = [(lit "end", lit "length"); (lit "length", lit "end"); (lit "and", lit "or"); (lit "or", lit "and"); (lit "or", lit "not"); (lit "not", lit "or")]. Proof. vm_compute. reflexivity. Qed.
  Lemma slice_args_needs : needs (slice_args e) = [(lit "progress", lit "output", []); (lit "and", lit "where", []); (lit "or", lit "where", []); (lit "not", lit "where", [])]. Proof. vm_compute. reflexivity. Qed.
  Lemma slice_args_musts : musts (slice_args e) = []. Proof. vm_compute. reflexivity. Qed.
  Lemma split_args_clashes : clashes (split_args e) = [(lit "and", lit "or"); (lit "or", lit "and"); (lit "or", lit "not"); (lit "not", lit "or")]. Proof. vm_compute. reflexivity. Qed.
  Lemma split_args_needs : needs (split_args e) = [(lit "and", lit "where", []); (lit "or", lit "where", []); (lit "not", lit "where", [])]. Proof. vm_compute. reflexivity. Qed.
  Lemma split_args_musts : musts (split_args e) = [(lit "chunk-size", [])]. Proof. vm_compute. reflexivity. Qed.
  Lemma config_args_spec_clashes : clashes config_args_spec = [(lit "get", lit "unset"); (lit "get", lit "set"); (lit "get", lit "value"); (lit "unset", lit "get"); (lit "unset", lit "set"); (lit "unset", lit "value"); (lit "set", lit "get"); (lit "set", lit "unset"); (lit "value", lit "get"); (lit "value", lit "unset")]. Proof. vm_compute. reflexivity. Qed.
  Lemma config_args_spec_needs : needs config_args_spec = [(lit "set", lit "value", [lit "get"; lit "unset"])]. Proof. vm_compute. reflexivity. Qed.
  Lemma config_args_spec_musts : musts config_args_spec = [(lit "name", [])]. Proof. vm_compute. reflexivity. Qed.
  Lemma completions_args_clashes : clashes completions_args = []. Proof. vm_compute. reflexivity. Qed.
  Lemma completions_args_needs : needs completions_args = []. Proof. vm_compute. reflexivity. Qed.
  Lemma completions_args_musts : musts completions_args = [(lit "shell", [])]. Proof. vm_compute. reflexivity. Qed.

  Fixpoint conj_all {A} (P : A -> Prop) (l : list A) : Prop := match l with [] => True | x :: r => P x /\ conj_all P r end.
  Fixpoint disj_all {A} (P : A -> Prop) (l : list A) : Prop := match l with [] => False | x :: r => P x \/ disj_all P r end.
  Lemma Forall_all : forall A (P : A -> Prop) l, Forall P l <-> conj_all P l.
  Proof. intros A P l. induction l as [|x l IH]; cbn; [split; auto|]. rewrite Forall_cons_iff, IH. reflexivity. Qed.
  Lemma Exists_all : forall A (P : A -> Prop) l, Exists P l <-> disj_all P l.
  Proof. intros A P l. induction l as [|x l IH]; cbn; [apply Exists_nil|]. rewrite Exists_cons, IH. reflexivity. Qed.

  Lemma valid_all : forall c m, fits c m /\ valid c m = true <-> Forall (fit m) (args c)
    /\ conj_all (fun p => has m (fst p) = true -> has m (snd p) = true -> False) (clashes c)
    /\ conj_all (fun p => has m (fst (fst p)) = true -> has m (snd (fst p)) = true \/ disj_all (fun x => has m x = true) (snd p)) (needs c)
    /\ conj_all (fun p => has m (fst p) = true \/ disj_all (fun x => has m x = true) (snd p)) (musts c).
  Proof.
    intros c m. rewrite valid_iff, <- !Forall_all. unfold fits.
    assert (E : forall A (P Q : A -> Prop) l, (forall x, P x <-> Q x) -> (Forall P l <-> Forall Q l)).
    { intros A P Q l H. split; apply Forall_impl; intros a; apply H. }
    rewrite (E _ (fun p => has m (fst (fst p)) = true -> has m (snd (fst p)) = true \/ Exists (fun x => has m x = true) (snd p))
               (fun p => has m (fst (fst p)) = true -> has m (snd (fst p)) = true \/ disj_all (fun x => has m x = true) (snd p)))
      by (intros p; rewrite Exists_all; reflexivity).
    rewrite (E _ (fun p => has m (fst p) = true \/ Exists (fun x => has m x = true) (snd p))
               (fun p => has m (fst p) = true \/ disj_all (fun x => has m x = true) (snd p)))
      by (intros p; rewrite Exists_all; reflexivity).
    reflexivity.
  Qed.

  (** where the arguments without names are files *)
  Ltac only_files := match goal with T : tidy_table ?c, Ty : typed ?c ?its |- _ =>
    destruct (files_label _ T (lit "filenames") its Ty) as (m & L & Nm & Ff); [eexists; repeat split; reflexivity|] end.
  (** where the first of them is something else *)
  Ltac one_and_files x ty := match goal with T : tidy_table ?c, Ty : typed ?c ?its |- _ =>
    destruct (one_files_label _ T (lit x) ty (lit "filenames") its Ty) as (m & L & Nx & Nm & Ff); [do 2 eexists; repeat split; reflexivity|] end.

  Ltac general := match goal with T : tidy_table ?c, Ty : typed ?c ?its, L : label ?c 0 ?its = Some ?m |- _ =>
    pose proof (switch_iff _ T its m Ty L) as Switch;
    pose proof (value_iff _ T its m Ty L) as Value;
    pose proof (text_iff _ T its m Ty L) as Text;
    pose proof (texts_iff _ T its m Ty L) as Texts;
    pose proof (file_iff _ T its m Ty L) as File;
    pose proof (any_iff _ T its m Ty L) as Any;
    pose proof (text_or_iff _ T its m Ty L) as TextOr;
    pose proof (file_or_iff _ T its m Ty L) as FileOr;
    pose proof (number_or_iff _ T its m Ty L) as NumberOr;
    pose proof (option_values _ T its m Ty L) as Values;
    pose proof (fun n o => choice_iff _ T its m Ty L _ nf_texts nf_parse nf_names n o nf_choices nf_nodup eq_refl) as Nf;
    pose proof (progress_iff _ T its m Ty L) as Progress;
    try (let X := fresh "Shared" in assert (X : forall o, asks_shared e its o <-> _) by (intros o; apply (shared_iff e _ T its m Ty L o); tables)) end.

  (** the conditions on the arguments one by one *)
  Ltac conditions := match goal with T : tidy_table ?c, L : label ?c 0 ?its = Some ?m |- _ =>
    let R := fresh "R" in
    remember (fits c m /\ valid c m = true) as R eqn:ER;
    assert (FV : Forall (fit m) (args c)
      /\ conj_all (fun p => has m (fst p) = true -> has m (snd p) = true -> False) (clashes c)
      /\ conj_all (fun p => has m (fst (fst p)) = true -> has m (snd (fst p)) = true \/ disj_all (fun x => has m x = true) (snd p)) (needs c)
      /\ conj_all (fun p => has m (fst p) = true \/ disj_all (fun x => has m x = true) (snd p)) (musts c) <-> R)
      by (rewrite ER; symmetry; apply valid_all) end.
  Ltac expand FV := unfold args, spec in FV; cbn [s_options s_positionals] in FV; rewrite ?Forall_app in FV; unfold progress_output in FV;
    rewrite ?Forall_all in FV; cbn [conj_all disj_all fst snd] in FV; unfold filenames in FV;
    rewrite <- ?(Forall_all arg _ (filter_opts_args e)) in FV;
    repeat match type of FV with context [fit ?m ?a] => change (fit m a) with (fit_at (g_id a) (g_arity a) (g_type a) m) in FV end;
    cbn [g_id g_arity g_type required requires conflicts one many flag unnamed no_long] in FV.

  Ltac forth := repeat match goal with
    | H : asks_shared _ _ _, Shared : forall o : file_opts, _ |- _ => apply Shared in H; destruct H as (? & ? & ? & ? & ? & ->)
    | H : switch _ _ _, Switch : forall n ty b, _ |- _ => apply (Switch _ VOs) in H; [destruct H as [? ->]|ho]
    | H : value _ _ _, Value : forall n o, _ |- _ => apply Value in H; [destruct H as [? ->]|ho]
    | H : text _ _ _, Text : forall n o, _ |- _ => apply Text in H; [destruct H as [? ->]|ho]
    | H : texts _ _ _, Texts : forall n o, _ |- _ => apply Texts in H; [destruct H as [? ->]|ho]
    | H : file _ _ _, File : forall n o, _ |- _ => apply File in H; [destruct H as [? ->]|ho]
    | H : text_or _ _ _ _, TextOr : forall n d v, _ |- _ => apply TextOr in H; [destruct H as [? ->]|ho]
    | H : file_or _ _ _ _, FileOr : forall n d v, _ |- _ => apply FileOr in H; [destruct H as [? ->]|ho]
    | H : ArgsSpec.number_or _ _ _ _, NumberOr : forall n d k, _ |- _ => apply NumberOr in H; [destruct H as [? ->]|ho]
    | H : choice _ nf_texts _ _, Nf : forall n o, _ |- _ => apply Nf in H; [destruct H as [? ->]|ho]
    | H : progress _ _, Progress : forall P, _ |- _ => apply Progress in H; [destruct H as [? ?]|ho]
    end.

  Ltac atoms := unfold output_of, get_flag in *; rewrite ?one_there, ?many_there, ?one_absent, ?many_absent in *.

  Ltac fin := split; [assumption|reflexivity].
  Ltac back := match goal with
    | Shared : forall o : file_opts, _ |- asks_shared _ _ _ => apply Shared; repeat (split; [tauto|]); reflexivity
    | Switch : forall n ty b, _ |- switch _ _ _ => apply (Switch _ VOs); [ho|fin]
    | Value : forall n o, _ |- value _ _ _ => apply Value; [ho|fin]
    | Text : forall n o, _ |- text _ _ _ => apply Text; [ho|fin]
    | Texts : forall n o, _ |- texts _ _ _ => apply Texts; [ho|fin]
    | File : forall n o, _ |- file _ _ _ => apply File; [ho|fin]
    | TextOr : forall n d v, _ |- text_or _ _ _ _ => apply TextOr; [ho|fin]
    | FileOr : forall n d v, _ |- file_or _ _ _ _ => apply FileOr; [ho|fin]
    | NumberOr : forall n d k, _ |- ArgsSpec.number_or _ _ _ _ => apply NumberOr; [ho|fin]
    | Nf : forall n o, _ |- choice _ nf_texts _ _ => apply Nf; [ho|fin]
    | Progress : forall P, _ |- progress _ _ => apply Progress; [ho|split; [assumption|atoms; tauto]]
    | Nm : get_many ?m (lit "filenames") = names ?its |- reading (names ?its) _ => apply (reading_iff its m _ Nm); reflexivity
    | Nm : get_many ?m (lit "filenames") = ?r |- reading ?r _ => apply (reading_rest_iff m r _ Nm); reflexivity
    end.

  Ltac pieces := repeat match goal with |- _ /\ _ => split | |- True => exact I end; first [assumption|tauto].
  Ltac gather := match goal with L : label ?c 0 ?its = Some ?m, FV : _ <-> _ |- exists _, _ =>
    exists m; split; [exact L|]; let F := fresh "F" in let V := fresh "V" in
    destruct (proj1 FV) as [F V]; [clear FV; try solve [atoms; pieces]|split; [exact F|split; [exact V|]]] end.

  Ltac scatter := match goal with L : label ?c 0 ?its = Some ?m, FV : _ <-> _ |- _ -> _ =>
    let m' := fresh "m" in let L' := fresh "L" in let F := fresh "F" in let V := fresh "V" in
    intros (m' & L' & F & V & M); rewrite L in L'; injection L' as <-; apply proj2 in FV; specialize (FV (conj F V)); clear F V;
    decompose [and] FV; clear FV end.

  Ltac start c := match goal with |- asked _ _ _ => let its := fresh "its" in let k := fresh "k" in intros its k Ty;
    assert (T : tidy_table c) by (apply tidy_ok; vm_compute; reflexivity) end.

  Lemma check_asked : asked "check" (check_args e) (fun m => Some (AskRun (KCheck (opts_of m) (get_many m (lit "rule-set")) (get_many m (lit "rule"))
      (get_one m (lit "tags")) (output_of m) (files_of m)))).
  Proof.
    start (check_args e). only_files. general. conditions. rewrite check_args_clashes, check_args_needs, check_args_musts in FV.
    unfold check_args in FV. expand FV. subst R. split.
    - intros A. inversion A; subst; clear A. forth. apply (reading_iff its m _ Nm) in H6. subst l.
      pose proof (proj1 (Any "rule-set"%string _ ltac:(ho)) eq_refl) as [Fr Er]. rewrite Er in *. gather. reflexivity.
    - scatter. injection M as <-. constructor; try back.
      + apply Any; [ho|fin].
      + atoms. tauto.
  Qed.

  Lemma convert_asked : asked "convert" convert_args (fun m => Some (AskRun (KConvert (get_flag m (lit "skip-invalid")) (format_of m (lit "from"))
      (format_of m (lit "to")) (output_of m) (files_of m)))).
  Proof.
    start convert_args. only_files. general. conditions. rewrite convert_args_clashes, convert_args_needs, convert_args_musts in FV.
    unfold convert_args in FV. expand FV. subst R.
    pose proof (fun n a => choice_or_iff _ T its m Ty L _ format_texts format_parse format_names n TPlus a format_choices format_nodup eq_refl) as Fm.
    assert (Fo : forall id, format_of m id = match get_one m id with Some v => match format_parse v with Some a => a | None => TPlus end | None => TPlus end).
    { intros id. unfold format_of, get_or. destruct (get_one m id); reflexivity. }
    split.
    - intros A. inversion A; subst; clear A. forth. apply (reading_iff its m _ Nm) in H4. subst l.
      apply Fm in H0; [|ho]. apply Fm in H1; [|ho]. destruct H0 as [? ->], H1 as [? ->]. gather. rewrite !Fo. reflexivity.
    - scatter. rewrite !Fo in M. injection M as <-. constructor; try back; (apply Fm; [ho|fin]).
  Qed.

  Lemma invalid_asked : asked "invalid" invalid_args (fun m => Some (AskRun (KInvalid (output_of m) (files_of m)))).
  Proof.
    start invalid_args. only_files. general. conditions. rewrite invalid_args_clashes, invalid_args_needs, invalid_args_musts in FV.
    unfold invalid_args in FV. expand FV. subst R. split.
    - intros A. inversion A; subst; clear A. forth. apply (reading_iff its m _ Nm) in H1. subst l. gather. reflexivity.
    - scatter. injection M as <-. constructor; back.
  Qed.

  Lemma print_asked : asked "print" (print_args e) (fun m => Some (AskRun (KPrint (opts_of m) (nf_of m) (output_of m) (files_of m)))).
  Proof.
    start (print_args e). only_files. general. conditions. rewrite print_args_clashes, print_args_needs, print_args_musts in FV.
    unfold print_args in FV. expand FV. subst R. split.
    - intros A. inversion A; subst; clear A. forth. apply (reading_iff its m _ Nm) in H3. subst l. gather. reflexivity.
    - scatter. injection M as <-. constructor; back.
  Qed.
  Lemma nand : forall a b : bool, (a = true -> b = true -> False) -> a && b = false.
  Proof. intros [] [] H; auto. destruct (H eq_refl eq_refl). Qed.
  Lemma not_both : forall a b : bool, (a = true -> b = true -> False) -> ~ a = true \/ ~ b = true.
  Proof. intros [] [] H; auto. Qed.

  (** which of the switches of count are there *)
  Definition mode_ok (r f s c t n : bool) (m : count_mode) : Prop :=
    match r, f, s, c, t with
    | true, false, false, false, false => m = MRecords /\ n = false
    | false, true, false, false, false => m = MFields /\ n = false
    | false, false, true, false, false => m = MSubfields /\ n = false
    | false, false, false, true, false => m = MCsv n
    | false, false, false, false, true => m = MTsv n
    | false, false, false, false, false => m = MPlain
    | _, _, _, _, _ => False
    end.
  Definition apart2 (a b : bool) : Prop := (a = true -> b = true -> False) /\ (b = true -> a = true -> False).
  Definition mode_apart (r f s c t n : bool) : Prop :=
    apart2 r f /\ apart2 r s /\ apart2 r c /\ apart2 r t /\ apart2 r n /\ apart2 f s /\ apart2 f c /\ apart2 f t /\ apart2 f n
    /\ apart2 s c /\ apart2 s t /\ apart2 s n /\ apart2 c t.

  Lemma mode_forth : forall r f s c t n m, mode_ok r f s c t n m -> mode_apart r f s c t n.
  Proof.
    intros [] [] [] [] [] [] m H; cbn in H; try destruct H; try discriminate; unfold mode_apart, apart2; repeat split; discriminate.
  Qed.

  Lemma mode_value : forall r f s c t n m, mode_ok r f s c t n m ->
    m = if r then MRecords else if f then MFields else if s then MSubfields else if c then MCsv n else if t then MTsv n else MPlain.
  Proof. intros [] [] [] [] [] [] m H; cbn in H; try destruct H; try discriminate; congruence. Qed.

  Lemma mode_back : forall r f s c t n, mode_apart r f s c t n ->
    mode_ok r f s c t n (if r then MRecords else if f then MFields else if s then MSubfields else if c then MCsv n else if t then MTsv n else MPlain).
  Proof.
    intros r f s c t n (A1 & A2 & A3 & A4 & A5 & A6 & A7 & A8 & A9 & A10 & A11 & A12 & A13). unfold apart2 in *.
    destruct r, f, s, c, t, n; cbn; auto; exfalso; match goal with H : (true = true -> true = true -> False) /\ _ |- _ => exact (proj1 H eq_refl eq_refl) end.
  Qed.

  Lemma count_asked : asked "count" (count_args e) (fun m => Some (AskRun (KCount (opts_of m) (get_flag m (lit "append")) (output_of m) (mode_of m)
      (files_of m)))).
  Proof.
    start (count_args e). only_files. general. conditions. rewrite count_args_clashes, count_args_needs, count_args_musts in FV.
    unfold count_args in FV. expand FV. subst R. split.
    - intros A. inversion A; subst; clear A. forth. apply (reading_iff its m _ Nm) in H4. subst l.
      destruct H2 as (b1 & b2 & b3 & b4 & b5 & b6 & M1 & M2 & M3 & M4 & M5 & M6 & M). forth.
      assert (E : m0 = mode_of m) by (revert M; clear; intros M; unfold mode_of; revert M; apply mode_value).
      pose proof (mode_forth _ _ _ _ _ _ _ M) as Cl.
      clear M. rewrite E in *. unfold mode_apart, apart2, get_flag in Cl. decompose [and] Cl. clear Cl. gather.
      reflexivity.
    - scatter. injection M as <-. constructor; try back.
      unfold asks_mode. exists (get_flag m (lit "records")), (get_flag m (lit "fields")), (get_flag m (lit "subfields")), (get_flag m (lit "csv")),
        (get_flag m (lit "tsv")), (get_flag m (lit "no-header")).
      do 6 (split; [back|]). unfold mode_of, get_flag in *. apply mode_back. unfold mode_apart, apart2. pieces.
  Qed.

  Lemma describe_asked : asked "describe" (describe_args e) (fun m => Some (AskRun (KDescribe (opts_of m) (get_one m (lit "discard"))
      (get_one m (lit "keep")) (get_flag m (lit "csv")) (get_flag m (lit "tsv")) (output_of m) (files_of m)))).
  Proof.
    start (describe_args e). only_files. general. conditions. rewrite describe_args_clashes, describe_args_needs, describe_args_musts in FV.
    unfold describe_args in FV. expand FV. subst R. split.
    - intros A. inversion A; subst; clear A. forth. apply (reading_iff its m _ Nm) in H8. subst l.
      rewrite andb_false_iff, !false_not in H5. gather. reflexivity.
    - scatter. injection M as <-. constructor; try back.
      + apply nand. assumption.
      + atoms. tauto.
  Qed.

  Lemma hash_asked : asked "hash" (hash_args e) (fun m => Some (AskRun (KHash (opts_of m) (output_of m) (get_flag m (lit "tsv"))
      (get_or m (lit "header") (lit "ppn,hash")) (files_of m)))).
  Proof.
    start (hash_args e). only_files. general. conditions. rewrite hash_args_clashes, hash_args_needs, hash_args_musts in FV.
    unfold hash_args in FV. expand FV. subst R. split.
    - intros A. inversion A; subst; clear A. forth. apply (reading_iff its m _ Nm) in H4. subst l. gather. reflexivity.
    - scatter. injection M as <-. constructor; back.
  Qed.

  Lemma slice_asked : asked "slice" (slice_args e) (fun m => Some (AskRun (KSlice (opts_of m) (get_flag m (lit "gzip")) (get_flag m (lit "append"))
      (output_of m) (ArgsModel.number_or m (lit "start") 0) (ArgsModel.number_or m (lit "end") 0) (ArgsModel.number_or m (lit "length") 0) (files_of m)))).
  Proof.
    start (slice_args e). only_files. general. conditions. rewrite slice_args_clashes, slice_args_needs, slice_args_musts in FV.
    unfold slice_args in FV. expand FV. subst R.
    pose proof (Values (lit "end") AOne VU64 ltac:(ho) ltac:(discriminate)) as Ve.
    pose proof (Values (lit "length") AOne VU64 ltac:(ho) ltac:(discriminate)) as Vl. split.
    - intros A. inversion A; subst; clear A. forth. apply (reading_iff its m _ Nm) in H8. subst l.
      rewrite <- Ve, <- Vl in H6. gather. reflexivity.
    - scatter. injection M as <-. constructor; try back. rewrite <- Ve, <- Vl. atoms. apply not_both. assumption.
  Qed.

  Lemma concat_asked : asked "concat" concat_args (fun m => Some (AskRun (KConcat (get_flag m (lit "skip-invalid")) (get_flag m (lit "append"))
      (output_of m) (get_one m (lit "tee")) (unique_of m) (files_of m)))).
  Proof.
    start concat_args. only_files. general. conditions. rewrite concat_args_clashes, concat_args_needs, concat_args_musts in FV.
    unfold concat_args in FV. expand FV. subst R.
    pose proof (fun n a => choice_or_iff _ T its m Ty L _ strategy_texts strategy_parse strategy_names n SIdn a strategy_choices strategy_nodup eq_refl) as St.
    pose proof (Values (lit "unique-strategy") AOne (VOneOf strategy_names) ltac:(ho) ltac:(discriminate)) as Vu.
    set (s := match get_one m (lit "unique-strategy") with Some v => match strategy_parse v with Some a => a | None => SIdn end | None => SIdn end).
    assert (U : fit_at (lit "unique-strategy") AOne (VOneOf strategy_names) m -> unique_of m = if get_flag m (lit "unique") then Some s else None).
    { intros F. apply (proj1 (proj1 (single_iff _ T its m Ty L (lit "unique-strategy") (VOneOf strategy_names) ltac:(ho)))) in F.
      pose proof (proj2 (single_iff _ T its m Ty L (lit "unique-strategy") (VOneOf strategy_names) ltac:(ho))) as G.
      unfold unique_of, s, get_or. rewrite G. destruct (get_flag m (lit "unique")); [|reflexivity].
      destruct (values its (lit "unique-strategy")) as [|v [|w l]]; [reflexivity| |destruct F].
      cbn [value_ok] in F. destruct (strategy_parse v) eqn:P; [reflexivity|]. exfalso. rewrite strategy_choices in P. unfold choices in P.
      apply existsb_exists in F as (x & Hx & F). destruct (find (fun p => bytes_eqb v (lit (fst p))) strategy_texts) eqn:Fd; [discriminate|].
      destruct Hx as [<-|[<-|[]]].
      - pose proof (find_none _ _ Fd ("idn"%string, SIdn) ltac:(left; reflexivity)) as X. cbn [fst] in X. congruence.
      - pose proof (find_none _ _ Fd ("hash"%string, SHash) ltac:(right; left; reflexivity)) as X. cbn [fst] in X. congruence. }
    split.
    - intros A. inversion A; subst; clear A. forth. apply (reading_iff its m _ Nm) in H7. subst l.
      apply St in H4; [|ho]. destruct H4 as [Fs Es]. fold s in Es. subst st. rewrite <- Vu in H5.
      assert (Ne : has m (lit "unique-strategy") = true -> has m (lit "unique") = true).
      { atoms. revert H5. clear. intros H5 X. destruct (has m (lit "unique")); [reflexivity|destruct (H5 eq_refl X)]. }
      gather. rewrite U by exact Fs. reflexivity.
    - scatter. rewrite U in M by assumption. injection M as <-. constructor; try back.
      + apply St; [ho|fin].
      + rewrite <- Vu. atoms. intros E C. change (has m (lit "unique") = false) in E. match goal with H : has m (lit "unique-strategy") = true -> _ |- _ => destruct (H C) as [X|[]]; congruence end.
  Qed.

  Lemma one_of_names : forall m x (its : list item), get_many m x = firstn 1 (names its) ->
    (has m x = true <-> names its <> []) /\ get_one m x = match names its with [] => None | v :: _ => Some v end.
  Proof.
    intros m x its E. rewrite has_many. unfold get_one. rewrite E. destruct (names its); cbn; split; try reflexivity; split; congruence.
  Qed.

  Lemma fit_names : forall m x ty (its : list item) t rest, get_many m x = firstn 1 (names its) -> names its = t :: rest ->
    (fit_at x AOne ty m <-> value_ok ty t = true).
  Proof.
    intros m x ty its t rest E N. unfold fit_at. rewrite E, N. cbn [firstn length]. split.
    - intros [F _]. specialize (F ltac:(discriminate)). inversion F; assumption.
    - intros F. split; [repeat constructor; exact F|auto].
  Qed.

  Lemma explode_asked : asked "explode" (explode_args e) (fun m => do v <- get_one m (lit "level"); do l <- level_parse v;
      Some (AskRun (KExplode (opts_of m) (get_one m (lit "discard")) (get_one m (lit "keep")) l (get_flag m (lit "gzip")) (output_of m) (files_of m)))).
  Proof.
    start (explode_args e). one_and_files "level"%string (VParsed level_ok). general. conditions.
    rewrite explode_args_clashes, explode_args_needs, explode_args_musts in FV.
    unfold explode_args in FV. expand FV. subst R. destruct (one_of_names m _ its Nx) as [Hx Ox]. split.
    - intros A. inversion A; subst; clear A. forth. rewrite H5 in Nm, Ox, Hx. cbn [skipn] in Nm. apply (reading_rest_iff m _ _ Nm) in H7. subst l.
      assert (P : level_parse (lit s) = Some lev) by (rewrite level_choices; apply choices_iff; [exact level_nodup|exists s; auto]).
      assert (Hh : has m (lit "level") = true) by (apply Hx; discriminate).
      assert (Fl : fit_at (lit "level") AOne (VParsed level_ok) m).
      { apply (fit_names m _ _ its (lit s) rest Nx H5). cbn [value_ok]. unfold level_ok. rewrite P.
        destruct H6 as [E|[E|[E|[]]]]; injection E as <- <-; reflexivity. }
      gather. rewrite Ox, P. reflexivity.
    - scatter. rewrite Ox in M. destruct (names its) as [|t rest] eqn:N; [discriminate|]. destruct (level_parse t) as [lev|] eqn:P; [|discriminate].
      injection M as <-. rewrite level_choices in P. apply choices_iff in P as (s & -> & P); [|exact level_nodup].
      cbn [skipn] in Nm. eapply as_explode with (s := s) (rest := rest); try back; [exact N|exact P].
  Qed.

  Lemma partition_asked : asked "partition" (partition_args e) (fun m => do v <- get_one m (lit "path"); do p <- path_parse e v;
      Some (AskRun (KPartition (opts_of m) p (get_flag m (lit "gzip")) (get_or m (lit "outdir") (lit ".")) (get_one m (lit "template")) (files_of m)))).
  Proof.
    start (partition_args e). one_and_files "path"%string (VParsed (path_ok e)). general. conditions.
    rewrite partition_args_clashes, partition_args_needs, partition_args_musts in FV.
    unfold partition_args in FV. expand FV. subst R. destruct (one_of_names m _ its Nx) as [Hx Ox]. split.
    - intros A. inversion A; subst; clear A. forth. rewrite H4 in Nm, Ox, Hx. cbn [skipn] in Nm. apply (reading_rest_iff m _ _ Nm) in H6. subst l.
      apply path_parse_iff in H5 as [Ut P].
      assert (Hh : has m (lit "path") = true) by (apply Hx; discriminate).
      assert (Fl : fit_at (lit "path") AOne (VParsed (path_ok e)) m).
      { apply (fit_names m _ _ its t rest Nx H4). cbn [value_ok]. unfold path_ok. rewrite P. rewrite (proj2 (utf8_valid_iff t) Ut). reflexivity. }
      gather. rewrite Ox, P. reflexivity.
    - scatter. rewrite Ox in M. destruct (names its) as [|t rest] eqn:N; [discriminate|]. destruct (path_parse e t) as [p|] eqn:P; [|discriminate].
      injection M as <-. assert (Ut : is_utf8 t).
      { match goal with H : fit_at (lit "path") _ _ _ |- _ => apply (fit_names m _ _ its t rest) in H; [|rewrite N; exact Nx|exact N] end.
        match goal with H : value_ok _ t = true |- _ => cbn [value_ok] in H; apply andb_true_iff in H as [H _]; apply utf8_valid_iff, H end. }
      cbn [skipn] in Nm. eapply as_partition with (t := t) (rest := rest); try back; [exact N|]. apply path_parse_iff. auto.
  Qed.

  Lemma sample_asked : asked "sample" (sample_args e) (fun m => do v <- get_one m (lit "sample-size"); do n <- parse_range 1 4294967295 v;
      Some (AskRun (KSample (opts_of m) (get_flag m (lit "gzip")) (output_of m) (draws (seed_of m)) n (files_of m)))).
  Proof.
    start (sample_args e). one_and_files "sample-size"%string (VRange 1 4294967295). general. conditions.
    rewrite sample_args_clashes, sample_args_needs, sample_args_musts in FV.
    unfold sample_args in FV. expand FV. subst R. destruct (one_of_names m _ its Nx) as [Hx Ox].
    pose proof (seed_iff _ T its m Ty L) as Seed. split.
    - intros A. inversion A; subst; clear A. forth. rewrite H4 in Nm, Ox, Hx. cbn [skipn] in Nm. apply (reading_rest_iff m _ _ Nm) in H6. subst l.
      apply parse_range_iff in H5. apply Seed in H2; [|ho]. destruct H2 as [Fs ->].
      assert (Hh : has m (lit "sample-size") = true) by (apply Hx; discriminate).
      assert (Fl : fit_at (lit "sample-size") AOne (VRange 1 4294967295) m).
      { apply (fit_names m _ _ its t rest Nx H4). cbn [value_ok]. rewrite H5. reflexivity. }
      gather. rewrite Ox, H5. reflexivity.
    - scatter. rewrite Ox in M. destruct (names its) as [|t rest] eqn:N; [discriminate|]. destruct (parse_range 1 4294967295 t) as [n|] eqn:P; [|discriminate].
      injection M as <-. apply parse_range_iff in P.
      cbn [skipn] in Nm. eapply as_sample with (t := t) (rest := rest); try back; [apply Seed; [ho|fin]|exact N|exact P].
  Qed.

  Lemma split_asked : asked "split" (split_args e) (fun m => do v <- get_one m (lit "chunk-size"); do n <- parse_range 1 4294967295 v;
      Some (AskRun (KSplit (opts_of m) (get_flag m (lit "gzip")) (get_or m (lit "outdir") (lit ".")) (get_one m (lit "template")) n (files_of m)))).
  Proof.
    start (split_args e). one_and_files "chunk-size"%string (VRange 1 4294967295). general. conditions.
    rewrite split_args_clashes, split_args_needs, split_args_musts in FV.
    unfold split_args in FV. expand FV. subst R. destruct (one_of_names m _ its Nx) as [Hx Ox]. split.
    - intros A. inversion A; subst; clear A. forth. rewrite H4 in Nm, Ox, Hx. cbn [skipn] in Nm. apply (reading_rest_iff m _ _ Nm) in H6. subst l.
      apply parse_range_iff in H5.
      assert (Hh : has m (lit "chunk-size") = true) by (apply Hx; discriminate).
      assert (Fl : fit_at (lit "chunk-size") AOne (VRange 1 4294967295) m).
      { apply (fit_names m _ _ its t rest Nx H4). cbn [value_ok]. rewrite H5. reflexivity. }
      gather. rewrite Ox, H5. reflexivity.
    - scatter. rewrite Ox in M. destruct (names its) as [|t rest] eqn:N; [discriminate|]. destruct (parse_range 1 4294967295 t) as [n|] eqn:P; [|discriminate].
      injection M as <-. apply parse_range_iff in P.
      cbn [skipn] in Nm. eapply as_split with (t := t) (rest := rest); try back; [exact N|exact P].
  Qed.

  Lemma columns_iff : forall c (T : tidy_table c) its m (Ty : typed c its) (L : label c 0 its = Some m) q,
    has_opt c (lit "separator") AOne VString -> has_opt c (lit "squash") AFlag VOs -> has_opt c (lit "merge") AFlag VOs ->
    has_opt c (lit "header") AOne VString ->
    (asks_columns its q <->
     (fit_at (lit "separator") AOne VString m /\ fit_at (lit "squash") AFlag VOs m /\ fit_at (lit "merge") AFlag VOs m
      /\ fit_at (lit "header") AOne VString m)
     /\ is_utf8 (co_query q) /\ (has m (lit "squash") = true -> has m (lit "merge") = true -> False)
     /\ q = mkColumns (co_query q) (get_or m (lit "separator") (lit "|")) (get_flag m (lit "squash")) (get_flag m (lit "merge")) (get_one m (lit "header"))).
  Proof.
    intros c T its m Ty L q H1 H2 H3 H4. destruct q as [q1 q2 q3 q4 q5]. unfold asks_columns. cbn [co_query co_separator co_squash co_merge co_header].
    rewrite (text_or_iff _ T its m Ty L _ _ _ H1), (switch_iff _ T its m Ty L _ _ _ H2), (switch_iff _ T its m Ty L _ _ _ H3), (text_iff _ T its m Ty L _ _ H4).
    rewrite andb_false_iff. unfold get_flag. split.
    - intros ([A1 ->] & [A2 ->] & [A3 ->] & [A4 ->] & U & V). split; [auto|]. split; [exact U|]. split; [|reflexivity]. intros X Y. destruct V; congruence.
    - intros ((A1 & A2 & A3 & A4) & U & V & E). injection E as -> -> -> ->. repeat (split; [auto|]).
      change (has m (lit "squash") = false \/ has m (lit "merge") = false).
      destruct (has m (lit "squash")), (has m (lit "merge")); auto. destruct (V eq_refl eq_refl).
  Qed.

  Lemma query_names : forall m (its : list item) t rest, get_many m (lit "query") = firstn 1 (names its) -> names its = t :: rest ->
    columns_of_args m = mkColumns t (get_or m (lit "separator") (lit "|")) (get_flag m (lit "squash")) (get_flag m (lit "merge")) (get_one m (lit "header")).
  Proof. intros m its t rest E N. unfold columns_of_args, get_or at 1, get_one at 1. rewrite E, N. reflexivity. Qed.

  Lemma frequency_asked : asked "frequency" (frequency_args e) (fun m => Some (AskRun (KFrequency (opts_of m) (columns_of_args m) (get_flag m (lit "unique"))
      (ArgsModel.number_or m (lit "num") 0) (ArgsModel.number_or m (lit "threshold") 0) (get_flag m (lit "reverse")) (nf_of m) (get_flag m (lit "tsv"))
      (output_of m) (files_of m)))).
  Proof.
    start (frequency_args e). one_and_files "query"%string VString. general. conditions.
    rewrite frequency_args_clashes, frequency_args_needs, frequency_args_musts in FV.
    unfold frequency_args in FV. expand FV. subst R. destruct (one_of_names m _ its Nx) as [Hx Ox].
    pose proof (fun q => columns_iff _ T its m Ty L q ltac:(ho) ltac:(ho) ltac:(ho) ltac:(ho)) as Columns. split.
    - intros A. inversion A; subst; clear A. forth.
      match goal with H : names its = _ :: rest |- _ => rename H into Ns end. rewrite Ns in Nm, Ox, Hx. cbn [skipn] in Nm.
      match goal with H : reading rest l |- _ => apply (reading_rest_iff m _ _ Nm) in H; subst l end.
      match goal with H : asks_columns its q |- _ => apply Columns in H; destruct H as ((Q1 & Q2 & Q3 & Q4) & Uq & Vq & Eq) end.
      assert (Hh : has m (lit "query") = true) by (apply Hx; discriminate).
      assert (Fl : fit_at (lit "query") AOne VString m).
      { apply (fit_names m _ _ its _ rest Nx Ns). cbn [value_ok]. apply utf8_valid_iff, Uq. }
      gather. rewrite (query_names m its _ rest Nx Ns). rewrite <- Eq. reflexivity.
    - scatter. injection M as <-. assert (Ns : names its <> []) by (apply Hx; tauto). destruct (names its) as [|t rest] eqn:N; [congruence|].
      rewrite <- N in Nx. pose proof (query_names m its t rest Nx N) as Eq.
      match goal with H : fit_at (lit "query") _ _ _ |- _ => apply (fit_names m _ _ its t rest Nx N) in H; cbn [value_ok] in H; apply utf8_valid_iff in H end.
      cbn [skipn] in Nm. eapply as_frequency with (rest := rest); try back.
      + apply Columns. rewrite Eq. cbn [co_query]. repeat (split; [tauto|]). reflexivity.
      + rewrite Eq. exact N.
  Qed.

  Lemma select_asked : asked "select" (select_args e) (fun m => Some (AskRun (KSelect (opts_of m) (columns_of_args m) (get_flag m (lit "unique"))
      (get_flag m (lit "no-empty-columns")) (nf_of m) (quotes_of m) (get_flag m (lit "tsv")) (get_flag m (lit "append")) (output_of m)
      (files_of m)))).
  Proof.
    start (select_args e). one_and_files "query"%string VString. general. conditions.
    rewrite select_args_clashes, select_args_needs, select_args_musts in FV.
    unfold select_args in FV. expand FV. subst R. destruct (one_of_names m _ its Nx) as [Hx Ox].
    pose proof (fun q => columns_iff _ T its m Ty L q ltac:(ho) ltac:(ho) ltac:(ho) ltac:(ho)) as Columns.
    pose proof (fun n a => choice_or_iff _ T its m Ty L _ quotes_texts quotes_parse quotes_names n QNecessary a quotes_choices quotes_nodup eq_refl) as Qm.
    assert (Qo : quotes_of m = match get_one m (lit "quote-style") with Some v => match quotes_parse v with Some a => a | None => QNecessary end | None => QNecessary end).
    { unfold quotes_of, get_or. destruct (get_one m (lit "quote-style")); reflexivity. }
    split.
    - intros A. inversion A; subst; clear A. forth.
      match goal with H : names its = _ :: rest |- _ => rename H into Ns end. rewrite Ns in Nm, Ox, Hx. cbn [skipn] in Nm.
      match goal with H : reading rest l |- _ => apply (reading_rest_iff m _ _ Nm) in H; subst l end.
      match goal with H : asks_columns its q |- _ => apply Columns in H; destruct H as ((Q1 & Q2 & Q3 & Q4) & Uq & Vq & Eq) end.
      match goal with H : choice_or its quotes_texts _ _ _ |- _ => apply Qm in H; [destruct H as [? ->]|ho] end.
      assert (Hh : has m (lit "query") = true) by (apply Hx; discriminate).
      assert (Fl : fit_at (lit "query") AOne VString m).
      { apply (fit_names m _ _ its _ rest Nx Ns). cbn [value_ok]. apply utf8_valid_iff, Uq. }
      gather. rewrite (query_names m its _ rest Nx Ns), Qo. rewrite <- Eq. reflexivity.
    - scatter. rewrite Qo in M. injection M as <-. assert (Ns : names its <> []) by (apply Hx; tauto). destruct (names its) as [|t rest] eqn:N; [congruence|].
      rewrite <- N in Nx. pose proof (query_names m its t rest Nx N) as Eq.
      match goal with H : fit_at (lit "query") _ _ _ |- _ => apply (fit_names m _ _ its t rest Nx N) in H; cbn [value_ok] in H; apply utf8_valid_iff in H end.
      cbn [skipn] in Nm. eapply as_select with (rest := rest); try back.
      + apply Columns. rewrite Eq. cbn [co_query]. repeat (split; [tauto|]). reflexivity.
      + apply Qm; [ho|fin].
      + rewrite Eq. exact N.
  Qed.

  Lemma label_absent : forall c its, typed c its -> forall n m, label c n its = Some m -> forall id, ~ In id (map g_id (args c)) -> get_many m id = [].
  Proof.
    intros c its H. induction H as [|i its Hi H IH]; intros n m L id N; [injection L as <-; reflexivity|].
    assert (K : forall a v r, In a (args c) -> get_many r id = [] -> get_many ((g_id a, v) :: r) id = []).
    { intros a v r Ha E. change ((g_id a, v) :: r) with ([(g_id a, v)] ++ r). rewrite get_many_app, get_many_one, E.
      replace (bytes_eqb (g_id a) id) with false; [reflexivity|]. symmetry. apply bytes_eqb_neq. intros <-. apply N, in_map, Ha. }
    destruct i as [x|x v|v]; cbn [label] in L.
    - destruct (label c n its) as [r|] eqn:E; [|discriminate]. injection L as <-. destruct Hi as (a & F & _). apply find_id_some in F as [F <-].
      apply K; [apply opt_arg, F|]. eapply IH; eassumption.
    - destruct (label c n its) as [r|] eqn:E; [|discriminate]. injection L as <-. destruct Hi as (a & F & _). apply find_id_some in F as [F <-].
      apply K; [apply opt_arg, F|]. eapply IH; eassumption.
    - destruct (nth_error (s_positionals c) n) as [a|] eqn:Na; [|discriminate]. destruct (label c _ its) as [r|] eqn:E; [|discriminate]. injection L as <-.
      apply K; [apply pos_arg; eapply nth_error_In, Na|]. eapply IH; eassumption.
  Qed.

  Lemma filter_asked : asked "filter" (filter_args_spec e) (fun m => Some (AskRun (KFilter (opts_of m)
      (mkFilterOnly (get_or m (lit "filter") []) (get_one m (lit "file")) (get_flag m (lit "invert-match")) (get_one m (lit "keep"))
         (get_one m (lit "discard")))
      (get_flag m (lit "append")) (get_flag m (lit "gzip")) (output_of m) (get_one m (lit "tee")) (files_of m)))).
  Proof.
    start (filter_args_spec e). one_and_files "filter"%string VString. general. conditions.
    rewrite filter_args_spec_clashes, filter_args_spec_needs, filter_args_spec_musts in FV.
    unfold filter_args_spec in FV. expand FV. subst R. destruct (one_of_names m _ its Nx) as [Hx Ox].
    assert (Common : forall o, asks_common e its o <-> _) by (intros o; apply (common_iff e _ T its m Ty L o); tables).
    unfold common_args in Common.
    assert (W : get_one m (lit "where") = None).
    { unfold get_one. rewrite (label_absent _ its Ty 0 m L); [reflexivity|]. vm_compute. intuition discriminate. }
    split.
    - intros A. inversion A; subst; clear A. destruct f as [f1 f2 f3 f4 f5]. cbn [fi_expr fi_expr_file fi_invert fi_keep fi_discard] in *. forth.
      match goal with H : asks_common _ _ _ |- _ => apply Common in H; destruct H as (Fc & Vc & Eo) end.
      rewrite Forall_all in Fc. cbn [conj_all] in Fc.
      repeat match type of Fc with context [fit ?m ?a] => change (fit m a) with (fit_at (g_id a) (g_arity a) (g_type a) m) in Fc end.
      cbn [g_id g_arity g_type one many flag] in Fc.
      match goal with H : o_where o = None |- _ => rewrite H in Eo end.
      assert (Eo' : o = opts_of m) by (unfold opts_of; rewrite W; exact Eo). clear Eo. subst o.
      match goal with H : get_flag m _ && _ = false |- _ => apply andb_false_iff in H; rewrite !false_not in H; rename H into Ha end.
      match goal with H : is_utf8 f1 |- _ => rename H into Uf end.
      match goal with H : reading rest l |- _ => rename H into Hr end.
      match goal with H : names its = [] /\ _ \/ _ |- _ => rename H into Hn end.
      assert (X : fit_at (lit "filter") AOne VString m /\ f1 = get_or m (lit "filter") [] /\ get_many m (lit "filenames") = rest).
      { unfold get_or. rewrite Ox. destruct Hn as [(N & -> & ->)|N].
        - rewrite N in Nm, Nx |- *. split; [|split; [reflexivity|exact Nm]]. unfold fit_at. rewrite Nx. cbn. split; intros _; [constructor|auto].
        - rewrite N in Nm |- *. split; [|split; [reflexivity|exact Nm]]. apply (fit_names m _ _ its f1 rest Nx N). cbn [value_ok]. apply utf8_valid_iff, Uf. }
      destruct X as (Ff1 & -> & Nr). apply (reading_rest_iff m _ _ Nr) in Hr. subst l. gather. reflexivity.
    - scatter. injection M as <-.
      assert (X : exists rest, (names its = [] /\ get_or m (lit "filter") [] = [] /\ rest = [] \/ names its = get_or m (lit "filter") [] :: rest)
                               /\ is_utf8 (get_or m (lit "filter") []) /\ get_many m (lit "filenames") = rest).
      { unfold get_or. rewrite Ox. destruct (names its) as [|t rest] eqn:N.
        - exists []. split; [left; auto|]. split; [apply utf8_valid_iff; reflexivity|exact Nm].
        - exists rest. split; [right; reflexivity|]. split; [|exact Nm].
          match goal with H : fit_at (lit "filter") _ _ _ |- _ => apply (fit_names m _ _ its t rest) in H; [|rewrite N; exact Nx|exact N] end.
          match goal with H : value_ok _ t = true |- _ => apply utf8_valid_iff, H end. }
      destruct X as (rest & X1 & X2 & X3). clear Nm. rename X3 into Nm.
      eapply as_filter with (rest := rest); cbn [fi_expr fi_expr_file fi_invert fi_keep fi_discard]; try back; try assumption.
      + apply Common. rewrite Forall_all. cbn [conj_all].
        repeat match goal with |- context [fit ?m ?a] => change (fit m a) with (fit_at (g_id a) (g_arity a) (g_type a) m) end.
        cbn [g_id g_arity g_type one many flag]. split; [pieces|]. split; [tauto|]. unfold opts_of. rewrite W. reflexivity.
      + apply nand. assumption.
      + atoms. change (~ has m (lit "output") = true \/ ~ has m (lit "tee") = true). apply not_both. assumption.
  Qed.

  Lemma config_label : forall its, typed config_args_spec its ->
    match names its with
    | [] => exists m, label config_args_spec 0 its = Some m /\ get_many m (lit "name") = [] /\ get_many m (lit "value") = []
    | [n] => exists m, label config_args_spec 0 its = Some m /\ get_many m (lit "name") = [n] /\ get_many m (lit "value") = []
    | [n; v] => exists m, label config_args_spec 0 its = Some m /\ get_many m (lit "name") = [n] /\ get_many m (lit "value") = [v]
    | _ => label config_args_spec 0 its = None
    end.
  Proof.
    intros its Ty. assert (T : tidy_table config_args_spec) by (apply tidy_ok; vm_compute; reflexivity).
    pose proof (label_by_names _ T its Ty 0) as B.
    assert (E : s_positionals config_args_spec = [required (unnamed (one (lit "name") None VString));
      conflicts [lit "get"; lit "unset"] (unnamed (one (lit "value") None VString))]) by reflexivity.
    destruct (names its) as [|n [|v [|x r]]]; cbn [label_names nth_error option_map] in B; rewrite E in B; cbn [nth_error option_map g_arity required unnamed one conflicts] in B.
    - destruct (label config_args_spec 0 its) as [m|]; [|destruct B]. exists m. split; [reflexivity|]. split; [exact (B _ (or_introl eq_refl))|exact (B _ (or_intror (or_introl eq_refl)))].
    - destruct (label config_args_spec 0 its) as [m|]; [|destruct B]. exists m. split; [reflexivity|]. split; [exact (B _ (or_introl eq_refl))|exact (B _ (or_intror (or_introl eq_refl)))].
    - destruct (label config_args_spec 0 its) as [m|]; [|destruct B]. exists m. split; [reflexivity|]. split; [exact (B _ (or_introl eq_refl))|exact (B _ (or_intror (or_introl eq_refl)))].
    - destruct (label config_args_spec 0 its) as [m|]; [destruct B|reflexivity].
  Qed.

  Lemma config_asked : asked "config" config_args_spec (fun m => do n <- get_one m (lit "name"); Some (AskRun (KConfig (mkConfigArgs
      (get_flag m (lit "get")) (get_flag m (lit "unset")) (get_flag m (lit "set")) n (get_one m (lit "value")))))).
  Proof.
    start config_args_spec. pose proof (config_label its Ty) as Lb.
    assert (No : forall m, fit_at (lit "name") AOne VString m /\ fit_at (lit "value") AOne VString m
       <-> (Forall (fun v => value_ok VString v = true) (get_many m (lit "name")) /\ (length (get_many m (lit "name")) <= 1)%nat)
           /\ (Forall (fun v => value_ok VString v = true) (get_many m (lit "value")) /\ (length (get_many m (lit "value")) <= 1)%nat)).
    { intros m. unfold fit_at. assert (D1 : AOne <> AFlag) by discriminate. assert (D2 : AOne <> AMany) by discriminate. tauto. }
    assert (H0 : forall m v, names its = v -> (get_many m (lit "name") = firstn 1 v -> get_many m (lit "value") = skipn 1 v -> (length v <= 2)%nat ->
        (fit_at (lit "name") AOne VString m /\ fit_at (lit "value") AOne VString m <-> Forall is_utf8 v))).
    { intros m v _ E1 E2 Lv. rewrite No, E1, E2. destruct v as [|x [|y [|z r]]]; cbn [firstn skipn length] in *; [| | |lia];
        rewrite ?Forall_cons_iff, ?Forall_nil_iff; cbn [value_ok]; rewrite ?utf8_valid_iff; intuition lia. }
    assert (H1 : forall m, label config_args_spec 0 its = Some m -> get_many m (lit "name") = firstn 1 (names its) -> get_many m (lit "value") = skipn 1 (names its) ->
       (length (names its) <= 2)%nat ->
       (asks e draws "config" its k <-> fits config_args_spec m /\ valid config_args_spec m = true
         /\ (do n <- get_one m (lit "name"); Some (AskRun (KConfig (mkConfigArgs
              (get_flag m (lit "get")) (get_flag m (lit "unset")) (get_flag m (lit "set")) n (get_one m (lit "value")))))) = Some (AskRun k))).
    { intros m L E1 E2 Lv. general. conditions. rewrite config_args_spec_clashes, config_args_spec_needs, config_args_spec_musts in FV.
      unfold config_args_spec in FV. expand FV. subst R. pose proof (H0 m _ eq_refl E1 E2 Lv) as U.
      assert (Gv : get_one m (lit "value") = match names its with _ :: v :: _ => Some v | _ => None end).
      { unfold get_one. rewrite E2. destruct (names its) as [|x [|y r]]; reflexivity. }
      assert (Gn : get_one m (lit "name") = match names its with n :: _ => Some n | _ => None end).
      { unfold get_one. rewrite E1. destruct (names its) as [|x r]; reflexivity. }
      split.
      - intros A. inversion A; subst; clear A. forth.
        match goal with H : names its = _ |- _ => rename H into Ns end. match goal with H : Forall is_utf8 _ |- _ => rename H into Uu end.
        destruct (proj2 U Uu) as [U1 U2].
        assert (Ev : v = get_one m (lit "value")) by (rewrite Gv, Ns; destruct v; reflexivity). rewrite Ns in Gn.
        assert (Hn : has m (lit "name") = true) by (rewrite has_one, Gn; reflexivity).
        assert (Hv : has m (lit "value") = true <-> v <> None) by (rewrite has_one, <- Ev; destruct v; split; congruence).
        match goal with H : v = None -> _ |- _ => rename H into C1 end. match goal with H : v <> None -> _ |- _ => rename H into C2 end.
        assert (Fi : fits config_args_spec m /\ valid config_args_spec m = true).
        { apply FV. clear FV U No H0 Lb. unfold get_flag in C1, C2. rewrite andb_false_iff, !false_not in C1. rewrite !false_not in C2.
          assert (Hv' : v = None <-> ~ has m (lit "value") = true) by (rewrite Hv; destruct v; [split; [discriminate|intros X; exfalso; apply X; discriminate]|split; [congruence|reflexivity]]).
          assert (Ds : v = None \/ v <> None) by (destruct v; [right; discriminate|left; reflexivity]).
          repeat match goal with |- _ /\ _ => split | |- True => exact I end; first [assumption|tauto]. }
        split; [apply Fi|]. split; [apply Fi|]. rewrite Gn, <- Ev. reflexivity.
      - intros (F & V & M). apply proj2 in FV. specialize (FV (conj F V)). clear F V. rewrite Gn, Gv in M. destruct (names its) as [|n r] eqn:Ns; [discriminate|].
        injection M as <-. decompose [and] FV. clear FV.
        assert (Hv : has m (lit "value") = true <-> r <> []) by (rewrite has_many, E2; cbn [skipn]; destruct r; split; congruence).
        constructor; try back.
        + rewrite Ns. destruct r as [|v [|w r]]; [reflexivity..|]. cbn [length] in Lv. lia.
        + rewrite Ns. apply U. split; assumption.
        + intros E. assert (Nv : ~ has m (lit "value") = true) by (rewrite Hv; destruct r; [tauto|discriminate]). clear U No Hv. split.
          * apply false_not. unfold get_flag. tauto.
          * apply nand. assumption.
        + intros E. assert (Nv : has m (lit "value") = true) by (rewrite Hv; destruct r; [congruence|discriminate]). clear U No Hv.
          unfold get_flag. split; apply false_not; tauto. }
    destruct (names its) as [|n [|v [|x r]]] eqn:Ns.
    - destruct Lb as (m & L & E1 & E2). rewrite (H1 m L E1 E2) by (cbn; lia). split; [intros X; exists m; split; [exact L|exact X]|].
      intros (m' & L' & X). rewrite L in L'. injection L' as <-. exact X.
    - destruct Lb as (m & L & E1 & E2). rewrite (H1 m L E1 E2) by (cbn; lia). split; [intros X; exists m; split; [exact L|exact X]|].
      intros (m' & L' & X). rewrite L in L'. injection L' as <-. exact X.
    - destruct Lb as (m & L & E1 & E2). rewrite (H1 m L E1 E2) by (cbn; lia). split; [intros X; exists m; split; [exact L|exact X]|].
      intros (m' & L' & X). rewrite L in L'. injection L' as <-. exact X.
    - split.
      + intros A. inversion A; subst. match goal with H : names its = _ |- _ => rewrite Ns in H; destruct v0; discriminate H end.
      + intros (m & L & _). congruence.
  Qed.

End Commands.

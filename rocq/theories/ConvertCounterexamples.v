(** * Convert: an escaping, and conversions that lose information *)

From Coq Require Import String.
From Verif Require Import Bytes Winnow RecordModel RecordSpec BaseProofs RecordProofs Utf8Model Utf8Spec Utf8Proofs
  ByteRecordModel ByteRecordSpec ReaderModel CliModel CliSpec CliProofs CliCommandProofs
  CliOutputProofs CliChunkProofs CliCounterexamples ConvertModel ConvertSpec ConvertProofs ConvertRunProofs.

(** ** The five entities of XML *)

Definition five_entities (v : bytes) : bytes :=
  flat_map (fun c => if c =? 60 then lit "&lt;" else if c =? 62 then lit "&gt;" else if c =? 38 then lit "&amp;"
                     else if c =? 39 then lit "&apos;" else if c =? 34 then lit "&quot;" else [c]) v.

Lemma five_entities_escaping : xml_escaping five_entities.
Proof.
  split.
  - intros v H. unfold five_entities in H. apply in_flat_map in H as (c & _ & H).
    repeat match type of H with context [?a =? ?b] => destruct (N.eqb_spec a b) end; cbn in H; lia.
  - induction v as [|c v IH]; intros [|d w] E; [reflexivity| | |].
    + exfalso. unfold five_entities in E. cbn [flat_map] in E.
      repeat match type of E with context [?a =? ?b] => destruct (N.eqb_spec a b) end; discriminate.
    + exfalso. unfold five_entities in E. cbn [flat_map] in E.
      repeat match type of E with context [?a =? ?b] => destruct (N.eqb_spec a b) end; discriminate.
    + assert (X : forall c v, five_entities (c :: v) = five_entities [c] ++ five_entities v).
      { intros x y. unfold five_entities. cbn [flat_map]. rewrite app_nil_r. reflexivity. }
      rewrite X, (X d) in E. unfold five_entities at 1 3 in E. cbn [flat_map] in E. rewrite !app_nil_r in E.
      repeat match type of E with context [?a =? ?b] => destruct (N.eqb_spec a b) end; subst; cbn in E;
        try discriminate; injection E; intros; subst; try contradiction; try discriminate; try lia; f_equal; auto.
Qed.

(** ** Witnesses *)

Definition cx_field (tag : string) (occ : option bytes) (v : bytes) : field :=
  mkField (lit tag) occ [mkSubfield 97 v].

Definition field_ok (f : field) : bool :=
  match parse_field (write_field f) with Some (g, []) => field_eqb f g | _ => false end.

Lemma field_ok_valid : forall f, field_ok f = true -> valid_field f.
Proof.
  intros f H. unfold field_ok in H. destruct (parse_field (write_field f)) as [[g [|]]|] eqn:E; try discriminate.
  apply field_eqb_eq in H. subst g. apply parse_field_inv in E as (_ & V). exact V.
Qed.

Lemma fields_ok : forall r, forallb field_ok r = true -> Forall valid_field r.
Proof. intros r H. apply Forall_forall. intros f Hf. rewrite forallb_forall in H. apply field_ok_valid. auto. Qed.

Lemma recs_ok : forall rs, forallb (forallb field_ok) rs = true -> Forall (Forall valid_field) rs.
Proof. intros r H. apply Forall_forall. intros f Hf. rewrite forallb_forall in H. apply fields_ok. auto. Qed.

(** a value with a line feed *)
Lemma plain_newline : exists r s t, r <> s /\ Forall valid_field r /\ Forall valid_field s
  /\ plain_text r t /\ plain_text s t.
Proof.
  set (r := [cx_field "012A" None (lit "x" ++ [10] ++ lit "012B ")]).
  set (s := [cx_field "012A" None (lit "x"); mkField (lit "012B") None []]).
  assert (Vr : Forall valid_field r) by (apply fields_ok; reflexivity).
  assert (Vs : Forall valid_field s) by (apply fields_ok; reflexivity).
  exists r, s, (plain_record r). split; [discriminate|]. split; [exact Vr|]. split; [exact Vs|].
  split; [apply plain_writes; exact Vr|]. change (plain_record r) with (plain_record s). apply plain_writes. exact Vs.
Qed.

Lemma import_header : exists rs ss ts us, rs <> ss
  /\ Forall (fun r => r <> []) rs /\ Forall (fun r => r <> []) ss
  /\ Forall2 import_text rs ts /\ Forall2 import_text ss us /\ concat ts = concat us.
Proof.
  set (rs := [[cx_field "012A" None (lit "x" ++ [10; 39; 29]); cx_field "013A" None (lit "y")]]).
  set (ss := [[cx_field "012A" None (lit "x")]; [cx_field "013A" None (lit "y")]]).
  exists rs, ss, (map import_record rs), (map import_record ss). split; [discriminate|].
  split; [repeat constructor; discriminate|]. split; [repeat constructor; discriminate|].
  assert (V : forall l, Forall (Forall valid_field) l -> Forall2 import_text l (map import_record l)).
  { intros l H. apply Forall2_map. eapply Forall_impl; [|exact H]. apply import_writes. }
  split; [|split; [|reflexivity]]; apply V;
    apply recs_ok; reflexivity.
Qed.

(** *** Runs *)

Definition cx_rec (r : record) : byte_record := mkBR (Some (write_record r)) r.

Lemma cx_one_line : forall r, r <> [] -> forallb field_ok r = true ->
  forallb (fun c => negb (c =? 10)) (flat_map write_field r) = true -> one_line (cx_rec r).
Proof.
  intros r N V L. exists (flat_map write_field r). cbn. rewrite (write_record_nonempty r N). split; [reflexivity|]. split.
  - intros H. rewrite forallb_forall in L. apply L in H. discriminate.
  - apply record_text_iff. rewrite (write_record_nonempty r N). split; [exact N|]. split; [reflexivity|].
    apply Forall_forall. intros f Hf. rewrite forallb_forall in V. apply field_ok_valid. auto.
Qed.

Lemma cx_reads : forall skip name recs, Forall one_line recs -> reads skip [(name, flat_map br_write recs)] recs None.
Proof.
  intros skip name recs H. apply reads_back; [exact H|]. apply lines_of_flat. eapply Forall_impl; [|exact H]. exact one_line_from.
Qed.

(** records run together in PICA plain *)
Lemma plain_runs_together : exists files recs files' recs',
  reads false files recs None /\ reads false files' recs' None /\ map br_record recs <> map br_record recs'
  /\ forall lossy esc, convert_run lossy esc TPlain false files = convert_run lossy esc TPlain false files'.
Proof.
  set (f := cx_field "012A" None (lit "x")). set (recs := [cx_rec [f; f]]). set (recs' := [cx_rec [f]; cx_rec [f]]).
  exists [(lit "f", flat_map br_write recs)], recs, [(lit "f", flat_map br_write recs')], recs'.
  assert (R1 : reads false [(lit "f", flat_map br_write recs)] recs None).
  { apply cx_reads. apply Forall_cons; [|apply Forall_nil]. apply cx_one_line; [discriminate| |]; reflexivity. }
  assert (R2 : reads false [(lit "f", flat_map br_write recs')] recs' None).
  { apply cx_reads. apply Forall_cons; [|apply Forall_cons; [|apply Forall_nil]]; (apply cx_one_line; [discriminate| |]; reflexivity). }
  split; [exact R1|]. split; [exact R2|]. split; [discriminate|].
  intros lossy esc. rewrite (convert_eq lossy esc _ _ _ _ _ R1), (convert_eq lossy esc _ _ _ _ _ R2). reflexivity.
Qed.

(** XML drops the occurrence *)
Lemma xml_occurrence : exists files recs files' recs',
  reads false files recs None /\ reads false files' recs' None
  /\ Forall (fun r => utf8_record (br_record r)) (recs ++ recs') /\ map br_record recs <> map br_record recs'
  /\ forall lossy esc, convert_run lossy esc TXml false files = convert_run lossy esc TXml false files'.
Proof.
  set (recs := [cx_rec [cx_field "101@" (Some (lit "01")) (lit "x")]]).
  set (recs' := [cx_rec [cx_field "101@" (Some (lit "02")) (lit "x")]]).
  exists [(lit "f", flat_map br_write recs)], recs, [(lit "f", flat_map br_write recs')], recs'.
  assert (R1 : reads false [(lit "f", flat_map br_write recs)] recs None).
  { apply cx_reads. apply Forall_cons; [|apply Forall_nil]. apply cx_one_line; [discriminate| |]; reflexivity. }
  assert (R2 : reads false [(lit "f", flat_map br_write recs')] recs' None).
  { apply cx_reads. apply Forall_cons; [|apply Forall_nil]. apply cx_one_line; [discriminate| |]; reflexivity. }
  split; [exact R1|]. split; [exact R2|]. split; [|split; [discriminate|]].
  - apply Forall_cons; [|apply Forall_cons; [|apply Forall_nil]]; intros f s [<-|[]] [<-|[]]; apply utf8_valid_iff; reflexivity.
  - intros lossy esc. rewrite (convert_eq lossy esc _ _ _ _ _ R1), (convert_eq lossy esc _ _ _ _ _ R2), !conv_writes_xml.
    reflexivity.
Qed.

(** a value that is not UTF-8 *)
Lemma xml_panics : exists r l, record_text r l /\
  forall lossy esc skip name, keeps_utf8 lossy -> convert_run lossy esc TXml skip [(name, l)] = Some Panicked.
Proof.
  set (r := [cx_field "012A" None [255]]). exists r, (write_record r).
  assert (O : one_line (cx_rec r)) by (apply cx_one_line; [discriminate| |]; reflexivity).
  split; [apply record_accept_iff; vm_compute; reflexivity|].
  intros lossy esc skip name L. assert (R := cx_reads skip name [cx_rec r] (Forall_cons _ O (Forall_nil _))).
  cbn [flat_map] in R. rewrite app_nil_r in R. apply (xml_run_panics lossy esc L _ _ _ _ R).
  exists (cx_rec r), (cx_field "012A" None [255]), (mkSubfield 97 [255]).
  split; [left; reflexivity|]. split; [left; reflexivity|]. split; [left; reflexivity|].
  intros U. apply utf8_valid_iff in U. discriminate.
Qed.

(** JSON: a value that is not UTF-8 is lost, since some other value is decoded to the same text *)
Lemma json_lossy : forall lossy esc a b, lossy a = lossy b -> a <> b ->
  Forall (fun c => c <> 30 /\ c <> 31 /\ c <> 10) (a ++ b) ->
  exists files recs files' recs', reads false files recs None /\ reads false files' recs' None
    /\ map br_record recs <> map br_record recs'
    /\ convert_run lossy esc TJson false files = convert_run lossy esc TJson false files'.
Proof.
  intros lossy esc a b E N F. apply Forall_app in F as [Fa Fb].
  assert (O : forall v, Forall (fun c => c <> 30 /\ c <> 31 /\ c <> 10) v -> one_line (cx_rec [cx_field "012A" None v])).
  { intros v Fv. exists (flat_map write_field [cx_field "012A" None v]). split; [reflexivity|]. rewrite Forall_forall in Fv. split.
    - cbn. intros H. repeat (destruct H as [H|H]; [discriminate|]). rewrite app_nil_r, !in_app_iff in H.
      destruct H as [[H|[]]|[H|[]]]; [apply Fv in H as (_ & _ & H); congruence|]. discriminate.
    - change (flat_map write_field [cx_field "012A" None v] ++ [10]) with (write_record [cx_field "012A" None v]).
      apply record_text_iff. split; [discriminate|]. split; [reflexivity|]. constructor; [|constructor].
      split; [|split].
      + exists 48, 49, 50, 65. cbn. auto 30.
      + discriminate.
      + constructor; [|constructor]. split; [cbn; auto 30|]. split; intros H; apply Fv in H as (H1 & H2 & _); cbn in *; congruence. }
  exists [(lit "f", flat_map br_write [cx_rec [cx_field "012A" None a]])], [cx_rec [cx_field "012A" None a]],
         [(lit "f", flat_map br_write [cx_rec [cx_field "012A" None b]])], [cx_rec [cx_field "012A" None b]].
  assert (R1 := cx_reads false (lit "f") _ (Forall_cons _ (O a Fa) (Forall_nil _))).
  assert (R2 := cx_reads false (lit "f") _ (Forall_cons _ (O b Fb) (Forall_nil _))).
  split; [exact R1|]. split; [exact R2|]. split; [intros H; injection H as H; contradiction|].
  rewrite (convert_eq lossy esc _ _ _ _ _ R1), (convert_eq lossy esc _ _ _ _ _ R2). cbn [conv_writes conv_write br_record cx_rec].
  unfold json_record, json_field. cbn [map cx_field f_subfields flat_map sf_value f_tag f_occ]. rewrite E. reflexivity.
Qed.

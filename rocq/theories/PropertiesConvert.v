(** * Properties of convert

    [reads] says which records a run sees (CliSpec.v), [converted] what the text
    of a complete conversion is (ConvertSpec.v). *)

From Coq Require Import String.
From Verif Require Import Bytes RecordModel RecordSpec Utf8Spec Utf8Proofs ByteRecordModel ReaderModel CliModel CliSpec
  ConvertModel ConvertSpec ConvertProofs ConvertRunProofs ConvertCounterexamples PropertiesMatcher PropertiesCli.

(** C44-C48: what is written.  A run that fails has written an initial part. *)
Theorem C44_C45_C46_C47_convert : forall lossy esc, keeps_utf8 lossy -> forall t skip files recs e,
  reads skip files recs e ->
  (t = TXml -> Forall (fun r => utf8_record (br_record r)) recs) ->
  exists out, convert_run lossy esc t skip files
              = Some (match e with None => Done out | Some err => Failed out err end)
    /\ (e = None -> converted lossy esc t recs out).
Proof. exact convert_exact. Qed.
Print Assumptions C44_C45_C46_C47_convert.

(** C44: the command converts from PICA+ only; it refuses any other input format before reading anything *)
Theorem C44_C45_C46_C47_command : forall lossy esc, keeps_utf8 lossy -> forall from t skip files recs e,
  reads skip files recs e ->
  (t = TXml -> Forall (fun r => utf8_record (br_record r)) recs) ->
  (from = TPlus ->
   exists out, convert_execute lossy esc from t skip files
               = Some (Some (match e with None => Done out | Some err => Failed out err end))
     /\ (e = None -> converted lossy esc t recs out))
  /\ (from <> TPlus -> convert_execute lossy esc from t skip files = None).
Proof. exact convert_command. Qed.
Print Assumptions C44_C45_C46_C47_command.

(** ** PICA binary *)

(** C44 *)
Theorem C44_binary_unambiguous : forall rs ts, Forall2 binary_text rs ts ->
  forall ss us, Forall2 binary_text ss us -> concat ts = concat us -> rs = ss.
Proof. exact binary_unambiguous. Qed.
Print Assumptions C44_binary_unambiguous.

Theorem C44_binary_written : forall r, Forall valid_field r -> binary_text r (binary_record r).
Proof. exact binary_writes. Qed.
Print Assumptions C44_binary_written.

(** C44, C46, C47: complete conversions of different records differ *)
Theorem C44_C46_C47_runs : forall lossy esc t skip files recs skip' files' recs' out, keeps_utf8 lossy ->
  t = TBinary \/ t = TImport \/ t = TPlus
    \/ (t = TJson /\ Forall (fun r => utf8_record (br_record r)) (recs ++ recs')) ->
  reads skip files recs None -> reads skip' files' recs' None ->
  convert_run lossy esc t skip files = Some (Done out) -> convert_run lossy esc t skip' files' = Some (Done out) ->
  map br_record recs = map br_record recs'.
Proof. exact run_reversible. Qed.
Print Assumptions C44_C46_C47_runs.

Example C44_sample : keeps_utf8 (fun v => v)
  /\ convert_run (fun v => v) (fun v => v) TBinary true sample_files
     = Some (Done (lit "003@ " ++ [31] ++ lit "01" ++ [30] ++ lit "012A " ++ [31] ++ lit "ax" ++ [30; 29]
                   ++ lit "003@ " ++ [31] ++ lit "02" ++ [30] ++ lit "012A " ++ [31] ++ lit "ay" ++ [30; 29]
                   ++ lit "003@ " ++ [31] ++ lit "01" ++ [30] ++ lit "012A " ++ [31] ++ lit "az" ++ [30; 29]
                   ++ lit "003@ " ++ [31] ++ lit "03" ++ [30] ++ lit "012A " ++ [31] ++ lit "ax" ++ [30; 29])).
Proof. split; [intros v _; reflexivity|vm_compute; reflexivity]. Qed.

(** a value may contain 0x1d and line feeds *)
Example C44_sample_text : binary_text [cx_field "012A" None [29; 10]] (lit "012A " ++ [31; 97; 29; 10; 30; 29]).
Proof. exact (binary_writes [cx_field "012A" None [29; 10]] (fields_ok [cx_field "012A" None [29; 10]] eq_refl)). Qed.

(** ** PICA plain *)

(** C45 *)
Theorem C45_plain_unambiguous : forall r s t, Forall valid_field r -> Forall valid_field s ->
  lf_free r -> lf_free s -> plain_text r t -> plain_text s t -> r = s.
Proof. exact plain_unambiguous. Qed.
Print Assumptions C45_plain_unambiguous.

Theorem C45_plain_written : forall r, Forall valid_field r -> plain_text r (plain_record r).
Proof. exact plain_writes. Qed.
Print Assumptions C45_plain_written.

(** what a run writes determines the fields of all records; values read from a
    file never contain line feeds *)
Theorem C45_runs : forall lossy esc skip files recs skip' files' recs' out, keeps_utf8 lossy ->
  reads skip files recs None -> reads skip' files' recs' None ->
  convert_run lossy esc TPlain skip files = Some (Done out) ->
  convert_run lossy esc TPlain skip' files' = Some (Done out) ->
  concat (map br_record recs) = concat (map br_record recs').
Proof. exact plain_run_reversible. Qed.
Print Assumptions C45_runs.

(** it does not tell where a record ends *)
Theorem C45_record_ends_refuted : exists files recs files' recs',
  reads false files recs None /\ reads false files' recs' None /\ map br_record recs <> map br_record recs'
  /\ forall lossy esc, convert_run lossy esc TPlain false files = convert_run lossy esc TPlain false files'.
Proof. exact plain_runs_together. Qed.
Print Assumptions C45_record_ends_refuted.

(** the condition on line feeds is needed *)
Theorem C45_line_feed_needed : exists r s t, r <> s /\ Forall valid_field r /\ Forall valid_field s
  /\ plain_text r t /\ plain_text s t.
Proof. exact plain_newline. Qed.
Print Assumptions C45_line_feed_needed.

Example C45_sample : let r := [mkField (lit "012A") (Some (lit "01")) [mkSubfield 97 (lit "1$"); mkSubfield 98 (lit "$")]] in
  Forall valid_field r /\ lf_free r /\ plain_text r (lit "012A/01 $a1$$$b$$" ++ [10]).
Proof.
  set (r := [mkField (lit "012A") (Some (lit "01")) [mkSubfield 97 (lit "1$"); mkSubfield 98 (lit "$")]]).
  assert (V : Forall valid_field r) by (apply fields_ok; reflexivity).
  split; [exact V|]. split; [|exact (plain_writes r V)].
  intros f s [<-|[]] [<-|[<-|[]]]; cbn; intros H; repeat (destruct H as [H|H]; [discriminate|]); exact H.
Qed.

(** ** PICA import *)

(** C46, with a weaker condition than the absence of line feeds *)
Theorem C46_import_unambiguous : forall rs ts, Forall2 import_text rs ts ->
  forall ss us, Forall2 import_text ss us ->
  Forall (fun r => r <> []) rs -> Forall (fun r => r <> []) ss ->
  (forall r f s, In r (rs ++ ss) -> In f r -> In s (f_subfields f) -> ~ header_like (sf_value s)) ->
  concat ts = concat us -> rs = ss.
Proof. exact import_unambiguous. Qed.
Print Assumptions C46_import_unambiguous.

Theorem C46_import_written : forall r, Forall valid_field r -> import_text r (import_record r).
Proof. exact import_writes. Qed.
Print Assumptions C46_import_written.

(** which is needed *)
Theorem C46_header_needed : exists rs ss ts us, rs <> ss
  /\ Forall (fun r => r <> []) rs /\ Forall (fun r => r <> []) ss
  /\ Forall2 import_text rs ts /\ Forall2 import_text ss us /\ concat ts = concat us.
Proof. exact import_header. Qed.
Print Assumptions C46_header_needed.

Example C46_sample : import_text [cx_field "012A" None (lit "x")] ([39; 29; 10; 30] ++ lit "012A " ++ [31] ++ lit "ax" ++ [10]).
Proof. exact (import_writes [cx_field "012A" None (lit "x")] (fields_ok [cx_field "012A" None (lit "x")] eq_refl)). Qed.

(** ** JSON *)

(** C47: a JSON text stands for one value *)
Theorem C47_json_unambiguous : forall t v v', json_text t v -> json_text t v' -> v = v'.
Proof. exact json_text_fun. Qed.
Print Assumptions C47_json_unambiguous.

(** the printer writes JSON for every value *)
Theorem C47_json_written : forall v, json_text (json_print v) v.
Proof. exact json_print_text. Qed.
Print Assumptions C47_json_written.

(** values decoded to the same text are confused *)
Theorem C47_not_utf8 : forall lossy esc a b, lossy a = lossy b -> a <> b ->
  Forall (fun c => c <> 30 /\ c <> 31 /\ c <> 10) (a ++ b) ->
  exists files recs files' recs', reads false files recs None /\ reads false files' recs' None
    /\ map br_record recs <> map br_record recs'
    /\ convert_run lossy esc TJson false files = convert_run lossy esc TJson false files'.
Proof. exact json_lossy. Qed.
Print Assumptions C47_not_utf8.

Example C47_sample : convert_run (fun v => v) (fun v => v) TJson false
    [(lit "f", lit "012A/01 " ++ [31] ++ lit "a""" ++ [9; 1; 30; 10] ++ sample_line "1" "x")]
  = Some (Done (lit "[[[""012A"",""/01"",""a"",""\""\t\u0001""]],[[""003@"",null,""0"",""1""],[""012A"",null,""a"",""x""]]]")).
Proof. vm_compute. reflexivity. Qed.

(** ** PICA XML *)

(** C48: two conversions agree exactly if the records agree up to the
    occurrences *)
Theorem C48_xml_partial : forall lossy esc skip files recs skip' files' recs',
  keeps_utf8 lossy -> xml_escaping esc ->
  reads skip files recs None -> reads skip' files' recs' None ->
  Forall (fun r => utf8_record (br_record r)) (recs ++ recs') ->
  convert_run lossy esc TXml skip files = convert_run lossy esc TXml skip' files'
  <-> Forall2 (Forall2 same_but_occ) (map br_record recs) (map br_record recs').
Proof. exact xml_run_iff. Qed.
Print Assumptions C48_xml_partial.

Theorem C48_refuted : exists files recs files' recs',
  reads false files recs None /\ reads false files' recs' None
  /\ Forall (fun r => utf8_record (br_record r)) (recs ++ recs') /\ map br_record recs <> map br_record recs'
  /\ forall lossy esc, convert_run lossy esc TXml false files = convert_run lossy esc TXml false files'.
Proof. exact xml_occurrence. Qed.
Print Assumptions C48_refuted.

Example C48_escaping : xml_escaping five_entities.
Proof. exact five_entities_escaping. Qed.

Example C48_sample : convert_run (fun v => v) five_entities TXml false [(lit "f", sample_line "1" "<")]
  = Some (Done (lit "<?xml version=""1.0"" encoding=""UTF-8""?>
<collection targetNamespace=""info:srw/schema/5/picaXML-v1.0"" xmlns:xs=""http://www.w3.org/2001/XMLSchema"" xmlns=""info:srw/schema/5/picaXML-v1.0"">
    <record>
        <datafield tag=""003@"">
            <subfield code=""0"">1</subfield>
        </datafield>
        <datafield tag=""012A"">
            <subfield code=""a"">&lt;</subfield>
        </datafield>
    </record>
</collection>")).
Proof. vm_compute. reflexivity. Qed.

(** C58, XML: a run panics exactly if a value is not UTF-8 *)
Theorem C58_xml_partial : forall lossy esc, keeps_utf8 lossy -> forall skip files recs e, reads skip files recs e ->
  convert_run lossy esc TXml skip files = Some Panicked
  <-> exists r f s, In r recs /\ In f (br_record r) /\ In s (f_subfields f) /\ ~ is_utf8 (sf_value s).
Proof. exact xml_run_panics. Qed.
Print Assumptions C58_xml_partial.

Theorem C58_xml_refuted : exists r l, record_text r l /\
  forall lossy esc skip name, keeps_utf8 lossy -> convert_run lossy esc TXml skip [(name, l)] = Some Panicked.
Proof. exact xml_panics. Qed.
Print Assumptions C58_xml_refuted.

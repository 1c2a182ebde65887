(** * Specification of commands from their arguments to the contents of the files

    For each command: the status and the text that belong to inputs with the
    given contents, if the arguments mean [M] (the condition), [V] (the values for
    allow and deny lists), and so on. *)

From Coq Require Import String.
From Verif Require TableSpec.
From Verif Require Import Bytes RecordModel RecordSpec ByteRecordModel ByteRecordSpec ReaderModel MatcherModel MatcherSpec
  GrammarSpec FmtModel QueryModel QuerySpec QueryGrammarSpec CliModel ExplodeModel CliSpec CheckModel CheckSpec CsvSpec ExplodeSpec
  ConvertModel ConvertSpec PrepareModel PrepareSpec IoModel IoSpec DiskModel DiskSpec.

(** A command [X], started in [w]: whenever it ends with a status, it is [status]
    and the outputs have received the texts; and it does so if its outputs can be
    opened. *)
Definition yields (gz_enc : bytes -> bytes) (writable : bytes -> bool) (X : option (command_end * world))
    (status : N) (texts : list (output * bytes)) (w : world) : Prop :=
  (forall st w', X = Some (CEnded st, w') -> st = status /\ received gz_enc texts w w')
  /\ ((forall n, In n (out_names (map fst texts)) -> writable n = true) ->
      exists w', X = Some (CEnded status, w') /\ received gz_enc texts w w').

(** the fields that remain, as text *)
Definition remaining_part (D K : predicates) (part : list field) (t : bytes) : Prop :=
  exists fs, Selected (remains D K) part fs /\ contents_text fs t.

(** nothing is written if reading fails *)
Definition if_done (e : option read_error) (t : bytes) : bytes := match e with None => t | Some _ => [] end.

Definition delimiter (tsv : bool) : byte := if tsv then 9 else 44.

Section Effects.
  Variable a : opts_args.
  Variable M : meaning field.
  Variable V : record -> list bytes -> Prop.
  Variable skip : bool.
  Variable cs : list (bytes * bytes).

  Definition count_effect (m : count_mode) (status : N) (text : bytes) : Prop :=
    exists all sel e t, reads skip cs all e /\ chosen (meant a M V) all sel
      /\ count_text m (N.of_nat (length sel)) (N.of_nat (length (flat_map br_record sel)))
           (N.of_nat (length (flat_map f_subfields (flat_map br_record sel)))) t
      /\ status = status_of e /\ text = if_done e t.

  Definition print_effect (nf : bytes -> bytes) (status : N) (text : bytes) : Prop :=
    exists recs e ts, opts_records a M V skip cs recs e /\ Forall2 (printed_record nf) recs ts
      /\ status = status_of e /\ text = concat ts.

  Definition slice_effect (start stop : N) (status : N) (text : bytes) : Prop :=
    exists all e0 sel range e1 recs e, reads skip cs all e0 /\ chosen (meant a M V) all sel
      /\ index_range start stop sel range /\ slice_error start stop sel e0 e1
      /\ limited (oa_limit a) range e1 recs e /\ lines_of recs text /\ status = status_of e.

  Definition sample_effect (size : N) (status : N) (text : bytes) : Prop :=
    exists recs e, opts_records a M V skip cs recs e /\ status = status_of e
      /\ match e with
         | None => exists sample, drawn size recs sample /\ lines_of sample text
         | Some _ => text = []
         end.

  Definition explode_effect (l : level) (D K : predicates) (status : N) (text : bytes) : Prop :=
    exists all partss sel parts e0 e ts, reads skip cs all e0
      /\ Forall2 (fun r ps => exploded l (br_record r) ps) all partss
      /\ picks (meant a M V) (fun p => p) (concat partss) sel
      /\ limited (oa_limit a) sel e0 parts e
      /\ Forall2 (remaining_part D K) parts ts
      /\ status = status_of e /\ text = concat ts.

  Definition hash_effect (sha lossy : bytes -> bytes) (tsv : bool) (h1 h2 : bytes) (status : N) (text : bytes) : Prop :=
    exists recs e rows, opts_records a M V skip cs recs e /\ Forall2 (hash_row sha lossy) recs rows
      /\ csv_rows (delimiter tsv) ([h1; h2] :: rows) text /\ status = status_of e.

  Definition check_effect (Od : oracles) (T : text_fns) (lossy : bytes -> bytes) (sets : list rule_set) (output : option bytes)
      (status : N) (text : bytes) : Prop :=
    exists recs e rowss finals, opts_records a M V skip cs recs e
      /\ Forall2 (fun r rows => exists parts, Forall2 (set_rows Od T lossy (br_record r)) sets parts /\ rows = concat parts)
           recs rowss
      /\ Forall2 (set_final Od T lossy (map br_record recs)) sets finals
      /\ report output (concat rowss ++ match e with None => concat finals | Some _ => [] end) text
      /\ status = status_of e.

  (** [frame]: how the table of codes and rows is written *)
  Definition describe_effect (D K : predicates) (frame : list N * list (bytes * list N) -> bytes) (text : bytes) : Prop :=
    exists recs fss codes rows, opts_records a M V skip cs recs None
      /\ Forall2 (fun r => Selected (remains D K) (br_record r)) recs fss
      /\ TableSpec.describes (concat fss) codes rows
      /\ text = frame (codes, rows).
End Effects.

Section Tables.
  Variable a : table_args.
  Variable M : meaning field.
  Variable V : record -> list bytes -> Prop.
  Variable Ms : list (nat * qmeaning).
  Variable header : option (list bytes).
  Variable lossy : bytes -> bytes.
  Variable skip : bool.
  Variable cs : list (bytes * bytes).

  Definition select_effect (hash : list bytes -> N) (unique no_empty : bool) (nf : option (bytes -> bytes)) (tsv : bool)
      (status : N) (text : bytes) : Prop :=
    exists recs e rss out, opts_records (ta_opts a) M V skip cs recs e
      /\ Forall2 (fun r rows => query_rows Ms (options_of a) (br_record r) rows) recs rss
      /\ TableSpec.select_writes hash unique no_empty (concat rss) out
      /\ csv_rows (delimiter tsv)
           (TableSpec.header_rows header
            ++ map (fun row => match nf with
                               | None => row
                               | Some nf => map (fun v => nf (lossy v)) row
                               end) out) text
      /\ status = status_of e.

  Definition frequency_effect (unique : bool) (num threshold : N) (reverse : bool) (nf : bytes -> bytes) (tsv : bool)
      (status : N) (text : bytes) : Prop :=
    exists recs e rss l reached listed rows t, opts_records (ta_opts a) M V skip cs recs e
      /\ Forall2 (fun r rows => query_rows Ms (options_of a) (br_record r) rows) recs rss
      /\ TableSpec.frequencies unique reverse rss l
      /\ TableSpec.reaching reverse threshold l reached
      /\ TableSpec.first_num num reached listed
      /\ Forall2 (TableSpec.written_frequency (fun v => nf (lossy v))) listed rows
      /\ csv_rows (delimiter tsv) (TableSpec.header_rows header ++ rows) t
      /\ status = status_of e /\ text = if_done e t.
End Tables.

(** concat; with --unique the records must have keys *)
Definition concat_effect (sha lossy : bytes -> bytes) (unique : option strategy) (skip : bool) (cs : list (bytes * bytes))
    (status : N) (text : bytes) : Prop :=
  exists recs kept e, reads skip cs recs e
    /\ match unique with
       | None => kept = recs
       | Some st => firsts (key_of sha lossy st) [] recs kept
       end
    /\ lines_of kept text /\ status = status_of e.

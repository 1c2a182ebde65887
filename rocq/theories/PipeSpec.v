(** * Specification of pipes: stdout and stdin instead of a file *)

From Coq Require Import String.
From Verif Require Import Bytes DiskModel MainModel DiskSpec MainSpec.

(** The commands that write to stdout what they would write to a file.  Describe is
    not among them, its table is written in another way to stdout. *)
Definition to_stdout (k : command) : bool :=
  match k with
  | KCheck _ _ _ _ None _ | KConcat _ _ None _ _ _ | KConvert _ _ _ None _ | KCount _ _ None _ _
  | KExplode _ _ _ _ _ None _ | KFilter _ _ _ _ None _ _ | KFrequency _ _ _ _ _ _ _ _ None _ | KHash _ None _ _ _
  | KInvalid None _ | KPrint _ _ None _ | KSample _ _ None _ _ _ | KSelect _ _ _ _ _ _ _ _ None _
  | KSlice _ _ _ None _ _ _ _ => true
  | _ => false
  end.

(** the command with the output [m] *)
Definition with_output (m : bytes) (k : command) : command :=
  match k with
  | KCheck o rules filter tags _ names => KCheck o rules filter tags (Some m) names
  | KConcat skip append _ tee unique names => KConcat skip append (Some m) tee unique names
  | KConvert skip from to _ names => KConvert skip from to (Some m) names
  | KCount o append _ mode names => KCount o append (Some m) mode names
  | KExplode o discard keep l gzip _ names => KExplode o discard keep l gzip (Some m) names
  | KFilter o f append gzip _ tee names => KFilter o f append gzip (Some m) tee names
  | KFrequency o q unique num threshold reverse nf tsv _ names =>
      KFrequency o q unique num threshold reverse nf tsv (Some m) names
  | KHash o _ tsv header names => KHash o (Some m) tsv header names
  | KInvalid _ names => KInvalid (Some m) names
  | KPrint o nf _ names => KPrint o nf (Some m) names
  | KSample o gzip _ draw size names => KSample o gzip (Some m) draw size names
  | KSelect o q unique no_empty nf quote tsv append _ names => KSelect o q unique no_empty nf quote tsv append (Some m) names
  | KSlice o gzip append _ start end_ length names => KSlice o gzip append (Some m) start end_ length names
  | KDescribe _ _ _ _ _ _ _ | KConfig _ | KPartition _ _ _ _ _ _ | KSplit _ _ _ _ _ _ => k
  end.

(** the command with these inputs *)
Definition with_inputs (names : list bytes) (k : command) : command :=
  match k with
  | KCheck o rules filter tags output _ => KCheck o rules filter tags output names
  | KConcat skip append output tee unique _ => KConcat skip append output tee unique names
  | KConfig a => KConfig a
  | KConvert skip from to output _ => KConvert skip from to output names
  | KCount o append output mode _ => KCount o append output mode names
  | KDescribe o discard keep csv tsv output _ => KDescribe o discard keep csv tsv output names
  | KExplode o discard keep l gzip output _ => KExplode o discard keep l gzip output names
  | KFilter o f append gzip output tee _ => KFilter o f append gzip output tee names
  | KFrequency o q unique num threshold reverse nf tsv output _ =>
      KFrequency o q unique num threshold reverse nf tsv output names
  | KHash o output tsv header _ => KHash o output tsv header names
  | KInvalid output _ => KInvalid output names
  | KPartition o p gzip outdir template _ => KPartition o p gzip outdir template names
  | KPrint o nf output _ => KPrint o nf output names
  | KSample o gzip output draw size _ => KSample o gzip output draw size names
  | KSelect o q unique no_empty nf quote tsv append output _ => KSelect o q unique no_empty nf quote tsv append output names
  | KSlice o gzip append output start end_ length _ => KSlice o gzip append output start end_ length names
  | KSplit o gzip outdir template size _ => KSplit o gzip outdir template size names
  end.

(** a name that does not ask for compression or for another kind of report *)
Definition plain (m : bytes) : Prop :=
  ~ gz_extension m /\ (forall p, m <> p ++ lit ".txt") /\ (forall p, m <> p ++ lit ".tsv").

(** with a file for the expression of filter, what is given as expression is an input *)
Definition expression_free (k : command) : Prop :=
  forall o f append gzip output tee names, k = KFilter o f append gzip output tee names ->
  fi_expr_file f = None \/ fi_expr f = [].

(** What a command did that has led from [w] to [v] with stdout is what it did with the
    output [m] when it has led to [v']: the other files are the same, and what has been
    written to stdout is now in the file. *)
Definition redirected (m : bytes) (append : bool) (w v v' : world) : Prop :=
  (forall n, n <> m -> disk_get (w_disk v') n = disk_get (w_disk v) n)
  /\ w_stdout v' = w_stdout w
  /\ exists t, w_stdout v = w_stdout w ++ t
       /\ disk_get (w_disk v') m = Some ((if append then before w m else []) ++ t).

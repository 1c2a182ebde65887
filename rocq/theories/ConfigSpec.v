(** * Specification of changes of the configuration *)

From Coq Require Import String.
From Verif Require Import Bytes Utf8Spec OptionsModel ConfigModel.

Definition form_names : list (norm_form * bytes) :=
  [(Nfc, lit "nfc"); (Nfkc, lit "nfkc"); (Nfd, lit "nfd"); (Nfkd, lit "nfkd")].

(** [c'] is [c] with another value of one option; [None]: the option is not set *)
Definition updated (c : config) (name : bytes) (v : option bytes) (c' : config) : Prop :=
  (name = lit "skip-invalid" /\ cf_normalization c' = cf_normalization c
    /\ (cf_skip_invalid c' = true <-> v = Some (lit "true")))
  \/ (name = lit "normalization" /\ cf_skip_invalid c' = cf_skip_invalid c
    /\ match v with
       | None => cf_normalization c' = None
       | Some w => exists n, cf_normalization c' = Some n /\ In (n, w) form_names
       end).

(** a file that is there, but cannot be read as a text *)
Definition illegible (f : config_file) : Prop :=
  f = FUnreadable \/ exists b, f = FHolds b /\ ~ is_utf8 b.

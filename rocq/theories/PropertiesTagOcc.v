(** * Properties of tag and occurrence matchers *)

From Coq Require Import String.
From Verif Require Import Bytes RecordSpec TagOccModel TagOccSpec TagOccProofs.

(** C14: the accepted texts are exactly those of the specification, and the
    matcher accepts exactly the denoted occurrences. *)
Theorem C14_occurrence_matcher_sound : forall b m, occ_matcher_new b = Some m ->
  exists P, occ_matcher_text b P /\ (forall o, om_is_match m o = true <-> P o).
Proof. exact occ_matcher_sound. Qed.
Print Assumptions C14_occurrence_matcher_sound.

Theorem C14_occurrence_matcher_complete : forall b P, occ_matcher_text b P ->
  exists m, occ_matcher_new b = Some m /\ (forall o, om_is_match m o = true <-> P o).
Proof. exact occ_matcher_complete. Qed.
Print Assumptions C14_occurrence_matcher_complete.

Theorem C14_range_rejected : forall x y,
  valid_occ x -> valid_occ y -> (length x <> length y \/ number y <= number x) ->
  occ_matcher_new (lit "/" ++ x ++ lit "-" ++ y) = None.
Proof. exact occ_range_rejected. Qed.
Print Assumptions C14_range_rejected.

(** numeric reading, for occurrences as wide as the bounds *)
Theorem C14_range_numeric_same_width : forall x y z m,
  valid_occ x -> valid_occ y -> valid_occ z ->
  length x = length y -> length z = length x ->
  occ_matcher_new (lit "/" ++ x ++ lit "-" ++ y) = Some m ->
  (om_is_match m (Some z) = true <-> number x <= number z <= number y).
Proof. exact occ_range_numeric. Qed.
Print Assumptions C14_range_numeric_same_width.

(** and refuted in general, in both directions: "/01-99" matches "100", and
    "/005-010" misses "07". *)
Theorem C14_range_numeric_refuted :
  (exists x y z m, valid_occ x /\ valid_occ y /\ valid_occ z
     /\ occ_matcher_new (lit "/" ++ x ++ lit "-" ++ y) = Some m
     /\ om_is_match m (Some z) = true /\ ~ (number x <= number z <= number y))
  /\ (exists x y z m, valid_occ x /\ valid_occ y /\ valid_occ z
     /\ occ_matcher_new (lit "/" ++ x ++ lit "-" ++ y) = Some m
     /\ om_is_match m (Some z) = false /\ number x <= number z <= number y).
Proof. exact occ_range_numeric_refuted. Qed.
Print Assumptions C14_range_numeric_refuted.

Example C14_sample :
  (exists m, occ_matcher_new (lit "/03-12") = Some m
     /\ om_is_match m (Some (lit "07")) = true /\ om_is_match m (Some (lit "13")) = false
     /\ om_is_match m None = false)
  /\ (exists m, occ_matcher_new [] = Some m /\ om_is_match m None = true
     /\ om_is_match m (Some (lit "00")) = true /\ om_is_match m (Some (lit "000")) = false)
  /\ occ_matcher_new (lit "/12-03") = None /\ occ_matcher_new (lit "/03-012") = None.
Proof. split; [|split]; [eexists; vm_compute; repeat split|eexists; vm_compute; repeat split|vm_compute; auto]. Qed.

Theorem C15_occurrence_display_parse : forall b m,
  occ_matcher_new b = Some m -> occ_matcher_new (om_display m) = Some m.
Proof. exact occ_display_parse. Qed.
Print Assumptions C15_occurrence_display_parse.

Example C15_sample : exists m, occ_matcher_new (lit "/03-12") = Some m /\ om_display m = lit "/03-12".
Proof. eexists. vm_compute. repeat split. Qed.

Theorem C16_tag_matcher_sound : forall b m, tag_matcher_new b = Some m ->
  exists P, tag_matcher_text b P /\ (forall t, tm_is_match m t = true <-> P t).
Proof. exact tag_matcher_sound. Qed.
Print Assumptions C16_tag_matcher_sound.

Theorem C16_tag_matcher_complete : forall b P, tag_matcher_text b P ->
  exists m, tag_matcher_new b = Some m /\ (forall t, tm_is_match m t = true <-> P t).
Proof. exact tag_matcher_complete. Qed.
Print Assumptions C16_tag_matcher_complete.

Theorem C16_plain_tag : forall t, valid_tag t ->
  exists m, tag_matcher_new t = Some m /\ forall x, tm_is_match m x = true <-> x = t.
Proof. exact tag_matcher_plain. Qed.
Print Assumptions C16_plain_tag.

(** tag matchers print to the text they were parsed from *)
Theorem C16_display : forall b m, tag_matcher_new b = Some m -> tm_display m = b.
Proof. exact tag_matcher_display_text. Qed.
Print Assumptions C16_display.

Example C16_sample : exists m, tag_matcher_new (lit "0[12-4].[A-C@]") = Some m
  /\ tm_is_match m (lit "034@") = true /\ tm_is_match m (lit "054@") = false
  /\ tm_is_match m (lit "134@") = false /\ tm_is_match m (lit "034D") = false.
Proof. eexists. vm_compute. repeat split. Qed.

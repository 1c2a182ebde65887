(** * Lookups in fields and records *)

From Coq Require Import String.
From Verif Require Import Bytes RecordModel RecordSpec TagOccModel MatcherModel PathModel FmtModel QueryModel
  QuerySpec QueryProofs.

Lemma contains_iff : forall f c, field_contains f c = true <-> exists s, In s (f_subfields f) /\ sf_code s = c.
Proof.
  intros f c. unfold field_contains. rewrite existsb_exists. split; intros (s & Hs & E); exists s;
    (split; [exact Hs|]); apply N.eqb_eq; exact E.
Qed.

Lemma find_some : forall f p s, field_find f p = Some s <->
  exists pre post, f_subfields f = pre ++ s :: post /\ p s = true /\ Forall (fun x => p x = false) pre.
Proof.
  intros f p s. unfold field_find. induction (f_subfields f) as [|x l IH]; cbn [find].
  - split; [discriminate|]. intros ([|] & post & E & _); discriminate.
  - destruct (p x) eqn:E.
    + split.
      * intros H. injection H as ->. exists [], l. auto.
      * intros ([|y pre] & post & El & Hs & Hp); [cbn in El; congruence|].
        cbn in El. injection El as -> _. inversion Hp. congruence.
    + rewrite IH. split.
      * intros (pre & post & -> & Hs & Hp). exists (x :: pre), post. auto.
      * intros ([|y pre] & post & El & Hs & Hp); [cbn in El; congruence|].
        cbn in El. injection El as -> ->. inversion Hp; subst. eauto.
Qed.

Lemma find_none_iff : forall f p, field_find f p = None <-> forall s, In s (f_subfields f) -> p s = false.
Proof.
  intros f p. unfold field_find. split.
  - intros H s. apply find_none. exact H.
  - intros H. induction (f_subfields f) as [|x l IH]; [reflexivity|]. cbn. rewrite (H x) by (left; reflexivity).
    apply IH. intros s Hs. apply H. right. exact Hs.
Qed.

Lemma retain_picks : forall p r out, picks (fun f => p f = true) (fun f => f) r out <-> out = record_retain p r.
Proof.
  intros p r out. unfold record_retain. split.
  - induction 1 as [|x l out H _ IH|x l out H _ IH]; cbn; [reflexivity|rewrite H, IH; reflexivity|].
    destruct (p x); [contradiction|exact IH].
  - intros ->. induction r as [|x r IH]; cbn; [constructor|]. destruct (p x) eqn:E.
    + apply (picks_yes (fun f => p f = true) (fun f => f)); assumption.
    + apply picks_no; [congruence|exact IH].
Qed.

Lemma level_of_tag : forall t, valid_tag t -> exists c t' l, t = c :: t' /\ tag_level t = Some l
  /\ (l = LMain <-> c = 48) /\ (l = LLocal <-> c = 49) /\ (l = LCopy <-> c = 50).
Proof.
  intros t H. unfold valid_tag in H. destruct H as (a & b & c & d & -> & Ha & _). exists a, [b; c; d].
  cbn in Ha. destruct Ha as [<-|[<-|[<-|[]]]]; eexists; (split; [reflexivity|]); (split; [reflexivity|]);
    split; [|split| |split| |split]; split; intros E; try discriminate; reflexivity.
Qed.

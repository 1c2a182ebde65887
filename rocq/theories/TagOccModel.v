(** * Tag and occurrence matchers *)

From Coq Require Import String.
From Verif Require Import Bytes Winnow RecordModel.

(** /repo/src/matcher/tag.rs:17-20 TagMatcher; the array of four vectors is
    spread over four arguments. *)
Inductive tag_matcher :=
| TMTag (t : bytes)
| TMPattern (p0 p1 p2 p3 : bytes) (raw : bytes).

(** /repo/src/matcher/tag.rs:63-73 TagMatcher::is_match.  Tags have exactly
    four bytes; for other lengths (where Rust panics on the index) the model
    answers [false]. *)
Definition tm_is_match (m : tag_matcher) (tag : bytes) : bool :=
  match m with
  | TMTag t => bytes_eqb t tag
  | TMPattern p0 p1 p2 p3 _ =>
      match tag with
      | [a; b; c; d] => mem_byte a p0 && mem_byte b p1 && mem_byte c p2 && mem_byte d p3
      | _ => false
      end
  end.

(** /repo/src/matcher/tag.rs:92-97 Display *)
Definition tm_display (m : tag_matcher) : bytes :=
  match m with TMTag t => t | TMPattern _ _ _ _ raw => raw end.

(** the Rust range [min..=max] of bytes, collected *)
Definition byte_range (lo hi : byte) : bytes :=
  map (fun k => lo + N.of_nat k) (seq 0 (N.to_nat (hi + 1 - lo))).

(** [separated_pair(p, '-', p)] *)
Definition dash_pair {A} (p : parser A) : parser (A * A) := fun i =>
  do (a, r1) <- p i; do (_, r2) <- ch 45 r1; do (b, r3) <- p r2; Some ((a, b), r3).

(** /repo/src/matcher/tag.rs:140-150: one item of a bracket list *)
Definition parse_tm_item (allowed : bytes) : parser bytes :=
  alt (pmap (fun mm => byte_range (fst mm) (snd mm))
        (pverify (fun mm => fst mm <? snd mm)
          (dash_pair (one_of (fun c => mem_byte c allowed)))))
      (pmap (fun c => [c]) (one_of (fun c => mem_byte c allowed))).

(** /repo/src/matcher/tag.rs:129-161 parse_tag_matcher_pattern_fragment *)
Definition parse_tm_fragment (allowed : bytes) : parser bytes :=
  alt (pmap (fun c => [c]) (one_of (fun c => mem_byte c allowed)))
  (alt (pvalue allowed (ch 46))
       (delimited (ch 91) (pmap (@concat byte) (repeat1 (parse_tm_item allowed))) (ch 93))).

(** the bytes consumed between two parser positions ([with_taken]) *)
Definition taken (before after : bytes) : bytes :=
  firstn (length before - length after) before.

Definition allowed0 : bytes := lit "012".
Definition allowed12 : bytes := lit "0123456789".
Definition allowed3 : bytes := lit "ABCDEFGHIJKLMNOPQRSTUVWXYZ@".

(** /repo/src/matcher/tag.rs:164-179 parse_tag_matcher_pattern.  The [unwrap]
    of the UTF-8 conversion is total: the consumed bytes are ASCII. *)
Definition parse_tm_pattern : parser tag_matcher := fun i =>
  do (p0, r0) <- parse_tm_fragment allowed0 i;
  do (p1, r1) <- parse_tm_fragment allowed12 r0;
  do (p2, r2) <- parse_tm_fragment allowed12 r1;
  do (p3, r3) <- parse_tm_fragment allowed3 r2;
  Some (TMPattern p0 p1 p2 p3 (taken i r3), r3).

(** /repo/src/matcher/tag.rs:122-127 parse_tag_matcher_tag *)
Definition parse_tm_tag : parser tag_matcher := pmap TMTag parse_tag.

(** /repo/src/matcher/tag.rs:181-186 parse_tag_matcher *)
Definition parse_tag_matcher : parser tag_matcher := alt parse_tm_tag parse_tm_pattern.

(** /repo/src/matcher/tag.rs:41-47 TagMatcher::new *)
Definition tag_matcher_new (b : bytes) : option tag_matcher := parse_all parse_tag_matcher b.

(** /repo/src/matcher/occurrence.rs:14-19 OccurrenceMatcher *)
Inductive occ_matcher :=
| OMExact (o : bytes)
| OMRange (lo hi : bytes)
| OMNone
| OMAny.

(** /repo/src/matcher/occurrence.rs:69-82 OccurrenceMatcher::is_match *)
Definition om_is_match (m : occ_matcher) (other : option bytes) : bool :=
  match other with
  | None => match m with OMAny | OMNone => true | _ => false end
  | Some occ =>
      match m with
      | OMAny => true
      | OMNone => bytes_eqb occ (lit "00")
      | OMExact rhs => bytes_eqb occ rhs
      | OMRange lo hi => bytes_leb lo occ && bytes_leb occ hi
      end
  end.

(** /repo/src/matcher/occurrence.rs:98-107 Display *)
Definition om_display (m : occ_matcher) : bytes :=
  match m with
  | OMExact o => SLASH :: o
  | OMRange lo hi => SLASH :: lo ++ 45 :: hi
  | OMAny => lit "/*"
  | OMNone => []
  end.

(** /repo/src/matcher/occurrence.rs:118-125 parse_occurrence_matcher_exact *)
Definition parse_om_exact : parser occ_matcher :=
  pmap OMExact (pverify (fun o => negb (bytes_eqb o (lit "00"))) parse_occurrence).

(** /repo/src/matcher/occurrence.rs:128-139 parse_occurrence_matcher_range;
    [<] on occurrences is the derived order on [BString] (byte-wise). *)
Definition parse_om_range : parser occ_matcher :=
  pmap (fun mm => OMRange (fst mm) (snd mm))
    (pverify (fun mm => Nat.eqb (length (fst mm)) (length (snd mm))
                        && bytes_ltb (fst mm) (snd mm))
      (dash_pair parse_occurrence)).

(** /repo/src/matcher/occurrence.rs:141-157 parse_occurrence_matcher *)
Definition parse_occ_matcher : parser occ_matcher :=
  alt (preceded (ch SLASH)
        (alt parse_om_range
        (alt parse_om_exact
        (alt (pvalue OMNone (tok (lit "00")))
             (pvalue OMAny (tok (lit "*")))))))
      (fun i => Some (OMNone, i)).

(** /repo/src/matcher/occurrence.rs:41-49 OccurrenceMatcher::new *)
Definition occ_matcher_new (b : bytes) : option occ_matcher := parse_all parse_occ_matcher b.

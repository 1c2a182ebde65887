(** * The tests of the project, run on the model: common definitions

    The files [Conf*.v] replay unit tests, documentation examples and integration
    tests of /repo on the model.  They are tests of the model, not proofs of
    properties: each states that the model gives the result which the Rust test
    asserts. *)

From Coq Require Import String.
From Verif Require Import Bytes Winnow RecordModel TagOccModel StateParser MatcherModel.

(** bstr's [to_lowercase], for ASCII *)
Definition ascii_lower (b : bytes) : bytes := map (fun c => if is_upper c then c + 32 else c) b.

(** The parses of one test run in one thread: each begins with the counters the
    one before has left.  All of [good] are accepted, are printed as they were
    written and satisfy [k]; then all of [bad] are rejected. *)
Fixpoint in_thread_from {A} (p : sparser A) (display : A -> bytes) (k : A -> bool) (s : levels)
    (good bad : list bytes) : bool :=
  match good with
  | i :: good' =>
      match sparse_all p s i with
      | (Some (Some m), s') => bytes_eqb (display m) i && k m && in_thread_from p display k s' good' bad
      | _ => false
      end
  | [] =>
      (fix rejected (s : levels) (bad : list bytes) : bool :=
         match bad with
         | [] => true
         | i :: bad' => match sparse_all p s i with (Some None, s') => rejected s' bad' | _ => false end
         end) s bad
  end.
Definition in_thread {A} (p : sparser A) (display : A -> bytes) (k : A -> bool) (good bad : list bytes) : bool :=
  in_thread_from p display k fresh good bad.

(** [X::new(..)?], the rest of the test with the result; [with_new0] without
    counters *)
Definition with_new {A} (f : levels -> bytes -> option (option A) * levels) (s : levels) (i : bytes)
    (k : A -> levels -> bool) : bool :=
  match f s i with (Some (Some m), s') => k m s' | _ => false end.
Definition with_some {A} (x : option A) (k : A -> bool) : bool := match x with Some a => k a | None => false end.
Definition with_new0 {A} (f : bytes -> option A) (i : bytes) (k : A -> bool) : bool := with_some (f i) k.
(** [assert!(X::new(..).is_err())] *)
Definition refused {A} (f : levels -> bytes -> option (option A) * levels) (s : levels) (i : bytes)
    (k : levels -> bool) : bool :=
  match f s i with (Some None, s') => k s' | _ => false end.
Definition refused0 {A} (f : bytes -> option A) (i : bytes) (k : bool) : bool :=
  match f i with Some _ => false | None => k end.
(** the match is done without panic and succeeds *)
Definition is_true (x : option bool) : bool := match x with Some b => b | None => false end.

(** [==] of matchers *)
Definition bytes_dec (a b : bytes) : {a = b} + {a <> b} := list_eq_dec N.eq_dec a b.
Definition bytess_dec (a b : list bytes) : {a = b} + {a <> b} := list_eq_dec bytes_dec a b.
Definition singleton_dec (a b : singleton) : {a = b} + {a <> b}.
Proof. decide equality; first [apply bytes_dec | apply bytess_dec | apply N.eq_dec | apply Bool.bool_dec | decide equality]. Defined.
Definition sm_dec (a b : subfield_matcher) : {a = b} + {a <> b}.
Proof. decide equality; first [apply singleton_dec | decide equality]. Defined.
Definition sm_same (a b : subfield_matcher) : bool := if sm_dec a b then true else false.
Definition tm_dec (a b : tag_matcher) : {a = b} + {a <> b}.
Proof. decide equality; apply bytes_dec. Defined.
Definition om_dec (a b : occ_matcher) : {a = b} + {a <> b}.
Proof. decide equality; apply bytes_dec. Defined.
Definition fs_dec (a b : field_singleton) : {a = b} + {a <> b}.
Proof. decide equality; first [apply bytes_dec | apply sm_dec | apply tm_dec | apply om_dec | decide equality]. Defined.
Definition osm_dec (a b : option subfield_matcher) : {a = b} + {a <> b}.
Proof. decide equality; apply sm_dec. Defined.
Definition fm_dec (a b : field_matcher) : {a = b} + {a <> b}.
Proof. decide equality; first [apply fs_dec | apply bytes_dec | apply osm_dec | apply tm_dec | apply om_dec | apply N.eq_dec | decide equality]. Defined.
Definition fm_same (a b : field_matcher) : bool := if fm_dec a b then true else false.

(** strsim's [normalized_levenshtein] of two ASCII texts compared with a
    threshold in percent: 1 - d / max > t *)
Fixpoint lev_row (x : byte) (b : bytes) (prev : list nat) (left : nat) : list nat :=
  match b, prev with
  | y :: b', d :: ((u :: _) as prev') =>
      let v := Nat.min (if x =? y then d else S d) (S (Nat.min left u)) in v :: lev_row x b' prev' v
  | _, _ => []
  end.
Fixpoint lev (a b : bytes) (i : nat) (row : list nat) : nat :=
  match a with
  | [] => last row 0%nat
  | x :: a' => lev a' b (S i) (S i :: lev_row x b row (S i))
  end.
Definition levenshtein (a b : bytes) : nat := lev a b 0 (seq 0 (S (length b))).
Definition similar (percent : N) (ci : bool) (a b : bytes) : bool :=
  let a := if ci then ascii_lower a else a in
  let b := if ci then ascii_lower b else b in
  let m := N.of_nat (Nat.max (length a) (length b)) in
  if m =? 0 then percent <? 100
  else percent * m <? 100 * (m - N.of_nat (levenshtein a b)).

Definition is_some {A} (x : option A) : bool := match x with Some _ => true | None => false end.

(** SHA-256 (FIPS 180-4) *)
Definition w32 (x : N) : N := N.land x 4294967295.
Definition rotr (k x : N) : N := w32 (N.lor (N.shiftr x k) (N.shiftl x (32 - k))).
Definition sha_k : list N :=
  [1116352408; 1899447441; 3049323471; 3921009573; 961987163; 1508970993; 2453635748; 2870763221;
   3624381080; 310598401; 607225278; 1426881987; 1925078388; 2162078206; 2614888103; 3248222580;
   3835390401; 4022224774; 264347078; 604807628; 770255983; 1249150122; 1555081692; 1996064986;
   2554220882; 2821834349; 2952996808; 3210313671; 3336571891; 3584528711; 113926993; 338241895;
   666307205; 773529912; 1294757372; 1396182291; 1695183700; 1986661051; 2177026350; 2456956037;
   2730485921; 2820302411; 3259730800; 3345764771; 3516065817; 3600352804; 4094571909; 275423344;
   430227734; 506948616; 659060556; 883997877; 958139571; 1322822218; 1537002063; 1747873779;
   1955562222; 2024104815; 2227730452; 2361852424; 2428436474; 2756734187; 3204031479; 3329325298].
Definition sha_init : list N :=
  [1779033703; 3144134277; 1013904242; 2773480762; 1359893119; 2600822924; 528734635; 1541459225].
Fixpoint to_words (b : bytes) : list N :=
  match b with
  | x :: y :: z :: u :: b' => (((x * 256 + y) * 256 + z) * 256 + u) :: to_words b'
  | _ => []
  end.
Definition word_bytes (x : N) : bytes :=
  [N.shiftr x 24; N.land (N.shiftr x 16) 255; N.land (N.shiftr x 8) 255; N.land x 255].
Definition sha_pad (b : bytes) : bytes :=
  let n := N.of_nat (length b) in
  let z := (119 - n mod 64) mod 64 in
  b ++ [128] ++ repeat 0 (N.to_nat z) ++ word_bytes (N.shiftr (8 * n) 32) ++ word_bytes (w32 (8 * n)).
(** the message schedule: the last sixteen words, the newest first *)
Fixpoint sha_schedule (n : nat) (last16 : list N) (acc : list N) : list N :=
  match n with
  | O => rev acc
  | S n' =>
      let w k := nth k last16 0 in
      let s0 := N.lxor (N.lxor (rotr 7 (w 14%nat)) (rotr 18 (w 14%nat))) (N.shiftr (w 14%nat) 3) in
      let s1 := N.lxor (N.lxor (rotr 17 (w 1%nat)) (rotr 19 (w 1%nat))) (N.shiftr (w 1%nat) 10) in
      let x := w32 (w 15%nat + s0 + w 6%nat + s1) in
      sha_schedule n' (x :: firstn 15 last16) (x :: acc)
  end.
Definition sha_round (st : list N) (kw : N * N) : list N :=
  match st with
  | [a; b; c; d; e; f; g; h] =>
      let s1 := N.lxor (N.lxor (rotr 6 e) (rotr 11 e)) (rotr 25 e) in
      let chv := N.lxor (N.land e f) (N.land (N.lxor e 4294967295) g) in
      let t1 := h + s1 + chv + fst kw + snd kw in
      let s0 := N.lxor (N.lxor (rotr 2 a) (rotr 13 a)) (rotr 22 a) in
      let maj := N.lxor (N.lxor (N.land a b) (N.land a c)) (N.land b c) in
      [w32 (t1 + s0 + maj); a; b; c; w32 (d + t1); e; f; g]
  | _ => st
  end.
Definition sha_block (st : list N) (ws : list N) : list N :=
  let all := sha_schedule 48 (rev ws) (rev ws) in
  map (fun p => w32 (fst p + snd p)) (combine st (fold_left sha_round (combine sha_k all) st)).
Fixpoint sha_blocks (n : nat) (st : list N) (ws : list N) : list N :=
  match n with
  | O => st
  | S n' => sha_blocks n' (sha_block st (firstn 16 ws)) (skipn 16 ws)
  end.
Definition sha256 (b : bytes) : bytes :=
  let ws := to_words (sha_pad b) in
  concat (map word_bytes (sha_blocks (Nat.div (length ws) 16) sha_init ws)).

(** the test vectors of FIPS 180-4 for "abc" and the empty text *)
Example sha256_abc :
  (firstn 4 (sha256 (lit "abc")), firstn 4 (sha256 [])) = ([186; 120; 22; 191], [227; 176; 196; 66]).
Proof. vm_compute. reflexivity. Qed.

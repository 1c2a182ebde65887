(** * Formats (/repo/src/fmt) *)

From Coq Require Import String.
From Verif Require Import Bytes Winnow RecordModel TagOccModel Utf8Model StrParserModel
  MatcherModel StateParser MatcherParserModel PathModel.

(** Text functions of bstr used by the modifiers; external to the model.
    [t_lower]/[t_upper]: to_lowercase/to_uppercase, [t_trim]: trim (Unicode
    White_Space). *)
Record text_fns := mkTextFns {
  t_lower : bytes -> bytes;
  t_upper : bytes -> bytes;
  t_trim : bytes -> bytes }.

(** /repo/src/fmt/mod.rs:285-303 Modifier *)
Record modifier := mkModifier {
  m_lower : bool; m_upper : bool; m_remove_ws : bool; m_trim : bool; m_strip : bool }.
(** [Modifier::default()] *)
Definition no_modifier : modifier := mkModifier false false false false false.

(** /repo/src/fmt/mod.rs:152-157 Fragments, 173-178 Group, 197-204 Value,
    248-252 List.  A bound [..e] is the number [e]. *)
Inductive fragments :=
| FGroup (body : fragments) (bound : N) (m : modifier)
| FValue (codes : bytes) (prefix suffix : option bytes) (bound : N) (m : modifier)
| FAndThen (l : list fragments)
| FCons (l : list fragments).

(** /repo/src/fmt/mod.rs:21-27 Format *)
Record format := mkFormat {
  fmt_tag : tag_matcher;
  fmt_occ : occ_matcher;
  fmt_sub : option subfield_matcher;
  fmt_raw : bytes;
  fmt_fragments : fragments }.

(** [usize::MAX] *)
Definition usize_max : N := 18446744073709551615.

(** /repo/src/fmt/parser.rs:170-201 parse_modifier *)
Definition modifier_of (codes : bytes) : modifier :=
  mkModifier (mem_byte 108 codes) (mem_byte 117 codes) (mem_byte 119 codes)
    (mem_byte 116 codes) (mem_byte 111 codes).
Definition parse_modifier : parser (option modifier) :=
  opt (preceded (ch 63)
    (pmap modifier_of
      (repeat1 (alt (ch 108) (alt (ch 117) (alt (ch 116) (alt (ch 119) (ch 111)))))))).
(** [.unwrap_or_default()] *)
Definition modifier_default (m : option modifier) : modifier :=
  match m with Some x => x | None => no_modifier end.

(** the bound after a value or group (parser.rs:84-93, 113-122); [d] is the
    bound if none is given *)
Definition parse_bound (d : N) : parser N :=
  alt (preceded (tok (lit "..")) parse_usize)
  (alt (pvalue usize_max (tok (lit ".."))) (fun i => Some (d, i))).

(** /repo/src/fmt/parser.rs:103-136 parse_value *)
Definition parse_value : parser fragments := fun i =>
  do (m, r1) <- ws parse_modifier i;
  do (pre, r2) <- opt (ws parse_string) r1;
  do (codes, r3) <- parse_codes r2;
  do (e, r4) <- parse_bound 1 r3;
  do (suf, r5) <- opt (ws parse_string) r4;
  Some (FValue codes pre suf e (modifier_default m), r5).

(** /repo/src/fmt/parser.rs:58-67 group_level_inc *)
Definition fmt_inc : sparser unit := fun s i =>
  let n := lv_fmt s + 1 in
  let s' := mkLevels (lv_sub s) (lv_field s) n in
  if 32 <=? n then (PErr, s') else (POk tt i, s').
(** [ws(')').map(|_| group_level_dec())], parser.rs:83 and 69-73; only reached
    after an increment, so the subtraction does not truncate *)
Definition fmt_close : sparser unit := fun s i =>
  match ws (ch 41) i with
  | Some (_, r) => (POk tt r, mkLevels (lv_sub s) (lv_field s) (lv_fmt s - 1))
  | None => (PErr, s)
  end.

Section FmtKnot.
  (** the group parser of the next recursion depth *)
  Variable grp : sparser fragments.

  (** /repo/src/fmt/parser.rs:157-168 parse_list_and_then *)
  Definition fmt_and_then : sparser fragments :=
    smap FAndThen (sseparated2 (salt grp (slift parse_value)) (ws (tok (lit "<$>")))).

  (** /repo/src/fmt/parser.rs:143-155 parse_list_cons *)
  Definition fmt_list_cons : sparser fragments :=
    smap FCons (sseparated2 (salt fmt_and_then (salt grp (slift parse_value)))
                  (ws (tok (lit "<*>")))).

  (** /repo/src/fmt/parser.rs:138-141 parse_list *)
  Definition fmt_list : sparser fragments := salt fmt_list_cons fmt_and_then.

  (** /repo/src/fmt/parser.rs:75-101 parse_group *)
  Definition fmt_group_body : sparser fragments :=
    sbind (slift (ws (ch 40))) (fun _ =>
    sbind fmt_inc (fun _ =>
    sbind (slift parse_modifier) (fun m =>
    sbind (salt (sws fmt_list) (sws (slift parse_value))) (fun f =>
    sbind fmt_close (fun _ =>
    smap (fun e => FGroup f e (modifier_default m)) (slift (parse_bound usize_max))))))).

  (** /repo/src/fmt/parser.rs:45-52 parse_fragments *)
  Definition fmt_fragments_body : sparser fragments :=
    salt (sws fmt_list) (salt (sws grp) (sws (slift parse_value))).
End FmtKnot.

(** the group parser with [n] levels of recursion *)
Fixpoint fmt_group (n : nat) : sparser fragments :=
  match n with
  | O => sfuel
  | S n' => fmt_group_body (fmt_group n')
  end.

(** /repo/src/fmt/parser.rs:45-52 parse_fragments *)
Definition parse_fragments : sparser fragments := fun s i =>
  fmt_fragments_body (fmt_group (S (length i))) s i.

Section Fmt.
  Variable O : oracles.
  Variable T : text_fns.

  (** /repo/src/fmt/parser.rs:18-43 parse_format *)
  Definition parse_format : sparser format :=
    staken (fun x raw => let '(t, o, f, m) := x in mkFormat t o m (trim raw) f)
      (sbind (slift parse_tag_matcher) (fun t =>
       sbind (slift parse_occ_matcher) (fun o =>
       sdelim (slift (ws (ch 123)))
         (sbind parse_fragments (fun f =>
          smap (fun m => (t, o, f, m)) (parse_condition O)))
         (slift (ws (ch 125)))))).

  (** /repo/src/fmt/mod.rs:47-51 Format::new *)
  Definition format_new : levels -> bytes -> option (option format) * levels :=
    sparse_all parse_format.

  (** [replacen("@", "", 1)]: without the first '@' *)
  Fixpoint strip_overread (b : bytes) : bytes :=
    match b with
    | [] => []
    | c :: r => if c =? 64 then r else c :: strip_overread r
    end.

  (** /repo/src/fmt/mod.rs:334-354 Modifier::modify *)
  Definition modify (m : modifier) (v : bytes) : bytes :=
    let v := if m_strip m then strip_overread v else v in
    let v := if m_trim m then t_trim T v else v in
    let v := if m_remove_ws m then filter (fun c => negb (c =? 32)) v else v in
    let v := if m_lower m then t_lower T v else v in
    if m_upper m then t_upper T v else v.

  (** an optional text *)
  Definition opt_text (o : option bytes) : bytes := match o with Some b => b | None => [] end.

  (** /repo/src/fmt/mod.rs:212-241: the loop over the subfields with its
      counter; [strip] is the option strip_overread_char *)
  Fixpoint value_loop (strip : bool) (codes : bytes) (pre suf : option bytes) (bound cnt : N)
      (sfs : list subfield) (acc : bytes) : bytes :=
    match sfs with
    | [] => acc
    | s :: rest =>
        if negb (cnt <? bound) then acc
        else if negb (code_in codes s) then value_loop strip codes pre suf bound cnt rest acc
        else value_loop strip codes pre suf bound (cnt + 1) rest
               (acc ++ opt_text pre
                    ++ (if strip then strip_overread (sf_value s) else sf_value s)
                    ++ opt_text suf)
    end.

  (** /repo/src/fmt/mod.rs:160-170 Fragments::fmt_field, 181-194 Group, 207-245
      Value, 255-283 List; [None] is the [unreachable!()] of Group *)
  Fixpoint fmt_frag (strip : bool) (fr : fragments) (f : field) : option bytes :=
    match fr with
    | FValue codes pre suf bound m =>
        Some (modify m (value_loop strip codes pre suf bound 0 (f_subfields f) []))
    | FGroup body _ m =>
        match body with
        | FGroup _ _ _ => None
        | _ => do v <- fmt_frag strip body f; Some (modify m v)
        end
    | FAndThen l =>
        (fix go (l : list fragments) (acc : bytes) : option bytes :=
           match l with
           | [] => Some acc
           | x :: rest =>
               do v <- fmt_frag strip x f;
               match v with [] => Some acc | _ => go rest (acc ++ v) end
           end) l []
    | FCons l =>
        (fix go (l : list fragments) (acc : bytes) : option bytes :=
           match l with
           | [] => Some acc
           | x :: rest => do v <- fmt_frag strip x f; go rest (acc ++ v)
           end) l []
    end.

  (** /repo/src/fmt/mod.rs:54-62 Format::fmt_field *)
  Definition fmt_field (strip : bool) (fm : format) (f : field) : option (option bytes) :=
    do v <- fmt_frag strip (fmt_fragments fm) f;
    Some (match v with [] => None | _ => Some v end).

  (** /repo/src/fmt/mod.rs:410-434 RecordRef::format, all values; [None] is a
      panic.  [strip], [ci]: the options strip_overread_char, case_ignore *)
  Fixpoint record_format (strip ci : bool) (fm : format) (r : record) : option (list bytes) :=
    match r with
    | [] => Some []
    | f :: fs =>
        do b <- tag_occ_sub_match O ci (fmt_tag fm) (fmt_occ fm) (fmt_sub fm) f;
        if b then
          do x <- fmt_field strip fm f;
          do rest <- record_format strip ci fm fs;
          Some (match x with Some v => v :: rest | None => rest end)
        else record_format strip ci fm fs
    end.

  (** /repo/src/fmt/mod.rs:437-466 StringRecord::format; [lossy] is
      [BString::to_string] (Display), external to the model *)
  Definition string_record_format (lossy : bytes -> bytes) (strip ci : bool) (fm : format) (r : record)
    : option (list bytes) :=
    do vs <- record_format strip ci fm r; Some (map lossy vs).
End Fmt.

(** /repo/src/fmt/mod.rs:357-372 Display for Format *)
Definition format_display (f : format) : bytes := fmt_raw f.

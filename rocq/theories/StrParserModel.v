(** * Shared expression parsers (/repo/src/parser.rs)

    The optional cargo feature "compat" (off by default) is the subject of CompatModel. *)

From Coq Require Import String.
From Verif Require Import Bytes Winnow RecordModel TagOccModel Utf8Model.

(** winnow's [multispace0] as a function on the remaining input *)
Definition skip_ws (i : bytes) : bytes := snd (span is_mspace i).

(** [multispace1] *)
Definition multispace1 : parser bytes := take_while1 is_mspace.

(** /repo/src/parser.rs:105-119 ws *)
Definition ws {A} (p : parser A) : parser A := fun i =>
  do (a, r) <- p (skip_ws i); Some (a, skip_ws r).

(** /repo/src/parser.rs:19-30 parse_subfield_code_range *)
Definition parse_code_range : parser bytes :=
  pmap (fun mm => byte_range (fst mm) (snd mm))
    (pverify (fun mm => fst mm <? snd mm) (dash_pair parse_subfield_code)).

(** /repo/src/parser.rs:33-52 parse_subfield_code_list *)
Definition parse_code_list : parser bytes :=
  delimited (ch 91)
    (pmap (@concat byte)
      (repeat1 (alt parse_code_range (pmap (fun c => [c]) parse_subfield_code))))
    (ch 93).

(** /repo/src/parser.rs:55-68 parse_subfield_code_all *)
Definition parse_code_all : parser bytes :=
  pvalue (lit "0123456789abcdefghijklmnopqrstuvwxyzABCDEFGHIJKLMNOPQRSTUVWXYZ") (ch 42).

(** /repo/src/parser.rs:71-81 parse_subfield_codes *)
Definition parse_codes : parser bytes :=
  alt parse_code_list (alt (pmap (fun c => [c]) parse_subfield_code) parse_code_all).

(** /repo/src/parser.rs:127-139 parse_literal; [q] is the quote byte *)
Definition parse_literal (q : byte) : parser bytes :=
  take_till1 (fun c => (c =? q) || (c =? 92)).

(** /repo/src/parser.rs:141-165 parse_escaped_char *)
Definition parse_escaped_char (q : byte) : parser byte :=
  preceded (ch 92)
    (alt (pvalue 10 (ch 110))
    (alt (pvalue 13 (ch 114))
    (alt (pvalue 9 (ch 116))
    (alt (pvalue 8 (ch 98))
    (alt (pvalue 12 (ch 102))
    (alt (pvalue 92 (ch 92))
    (alt (pvalue 47 (ch 47))
         (pvalue q (ch q))))))))).

(** /repo/src/parser.rs:174-184 parse_quoted_fragment; the bytes a fragment
    contributes (what the fold at 196-205 appends) are computed at once *)
Definition parse_quoted_fragment (q : byte) : parser bytes :=
  alt (parse_literal q)
  (alt (pmap (fun c => [c]) (parse_escaped_char q))
       (pvalue [] (preceded (ch 92) multispace1))).

(** /repo/src/parser.rs:186-211 parse_quoted_string *)
Definition parse_quoted_string (q : byte) : parser bytes :=
  delimited (ch q) (pmap (@concat byte) (repeat0 (parse_quoted_fragment q))) (ch q).

(** /repo/src/parser.rs:227-231 parse_string: single or double quotes, then
    the content must be UTF-8 *)
Definition parse_string : parser bytes :=
  pverify utf8_valid (alt (parse_quoted_string 39) (parse_quoted_string 34)).

(** [digit1] followed by [str::parse::<usize>] (64 bit) *)
Definition parse_usize : parser N := fun i =>
  do (d, r) <- take_while1 is_digit i;
  let n := fold_left (fun acc c => 10 * acc + (c - 48)) d 0 in
  if n <? 18446744073709551616 then Some (n, r) else None.

(** [str::trim] and [str::trim_end] on the texts they are applied to in
    src/matcher and src/fmt: these begin and end with ASCII, so only the ASCII
    members of Unicode White_Space matter. *)
Definition is_space (c : byte) : bool :=
  (c =? 32) || ((9 <=? c) && (c <=? 13)).
Definition trim_start (b : bytes) : bytes := snd (span is_space b).
Definition trim_end (b : bytes) : bytes := rev (trim_start (rev b)).
Definition trim (b : bytes) : bytes := trim_end (trim_start b).

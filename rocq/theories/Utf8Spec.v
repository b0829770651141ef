(** Which byte strings are text: the UTF-8 encoding (RFC 3629, section 3), written down as an encoder. *)
From Coq Require Import ZArith List.
From Verif Require Import Base.
Import ListNotations.
Open Scope Z_scope.

(** Unicode scalar values: the code points up to 10FFFF (hexadecimal) without the surrogates D800-DFFF. *)
Definition scalar (c : Z) : Prop := 0 <= c < 55296 \/ 57344 <= c <= 1114111.
(** The encoding of one of them, in one to four bytes that carry 7, 5+6, 4+6+6 or 3+6+6+6 bits. *)
Definition utf8 (c : Z) : bytes :=
  if c <? 128 then [c]
  else if c <? 2048 then [192 + c / 64; 128 + c mod 64]
  else if c <? 65536 then [224 + c / 4096; 128 + c / 64 mod 64; 128 + c mod 64]
  else [240 + c / 262144; 128 + c / 4096 mod 64; 128 + c / 64 mod 64; 128 + c mod 64].
(** Text is a sequence of scalar values. *)
Definition is_text (s : bytes) : Prop := exists t, Forall scalar t /\ s = concat (map utf8 t).

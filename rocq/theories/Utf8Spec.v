(** Specification: UTF-8 (RFC 3629), from code points to bytes. *)
From Verif Require Import Base.

(** a Unicode scalar value *)
Definition scalar (c : Z) : Prop := 0 <= c < 55296 \/ 57344 <= c < 1114112.
(** its bytes *)
Definition rune (c : Z) : bytes :=
  if c <? 128 then [c]
  else if c <? 2048 then [192 + c / 64; 128 + c mod 64]
  else if c <? 65536 then [224 + c / 4096; 128 + c / 64 mod 64; 128 + c mod 64]
  else [240 + c / 262144; 128 + c / 4096 mod 64; 128 + c / 64 mod 64; 128 + c mod 64].
(** a text *)
Definition text (s : bytes) : Prop := exists cs, Forall scalar cs /\ s = flat_map rune cs.

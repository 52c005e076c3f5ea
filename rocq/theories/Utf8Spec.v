(* Text in UTF-8, and bytes that need not be. *)
From Coq Require Import List ZArith.
Import ListNotations.

(* UTF-8 (RFC 3629): the scalar values of Unicode and their encoding in one to four bytes *)
Definition scalar (c : Z) : Prop := (0 <= c <= 0x10FFFF /\ ~ (0xD800 <= c <= 0xDFFF))%Z.
Definition utf8_char (c : Z) : list Z :=
  (if c <? 0x80 then [c]
   else if c <? 0x800 then [0xC0 + c / 64; 0x80 + c mod 64]
   else if c <? 0x10000 then [0xE0 + c / 4096; 0x80 + c / 64 mod 64; 0x80 + c mod 64]
   else [0xF0 + c / 262144; 0x80 + c / 4096 mod 64; 0x80 + c / 64 mod 64; 0x80 + c mod 64])%Z.
Definition utf8_text (bs : list Z) : Prop := exists cs, Forall scalar cs /\ bs = flat_map utf8_char cs.
(* Bytes that need not be UTF-8 as text (Unicode 3.9, U+FFFD substitution of maximal subparts): where no character begins, the longest
   beginning of a character, or else one byte, becomes one U+FFFD *)
Definition begins_char (bs : list Z) : Prop := exists c rest, scalar c /\ utf8_char c = bs ++ rest.
Inductive lossy_text : list Z -> list Z -> Prop :=
| lossy_end : lossy_text [] []
| lossy_char c bs text : scalar c -> lossy_text bs text -> lossy_text (utf8_char c ++ bs) (utf8_char c ++ text)
| lossy_bad part bs text :
    part <> [] -> length part = 1 \/ begins_char part -> (forall c rest, scalar c -> part ++ bs <> utf8_char c ++ rest) ->
    (forall x rest, bs = x :: rest -> ~ begins_char (part ++ [x])) -> lossy_text bs text -> lossy_text (part ++ bs) (utf8_char 0xFFFD ++ text).

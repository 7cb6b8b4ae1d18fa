(** Vocabulary for text on Windows: Unicode's own definitions of UTF-8 and UTF-16 (D76, D91, D92), by arithmetic on code points. *)
From Verif Require Import Base.

(** a Unicode scalar value: a code point that is no surrogate *)
Definition scalar (c : N) : Prop := c < 0x110000 /\ ~ (0xD800 <= c < 0xE000).
Definition utf8_of (c : N) : bytes :=
  if c <? 0x80 then [c]
  else if c <? 0x800 then [0xC0 + c / 64; 0x80 + c mod 64]
  else if c <? 0x10000 then [0xE0 + c / 4096; 0x80 + c / 64 mod 64; 0x80 + c mod 64]
  else [0xF0 + c / 262144; 0x80 + c / 4096 mod 64; 0x80 + c / 64 mod 64; 0x80 + c mod 64].
Definition utf16_of (c : N) : list N :=
  if c <? 0x10000 then [c] else [0xD800 + (c - 0x10000) / 1024; 0xDC00 + (c - 0x10000) mod 1024].
(** [s] spells in UTF-8 what [us] spells in UTF-16. *)
Definition same_text (us : list N) (s : bytes) : Prop :=
  exists cs, Forall scalar cs /\ us = flat_map utf16_of cs /\ s = flat_map utf8_of cs.
(** [us] is well-formed UTF-16: every surrogate is part of a pair. *)
Definition well_formed (us : list N) : Prop := exists s, same_text us s.
(** 16-bit units without a NUL, as a zero-terminated string of the system *)
Definition name_units (us : list N) : Prop := Forall (fun u => 0 < u < 65536) us.

(** Specification: Unicode values, their internal form, and the standard encoding forms. *)
From Verif Require Import Base Types.
Local Open Scope N_scope.

Definition scalar (c : N) : Prop := c < 0x110000 /\ ~ (0xD800 <= c <= 0xDFFF).

(** A number as big-endian bytes without leading zeros (at least one byte). *)
Definition be_bytes (c : N) : list N :=
  if c <? 0x100 then [c]
  else if c <? 0x10000 then [c / 0x100; c mod 0x100]
  else if c <? 0x1000000 then [c / 0x10000; c / 0x100 mod 0x100; c mod 0x100]
  else [c / 0x1000000; c / 0x10000 mod 0x100; c / 0x100 mod 0x100; c mod 0x100].
(** The internal form of a Unicode character: type 01, then the code point. *)
Definition udatum (c : N) : datum := 1 :: be_bytes c.

(** UTF-8 (RFC 3629 table, applied to all values below 0x200000). *)
Definition utf8 (c : N) : list N :=
  if c <? 0x80 then [c]
  else if c <? 0x800 then [0xC0 + c / 0x40; 0x80 + c mod 0x40]
  else if c <? 0x10000 then [0xE0 + c / 0x1000; 0x80 + c / 0x40 mod 0x40; 0x80 + c mod 0x40]
  else [0xF0 + c / 0x40000; 0x80 + c / 0x1000 mod 0x40; 0x80 + c / 0x40 mod 0x40; 0x80 + c mod 0x40].

(** UTF-16: code units, then bytes. *)
Definition utf16_units (c : N) : list N :=
  if c <? 0x10000 then [c] else [0xD800 + (c - 0x10000) / 0x400; 0xDC00 + (c - 0x10000) mod 0x400].
Definition utf16be (c : N) : list N := flat_map (fun u => [u / 0x100; u mod 0x100]) (utf16_units c).
Definition utf16le (c : N) : list N := flat_map (fun u => [u mod 0x100; u / 0x100]) (utf16_units c).
(** UTF-32. *)
Definition utf32be (c : N) : list N := [c / 0x1000000; c / 0x10000 mod 0x100; c / 0x100 mod 0x100; c mod 0x100].
Definition utf32le (c : N) : list N := rev (utf32be c).

(** Text: a sequence of characters in some encoding. *)
Definition text (enc : N -> list N) (cps : list N) : list N := concat (map enc cps).

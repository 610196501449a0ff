(** The BSDCONV notation: two hexadecimal digits, of either case, per byte. *)
From Verif Require Import Base Types S_Escape.
Inductive hex_of : list N -> list N -> Prop :=
| hx_nil : hex_of [] []
| hx_byte h l x y d text : is_hex h x -> is_hex l y -> hex_of d text -> hex_of ((16 * h + l)%N :: d) (x :: y :: text).

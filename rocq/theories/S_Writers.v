(** Specification of the written forms: ASCII characters as themselves, the others in a notation of their own. *)
From Coq Require Ascii String.
From Verif Require Import Base Types S_Unicode S_Escape.
Local Open Scope N_scope.

(** What the encoder ASCII writes: U+0001 to U+007F, and the small tilde U+02DC as "~". *)
Inductive in_ascii : N -> list N -> Prop :=
| ia_same c : 1 <= c < 128 -> in_ascii c [c]
| ia_tilde : in_ascii 0x2DC [0x7E].
(** ASCII where there is one, otherwise the other notation. *)
Inductive kept_or (other : N -> list N -> Prop) (c : N) (w : list N) : Prop :=
| ko_kept : in_ascii c w -> kept_or other c w
| ko_other : (forall v, ~ in_ascii c v) -> other c w -> kept_or other c w.

(** The code of a character in upper-case hexadecimal digits, as short as possible. *)
Definition upper_hex (v x : N) : Prop := (v < 10 /\ x = 48 + v) \/ (10 <= v < 16 /\ x = 55 + v).
Definition shortest_hex (c : N) (h : list N) : Prop := exists v vs, Forall2 upper_hex (v :: vs) h /\ number 16 (v :: vs) = c /\ (v = 0 -> vs = []).
(** [before] and [after]: the text around it *)
Definition ascii_codes (s : String.string) : list N := map Ascii.N_of_ascii (String.list_ascii_of_string s).
Definition link_before : list N := ascii_codes "<img class=""unicode_img"" src=""http://www.unicode.org/cgi-bin/refglyph?24-"%string.
Definition link_after : list N := ascii_codes """ />"%string.
Definition image_link (before after : list N) (c : N) (w : list N) : Prop := exists h, shortest_hex c h /\ w = before ++ h ++ after.
(** The bytes of the code, most significant first, as few as possible. *)
Definition code_bytes (c : N) (w : list N) : Prop := exists b r, w = b :: r /\ Forall (fun x => x < 256) w /\ number 256 w = c /\ (b = 0 -> r = []).

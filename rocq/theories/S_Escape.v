(** Specification: escape sequences and numeric character references, as texts. *)
From Verif Require Import Base Types S_Unicode.
Local Open Scope N_scope.

(** What escapes stand for: a raw byte or a character; and their internal forms. *)
Inductive item := Byte (b : N) | Char (c : N).
Definition internal (i : item) : datum := match i with Byte b => [3; b] | Char c => udatum c end.

(** Digits: [is_hex v x]: the character [x] (upper or lower case) is the hexadecimal digit of value [v]. *)
Definition is_hex (v x : N) : Prop := (v < 10 /\ x = 48 + v) \/ (10 <= v < 16 /\ (x = 55 + v \/ x = 87 + v)).
Definition is_dec (v x : N) : Prop := v < 10 /\ x = 48 + v.
Definition is_oct (v x : N) : Prop := v < 8 /\ x = 48 + v.
(** The number written by digits. *)
Definition number (base : N) (vs : list N) : N := fold_left (fun n v => n * base + v) vs 0.

(** %XX  \xXX  \OOO  %uXXXX  \uXXXX *)
Inductive spells : item -> list N -> Prop :=
| sp_percent h l x y : is_hex h x -> is_hex l y -> spells (Byte (number 16 [h; l])) [0x25; x; y]
| sp_x h l x y : is_hex h x -> is_hex l y -> spells (Byte (number 16 [h; l])) [0x5C; 0x78; x; y]
| sp_octal a b c x y z : is_oct a x -> is_oct b y -> is_oct c z -> number 8 [a; b; c] < 256 -> spells (Byte (number 8 [a; b; c])) [0x5C; x; y; z]
| sp_u m a b c d x y z w : m = 0x25 \/ m = 0x5C -> is_hex a x -> is_hex b y -> is_hex c z -> is_hex d w -> 0 < number 16 [a; b; c; d] ->
    spells (Char (number 16 [a; b; c; d])) [m; 0x75; x; y; z; w].
(** &#DDD;  &#xHHH; with any number of digits, leading zeros included *)
Inductive refers : N -> list N -> Prop :=
| rf_dec vs xs : Forall2 is_dec vs xs -> xs <> [] -> 0 < number 10 vs < 0x100000000 -> refers (number 10 vs) ([0x26; 0x23] ++ xs ++ [0x3B])
| rf_hex vs xs : Forall2 is_hex vs xs -> 0 < number 16 vs < 0x100000000 -> refers (number 16 vs) ([0x26; 0x23; 0x78] ++ xs ++ [0x3B]).

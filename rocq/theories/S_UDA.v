(** Specification: the user-defined areas of CP950 (Big5), as documented by Microsoft: the codes of the three areas in order,
    and then the codes C6A1..C8FE, correspond to the private use characters from U+E000 on. *)
From Verif Require Import Base Types.
Local Open Scope N_scope.

Definition between (a b : N) : list N := map (fun k => a + N.of_nat k) (seq 0 (N.to_nat (b + 1 - a))).
(** The trail bytes of Big5. *)
Definition trails : list N := between 0x40 0x7E ++ between 0xA1 0xFE.
Definition row (h : N) : list (list N) := map (fun l => [h; l]) trails.
(** All codes of the user-defined areas, in order of their characters: FA40..FEFE, 8E40..A0FE, 8140..8DFE, C6A1..C8FE. *)
Definition uda_codes : list (list N) :=
  flat_map row (between 0xFA 0xFE) ++ flat_map row (between 0x8E 0xA0) ++ flat_map row (between 0x81 0x8D) ++
  map (fun l => [0xC6; l]) (between 0xA1 0xFE) ++ flat_map row (between 0xC7 0xC8).
(** The [n]-th code and its character. *)
Definition uda_code (n : nat) : list N := nth n uda_codes [].
Definition uda_char (n : nat) : N := 0xE000 + N.of_nat n.
Definition uda_count : nat := N.to_nat 6217.

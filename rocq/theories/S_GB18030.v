(** Specification: the four-byte codes of GB 18030. *)
From Verif Require Import Base Types.
Local Open Scope N_scope.

(** A four-byte code is two pairs (81..FE, 30..39); the codes are numbered in lexicographic order. *)
Definition four (b : list N) : Prop :=
  match b with
  | [a; b; c; d] => (0x81 <= a <= 0xFE) /\ (0x30 <= b <= 0x39) /\ (0x81 <= c <= 0xFE) /\ (0x30 <= d <= 0x39)
  | _ => False
  end.
Definition number (b : list N) : N :=
  match b with
  | [a; b; c; d] => (((a - 0x81) * 10 + (b - 0x30)) * 126 + (c - 0x81)) * 10 + (d - 0x30)
  | _ => 0
  end.
(** Supplementary characters start at number 189000 = 90308130. *)
Definition supplementary (c : N) : Prop := 0x10000 <= c <= 0x10FFFF.
Definition stands_for (b : list N) (c : N) : Prop := four b /\ number b = 189000 + (c - 0x10000).
(** The ranges of the BMP that are assigned in sequence: first, last, number of the first. *)
Definition runs : list (N * N * N) :=
  [(0x0452, 0x200F, 820); (0x2643, 0x2E80, 9219); (0x361B, 0x3917, 12973); (0x3CE1, 0x4055, 14698); (0x4160, 0x4336, 15847);
   (0x44D7, 0x464B, 16729); (0x478E, 0x4946, 17418); (0x49B8, 0x4C76, 17961); (0x9FA6, 0xD7FF, 19043); (0xE865, 0xF92B, 33550);
   (0xFA2A, 0xFE2F, 38078); (0xFFE6, 0xFFFF, 39394); (0x10000, 0x10FFFF, 189000)].
Definition in_sequence (b : list N) (c : N) : Prop := four b /\ exists lo hi n, In (lo, hi, n) runs /\ lo <= c <= hi /\ number b = n + (c - lo).

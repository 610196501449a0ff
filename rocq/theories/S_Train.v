(** Specification of trained scores: a number for every character, from a file with one byte each. *)
From Verif Require Import Base Types.
Local Open Scope N_scope.

(** The number of a character; a file that is too short says 0. *)
Definition score_in (f : list N) (c : N) : N := nth (N.to_nat c) f 0.
(** How often a character occurs. *)
Fixpoint occurs (c : N) (cps : list N) : N :=
  match cps with [] => 0 | x :: r => (if x =? c then 1 else 0) + occurs c r end.
(** Reading a text: every occurrence counts one, up to three; higher numbers stay.  The file grows no further than needed. *)
Definition trained_on (f : list N) (cps : list N) (f' : list N) : Prop :=
  (forall c, score_in f' c = if score_in f c <? 3 then N.min 3 (score_in f c + occurs c cps) else score_in f c) /\
  (length f <= length f')%nat /\ (forall c, In c cps -> score_in f c < 3 -> c < N.of_nat (length f')) /\
  (length f' = length f \/ exists c, In c cps /\ N.of_nat (length f') = c + 1).
(** The characters met for the first time: those with number 0, each once, in the order of their first occurrences. *)
Inductive newly_met (f : list N) : list N -> list N -> Prop :=
| nm_none : newly_met f [] []
| nm_one cps c ms : newly_met f cps ms -> score_in f c = 0 -> ~ In c cps -> newly_met f (cps ++ [c]) (ms ++ [c])
| nm_old cps c ms : newly_met f cps ms -> score_in f c <> 0 \/ In c cps -> newly_met f (cps ++ [c]) ms.
(** The sum of the numbers of the characters of a text. *)
Fixpoint total (f : list N) (cps : list N) : N := match cps with [] => 0 | c :: r => score_in f c + total f r end.
(** A character in the list file: four bytes, the most significant one first. *)
Definition listed (c : N) : list N := [N.shiftr c 24; N.land (N.shiftr c 16) 255; N.land (N.shiftr c 8) 255; N.land c 255].

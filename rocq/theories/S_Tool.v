(** Specification for the command line tool. *)
From Verif Require Import Base Types.

(** A sequence of reads of a file: non-empty pieces of at most [n] bytes, then the empty read at the end. *)
Inductive reading (n : nat) : list N -> list datum -> Prop :=
| rd_eof : reading n [] [[]]
| rd_some b content r : b <> [] -> length b <= n -> reading n content r -> reading n (b ++ content) (b :: r).

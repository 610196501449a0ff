(** Specification: tables of ranges. *)
From Verif Require Import Base.

(** Rows are non-empty ranges in increasing order without overlap. *)
Fixpoint ascending (rs : list (N * N)) : Prop :=
  match rs with
  | [] => True
  | (a, b) :: r => (a <= b)%N /\ match r with (c, _) :: _ => (b < c)%N | [] => True end /\ ascending r
  end.
Definition within (rs : list (N * N)) (x : N) : Prop := exists a b, In (a, b) rs /\ (a <= x <= b)%N.
(** The number a byte string denotes (big-endian). *)
Fixpoint be_value (l : list N) : N :=
  match l with [] => 0%N | b :: r => (b * 256 ^ N.of_nat (length r) + be_value r)%N end.

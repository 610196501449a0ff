(** Independent specification: the maximal runs of elements with a property. *)
From Verif Require Import Base.

(** [runs_of f l rs]: [rs] are the maximal non-empty runs of elements of [l] with the property [f], in order. *)
Inductive runs_of {A} (f : A -> bool) : list A -> list (list A) -> Prop :=
| ru_none l : Forall (fun x => f x = false) l -> runs_of f l []
| ru_run a r l rs : Forall (fun x => f x = false) a -> r <> [] -> Forall (fun x => f x = true) r ->
    (l = [] \/ exists x l', l = x :: l' /\ f x = false) -> runs_of f l rs -> runs_of f (a ++ r ++ l) (r :: rs).

(** Specification of a phase with a table of bonuses. *)
From Verif Require Import Base Types S_Dict.

(** Every line gives a bonus and a replacement, and no key begins with another one. *)
Definition bonus_lines (D : dict) : Prop :=
  forall w line, lookup D w = Some line -> has_longer D w = false /\ exists v x r, line = [v] :: x :: r.
(** The data [ds] begin with a key: its data and, as the last one, a datum that *begins* with the last datum of the key; [rest] is what follows. *)
Definition key_in (D : dict) (ds : list datum) (line rest : list datum) : Prop :=
  exists pre a z, ds = pre ++ (a ++ z) :: rest /\ a <> [] /\ lookup D (joined (pre ++ [a])) = Some line.
(** From left to right: a key is replaced and its bonus counted, any other datum passes unchanged. *)
Inductive scored (D : dict) : list datum -> list datum -> N -> Prop :=
| sc_end : scored D [] [] 0%N
| sc_key ds v o rest out k : key_in D ds ([v] :: o) rest -> scored D rest out k -> scored D ds (o ++ out) (v + k)%N
| sc_other x ds out k : (forall line rest, ~ key_in D (x :: ds) line rest) -> scored D ds out k -> scored D (x :: ds) (x :: out) k.

(** Specification of the alias look-up. *)
From Verif Require Import Base Types M_Hex.

Definition begins (k w : str) : Prop := exists r, w = k ++ r.
(** The line that counts for a name: the first. *)
Inductive has_alias : list (str * str) -> str -> str -> Prop :=
| ha_here k v T : has_alias ((k, v) :: T) k v
| ha_later k v k' v' T : k <> k' -> has_alias T k v -> has_alias ((k', v') :: T) k v.
(** What the look-up does with a name: at each place the longest alias that begins there is replaced by its target; where none begins,
    a character is kept and counted. *)
Inductive spelled (T : list (str * str)) : str -> str -> N -> Prop :=
| sp_end : spelled T [] [] 0
| sp_name k v rest out n : has_alias T k v -> (forall k' v', In (k', v') T -> begins k' (k ++ rest) -> length k' <= length k) ->
    spelled T rest out n -> spelled T (k ++ rest) (v ++ out) n
| sp_other c rest out n : (forall k v, In (k, v) T -> ~ begins k (c :: rest)) -> spelled T rest out n -> spelled T (c :: rest) (c :: out) (n + 1).

Definition ascii_name (s : str) : Prop := Forall (fun c => (1 <= N_of_ascii c < 128)%N) s.
(** Tables: aliases and targets of one character or more, ASCII, lines that mktable reads whole. *)
Definition table_ok (T : list (str * str)) : Prop :=
  Forall (fun kv => fst kv <> [] /\ snd kv <> [] /\ ascii_name (fst kv) /\ ascii_name (snd kv) /\ 5 * length (fst kv) + 5 * length (snd kv) + 2 <= 1023) T.

(** Independent specification of mixed single/double byte text. *)
From Verif Require Import Base Types M_Engine.

(** Codes of one byte and codes of several bytes; runs of the latter stand between SO (0E) and SI (0F).
    [mixed inside cs bs]: [bs] writes the codes [cs], starting inside such a run or not, and ends outside. *)
Inductive mixed : bool -> list datum -> list N -> Prop :=
| mx_end : mixed false [] []
| mx_single c cs bs : length c = 1%nat -> mixed false cs bs -> mixed false (c :: cs) (c ++ bs)
| mx_open c cs bs : (1 < length c)%nat -> mixed true (c :: cs) bs -> mixed false (c :: cs) (0x0E%N :: bs)
| mx_multi c cs bs : (1 < length c)%nat -> mixed true cs bs -> mixed true (c :: cs) (c ++ bs)
| mx_close c cs bs : length c = 1%nat -> mixed false (c :: cs) bs -> mixed true (c :: cs) (0x0F%N :: bs)
| mx_last : mixed true [] [0x0F%N].

(** Reading a key in a compiled table from state [s]: every byte has a successor, none of the states on the way is a dead
    end; it ends in [s']. *)
Inductive spells (tab : table) : tstate -> list N -> tstate -> Prop :=
| spl_end s : spells tab s [] s
| spl_byte s b n s1 k s' : get_offset s b = Some (S n) -> read_state tab (S n) = Some s1 -> t_status s1 <> DEADEND ->
    spells tab s1 k s' -> spells tab s (b :: k) s'.
Definition is_call (s : tstate) : Prop := t_status s = SUBROUTINE \/ t_status s = SUBMATCH_SUBROUTINE.
(** The table has the line "key ?data". *)
Definition calls_on (tab : table) (key : list N) (data : datum) : Prop :=
  exists root s, read_state tab 0 = Some root /\ key <> [] /\ spells tab root key s /\ is_call s /\ t_data s = [data].
(** The table has the line "key data" and no longer key starts with this one. *)
Definition matches_on (tab : table) (key : list N) (data : datum) : Prop :=
  exists root s, read_state tab 0 = Some root /\ key <> [] /\ spells tab root key s /\ t_status s = MATCH /\ t_data s = [data].

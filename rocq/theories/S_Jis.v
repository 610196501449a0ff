(** Independent specification of ISO-2022-JP text as modules/from/_JIS.c is meant to read it. *)
From Verif Require Import Base Types M_Engine S_Unicode.
Local Open Scope N_scope.

Inductive jmode := Ascii | Jis0201 | Jis0208 | Jis0212.
(** The escape sequences that select a character set. *)
Inductive escape : list N -> jmode -> Prop :=
| es_78 : escape [0x1B; 0x24; 0x40] Jis0208
| es_83 : escape [0x1B; 0x24; 0x42] Jis0208
| es_212 : escape [0x1B; 0x28; 0x24; 0x44] Jis0212
| es_ascii : escape [0x1B; 0x28; 0x42] Ascii
| es_kana : escape [0x1B; 0x28; 0x49] Jis0201
| es_roman : escape [0x1B; 0x28; 0x4A] Jis0201.
(** [code_of tab s w d]: from the state [s] of the compiled table, the bytes [w] lead to a line with the data [d], which no longer
    key continues; no shorter key is a line. *)
Inductive code_of (tab : table) : tstate -> list N -> list datum -> Prop :=
| co_last s b n s' : get_offset s b = Some (S n) -> read_state tab (S n) = Some s' -> t_status s' = MATCH -> code_of tab s [b] (t_data s')
| co_more s b n s' w d : get_offset s b = Some (S n) -> read_state tab (S n) = Some s' -> t_status s' = CONTINUE -> code_of tab s' w d -> code_of tab s (b :: w) d.
(** The character [c] has the code [w] in the set with this table. *)
Definition char_code (tab : table) (w : list N) (c : N) : Prop := exists root, read_state tab 0 = Some root /\ code_of tab root w [udatum c] /\ Forall (fun b => b < 256 /\ b <> 0x1B) w.
(** [jis_text tab m bs cs m']: starting in the set [m], the bytes [bs] are the characters [cs] and end in the set [m']. *)
Inductive jis_text (tab : jmode -> table) : jmode -> list N -> list N -> jmode -> Prop :=
| jt_end m : jis_text tab m [] [] m
| jt_escape m e m1 bs cs m' : escape e m1 -> jis_text tab m1 bs cs m' -> jis_text tab m (e ++ bs) cs m'
| jt_ascii b bs cs m' : 1 <= b < 128 -> b <> 0x1B -> jis_text tab Ascii bs cs m' -> jis_text tab Ascii (b :: bs) (b :: cs) m'
| jt_code m w c bs cs m' : m <> Ascii -> char_code (tab m) w c -> jis_text tab m bs cs m' -> jis_text tab m (w ++ bs) (c :: cs) m'.

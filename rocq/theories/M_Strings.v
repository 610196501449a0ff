(** modules/inter/STRINGS.c: keeps the runs of characters that pass a filter. *)
From Verif Require Import Base Types M_Engine M_Modules M_Star M_Stars.
Local Open Scope N_scope.

(** qh/qt, acc_len (an unsigned int) *)
Definition strs := (list datum * N)%type.
Section S.
(** [f]: cbfilter; [min_len]: an int; [before], [after]: NULL is [] *)
Variables (f : datum -> bool) (min_len : Z) (before after : list datum).
(** "r->acc_len >= r->min_len" compares as unsigned int (line 108) *)
Definition long_enough (n : N) : bool := (Z.modulo min_len 0x100000000 <=? Z.of_N n)%Z.
(** lines 103-128: the list is moved to the output or freed, acc_len is 0 afterwards *)
Definition strings_flush (r : strs) : strs * list datum :=
  match fst r with
  | [] => (r, [])
  | q => (([], 0), if long_enough (snd r) then before ++ q ++ after else [])
  end.
(** lines 130-145 *)
Definition strings_conv (r : strs) (d : datum) : strs * status * list datum :=
  if f d then ((fst r ++ [d], (snd r + 1) mod 0x100000000), SUBMATCH, [])
  else let '(r', o) := strings_flush r in (r', NEXTPHASE, o).
Definition STRINGS : star strs := mkStar strings_conv strings_flush.
(** lines 75-85 (cbinit) *)
Definition strings_init (r : strs) : strs := ([], 0).
End S.
(** The codec; cbcreate (lines 14-73) makes an empty list, acc_len ([g]) is uninitialised. *)
Definition get_strs (p : priv) : option strs := match p with PStrs q n => Some (q, n) | _ => None end.
Definition put_strs (s : strs) : priv := PStrs (fst s) (snd s).
Definition strings_mod (f : datum -> bool) (min_len : Z) (before after : list datum) (g : N) := star_codec put_strs get_strs (STRINGS f min_len before after) true (Some strings_init) ([], g).

(** Model of the bonus modules modules/inter/ZH-BONUS.c and ZH-BONUS-PHRASE.c (both include modules/inter/BONUS.c): tables whose lines
    "key TAB ?bonus,replacement" call a callback. *)
From Verif Require Import Base Types M_Engine M_Callback M_Create M_Mktable S_Source M_UTF8 M_UTF16 M_Modules.
Local Open Scope N_scope.

(** modules/inter/BONUS.c:9-24: the first byte of the first datum of the line is added to the counter (line 18), the other data are appended
    (line 20).  For a line without data or without a replacement, or with an empty first datum (the byte behind it in the file would be
    read), nothing is added here; the installed tables have no such lines.  The counter
    SCORE (cbcreate, lines 4-7) is the module's private state: the sharing of SCORE by several modules of one conversion is not modelled. *)
Definition bonus_cb (p : priv) (d : datum) (i : nat) (ds : list datum) : cbres priv :=
  match p with
  | PNum n => match ds with
              | (v :: _) :: x :: o => mkCb priv (PNum (n + v)) i NEXTPHASE (x :: o)
              | _ :: o => mkCb priv p i NEXTPHASE o
              | [] => mkCb priv p i NEXTPHASE []
              end
  | _ => mkCb priv p i DEADEND []
  end.
(** A compiled table whose lines are all callback lines: src/bsdconv-mktable.c:397, 381-424 give the leaves the statuses SUBROUTINE and
    SUBMATCH_SUBROUTINE where ordinary lines have MATCH and SUBMATCH.  (The compiler also lets lines with the same output share a state, which
    does not matter to a reader of the table; for ZH-BONUS T_Bonus compares with M_Mktable.) *)
Definition calls_st (s : tstate) : tstate :=
  mkTs (match t_status s with MATCH => SUBROUTINE | SUBMATCH => SUBMATCH_SUBROUTINE | x => x end) (t_data s) (t_beg s) (t_end s) (t_kids s).
Definition calls (t : table) : table := map calls_st t.
(** The module, with the counter at [n]. *)
Definition bonus_mod (es : list sentry) (n : N) : ecodec priv := mkEc priv (calls (compiled es)) (Some bonus_cb) None None (PNum n).
(** The source text of such a table. *)
Definition text_bonus (es : list sentry) : list N :=
  flat_map (fun e => flat_map text_psym (en_pat e) ++ 9 :: 63 :: text_data (en_out e) ++ [10]) es.

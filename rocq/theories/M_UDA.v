(** Model of modules/from/CP950-UDA.c (decoder callback): no loop, one byte per call; no cbinit. *)
From Verif Require Import Base Types M_Engine M_Callback.
Local Open Scope N_scope.

(** struct my_s (lines 7-11); cbcreate sets h=0 only (lines 13-18). *)
Record uda := mkUda { ud_h : N; ud_x : N; ud_y : N }.
(** cbconv (lines 25-88).  [Some (CONTINUE, [])]: the callback returns after a lead byte.  On line 72 the sum is of
    ints; the constant is subtracted last here since N has no negative numbers (x is at least 0xE000). *)
Definition uda_step (t : uda) (d : N) : uda * option (status * list datum) :=
  let lead x y := (mkUda d x y, Some (CONTINUE, [])) in
  if ud_h t =? 0 then
    if (0xFA <=? d) && (d <=? 0xFE) then lead 0xE000 0xFA
    else if (0x8E <=? d) && (d <=? 0xA0) then lead 0xE311 0x8E
    else if (0x81 <=? d) && (d <=? 0x8D) then lead 0xEEB8 0x81
    else if (0xC6 <=? d) && (d <=? 0xC8) then lead 0xF672 0xC6
    else (t, Some (DEADEND, []))
  else
    let b := ud_h t * 256 + d in
    let t' := mkUda 0 (ud_x t) (ud_y t) in
    if ((0xFA40 <=? b) && (b <=? 0xFEFE)) || ((0x8E40 <=? b) && (b <=? 0xA0FE)) || ((0x8140 <=? b) && (b <=? 0x8DFE)) || ((0xC6A1 <=? b) && (b <=? 0xC8FE))
    then let u := ud_x t + 157 * (ud_h t - ud_y t) + d - (if d <? 0x80 then 0x40 else 0x62) in
         (t', Some (NEXTPHASE, [[1; u / 256 mod 256; u mod 256]]))
    else (t', Some (DEADEND, [])).

(** Model of intermediate modules (modules/inter): WIDTH, TRIM-WIDTH, AMBIGUOUS-PAD, AMBIGUOUS-UNPAD, COUNT, PASS,
    SCORE, INSERT, REPLACE, NULL. *)
From Verif Require Import Base Types M_Engine M_Bsearch M_Filter M_Star D_Ranges.
Local Open Scope N_scope.

(** modules/inter/WIDTH.c:39-71: the class of a datum: [Some w] is the width column of the row found (1: HALF, 2: FULL,
    3: AMBI, in the C source -1), [None]: not a Unicode datum, or no row. *)
Definition width_of (d : datum) : option N :=
  match d with
  | 1 :: l => match bs_find f3 l3 width_table (u32_of l) with Some (Some r) => Some (v3 r) | _ => None end
  | _ => None
  end.

(** modules/inter/WIDTH.c:9-72; the private state stands for the three counters of the instance. *)
Record widths := mkW { w_full : N; w_half : N; w_ambi : N }.
Definition width_count (w : widths) (d : datum) : widths :=
  match width_of d with
  | Some 2 => mkW (w_full w + 1) (w_half w) (w_ambi w)
  | Some 1 => mkW (w_full w) (w_half w + 1) (w_ambi w)
  | Some 3 => mkW (w_full w) (w_half w) (w_ambi w + 1)
  | _ => w
  end.
Definition width_conv (w : widths) (d : datum) : widths * status * list datum := (width_count w d, NEXTPHASE, [d]).
Definition WIDTH : star widths := mkStar width_conv no_flush.

(** modules/inter/TRIM-WIDTH.c:9-90.  The embedded instance of "WIDTH" is reset and initialised, given the one datum
    with flush set, and its counters are read: it hands the datum back and counts it (lines 67-76; that a conversion
    with the single phase WIDTH does this is the case of C42 with one datum).  [t_remain]: the field remain;
    lines 77-86.  [t_aw]: ambi_width; [t_width]: width. *)
Record trim := mkTrim { t_aw : Z; t_width : Z; t_remain : Z }.
Definition trim_create (aw width garbage : Z) : trim := mkTrim aw width garbage.
Definition trim_init (t : trim) : trim := mkTrim (t_aw t) (t_width t) (t_width t).
Definition trim_conv (t : trim) (d : datum) : trim * status * list datum :=
  let c := width_count (mkW 0 0 0) d in
  let w := (Z.of_N (w_full c) * 2 + Z.of_N (w_half c) + Z.of_N (w_ambi c) * t_aw t)%Z in
  if (w <=? t_remain t)%Z then (mkTrim (t_aw t) (t_width t) (t_remain t - w), NEXTPHASE, [d])
  else (mkTrim (t_aw t) (t_width t) (-1), NEXTPHASE, []).
Definition TRIM_WIDTH : star trim := mkStar trim_conv no_flush.

(** The search in modules/inter/AMBIGUOUS-PAD.c:46-69 and AMBIGUOUS-UNPAD.c:53-73. *)
Definition is_ambiguous (l : list N) : bool :=
  match bs_find f2 l2 ambiguous_table (u32_of l) with Some (Some _) => true | _ => false end.
Definition pad_datum : datum := [1; 0xA0].
(** modules/inter/AMBIGUOUS-PAD.c:11-83; the private state is the int set to 1 by cbinit and by cbctl. *)
Definition pad_init (_ : bool) : bool := true.
Definition pad_conv (dopad : bool) (d : datum) : bool * status * list datum :=
  (dopad, NEXTPHASE, d :: match d with 1 :: l => if is_ambiguous l && dopad then [pad_datum] else [] | _ => [] end).
Definition AMBIGUOUS_PAD : star bool := mkStar pad_conv no_flush.
(** modules/inter/AMBIGUOUS-UNPAD.c:5-87 *)
Record unpad := mkUnpad { un_s : bool; un_dopad : bool }.
Definition unpad_init (_ : unpad) : unpad := mkUnpad false true.
Definition unpad_conv (r : unpad) (d : datum) : unpad * status * list datum :=
  match d with
  | 1 :: x :: l =>
      if un_s r && (x =? 0xA0) then (mkUnpad false (un_dopad r), NEXTPHASE, [])
      else if is_ambiguous (x :: l) && un_dopad r then (mkUnpad true (un_dopad r), NEXTPHASE, [d])
      else (r, NEXTPHASE, [d])
  | _ => (mkUnpad false (un_dopad r), NEXTPHASE, [])
  end.
Definition AMBIGUOUS_UNPAD : star unpad := mkStar unpad_conv no_flush.

(** A filter as loaded by load_filter ([None]: no FOR argument); the modelled filters are those of M_Filter. *)
Definition accepts (f : option (datum -> bool)) (d : datum) : bool := match f with None => true | Some g => g d end.
(** modules/inter/COUNT.c:45-58; the private state stands for the counter of the instance. *)
Definition COUNT (f : option (datum -> bool)) : star N :=
  mkStar (fun n d => (if accepts f d then n + 1 else n, NEXTPHASE, [d])) no_flush.
(** modules/inter/PASS.c:48-86: state: passed; [limit]=0: none. *)
Definition PASS (f : option (datum -> bool)) (limit : N) : star N :=
  mkStar (fun passed d =>
    if accepts f d then
      if limit =? 0 then (passed, NEXTPHASE, [d])
      else if passed <? limit then (passed + 1, NEXTPHASE, [d]) else (passed, DEADEND, [])
    else (passed, DEADEND, [])) no_flush.
(** modules/inter/SCORE.c:82-117 with a scorer module (WITH=...; the TRAINED file variant is not modelled); the private
    state stands for the counter. *)
Definition SCORE (f : datum -> N) : star N :=
  mkStar (fun n d => if f d =? 0 then (n, DEADEND, []) else (n + f d, NEXTPHASE, [d])) no_flush.
(** modules/inter/INSERT.c:69-86 *)
Definition insert_put (before after : list datum) (d : datum) : option (list datum) := Some (before ++ [d] ++ after).
(** modules/inter/NULL.c *)
Definition null_put (d : datum) : option (list datum) := Some [].
(** The comparison of lengths and bytes in modules/inter/REPLACE.c:68-80. *)
Fixpoint bytes_eqb (a b : datum) : bool :=
  match a, b with
  | [], [] => true
  | x :: a', y :: b' => (x =? y) && bytes_eqb a' b'
  | _, _ => false
  end.
(** modules/inter/REPLACE.c:54-95: [from] non-empty (cbcreate lines 20-30); the private state is the cursor, given by
    the number of data of [from] already matched. *)
Definition replace_conv (from to : list datum) (k : nat) (d : datum) : nat * status * list datum :=
  match nth_error from k with
  | None => (0%nat, DEADEND, [])
  | Some x => if bytes_eqb d x
              then if (S k <? length from)%nat then (S k, CONTINUE, []) else (0%nat, NEXTPHASE, to)
              else (0%nat, DEADEND, [])
  end.

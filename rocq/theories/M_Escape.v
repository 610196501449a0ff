(** Model of modules/from/ESCAPE.c, modules/from/ASCII-NUMERIC-HTML-ENTITY.c (decoder callbacks) and modules/to/ESCAPE.c
    (encoder callback). *)
From Verif Require Import Base Types M_Engine M_Callback.
Local Open Scope N_scope.

(** hex[], oct[], dec[] (src/bsdconv.h:392-402): [None] is -1. *)
Definition hexv (c : N) : option N :=
  if (48 <=? c) && (c <=? 57) then Some (c - 48)
  else if (97 <=? c) && (c <=? 102) then Some (c - 87)
  else if (65 <=? c) && (c <=? 70) then Some (c - 55)
  else None.
Definition octv (c : N) : option N := if (48 <=? c) && (c <=? 55) then Some (c - 48) else None.
Definition decv (c : N) : option N := if (48 <=? c) && (c <=? 57) then Some (c - 48) else None.

(** ** from/ESCAPE.c *)
(** struct my_s (lines 9-14): status and the first two cells of buf (as unsigned bytes; the others are never written).
    cbcreate leaves them uninitialised, cbinit (21-24) sets status. *)
Record esc := mkEsc { es_st : N; es_0 : N; es_1 : N }.
Definition es_to (st : N) (t : esc) : esc := mkEsc st (es_0 t) (es_1 t).
Definition es_init (t : esc) : esc := es_to 0 t.
Definition es_dead (t : esc) : esc * option (status * list datum) := (es_to 0 t, Some (DEADEND, [])).
(** Lines 46-215: one byte.  In state 43 the loop "while(t->buf[i]==0)++i" (line 190) runs out of the two cells for
    "%u0000": it then depends on indeterminate memory; here it is taken to stop at buf[2] (which gives the datum 01). *)
Definition es_step (t : esc) (d : N) : esc * option (status * list datum) :=
  match es_st t with
  | 0 => if d =? 0x25 then (es_to 10 t, None) else if d =? 0x5C then (es_to 11 t, None) else es_dead t
  | 10 => if d =? 0x75 then (es_to 40 t, None) else match hexv d with None => es_dead t | Some v => (mkEsc 21 v (es_1 t), None) end
  | 11 => if d =? 0x75 then (es_to 40 t, None) else if d =? 0x78 then (es_to 20 t, None)
          else match octv d with None => es_dead t | Some v => (mkEsc 31 v (es_1 t), None) end
  | 20 => match hexv d with None => es_dead t | Some v => (mkEsc 21 v (es_1 t), None) end
  | 21 => match hexv d with None => es_dead t | Some v => let b := (es_0 t * 16 + v) mod 256 in (mkEsc 0 b (es_1 t), Some (NEXTPHASE, [[3; b]])) end
  | 31 => match octv d with None => es_dead t | Some v => (mkEsc 32 ((es_0 t * 8 + v) mod 256) (es_1 t), None) end
  | 32 => match octv d with
          | None => es_dead t
          | Some v => let i := es_0 t * 8 + v in
                      if 377 <? i then es_dead t else (mkEsc 0 (i mod 256) (es_1 t), Some (NEXTPHASE, [[3; i mod 256]]))
          end
  | 40 => match hexv d with None => es_dead t | Some v => (mkEsc 41 v (es_1 t), None) end
  | 41 => match hexv d with None => es_dead t | Some v => (mkEsc 42 ((es_0 t * 16 + v) mod 256) (es_1 t), None) end
  | 42 => match hexv d with None => es_dead t | Some v => (mkEsc 43 (es_0 t) v, None) end
  | 43 => match hexv d with
          | None => es_dead t
          | Some v => let b := (es_1 t * 16 + v) mod 256 in
                      (mkEsc 0 (es_0 t) b, Some (NEXTPHASE, [1 :: (if es_0 t =? 0 then if b =? 0 then [] else [b] else [es_0 t; b])]))
          end
  | _ => (t, None)
  end.

(** ** from/ASCII-NUMERIC-HTML-ENTITY.c: after "&#" *)
(** struct my_s (lines 9-17): [en_b]: 0 for status 0, otherwise the base b, with tbl the digits of that base (the count in
    status is not used); buf.i. *)
Record ent := mkEnt { en_b : N; en_i : N }.
Definition en_init (t : ent) : ent := mkEnt 0 (en_i t).
(** The bytes of a 32 bit number, most significant first, without leading zeros (lines 52-56). *)
Fixpoint strip0s (l : list N) : list N := match l with 0 :: r => strip0s r | _ => l end.
Definition be32 (n : N) : list N := strip0s [n / 0x1000000 mod 256; n / 0x10000 mod 256; n / 0x100 mod 256; n mod 256].
(** Lines 47-85 *)
Definition en_step (t : ent) (d : N) : ent * option (status * list datum) :=
  let dead := (mkEnt 0 (en_i t), Some (DEADEND, [])) in
  if (d =? 0x3B) && negb (en_b t =? 0) then (mkEnt 0 (en_i t), Some (NEXTPHASE, [1 :: be32 (en_i t)]))
  else if en_b t =? 0 then
    if d =? 0x78 then (mkEnt 16 0, None)
    else match decv d with None => dead | Some v => (mkEnt 10 v, None) end
  else match (if en_b t =? 16 then hexv d else decv d) with
       | None => dead
       | Some v => (mkEnt (en_b t) ((en_i t * en_b t + v) mod 0x100000000), None)
       end.
(** The compiled form of "2623*<TAB>?" (modules/from/ASCII-NUMERIC-HTML-ENTITY.txt); P_Escape checks the compiler. *)
Definition ent_table : table :=
  [mkTs DEADEND [] 0x26 0x27 [1%nat]; mkTs CONTINUE [] 0x23 0x24 [2%nat]; mkTs CONTINUE [] 0 257 (repeat 3%nat 257); mkTs SUBROUTINE [] 65535 0 []].

(** ** to/ESCAPE.c *)
(** struct my_s (lines 7-12): set by cbcreate (14-76) from the arguments. *)
Inductive esc_for := ForUnicode | ForByte.
Inductive esc_mode := Hex16 | Dec10 | Oct8.
Record esc_arg := mkArg { ea_prefix : list N; ea_suffix : list N; ea_for : esc_for; ea_mode : esc_mode }.
(** sprintf "%02X", "%u" *)
Definition hexc (v : N) : N := if v <? 10 then 48 + v else 55 + v.
Definition hex02 (b : N) : list N := [hexc (b / 16); hexc (b mod 16)].
Fixpoint uint_chars (u : Decimal.uint) : list N :=
  match u with
  | Decimal.Nil => []
  | Decimal.D0 r => 48 :: uint_chars r | Decimal.D1 r => 49 :: uint_chars r | Decimal.D2 r => 50 :: uint_chars r | Decimal.D3 r => 51 :: uint_chars r
  | Decimal.D4 r => 52 :: uint_chars r | Decimal.D5 r => 53 :: uint_chars r | Decimal.D6 r => 54 :: uint_chars r | Decimal.D7 r => 55 :: uint_chars r
  | Decimal.D8 r => 56 :: uint_chars r | Decimal.D9 r => 57 :: uint_chars r
  end.
Definition dec_chars (n : N) : list N := uint_chars (N.to_uint n).
Definition oct3 (b : N) : list N := [48 + b / 64; 48 + b / 8 mod 8; 48 + b mod 8].
(** The number of the bytes (lines 117-121): unsigned int arithmetic. *)
Definition be_value (l : list N) : N := fold_left (fun u b => (u * 256 + b) mod 0x100000000) l 0.
(** cbconv (lines 84-191) *)
Definition es_put (a : esc_arg) (d : datum) : option (list datum) :=
  let wrap (l : list N) := Some [ea_prefix a ++ l ++ ea_suffix a] in
  match ea_for a, d with
  | ForUnicode, 1 :: ((_ :: _) as v) =>
      match ea_mode a with Hex16 => wrap (flat_map hex02 v) | Dec10 => wrap (dec_chars (be_value v)) | Oct8 => None end
  | ForByte, [3; b] =>
      match ea_mode a with Oct8 => wrap (oct3 b) | Dec10 => wrap (dec_chars b) | Hex16 => wrap (hex02 b) end
  | _, _ => None
  end.

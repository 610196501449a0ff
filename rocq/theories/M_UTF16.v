(** Model of modules/from/UTF-16BE.c, UTF-16LE.c, UTF-32BE.c, UTF-32LE.c (decoder callbacks) and
    modules/to/UTF-16BE.c, UTF-16LE.c, UTF-32BE.c, UTF-32LE.c, UCS-2BE.c, UCS-2LE.c (encoder callbacks). *)
From Verif Require Import Base Types M_Engine M_Callback.
Local Open Scope N_scope.

(** struct my_s { int status; char buf[4]; } (UTF-16BE.c:6-9 and the three others).  cbcreate leaves it
    uninitialised; cbinit sets status=0 only, so the buffer keeps the bytes of the previous character. *)
Record u16 := mkU16 { w_st : N; w_0 : N; w_1 : N; w_2 : N; w_3 : N }.
Definition w_put (k : N) (d : N) (t : u16) : u16 :=
  match k with
  | 0 => mkU16 (w_st t) d (w_1 t) (w_2 t) (w_3 t)
  | 1 => mkU16 (w_st t) (w_0 t) d (w_2 t) (w_3 t)
  | 2 => mkU16 (w_st t) (w_0 t) (w_1 t) d (w_3 t)
  | _ => mkU16 (w_st t) (w_0 t) (w_1 t) (w_2 t) d
  end.
Definition w_to (st : N) (t : u16) : u16 := mkU16 st (w_0 t) (w_1 t) (w_2 t) (w_3 t).
(** cbinit (UTF-16BE.c:16-19, UTF-32BE.c:16-19) *)
Definition u16_init (t : u16) : u16 := w_to 0 t.

(** "for(i=0;i<n;++i) if(buf[i]) break;" and the copy of buf[i..n-1]: leading zeros are dropped, all of them
    if every byte is zero. *)
Fixpoint strip0 (l : list N) : list N := match l with 0 :: r => strip0 r | _ => l end.
Definition w_emit (l : list N) : datum := 1 :: strip0 l.

(** The body of the loop of from/UTF-16BE.c:33-99 ([le]=false) and from/UTF-16LE.c:32-99 ([le]=true); the
    files differ in the buffer cell each byte goes to (and in a missing "flags=" in the BE file, which is
    memory management). *)
Definition u16_step (le : bool) (t : u16) (d : N) : u16 * option (status * list datum) :=
  match w_st t with
  | 0 => (w_to 1 (w_put (if le then 1 else 0) d t), None)
  | 1 => let t1 := w_put (if le then 0 else 1) d t in
         if N.land (w_0 t1) 0xFC =? 0xD8 then (w_to 2 t1, None)
         else (w_to 0 t1, Some (NEXTPHASE, [w_emit [w_0 t1; w_1 t1]]))
  | 2 => (w_to 3 (w_put (if le then 3 else 2) d t), None)
  | 3 => let t1 := w_to 0 (w_put (if le then 2 else 3) d t) in
         if N.land (w_2 t1) 0xFC =? 0xDC then
           let b0 := N.lor (N.land (N.shiftl (N.land (w_0 t1) 3) 2) 0xFF) (N.land (N.shiftr (w_1 t1) 6) 3) + 1 in
           let b1 := N.lor (N.land (N.shiftl (w_1 t1) 2) 0xFC) (N.land (w_2 t1) 3) in
           (t1, Some (NEXTPHASE, [w_emit [b0; b1; w_3 t1]]))
         else (t1, Some (DEADEND, []))
  | _ => (t, None)
  end.
(** The body of the loop of from/UTF-32BE.c:33-70 and from/UTF-32LE.c. *)
Definition u32_step (le : bool) (t : u16) (d : N) : u16 * option (status * list datum) :=
  match w_st t with
  | 0 => (w_to 1 (w_put (if le then 3 else 0) d t), None)
  | 1 => (w_to 2 (w_put (if le then 2 else 1) d t), None)
  | 2 => (w_to 3 (w_put (if le then 1 else 2) d t), None)
  | 3 => let t1 := w_to 0 (w_put (if le then 0 else 3) d t) in
         (t1, Some (NEXTPHASE, [w_emit [w_0 t1; w_1 t1; w_2 t1; w_3 t1]]))
  | _ => (t, None)
  end.

(** "for(i=0;i<n-len;++i) out[i]=0; memcpy(out+i,data,len)" *)
Definition pad_to (n : nat) (l : list N) : list N := repeat 0 (n - length l) ++ l.
(** to/UTF-16BE.c:6-51; bytes of a datum after the first three value bytes are ignored. *)
Definition u16_put (le : bool) (d : datum) : option (list datum) :=
  let data := tl d in
  let sw (l : list N) := match l with [a; b] => if le then [b; a] else [a; b] | [a; b; c; e] => if le then [b; a; e; c] else [a; b; c; e] | _ => l end in
  match data with
  | a :: b :: c :: _ =>
      let a1 := (a + 255) mod 256 in
      Some [sw [N.lor 0xD8 (N.land (N.shiftr a1 2) 3);
                N.lor (N.land (N.shiftl a1 6) 0xC0) (N.land (N.shiftr b 2) 0x3F);
                N.lor 0xDC (N.land b 3); c]]
  | _ => Some [sw (pad_to 2 data)]
  end.
(** to/UTF-32BE.c:6-26, to/UTF-32LE.c.  A value of more than four bytes overruns the four-byte buffer in C;
    the model rejects it. *)
Definition u32_put (le : bool) (d : datum) : option (list datum) :=
  let data := tl d in
  if (4 <? N.of_nat (length data)) then None
  else Some [(if le then @rev N else fun x => x) (pad_to 4 data)].
(** to/UCS-2BE.c:6-31, to/UCS-2LE.c:8-35 *)
Definition ucs2_put (le : bool) (d : datum) : option (list datum) :=
  if (3 <? N.of_nat (length d)) then None
  else Some [(if le then @rev N else fun x => x) (pad_to 2 (tl d))].

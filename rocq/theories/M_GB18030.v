(** Model of the callbacks of modules/from/_GB18030.c and modules/to/_GB18030.c (the four-byte ranges that are not
    tabulated). *)
From Verif Require Import Base Types M_Engine M_Callback M_UTF16 M_Bsearch D_Ranges.
Local Open Scope N_scope.

(** struct my_s { int status; uint32_t ucs; } (from/_GB18030.c:12-15); cbinit (22-25) sets status=0. *)
Record gbs := mkGb { g_st : nat; g_ucs : N }.
Definition gb_init (t : gbs) : gbs := mkGb 0 (g_ucs t).

(** One byte of the code in the switch (lines 75-113).  Sums of four bytes stay below 2^32. *)
Definition gb_byte (t : gbs) (x : N) : gbs :=
  match g_st t with
  | 0%nat => mkGb 1 (x * 10)
  | 1%nat => mkGb 2 ((g_ucs t + x) * 126)
  | 2%nat => mkGb 3 ((g_ucs t + x) * 10)
  | _ => mkGb 0 (g_ucs t + x)
  end.
(** "next:" with "if(t->status<data.len){...; goto next;}": the bytes the table has matched before the callback
    took over ([c], the data of the table line "8130*<TAB>?8130") come first.  A line with four or more such
    bytes would loop for ever ([None]); there is none. *)
Fixpoint gb_catch_up (fuel : nat) (c : list N) (t : gbs) : option gbs :=
  match fuel with
  | O => None
  | S f => match nth_error c (g_st t) with
           | Some x => gb_catch_up f c (gb_byte t x)
           | None => Some t
           end
  end.
(** Lines 114-147: the range table lookup and the output; DEADEND() (32-36) resets the status. *)
Definition gb_char (t : gbs) : gbs * option (status * list datum) :=
  match bs_find f3 l3 gb_from_table (g_ucs t) with
  | Some (Some r) => (t, Some (NEXTPHASE, [w_emit (let u := v3 r + (g_ucs t - f3 r) in [u / 0x1000000 mod 0x100; u / 0x10000 mod 0x100; u / 0x100 mod 0x100; u mod 0x100])]))
  | _ => (mkGb 0 (g_ucs t), Some (DEADEND, []))
  end.
(** The loop body (lines 70-152) for byte [d], with the table line's data [c]. *)
Definition gb_step (c : list N) (t : gbs) (d : N) : gbs * option (status * list datum) :=
  match gb_catch_up 5 c t with
  | None => (t, Some (NOOP, []))   (* never returns *)
  | Some t1 =>
      let t2 := gb_byte t1 d in
      match g_st t1 with
      | 3%nat => gb_char t2
      | 0%nat | 1%nat | 2%nat => (t2, None)
      | _ => (mkGb 0 (g_ucs t1), Some (DEADEND, []))
      end
  end.

(** to/_GB18030.c:26-89.  A value of more than four bytes is written before codepoint.byte[0]: UB.  [Val None]:
    DEADEND. *)
Definition gb_put (d : datum) : outcome (option (list datum)) :=
  let data := tl d in
  if (4 <? N.of_nat (length data)) then UB else
  match bs_find f3 l3 gb_to_table (u32_of data) with
  | Some (Some r) =>
      let gb := v3 r + (u32_of data - f3 r) - 1687218 in
      let p3 := 0x30 + gb mod 10 in let gb := gb / 10 in
      let p2 := 0x81 + gb mod 126 in let gb := gb / 126 in
      let p1 := 0x30 + gb mod 10 in let gb := gb / 10 in
      Val (Some [[(0x81 + gb) mod 256; p1; p2; p3]])
  | _ => Val None
  end.

(** A character delivered over several calls: each call sees the data of some table line and a chunk; all but the last
    return CONTINUE.  The result: the state and output of the last call, which must end exactly at the end of the last
    chunk with NEXTPHASE. *)
Fixpoint gb_calls (t : gbs) (calls : list (list N * list N)) : option (gbs * list datum) :=
  match calls with
  | [] => None
  | (c, chunk) :: r =>
      match byte_loop (gb_step c) t chunk 0, r with
      | (t', _, CONTINUE, _), _ => gb_calls t' r
      | (t', i, NEXTPHASE, o), [] => if (S i =? length chunk)%nat then Some (t', o) else None
      | _, _ => None
      end
  end.

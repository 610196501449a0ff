(** Model of modules/from/_UTF-8.c (the decoder callback) and modules/to/_UTF-8.c (the encoder callback). *)
From Verif Require Import Base Types M_Engine M_Callback.
Local Open Scope N_scope.

(** ucs_t: a union of uint32_t ucs4 and byte[4] (src/bsdconv.h); ucs4 is big-endian data ("htobe32"), so its
    value is read with [be32]. *)
Definition ucs_t := (N * N * N * N)%type.
Definition ucs0 : ucs_t := (0, 0, 0, 0).
Definition is0 (u : ucs_t) : bool := let '(a, b, c, d) := u in (a =? 0) && (b =? 0) && (c =? 0) && (d =? 0).
Definition be32 (u : ucs_t) : N := let '(a, b, c, d) := u in a * 0x1000000 + b * 0x10000 + c * 0x100 + d.
Definition htobe32 (x : N) : ucs_t := (x / 0x1000000 mod 256, x / 0x10000 mod 256, x / 0x100 mod 256, x mod 256).
Definition orb0 (u : ucs_t) (x : N) : ucs_t := let '(a, b, c, d) := u in (N.lor a x, b, c, d).
Definition orb1 (u : ucs_t) (x : N) : ucs_t := let '(a, b, c, d) := u in (a, N.lor b x, c, d).
Definition orb2 (u : ucs_t) (x : N) : ucs_t := let '(a, b, c, d) := u in (a, b, N.lor c x, d).
Definition orb3 (u : ucs_t) (x : N) : ucs_t := let '(a, b, c, d) := u in (a, b, c, N.lor d x).

(** struct my_s (lines 6-15); the last five are set by cbcreate from the arguments. *)
Record u8 := mkU8 { u_st : N; u_lead : ucs_t; u_ucs : ucs_t; u_cesu : bool; u_loose : bool; u_nul : bool; u_over : bool; u_super : bool }.
Definition u_set (t : u8) (st : N) (lead ucs : ucs_t) : u8 := mkU8 st lead ucs (u_cesu t) (u_loose t) (u_nul t) (u_over t) (u_super t).
(** cbinit (lines 43-48) *)
Definition u8_init (t : u8) : u8 := u_set t 0 ucs0 ucs0.

Definition ures := (u8 * option (status * list datum))%type.
(** DEADEND() (lines 55-61); data already appended by a preceding PASS stays in the list. *)
Definition u_dead (t : u8) (out : list datum) : ures := (u_set t 0 ucs0 ucs0, Some (DEADEND, out)).
(** The datum that PASS builds (lines 128-148): 01 and the bytes from the first non-zero one (at least the
    last). *)
Definition u_pass (x : ucs_t) : datum :=
  let '(a, b, c, d) := x in
  1 :: (if negb (a =? 0) then [a; b; c; d] else if negb (b =? 0) then [b; c; d] else if negb (c =? 0) then [c; d] else [d]).
(** PASS(x) followed by [k]; a zero value is DEADEND unless NUL is allowed. *)
Definition with_pass (t : u8) (x : ucs_t) (out : list datum) (k : list datum -> ures) : ures :=
  if is0 x && negb (u_nul t) then u_dead t out else k (out ++ [u_pass x]).

(** COMMIT() (lines 63-124) *)
Definition u_commit (t0 : u8) : ures :=
  let t := u_set t0 0 (u_lead t0) (u_ucs t0) in
  let ucs := be32 (u_ucs t) in
  if (0xD800 <=? ucs) && (ucs <=? 0xDBFF) then
    if u_cesu t then
      let fin out := (u_set t 0 (u_ucs t) ucs0, Some (if u_loose t then SUBMATCH else CONTINUE, out)) in
      if negb (is0 (u_lead t)) then
        if u_loose t then with_pass t (u_lead t) [] fin else u_dead t []
      else fin []
    else if u_loose t then with_pass t (u_ucs t) [] (fun out => (u_set t 0 (u_lead t) ucs0, Some (NEXTPHASE, out)))
    else u_dead t []
  else if (0xDC00 <=? ucs) && (ucs <=? 0xDFFF) then
    if u_cesu t then
      if negb (is0 (u_lead t)) then
        let cp := N.lor (N.lor 0x10000 (N.land (N.shiftl (be32 (u_lead t) - 0xD800) 10) 0xFFC00)) (N.land (ucs - 0xDC00) 0x3FF) in
        with_pass t (htobe32 cp) [] (fun out => (u_set t 0 ucs0 ucs0, Some (NEXTPHASE, out)))
      else if u_loose t then with_pass t (u_ucs t) [] (fun out => (u_set t 0 (u_lead t) ucs0, Some (NEXTPHASE, out)))
      else u_dead t []
    else if u_loose t then with_pass t (u_ucs t) [] (fun out => (u_set t 0 (u_lead t) ucs0, Some (NEXTPHASE, out)))
    else u_dead t []
  else
    let fin t out := with_pass t (u_ucs t) out (fun out => (u_set t 0 (u_lead t) ucs0, Some (NEXTPHASE, out))) in
    if negb (is0 (u_lead t)) then
      if u_loose t then with_pass t (u_lead t) [] (fun out => fin (u_set t 0 ucs0 (u_ucs t)) out) else u_dead t []
    else fin t [].

(** Continuation of the loop: status and ucs. *)
Definition u_go (t : u8) (st : N) (ucs : ucs_t) : ures := (u_set t st (u_lead t) ucs, None).
(** The overlong test "if(!t->overlong && t->ucs.ucs4==0) DEADEND()". *)
Definition overlong (t : u8) (ucs : ucs_t) : bool := negb (u_over t) && is0 ucs.

(** The body of the loop in cbconv (lines 171-394) for the byte d. *)
Definition u8_step (t : u8) (d : N) : ures :=
  let is_cont := N.land d 0xC0 =? 0x80 in
  let u := u_ucs t in
  match u_st t with
  | 0 =>
      if N.land d 0x80 =? 0 then u_dead t []
      else if N.land d 0xE0 =? 0xC0 then
        let u1 := orb3 (orb2 u (N.land (N.shiftr d 2) 0x07)) (N.land (N.shiftl d 6) 0x80) in
        if overlong t u1 then u_dead t [] else u_go t 21 (orb3 u1 (N.land (N.shiftl d 6) 0x40))
      else if N.land d 0xF0 =? 0xE0 then u_go t 31 (orb2 u (N.land (N.shiftl d 4) 0xF0))
      else if N.land d 0xF8 =? 0xF0 then u_go t 41 (orb1 u (N.land (N.shiftl d 2) 0x1C))
      else if N.land d 0xFC =? 0xF8 then if negb (u_super t) then u_dead t [] else u_go t 51 (orb0 u (N.land d 0x03))
      else if N.land d 0xFE =? 0xFC then if negb (u_super t) then u_dead t [] else u_go t 61 (orb0 u (N.land (N.shiftl d 6) 0x40))
      else u_dead t []
  | 21 => if is_cont then u_commit (u_set t 21 (u_lead t) (orb3 u (N.land d 0x3F))) else u_dead t []
  | 31 => if is_cont then
            let u1 := orb2 u (N.land (N.shiftr d 2) 0x08) in
            if overlong t u1 then u_dead t []
            else u_go t 32 (orb3 (orb2 u1 (N.land (N.shiftr d 2) 0x07)) (N.land (N.shiftl d 6) 0xC0))
          else u_dead t []
  | 32 => if is_cont then u_commit (u_set t 32 (u_lead t) (orb3 u (N.land d 0x3F))) else u_dead t []
  | 41 => if is_cont then
            let u1 := orb1 u (N.land (N.shiftr d 4) 0x03) in
            if overlong t u1 then u_dead t [] else u_go t 42 (orb2 u1 (N.land (N.shiftl d 4) 0xF0))
          else u_dead t []
  | 42 => if is_cont then u_go t 43 (orb3 (orb2 u (N.land (N.shiftr d 2) 0x0F)) (N.land (N.shiftl d 6) 0xC0)) else u_dead t []
  | 43 => if is_cont then u_commit (u_set t 43 (u_lead t) (orb3 u (N.land d 0x3F))) else u_dead t []
  | 51 => if is_cont then
            let u1 := orb1 u (N.land (N.shiftl d 2) 0xE0) in
            if overlong t u1 then u_dead t [] else u_go t 52 (orb1 u1 (N.land (N.shiftl d 2) 0x1C))
          else u_dead t []
  | 52 => if is_cont then u_go t 53 (orb2 (orb1 u (N.land (N.shiftr d 4) 0x03)) (N.land (N.shiftl d 4) 0xF0)) else u_dead t []
  | 53 => if is_cont then u_go t 54 (orb3 (orb2 u (N.land (N.shiftr d 2) 0x0F)) (N.land (N.shiftl d 6) 0xC0)) else u_dead t []
  | 54 => if is_cont then u_commit (u_set t 54 (u_lead t) (orb3 u (N.land d 0x3F))) else u_dead t []
  | 61 => if is_cont then
            let u1 := orb0 u (N.land d 0x3C) in
            if overlong t u1 then u_dead t [] else u_go t 62 (orb0 u1 (N.land d 0x03))
          else u_dead t []
  | 62 => if is_cont then u_go t 63 (orb1 u (N.land (N.shiftl d 2) 0xFC)) else u_dead t []
  | 63 => if is_cont then u_go t 64 (orb2 (orb1 u (N.land (N.shiftr d 4) 0x03)) (N.land (N.shiftl d 4) 0xF0)) else u_dead t []
  | 64 => if is_cont then u_go t 65 (orb3 (orb2 u (N.land (N.shiftr d 2) 0x0F)) (N.land (N.shiftl d 6) 0xC0)) else u_dead t []
  | 65 => if is_cont then u_commit (u_set t 65 (u_lead t) (orb3 u (N.land d 0x3F))) else u_dead t []
  | _ => u_dead t []
  end.

(** cbflush (lines 150-157); if PASS(lead) hits DEADEND (impossible for a non-zero lead) nothing is added. *)
Definition u8_flush (t : u8) : u8 * list datum :=
  if negb (is0 (u_lead t)) && u_loose t then (u_set t (u_st t) ucs0 (u_ucs t), [u_pass (u_lead t)]) else (t, []).

(** modules/to/_UTF-8.c:4-116.  The datum is 01 followed by the value. *)
Definition u8_put (d : datum) : option (list datum) :=
  match tl d with
  | [a] =>
      if N.land a 0x80 =? 0 then None
      else Some [[N.lor 0xC0 (N.land (N.shiftr a 6) 0x03); N.lor 0x80 (N.land a 0x3F)]]
  | [a; b] =>
      if N.land a 0xF8 =? 0
      then Some [[N.lor (N.lor 0xC0 (N.land (N.shiftl a 2) 0x1C)) (N.land (N.shiftr b 6) 0x03); N.lor 0x80 (N.land b 0x3F)]]
      else Some [[N.lor 0xE0 (N.land (N.shiftr a 4) 0x0F);
                  N.lor (N.lor 0x80 (N.land (N.shiftl a 2) 0x3C)) (N.land (N.shiftr b 6) 0x03);
                  N.lor 0x80 (N.land b 0x3F)]]
  | [a; b; c] =>
      if N.land a 0xE0 =? 0
      then Some [[N.lor 0xF0 (N.land (N.shiftr a 2) 0x07);
                  N.lor (N.lor 0x80 (N.land (N.shiftl a 4) 0x30)) (N.land (N.shiftr b 4) 0x0F);
                  N.lor (N.lor 0x80 (N.land (N.shiftl b 2) 0x3C)) (N.land (N.shiftr c 6) 0x03);
                  N.lor 0x80 (N.land c 0x3F)]]
      else None
  | _ => None
  end.

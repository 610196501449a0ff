(** Model of modules/inter/WHITESPACE-DERAIL.c and WHITESPACE-RERAIL.c: two phases of one conversion sharing a structure
    (WHITESPACE.h, found through the instance hash), with any phases between them. *)
From Verif Require Import Base Types M_Engine M_Bsearch.
Local Open Scope N_scope.

(** struct my_s: the queue of taken-out whitespace with the number of data that were before it (the nodes' len field),
    offsetA, offsetB; [r_flag]: F_MATCH and F_PENDING of the phase of RERAIL.  The pointer last is the end of the queue. *)
Record rail := mkRail { r_queue : list (nat * datum); r_offA : nat; r_offB : nat; r_flag : bool }.
(** WHITESPACE-DERAIL.c:58-63 *)
Definition is_ws (d : datum) : bool :=
  match d with
  | 1 :: l => let u := u32_of l in (u =? 0x09) || (u =? 0x0A) || (u =? 0x0D) || (u =? 0x20)
  | _ => false
  end.
(** WHITESPACE-DERAIL.c cbconv (lines 47-88): whitespace goes into the queue and RERAIL's phase becomes pending
    (lines 73-76); anything else is passed on and counted. *)
Definition derail_conv (r : rail) (d : datum) : rail * list datum :=
  if is_ws d then (mkRail (r_queue r ++ [(r_offA r, d)]) (r_offA r) (r_offB r) true, [])
  else (mkRail (r_queue r) (S (r_offA r)) (r_offB r) (r_flag r), [d]).
(** The loop "while(t->queue && t->queue->len<=t->offsetB)" (WHITESPACE-RERAIL.c:72-82, 89-99). *)
Fixpoint drain (b : nat) (q : list (nat * datum)) : list datum * list (nat * datum) :=
  match q with
  | (o, d) :: r => if (o <=? b)%nat then let '(out, rest) := drain b r in (d :: out, rest) else ([], q)
  | [] => ([], [])
  end.
(** WHITESPACE-RERAIL.c cbconv (lines 65-109).  The flags set at its end (lines 101-105) do not survive: the status is
    NEXTPHASE, whose case clears them (src/libbsdconv.c:832-834). *)
Definition rerail_conv (r : rail) (d : datum) : rail * list datum :=
  let '(o1, q1) := drain (r_offB r) (r_queue r) in
  let '(o2, q2) := drain (S (r_offB r)) q1 in
  (mkRail q2 (r_offA r) (S (r_offB r)) false, o1 ++ d :: o2).
(** WHITESPACE-RERAIL.c cbflush (lines 47-63), called at the end of the stream if the phase is pending; the dead end then
    clears the flags (src/libbsdconv.c:758-771). *)
Definition rerail_end (r : rail) : rail * list datum :=
  if r_flag r then (mkRail [] (r_offA r) (r_offB r) false, map snd (r_queue r)) else (r, []).
(** cbinit of both (DERAIL lines 18-30, RERAIL lines 17-30). *)
Definition rail_init (r : rail) : rail := mkRail [] 0 0 (r_flag r).

(** The engine decides which phase runs when.  [g]: what the phases between the two make of one datum.  A schedule is a
    list of turns: true, DERAIL takes the next datum; false, RERAIL takes the next datum that has reached it.  Turns
    that are not possible do nothing. *)
Record line := mkLine { l_rest : list datum; l_wire : list datum; l_rail : rail; l_out : list datum }.
Definition turn (g : datum -> list datum) (s : line) (derail : bool) : line :=
  if derail then
    match l_rest s with
    | [] => s
    | d :: rest => let '(r, o) := derail_conv (l_rail s) d in mkLine rest (l_wire s ++ flat_map g o) r (l_out s)
    end
  else
    match l_wire s with
    | [] => s
    | d :: w => let '(r, o) := rerail_conv (l_rail s) d in mkLine (l_rest s) w r (l_out s ++ o)
    end.
Definition turns (g : datum -> list datum) (sch : list bool) (s : line) : line := fold_left (turn g) sch s.

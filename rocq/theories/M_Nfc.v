(** modules/inter/_NFC.c: canonical composition. *)
From Verif Require Import Base Types M_Engine M_Star M_Norm.
Local Open Scope N_scope.

(** r->starter: NULL, a node the module owns, or a node it has already given back (lines 29-31). *)
Inductive starter := SNull | SHeld (d : datum) | SFreed.
(** struct my_s (lines 5-13): status, starter, ccc, the list from pending_head. *)
Record nfc := mkNfc { nf_on : bool; nf_starter : starter; nf_ccc : N; nf_pend : list datum }.

Section C.
(** The instance r->map (line 17, "_NFC-MAP,COUNT#ERR") fed with two data and flush: [Some x] if ERR stays 0 and [x] is the datum it
    puts out (lines 86-101, 119-137).  The table has only pairs as keys, so COUNT sees the first datum exactly if there is no line for
    the pair; that run of the engine is not modelled again here. *)
Variable comb : datum -> datum -> option datum.

(** cbflush, lines 184-211 *)
Definition nfc_flush (r : nfc) : nfc * list datum :=
  if nf_on r then match nf_starter r with SHeld s => (mkNfc false SNull (nf_ccc r) [], s :: nf_pend r) | _ => (r, []) end else (r, []).
(** Combining marks [wl] behind the starter [s] (lines 111-157).  If one combines while others are pending these are put back
    behind it into the list of the previous phase (lines 139-148), which makes the engine show them next: here the recursion over
    [wl] does it.  They give SUBMATCH and no output, like the mark itself.  [fuel]: see P_Nfc, it never runs out. *)
Fixpoint nfc_marks (fuel : nat) (s : datum) (k : N) (pend wl : list datum) : datum * N * list datum :=
  match fuel, wl with
  | S f, c :: r =>
      if ccc_of c <=? k then nfc_marks f s (ccc_of c) (pend ++ [c]) r                              (* lines 113-117: blocked *)
      else match comb s c with
           | Some s' => nfc_marks f s' 0 [] (pend ++ r)                                            (* lines 132-149 *)
           | None => nfc_marks f s (ccc_of c) (pend ++ [c]) r                                      (* lines 150-155 *)
           end
  | _, _ => (s, k, pend)
  end.
(** Enough for [wl] = one mark and any list of pending ones. *)
Definition nfc_fuel (pend : list datum) : nat := let n := S (length pend) in n * S n + 2.
(** cbconv, lines 41-171.  Giving the starter back a second time (lines 75-77 after cbinit) is undefined: NOMATCH. *)
Definition nfc_conv (r : nfc) (d : datum) : nfc * status * list datum :=
  match d with
  | 1 :: _ =>
      let c := ccc_of d in
      if nf_on r then
        match nf_starter r with
        | SHeld s =>
            if c =? 0 then
              match nf_pend r with
              | [] => match comb s d with                                                          (* lines 85-105 *)
                      | Some x => (mkNfc true (SHeld x) 0 [], SUBMATCH, [])
                      | None => (mkNfc true (SHeld d) 0 [], SUBMATCH, [s])
                      end
              | p => (mkNfc true (SHeld d) 0 [], SUBMATCH, s :: p)                                 (* lines 106-110 *)
              end
            else let '(s', k', p') := nfc_marks (nfc_fuel (nf_pend r)) s (nf_ccc r) (nf_pend r) [d] in
                 (mkNfc true (SHeld s') k' p', SUBMATCH, [])
        | _ => (r, NOMATCH, [])                                                                    (* status 1 without a starter does not occur *)
        end
      else if c =? 0 then                                                                          (* lines 70-84 *)
        match nf_starter r with SFreed => (r, NOMATCH, []) | _ => (mkNfc true (SHeld d) 0 (nf_pend r), SUBMATCH, []) end
      else (mkNfc false (nf_starter r) 0 (nf_pend r), DEADEND, [])
  | _ => let '(r', o) := nfc_flush (mkNfc (nf_on r) (nf_starter r) 0 (nf_pend r)) in (r', NEXTPHASE, o ++ [d])   (* lines 162-169 *)
  end.
Definition NFC : star nfc := mkStar nfc_conv nfc_flush.
End C.
(** cbinit, lines 26-39: the starter is given back but the pointer stays.  (Called again before it is set anew, cbinit gives it back twice;
    that is not reported here but by the next starter.) *)
Definition nfc_init (r : nfc) : nfc := mkNfc false (match nf_starter r with SNull => SNull | _ => SFreed end) (nf_ccc r) [].
(** cbcreate, lines 15-24; [b], [k]: uninitialised memory *)
Definition nfc_create (b : bool) (k : N) : nfc := mkNfc b SNull k [].

(** Callbacks that edit the phase themselves (modules/from/BSDCONV.c, modules/from/EBCDIC.c, modules/to/EBCDIC.c): they see
    the previous phase and this phase and may change both.  The engine around them is that of M_Engine; what is modelled
    here is one phase with one codec, fed by the calls of bsdconv(), whose output is not consumed. *)
From Verif Require Import Base Types M_Engine.

Section Raw.
Variable P : Type.
Notation ephase := (ephase P).
(** cbconv as a function of PREV_PHASE and THIS_PHASE; the number tells how much it added to phase_index; [None] is undefined
    behaviour. *)
Definition rawcb := ephase -> ephase -> option (ephase * ephase * nat).

(** One step (src/libbsdconv.c:623-987): as M_Engine.local_step, but SUBROUTINE and SUBMATCH_SUBROUTINE (lines 699-704, 829-831,
    956-958) call [cb].  NOOP with a changed phase_index continues in the next phase. *)
Definition raw_step (cb : rawcb) (pv th : ephase) (pc : lpc) : lres P :=
  match pc, t_status (p_state P th) with
  | LX, (SUBROUTINE | SUBMATCH_SUBROUTINE) =>
      match cb pv th with
      | None => LUB P
      | Some (pv', th', adv) =>
          let th'' := match p_type P th' with FROM => set_flags P th' (p_fmatch P th') (p_fpending P th') true | _ => th' end in
          match t_status (p_state P th''), adv with
          | NOOP, S _ => LRes P pv' th'' 0 0 GNext
          | _, _ => LRes P pv' th'' 0 0 (Stay LX)
          end
      end
  | _, _ => local_step P pv th pc
  end.

(** The phase runs until it has read all its input: phase_begin re-enters it, directly (GBegin) or from the check-back loop
    (GNext; lines 993-997).  [ie], [oe]: errors counted. *)
Inductive phase_runs (cb : rawcb) : ephase -> ephase -> lpc -> ephase -> ephase -> nat -> nat -> Prop :=
| pr_stay pv th pc pv1 th1 a b pc1 pv' th' a' b' : raw_step cb pv th pc = LRes P pv1 th1 a b (Stay pc1) ->
    phase_runs cb pv1 th1 pc1 pv' th' a' b' -> phase_runs cb pv th pc pv' th' (a + a') (b + b')
| pr_again pv th pc pv1 th1 a b g pv' th' a' b' : raw_step cb pv th pc = LRes P pv1 th1 a b g -> g = GBegin \/ g = GNext ->
    phase_runs cb pv1 th1 LOuter pv' th' a' b' -> phase_runs cb pv th pc pv' th' (a + a') (b + b')
| pr_idle pv th pc pv' th' a b : raw_step cb pv th pc = LRes P pv' th' a b GBreak -> phase_runs cb pv th pc pv' th' a b.

(** One call without flush: new data at the end of the previous phase's list, then the phase runs. *)
Definition push (pv : ephase) (ds : list datum) : ephase := set_queue P pv (p_queue P pv ++ ds) (p_tail P pv + length ds).
Inductive calls (cb : rawcb) : ephase -> ephase -> list (list datum) -> ephase -> ephase -> nat -> nat -> Prop :=
| cl_nil pv th : calls cb pv th [] pv th 0 0
| cl_cons pv th ds l pv1 th1 a b pv' th' a' b' : phase_runs cb (push pv ds) th LOuter pv1 th1 a b ->
    calls cb pv1 th1 l pv' th' a' b' -> calls cb pv th (ds :: l) pv' th' (a + a') (b + b').
(** The flush loop (lines 1001-1013): while the phase is pending, its dead-end code runs. *)
Inductive flushes (cb : rawcb) : ephase -> ephase -> ephase -> ephase -> nat -> nat -> Prop :=
| fl_done pv th : p_fpending P th = false -> flushes cb pv th pv th 0 0
| fl_dead pv th pv1 th1 a b pv' th' a' b' : p_fpending P th = true -> phase_runs cb pv th LDead pv1 th1 a b ->
    flushes cb pv1 th1 pv' th' a' b' -> flushes cb pv th pv' th' (a + a') (b + b').
(** A stream: calls, then flush. *)
Definition streams (cb : rawcb) (pv th : ephase) (l : list (list datum)) (pv' th' : ephase) (ie oe : nat) : Prop :=
  exists pv1 th1 a b a' b', calls cb pv th l pv1 th1 a b /\ flushes cb pv1 th1 pv' th' a' b' /\ ie = a + a' /\ oe = b + b'.

(** A phase of one codec as bsdconv_init leaves it (lines 179-215); bak and i are left as they are. *)
Definition fresh_phase (ty : ptype) (c : ecodec P) (root : tstate) (i bak : nat) : ephase :=
  mkEp P ty [c] 0 0 i bak 0 [] root 0 false false false [] 0.
(** phase[0]: only its list is used. *)
Definition input_phase : ephase := mkEp P FROM [] 0 0 0 0 0 [] (mkTs DEADEND [] 0 0 []) 0 false false false [] 0.
End Raw.
Arguments phase_runs {P}. Arguments calls {P}. Arguments flushes {P}. Arguments streams {P}. Arguments push {P}.

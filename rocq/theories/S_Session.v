(** Vocabulary for whole sessions: sequences of calls of bsdconv() and the streams they carry. *)
From Verif Require Import Base Types M_Engine M_Output.

(** Output modes that deliver: everything but BSDCONV_NULL (which discards) and descriptors that accept
    only part of a write. *)
Definition lossless (m : omode) : Prop :=
  match m with ONull => False | OFd acc => forall k d, length d <= acc k d | _ => True end.
(** The same call in BSDCONV_HOLD mode, which leaves the output inside the instance. *)
Definition hold (c : call) : call := mkCall (c_input c) (c_flush c) OHold.

(** One stream: each call may bring one chunk; the last call, and only the last, flushes. *)
Fixpoint stream_calls (l : list (option datum * omode)) : list call :=
  match l with
  | [] => []
  | [(i, m)] => [mkCall (option_map (fun d => (d, [])) i) true m]
  | (i, m) :: r => mkCall (option_map (fun d => (d, [])) i) false m :: stream_calls r
  end.
(** The chunks of a stream. *)
Definition inputs (l : list (option datum * omode)) : list datum := flat_map (fun x => match fst x with Some d => [d] | None => [] end) l.

(** Running a sequence of calls gives this state and these bytes, with any sufficient amount of fuel:
    every call returns and none of them has undefined behaviour. *)
Definition runs_to {P} (s : inst P) (h : list call) (s' : inst P) (out : list N) : Prop :=
  exists fuel0, forall fuel, fuel0 <= fuel -> run_hist P fuel s h = Some (s', out).

(** The states an instance can be in: initialised, then any calls whatsoever. *)
Inductive reachable {P} : inst P -> Prop :=
| re_init s0 s : 2 <= length (i_phases P s0) -> bsdconv_init P s0 = Some s -> reachable s
| re_call s fuel inp fl mode s' r : reachable s -> bsdconv_call P fuel s inp fl mode = CDone P s' r -> reachable s'.

(** The list of converted data waiting in the instance. *)
Definition waiting {P} (s : inst P) : list datum := match last_phase P s with Some ph => p_queue P ph | None => [] end.

(** Two instances of the same conversion: same phase types, and the codecs are the same after cbinit. *)
Definition same_setup {P} (s s' : inst P) : Prop :=
  Forall2 (fun a b => p_type P a = p_type P b /\ map (init_codec P) (p_codecs P a) = map (init_codec P) (p_codecs P b)) (tl (i_phases P s)) (tl (i_phases P s')).

(** What a program may do with an instance before it re-initialises it: any calls, complete or abandoned,
    and earlier re-initialisations. *)
Inductive used {P} (s0 : inst P) : inst P -> Prop :=
| us_start : used s0 s0
| us_init s s' : used s0 s -> bsdconv_init P s = Some s' -> used s0 s'
| us_call s fuel inp fl mode s' r : used s0 s -> bsdconv_call P fuel s inp fl mode = CDone P s' r -> used s0 s'.
(** The private states a codec's callbacks can bring about, whatever data they are called with. *)
Inductive evolves {P} (cd : ecodec P) : P -> Prop :=
| ev_start : evolves cd (e_priv P cd)
| ev_init f p : e_init P cd = Some f -> evolves cd p -> evolves cd (f p)
| ev_conv f p d i sd : e_conv P cd = Some f -> evolves cd p -> evolves cd (cb_priv P (f p d i sd))
| ev_flush f p : e_flush P cd = Some f -> evolves cd p -> evolves cd (fst (f p)).
(** The private state of every codec is restored by its cbinit, whatever happened since its creation. *)
Definition resets {P} (s : inst P) : Prop :=
  forall th cd p, In th (tl (i_phases P s)) -> In cd (p_codecs P th) -> evolves cd p -> init_codec P (set_priv P cd p) = init_codec P cd.

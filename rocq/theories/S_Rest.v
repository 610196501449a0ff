(** Specification: an instance between two streams, for any conversion. *)
From Verif Require Import Base Types M_Engine M_Output M_Create M_Modules S_Session.

(** [resting again i0 good s]: [s] is the created instance [i0] after bsdconv_init -- with [again], after any use whatsoever
    of the instance and another bsdconv_init -- and possibly completed streams of [good] input. *)
Inductive resting (again : bool) (i0 : inst priv) (good : list N -> Prop) : inst priv -> Prop :=
| re_first s : bsdconv_init priv i0 = Some s -> resting again i0 good s
| re_again s0 s : again = true -> used i0 s0 -> bsdconv_init priv s0 = Some s -> resting again i0 good s
| re_stream s l s' got : resting again i0 good s -> l <> [] -> Forall (fun x => lossless (snd x)) l -> good (concat (inputs l)) ->
    runs_to s (stream_calls l) s' got -> resting again i0 good s'.

(** "The conversion [i0] turns the input [W] into the output [O]": from every instance at rest, however the input is cut into
    chunks and whatever lossless output modes the calls use, the calls return, deliver exactly [O] and count no error. *)
Definition converts (again : bool) (i0 : inst priv) (good : list N -> Prop) (W O : list N) : Prop :=
  forall s l, resting again i0 good s -> l <> [] -> Forall (fun x => lossless (snd x)) l -> concat (inputs l) = W ->
  exists s' got, runs_to s (stream_calls l) s' got /\ got ++ pending priv s' = pending priv s ++ O /\
    i_ierr priv s' = i_ierr priv s /\ i_oerr priv s' = i_oerr priv s /\ resting again i0 good s'.

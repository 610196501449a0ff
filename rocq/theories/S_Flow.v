(** Specification: one stream through an instance that was just initialised. *)
From Verif Require Import Base Types M_Engine M_Output M_Create M_Modules S_Session.

(** [fresh i0 s]: the created instance [i0], after any use whatsoever, and then bsdconv_init. *)
Definition fresh (i0 s : inst priv) : Prop := exists s0, used i0 s0 /\ bsdconv_init priv s0 = Some s.
(** The private state of the only codec of the phase number [p] (1: the first one named in the conversion). *)
Definition module_state (s : inst priv) (p : nat) (q : priv) : Prop :=
  exists th cd, nth_error (i_phases priv s) p = Some th /\ p_codecs priv th = [cd] /\ e_priv priv cd = q.
(** A stream given in the chunks [l] makes the calls return with exactly the output [O], no error counted; [s']: after it. *)
Definition streams_to (s : inst priv) (l : list (option datum * omode)) (O : list N) (s' : inst priv) : Prop :=
  exists got, runs_to s (stream_calls l) s' got /\ got ++ pending priv s' = O /\ i_ierr priv s' = i_ierr priv s /\ i_oerr priv s' = i_oerr priv s.
(** A complete input in chunks, with lossless output modes. *)
Definition chunks (l : list (option datum * omode)) (W : list N) : Prop := l <> [] /\ Forall (fun x => lossless (snd x)) l /\ concat (inputs l) = W.

(** Specification: several streams one after the other, each ended by a flush, without decoding errors. *)
From Verif Require Import Base Types M_Engine M_Output S_Session S_Dict S_Convert.

Inductive streams_ok (c : list phase_desc) : list (list (option datum * omode)) -> list datum -> nat -> Prop :=
| so_nil : streams_ok c [] [] 0
| so_cons l r out oe outs oes : l <> [] -> Forall (fun x => lossless (snd x)) l -> run_conv c [concat (inputs l)] out 0 oe ->
    streams_ok c r outs oes -> streams_ok c (l :: r) (out ++ outs) (oe + oes).

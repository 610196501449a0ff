(** Data types shared by the model and the specifications. *)
From Verif Require Import Base.

(** enum bsdconv_phase_type (src/bsdconv.h:36-43); FILTER/SCORER are only used by module
    lookups (M_Modules) and never occur as a phase type. *)
Inductive ptype := FROM | INTER | TO | FILTER | SCORER.

(** One codec of a phase: desc and argv as left by bsdconv_unpack (src/libbsdconv.c:365-370). *)
Record codec := mkCodec { desc : str; argv : option str }.

(** One phase.  [codecs] has codecn+1 elements. *)
Record phase := mkPhase { ptyp : ptype; codecs : list codec }.

(** Outcome of an API call that may index outside an array. *)
Inductive outcome (A : Type) := Val (a : A) | UB.
Arguments Val {A} a.
Arguments UB {A}.


(** A datum (struct data_rt, src/bsdconv.h:77-82): its bytes. *)
Definition datum := list N.

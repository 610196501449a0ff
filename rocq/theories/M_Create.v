(** Model of the instance that bsdconv_create builds from loaded codecs (src/libbsdconv.c:455-523): phase 0
    is the input, phases 1.. have the loaded codecs, lists are empty, counters are 0.  The other fields are
    uninitialised in C; bsdconv_init (which every program must call) overwrites them all except [i] and
    [bak], which the engine does not read before writing (P_Reinit2).  Loading a codec (lines 80-175) is
    reduced to its compiled table; codecs made of a table only have no callbacks and no private state. *)
From Verif Require Import Base Types M_Engine M_Mktable.

Section Create.
Variable P : Type.
Definition blank : tstate := mkTs DEADEND [] 0 0 [].
Definition new_phase (t : ptype) (cs : list (ecodec P)) : ephase P :=
  mkEp P t cs 0 0 0 0 0 [] blank 0 false false false [] 0.
Definition new_instance (phs : list (ptype * list (ecodec P))) : inst P :=
  mkInst P (new_phase FROM [] :: map (fun x => new_phase (fst x) (snd x)) phs) false 0 0.
End Create.

(** A codec that is a table only. *)
Definition table_codec (tab : table) : ecodec unit := mkEc unit tab None None None tt.
Fixpoint all_some {A} (l : list (option A)) : option (list A) :=
  match l with
  | [] => Some []
  | x :: r => match x, all_some r with Some a, Some b => Some (a :: b) | _, _ => None end
  end.
(** A conversion whose codecs are compiled from these source texts. *)
Definition create_from_sources (c : list (ptype * list (list N))) : option (inst unit) :=
  option_map (new_instance unit) (all_some (map (fun x => option_map (pair (fst x)) (all_some (map (fun src => option_map table_codec (mktable src)) (snd x)))) c)).

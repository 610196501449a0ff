(** Specification: how a phase cuts a stream into segments. *)
From Verif Require Import Base Types S_Dict S_Convert.

(** At each position: the longest entry of the first dictionary that has one (segment with its data), or
    else a single symbol (byte or datum) at which no dictionary has any entry (segment without data). *)
Inductive segmented (t : ptype) (Ds : list dict) : list datum -> list (list datum * option (list datum)) -> Prop :=
| sg_end : segmented t Ds [] []
| sg_match ds n o segs : chosen t Ds ds n o -> segmented t Ds (skipn n ds) segs -> segmented t Ds ds ((firstn n ds, Some o) :: segs)
| sg_miss x ds segs : unmatched t Ds (x :: ds) -> segmented t Ds ds segs -> segmented t Ds (x :: ds) (([x], None) :: segs).

(** The data of the matched segments, in order. *)
Definition matched_data (segs : list (list datum * option (list datum))) : list datum :=
  flat_map (fun s => match snd s with Some o => o | None => [] end) segs.
(** The same with unmatched segments left in place. *)
Definition replaced_data (segs : list (list datum * option (list datum))) : list datum :=
  flat_map (fun s => match snd s with Some o => o | None => fst s end) segs.
Definition misses (segs : list (list datum * option (list datum))) : nat :=
  length (filter (fun s => match snd s with Some _ => false | None => true end) segs).

(** No key of the dictionary spans several data. *)
Definition single_datum_keys (D : dict) : Prop := forall k o, In (k, o) D -> ~ In 256%N k.

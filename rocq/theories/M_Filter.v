(** Model of the filters (modules/filter) and scorers (modules/scorer): cbfilter and cbscorer of every module. *)
From Verif Require Import Base Types M_Bsearch D_Ranges.
Local Open Scope N_scope.

(** modules/filter/unicode_range.c:7-37 with the table [rs].  [None]: index outside the table. *)
Definition range_filter (rs : list (N * N)) (d : datum) : option bool :=
  match d with
  | 1 :: l => match bs_find f2 l2 rs (u32_of l) with
              | Some (Some _) => Some true
              | Some None => Some false
              | None => None
              end
  | _ => Some false
  end.
(** modules/filter/type.c:3-8 with TYPE [t]. *)
Definition type_filter (t : N) (d : datum) : option bool :=
  match d with b :: _ => Some (b =? t) | [] => Some false end.
(** modules/scorer/unicode_range.c:7-37 with the table [rs]. *)
Definition range_scorer (rs : list (N * N * N)) (d : datum) : option N :=
  match d with
  | 1 :: l => match bs_find f3 l3 rs (u32_of l) with
              | Some (Some r) => Some (v3 r)
              | Some None => Some 0
              | None => None
              end
  | _ => Some 0
  end.

Fixpoint assoc {A} (k : str) (l : list (str * A)) : option A :=
  match l with [] => None | (n, x) :: r => if str_eqb k n then Some x else assoc k r end.
(** The cbfilter of the module file modules/filter/<name>.c; no such module: [None]. *)
Definition filter_named (name : str) : option (datum -> option bool) :=
  match assoc name filter_tables, assoc name filter_types with
  | Some rs, _ => Some (range_filter rs)
  | None, Some t => Some (type_filter t)
  | None, None => None
  end.
Definition scorer_named (name : str) : option (datum -> option N) := option_map range_scorer (assoc name scorer_tables).

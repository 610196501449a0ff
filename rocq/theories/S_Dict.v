(** Specification of dictionaries: what a codec table means.

    A dictionary is a list of entries: a non-empty key and the data it is replaced by.  The keys of a
    decoder are byte strings; the keys of an intermediate or encoding codec are sequences of data,
    written as one string in which the symbol 256 separates consecutive data. *)
From Verif Require Import Base Types S_Engine.

Definition entry := (list N * list datum)%type.
Definition dict := list entry.

Fixpoint eqb_syms (a b : list N) : bool :=
  match a, b with
  | [], [] => true
  | x :: a', y :: b' => (x =? y)%N && eqb_syms a' b'
  | _, _ => false
  end.
Fixpoint is_prefix (a b : list N) : bool :=
  match a, b with
  | [], _ => true
  | x :: a', y :: b' => (x =? y)%N && is_prefix a' b'
  | _, [] => false
  end.

(** The data of the first entry with this key. *)
Fixpoint lookup (D : dict) (w : list N) : option (list datum) :=
  match D with
  | [] => None
  | (k, o) :: D' => if eqb_syms k w then Some o else lookup D' w
  end.
(** Some key begins with [w]. *)
Definition has_prefix (D : dict) (w : list N) : bool := existsb (fun e => is_prefix w (fst e)) D.
(** Some key is longer than [w] and begins with it. *)
Definition has_longer (D : dict) (w : list N) : bool :=
  existsb (fun e => is_prefix w (fst e) && negb (eqb_syms w (fst e))) D.

Definition verdict_of (m : option (list datum)) (more : bool) : verdict :=
  match m, more with
  | Some o, true => VSub o
  | Some o, false => VMatch o
  | None, true => VCont
  | None, false => VDead
  end.

(** A dictionary used by a decoder: the symbols read are bytes. *)
Definition from_sem (D : dict) : csem := fun pre =>
  let w := concat pre in verdict_of (lookup D w) (has_longer D w).

(** A sequence of data as one string. *)
Fixpoint joined (pre : list datum) : list N :=
  match pre with
  | [] => []
  | [d] => d
  | d :: r => d ++ 256%N :: joined r
  end.
(** A dictionary used by an intermediate or encoding codec. *)
Definition data_sem (D : dict) : csem := fun pre =>
  let w := joined pre in verdict_of (lookup D w) (has_prefix D (w ++ [256%N])).

(** Specification of the list of modules. *)
From Verif Require Import Base Types M_ConvString M_List.
From Coq Require Export Permutation Sorted.

Definition occurs (p s : str) : Prop := exists a b, s = a ++ p ++ b.
(** The file [d] of a module directory is the module [n]. *)
Definition module_file (t : ptype) (d n : str) : Prop :=
  match t with
  | FILTER | SCORER => occurs (s_ ".so") d /\ ~ In dot n /\ exists r, d = n ++ dot :: r
  | _ => ~ In dot d /\ d <> s_ "alias" /\ n = d
  end.
(** The line [l] (without its newline) of the alias file defines [n]. *)
Definition alias_line (l n : str) : Prop :=
  (forall r, l <> hash :: r) /\ ~ In tab n /\ exists r, l = n ++ tab :: r.
(** Byte-wise lexicographic order. *)
Inductive str_le : str -> str -> Prop :=
| sl_nil b : str_le [] b
| sl_lt x y a b : (N_of_ascii x < N_of_ascii y)%N -> str_le (x :: a) (y :: b)
| sl_eq x a b : str_le a b -> str_le (x :: a) (x :: b).
(** A file of lines that fgets reads whole. *)
Definition short_line (l : str) : Prop := length l <= 254 /\ ~ In nl l /\ ~ In nul l.
Definition file_of (ls : list str) : str := concat (map (fun l => l ++ [nl]) ls).
(** A file name. *)
Definition file_name (d : str) : Prop := ~ In nul d.
(** [out]: what the elements of [l] stand for, in order; those that stand for nothing are left out. *)
Inductive selected (R : str -> str -> Prop) : list str -> list str -> Prop :=
| se_end : selected R [] []
| se_take d n l out : R d n -> selected R l out -> selected R (d :: l) (n :: out)
| se_skip d l out : (forall n, ~ R d n) -> selected R l out -> selected R (d :: l) out.

(** Specification of counters and hash: plain functions from names to values. *)
From Verif Require Import Base Types M_Store.

(** Names equal up to ASCII case. *)
Definition same_name (a b : str) : bool := str_eqb (strtoupper a) (strtoupper b).

(** Counters: [names] are the names looked up so far, in order; [f] the value of every counter. *)
Definition cspec_step (s : list str * (str -> N)) (o : cop) : list str * (str -> N) :=
  let '(names, f) := s in
  match o with
  | CLookup k => (names ++ [k], f)
  | CAdd j n => match nth_error names j with
                | None => s
                | Some k => (names, fun x => if same_name x k then (f x + n)%N else f x)
                end
  | CReset None => (names, fun _ => 0%N)
  | CReset (Some k) => (names, fun x => if same_name x k then 0%N else f x)
  end.
Definition cspec (os : list cop) : list str * (str -> N) :=
  fold_left cspec_step os ([], fun _ => 0%N).

(** A program only dereferences pointers it has been given. *)
Fixpoint cwf (n : nat) (os : list cop) : bool :=
  match os with
  | [] => true
  | CLookup _ :: os' => cwf (S n) os'
  | CAdd j _ :: os' => (j <? n) && cwf n os'
  | CReset _ :: os' => cwf n os'
  end.

(** Hash: a total function to option. *)
Section S.
Variable V : Type.
Definition hmap := str -> option V.
Definition upd (m : hmap) (k : str) (v : option V) : hmap := fun x => if str_eqb x k then v else m x.

Definition hspec_step (m : hmap) (o : hop V) : hres V * hmap :=
  match o with
  | HSet k v => (RUnit, upd m k (Some v))
  | HHas k => (RBool (match m k with Some _ => true | None => false end), m)
  | HGet k | HHasGet k => (RPtr (m k), m)
  | HDel k | HHasDel k => (RUnit, upd m k None)
  end.
Fixpoint hspec (m : hmap) (os : list (hop V)) : list (hres V) * hmap :=
  match os with
  | [] => ([], m)
  | o :: os' => let '(r, m') := hspec_step m o in let '(rs, m'') := hspec m' os' in (r :: rs, m'')
  end.

(** The documented idiom: get and del only right after a successful has. *)
Definition idiomatic (o : hop V) : bool := match o with HGet _ | HDel _ => false | _ => true end.
End S.

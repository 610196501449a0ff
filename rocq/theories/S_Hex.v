(** What a hexadecimal string denotes. *)
From Verif Require Import Base Types.

Definition hexval (c : ascii) : option N :=
  let n := N_of_ascii c in
  if ((48 <=? n) && (n <=? 57))%N then Some (n - 48)%N            (* 0-9 *)
  else if ((65 <=? n) && (n <=? 70))%N then Some (n - 55)%N       (* A-F *)
  else if ((97 <=? n) && (n <=? 102))%N then Some (n - 87)%N      (* a-f *)
  else None.

(** [hexdenotes s d]: the digits of [s], two by two, are the bytes [d]. *)
Inductive hexdenotes : str -> list N -> Prop :=
| hd_nil : hexdenotes [] []
| hd_cons c1 c2 h1 h2 s d : hexval c1 = Some h1 -> hexval c2 = Some h2 -> hexdenotes s d ->
    hexdenotes (c1 :: c2 :: s) (16 * h1 + h2 :: d)%N.

Definition all_hex (s : str) : Prop := Forall (fun c => hexval c <> None) s.

(** '.'-separated list *)
Fixpoint join_dot (ks : list str) : str :=
  match ks with
  | [] => []
  | [k] => k
  | k :: ks' => k ++ "."%char :: join_dot ks'
  end.

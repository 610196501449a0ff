(** Specification of the completion of a partial conversion. *)
From Verif Require Import Base Types M_ConvString.

Definition is_quote (c : ascii) : Prop := c = "'"%char \/ c = """"%char.
(** [b] is the argument [a] without a quote in front and one at the end. *)
Inductive bare : str -> str -> Prop :=
| br_both q z b : is_quote q -> is_quote z -> bare (q :: b ++ [z]) b
| br_front q b : is_quote q -> (forall y z, b = y ++ [z] -> ~ is_quote z) -> bare (q :: b) b
| br_end b z : (forall q r, b ++ [z] = q :: r -> ~ is_quote q) -> is_quote z -> bare (b ++ [z]) b
| br_none b : (forall q r, b = q :: r -> ~ is_quote q) -> (forall y z, b = y ++ [z] -> ~ is_quote z) -> bare b b.
Definition separator (c : ascii) : Prop := c = ":"%char \/ c = "|"%char \/ c = ","%char.
(** [part] is the name at the end of [a] that is being typed, [p] what is in front of it. *)
Definition last_name (a p part : str) : Prop :=
  a = p ++ part /\ Forall (fun c => ~ separator c) part /\ (p = [] \/ exists q c, p = q ++ [c] /\ separator c).
(** The kind of module the last name can be (besides an intermediate one). *)
Inductive ends_in : str -> ptype -> Prop :=
| ei_to x y : Forall (fun c => c <> ":"%char /\ c <> "|"%char) y -> ends_in (x ++ ":"%char :: y) TO
| ei_bar x y : Forall (fun c => c <> ":"%char /\ c <> "|"%char) y -> ends_in (x ++ "|"%char :: y) FROM
| ei_start y : Forall (fun c => c <> ":"%char /\ c <> "|"%char) y -> ends_in y FROM.
Definition begins_with (part n : str) : Prop := exists r, n = part ++ r.
(** [out]: the elements of [l] that begin with [part], in order, each once, without those already in [seen]. *)
Inductive offered (part : str) : list str -> list str -> list str -> Prop :=
| of_end seen : offered part seen [] []
| of_new seen n l out : begins_with part n -> ~ In n seen -> offered part (n :: seen) l out -> offered part seen (n :: l) (n :: out)
| of_old seen n l out : ~ begins_with part n \/ In n seen -> offered part seen l out -> offered part seen (n :: l) out.

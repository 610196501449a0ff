(** The shipped alias tables, looked up by upper-cased exact name. *)
From Verif Require Import Base Types M_ConvString S_ConvString D_Aliases.

Fixpoint assoc {A} (k : str) (l : list (str * A)) : option A :=
  match l with [] => None | (k', v) :: l' => if str_eqb k k' then Some v else assoc k l' end.

(** Simplification: bsdconv_solve_alias (src/libbsdconv_module.c:32-82) runs the ALIAS-FROM / ALIAS-INTER /
    ALIAS-TO conversions generated from these files on the upper-cased name; an exact-name lookup is
    what that conversion does on a single alias name (T_SolveAlias.C62_shipped proves it for the conversion as modelled in M_SolveAlias.v). *)
Definition shipped_alias (t : ptype) (n : str) : option str :=
  assoc (strtoupper n) match t with FROM => alias_from | INTER => alias_inter | TO => alias_to | FILTER => alias_filter | SCORER => [] end.

Definition shipped_rank (n : str) : nat := match assoc (strtoupper n) alias_rank with Some r => r | None => 0 end.

Lemma assoc_in {A} k (l : list (str * A)) v : assoc k l = Some v -> In (k, v) l.
Proof.
  induction l as [|[k' v'] l IH]; cbn; [discriminate|]. destruct (str_eqb k k') eqn:E.
  - apply str_eqb_eq in E. intros [= ->]. subst. left. reflexivity.
  - intros H. right. apply IH. exact H.
Qed.

Definition entry_ok (kv : str * str) : bool :=
  tidy (snd kv) && forallb (fun m => shipped_rank m <? shipped_rank (fst kv)) (names (snd kv))
  && str_eqb (strtoupper (fst kv)) (fst kv).

Lemma shipped_ok t : t <> FILTER -> forallb entry_ok
   match t with FROM => alias_from | INTER => alias_inter | TO => alias_to | FILTER => alias_filter | SCORER => [] end = true.
Proof. destruct t; intros H; try contradiction; vm_compute; reflexivity. Qed.

Lemma shipped_rank_upper n : shipped_rank (strtoupper n) = shipped_rank n.
Proof. unfold shipped_rank. rewrite strtoupper_idem. reflexivity. Qed.

Theorem shipped_acyclic :
  acyclic (fun t n => match t with FILTER => None | _ => shipped_alias t n end).
Proof.
  exists shipped_rank. intros t n a E.
  assert (Ht : t <> FILTER) by (intros ->; discriminate).
  assert (E' : shipped_alias t n = Some a) by (destruct t; try discriminate; exact E). clear E.
  unfold shipped_alias in E'. apply assoc_in in E'.
  pose proof (proj1 (forallb_forall _ _) (shipped_ok t Ht) _ E') as K.
  unfold entry_ok in K. cbn [fst snd] in K.
  apply andb_prop in K as [K _]. apply andb_prop in K as [K1 K2]. split; [exact K1|].
  intros m Hm. pose proof (proj1 (forallb_forall _ _) K2 m Hm) as K. apply Nat.ltb_lt in K.
  rewrite shipped_rank_upper in K. exact K.
Qed.

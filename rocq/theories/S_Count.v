(** Specification of a phase that ends with COUNT. *)
From Verif Require Import Base Types M_Engine M_UTF8 M_UTF16 M_Modules M_Fallback M_Star M_Stage M_Count S_Session S_Unicode S_Source S_Dict S_Convert S_Fallback S_Flow S_Transcode S_Stage S_Bonus.

(** Match by match; where no dictionary matches, one datum goes through unchanged and is counted (if COUNT has a FOR argument: if the
    filter accepts it). *)
Definition wanted (f : option (datum -> bool)) (d : datum) : N := match f with Some g => if g d then 1 else 0 | None => 1 end%N.
Inductive passed (Ds : list dict) (f : option (datum -> bool)) : list datum -> list datum -> N -> Prop :=
| pa_end : passed Ds f [] [] 0%N
| pa_match ds n o out k : chosen INTER Ds ds n o -> passed Ds f (skipn n ds) out k -> passed Ds f ds (o ++ out) k
| pa_other x ds out k : unmatched INTER Ds (x :: ds) -> passed Ds f ds out k -> passed Ds f (x :: ds) (x :: out) (wanted f x + k)%N.

(** The private state (for COUNT: the counter) of the last codec of phase [p]. *)
Definition last_state (s : inst priv) (p : nat) (q : priv) : Prop :=
  exists th pre cd, nth_error (i_phases priv s) p = Some th /\ p_codecs priv th = pre ++ [cd] /\ e_priv priv cd = q.

(** As S_Stage.run_link, run_links. *)
Definition run_stage (s : inst priv) (p : nat) (k : stage) (ds mid : list datum) (e : nat) (z : option priv) : Prop :=
  match k with
  | SLink k => run_link s p k ds mid e z
  | SCount ess f _ => e = 0 /\ exists n k, last_state s p (PNum n) /\ passed (map file_dict ess) f (some_data ds) mid k /\ z = Some (PNum (n + k))
  | SBonus es _ => e = 0 /\ exists n k, last_state s p (PNum n) /\ scored (file_dict es) (some_data ds) mid k /\ z = Some (PNum (n + k))
  end.
Inductive run_stages (s : inst priv) : nat -> list stage -> list datum -> list datum -> nat -> list (nat * priv) -> Prop :=
| rs_end p ds : run_stages s p [] ds ds 0 []
| rs_cons p k r ds mid out e z oe zs :
    run_stage s p k ds mid e z -> run_stages s (S p) r mid out oe zs ->
    run_stages s p (k :: r) ds out (e + oe) (match z with Some v => [(p, v)] | None => [] end ++ zs).

Definition stage_ok (k : stage) : Prop :=
  match k with
  | SLink k => link_ok k
  | SCount ess f _ => ess <> [] /\ Forall (Forall entry_ok) ess /\ forall es w o, In es ess -> lookup (file_dict es) w = Some o -> has_longer (file_dict es) w = true -> o <> []
  | SBonus es _ => Forall entry_ok es /\ bonus_lines (file_dict es)
  end.
Definition stage_gives (k : stage) : bool := match k with SLink k => gives_data k | SCount _ _ _ | SBonus _ _ => false end.
Fixpoint stages_placed (pg : bool) (c : list stage) : Prop :=
  match c with
  | [] => True
  | k :: r => match k with SLink k => placed pg [k] | SCount _ _ _ | SBonus _ _ => True end /\ stages_placed (stage_gives k) r
  end.
Definition stages_ok (c : list stage) : Prop :=
  (exists k r, c = k :: r /\ stage_type k = FROM /\ Forall (fun k => stage_type k <> FROM) r) /\ Forall stage_ok c /\ stages_placed false c.

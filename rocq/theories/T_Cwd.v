(** Theorems about the working directory (C52). *)
From Verif Require Import Base Types M_Cwd.

(** The path of the directory the program is in can be entered again from wherever the lookup leads. *)
Definition can_return {D A} (e : env D A) (d : D) : Prop := forall x, e_abs e x (e_getcwd e d) = Some d.
Definition type_ok (l : lookup) : Prop := match l with ListOf t => t <= 4 | _ => True end.

(** C52: after any number of lookups, whichever of the directory changes on the way fail, the working directory is what it
    was; bsdconv_modules_list with one of the five types. *)
Theorem C52_cwd_restored : forall D A (e : env D A) d ls, can_return e d -> Forall type_ok ls -> calls_cwd e ls d = d.
Proof.
  intros D A e d ls HR HF. induction HF as [|l ls Hl HF IH]; [reflexivity|]. unfold calls_cwd in *. cbn [fold_left].
  assert (E : call_cwd e (lookup_ops l) d = d).
  { assert (HF' : forall m, call_cwd e ([Getcwd; Chdir BasePath; Chdir ModulesSub] ++ m ++ [Chdir Saved]) d = d \/ exists p, In (Chdir p) m /\ p = Saved \/ In Getcwd m).
    { intros m. unfold call_cwd, crun. rewrite app_assoc, fold_left_app.
      assert (K : forall l0 st, snd st = Some (e_getcwd e d) -> ~ In Getcwd l0 -> snd (fold_left (fun st o => cstep e o st) l0 st) = Some (e_getcwd e d)).
      { induction l0 as [|o l0 IHl]; intros st Hs Hn; [exact Hs|]. cbn [fold_left]. apply IHl; [|intros K; apply Hn; right; exact K].
        destruct st as [x s]. cbn in Hs. subst s. destruct o as [|[]]; cbn; try reflexivity. exfalso. apply Hn. left. reflexivity. }
      destruct (in_dec (fun a b : cop => ltac:(decide equality; decide equality; apply Nat.eq_dec)) Getcwd m) as [Hi|Hi]; [right; exists Saved; right; exact Hi|left].
      rewrite fold_left_app. set (st1 := fold_left _ [Getcwd; Chdir BasePath; Chdir ModulesSub] (d, None)).
      assert (H1 : snd st1 = Some (e_getcwd e d)) by reflexivity. pose proof (K m st1 H1 Hi) as H2. destruct (fold_left _ m st1) as [x s]. cbn in H2. subst s. cbn. rewrite HR. reflexivity. }
    destruct l as [t|t|t]; cbn [lookup_ops]; unfold loadcodec_ops, module_check_ops, modules_list_ops.
    - destruct (t <=? 2); [destruct (HF' [Chdir (Sub t)]) as [H|(p & [([H|[]] & ->)|[H|[]]])]|destruct (HF' []) as [H|(p & [([] & _)|[]])]]; try discriminate; exact H.
    - destruct (t <=? 4); [destruct (HF' [Chdir (Sub t)]) as [H|(p & [([H|[]] & ->)|[H|[]]])]|destruct (HF' []) as [H|(p & [([] & _)|[]])]]; try discriminate; exact H.
    - cbn in Hl. destruct (Nat.leb_spec t 4); [|lia]. destruct (HF' [Chdir (Sub t)]) as [H'|(p & [([H'|[]] & ->)|[H'|[]]])]; try discriminate. exact H'. }
  rewrite E. exact IH.
Qed.
Print Assumptions C52_cwd_restored.

(** A small world: directory 0 is the program's, 1 the base path, 2 its modules, 3.. the kinds. *)
Definition small : env nat nat := mkEnv (fun d p => match p, d with BasePath, _ => Some 1 | ModulesSub, 1 => Some 2 | Sub t, 2 => Some (3 + t) | _, _ => None end) (fun _ a => Some a) (fun d => d).
Lemma small_ok d : can_return small d. Proof. intros x. reflexivity. Qed.
Example C52_ex : calls_cwd small [Load 0; Check 7; ListOf 4; Load 2] 0 = 0 /\ fst (crun small (firstn 4 (loadcodec_ops 2)) (0, None)) = 5.
Proof. split; reflexivity. Qed.
(** Without the restriction it is false: an invalid type leaves the process in the modules directory ... *)
Theorem C52_invalid_type_refuted : ~ (forall D A (e : env D A) d ls, can_return e d -> calls_cwd e ls d = d).
Proof. intros H. specialize (H nat nat small 0 [ListOf 5] (small_ok 0)). discriminate. Qed.
Print Assumptions C52_invalid_type_refuted.
(** ... and when the directory of the program cannot be entered again the process stays with the modules ... *)
Theorem C52_no_return_refuted : exists D A (e : env D A) d ls, Forall type_ok ls /\ calls_cwd e ls d <> d.
Proof. exists nat, nat, (mkEnv (e_named small) (fun _ _ => None) (fun d => d)), 0, [Load 0]. split; [repeat constructor|discriminate]. Qed.
Print Assumptions C52_no_return_refuted.
(** ... and it does not hold for two threads loading codecs at the same time: the second may save the directory the first
    one is passing through. *)
Theorem C52_threads_refuted : exists sch, threads small sch (loadcodec_ops 0) (loadcodec_ops 2) 0 None None = Some 1.
Proof. exists [true; true; false; true; true; true; false; false; false; false]. reflexivity. Qed.
Print Assumptions C52_threads_refuted.

(** Property theorems about counters and the instance hash. *)
From Verif Require Import Base Types M_Store S_Store P_Store.

(** C12/C13 (values).  After every history of look-ups, additions through previously returned
    pointers and resets, reading any counter by name gives the value the specification assigns:
    0 if never touched, case-insensitive, a reset of one name touching only that name. *)
Theorem C12_counters_are_a_map : forall os, cwf 0 os = true ->
  exists st hs, crun ([], []) os = Some (st, hs) /\
    forall k, counter_read st k = Some (snd (cspec os) k).
Proof. exact counters_map. Qed.
Print Assumptions C12_counters_are_a_map.

(** C12 (handles).  The pointers returned by any two look-ups of a history are equal iff the names
    are equal up to case, and every pointer ever returned still names its counter at the end. *)
Theorem C12_stable_handles : forall os, cwf 0 os = true ->
  exists st hs, crun ([], []) os = Some (st, hs) /\ length hs = length (fst (cspec os)) /\
    forall i j ki kj hi hj,
      nth_error (fst (cspec os)) i = Some ki -> nth_error (fst (cspec os)) j = Some kj ->
      nth_error hs i = Some hi -> nth_error hs j = Some hj ->
      (hi = hj <-> strtoupper ki = strtoupper kj) /\
      option_map snd (nth_error st hi) = Some (snd (cspec os) ki).
Proof. exact counters_handles. Qed.
Print Assumptions C12_stable_handles.

(** C13.  Resets, stated directly. *)
Theorem C13_reset_all : forall os, cwf 0 os = true ->
  exists st hs, crun ([], []) (os ++ [CReset None]) = Some (st, hs) /\
    forall k, counter_read st k = Some 0%N.
Proof.
  intros os H. destruct (counters_map (os ++ [CReset None])) as (st & hs & Hr & Hv).
  - assert (G : forall os n, cwf n os = true -> cwf n (os ++ [CReset None]) = true).
    { clear. induction os as [|o os IH]; intros n H; cbn in *; [reflexivity|].
      destruct o; auto. apply andb_prop in H as [-> H]. cbn. auto. }
    apply G. exact H.
  - exists st, hs. split; [exact Hr|]. intros k. rewrite Hv. unfold cspec. rewrite fold_left_app. cbn.
    destruct (fold_left _ _ _). reflexivity.
Qed.
Print Assumptions C13_reset_all.

Theorem C13_reset_one : forall os name, cwf 0 os = true ->
  exists st hs st' hs', crun ([], []) os = Some (st, hs) /\
    crun ([], []) (os ++ [CReset (Some name)]) = Some (st', hs') /\
    forall k, counter_read st' k = if same_name k name then Some 0%N else counter_read st k.
Proof.
  intros os name H. destruct (counters_map os H) as (st & hs & Hr & Hv).
  destruct (counters_map (os ++ [CReset (Some name)])) as (st' & hs' & Hr' & Hv').
  - assert (G : forall os n, cwf n os = true -> cwf n (os ++ [CReset (Some name)]) = true).
    { clear. induction os as [|o os IH]; intros n H; cbn in *; [reflexivity|].
      destruct o; auto. apply andb_prop in H as [-> H]. cbn. auto. }
    apply G. exact H.
  - exists st, hs, st', hs'. split; [exact Hr|]. split; [exact Hr'|]. intros k.
    rewrite Hv, Hv'. unfold cspec. rewrite fold_left_app. cbn.
    destruct (fold_left _ _ _). cbn. destruct (same_name k name); reflexivity.
Qed.
Print Assumptions C13_reset_one.

Example C12_example : cwf 0 [CLookup (s_ "ierr"); CLookup (s_ "Full"); CAdd 0 3; CLookup (s_ "IERR"); CAdd 2 4; CReset (Some (s_ "full"))] = true
  /\ snd (cspec [CLookup (s_ "ierr"); CLookup (s_ "Full"); CAdd 0 3; CLookup (s_ "IERR"); CAdd 2 4; CReset (Some (s_ "full"))]) (s_ "IErr") = 7%N.
Proof. split; vm_compute; reflexivity. Qed.

(** C14/C15.  From an empty hash, every history that calls get and del only after a successful has
    runs without touching freed memory and returns exactly what a map returns. *)
Theorem C14_hash_is_a_map : forall (V : Type) (os : list (hop V)), forallb (idiomatic V) os = true ->
  exists p, hrun V [] os = Val (fst (hspec V (fun _ => None) os), p).
Proof.
  intros V os H. destruct (hash_map V os [] (fun _ => None)) as (rs & l' & Hr & -> & _);
    [constructor|reflexivity|exact H|]. eexists. exact Hr.
Qed.
Print Assumptions C14_hash_is_a_map.

Example C14_example : let os := [HSet (s_ "a") 1; HSet (s_ "b") 2; HHasGet (s_ "a"); HHasDel (s_ "b"); HHas (s_ "b"); HHasGet (s_ "a")] in
  forallb (idiomatic nat) os = true /\
  fst (hspec nat (fun _ => None) os) = [RUnit; RUnit; RPtr (Some 1); RUnit; RBool false; RPtr (Some 1)].
Proof. split; vm_compute; reflexivity. Qed.

(** C14 for a bare get is false: it returns the value of the most recently touched key. *)
Theorem C14_bare_get_refuted : exists (os : list (hop nat)),
  (forall k, In (HDel k) os -> False) /\
  exists rs p, hrun nat [] os = Val (rs, p) /\ rs <> fst (hspec nat (fun _ => None) os).
Proof.
  exists [HSet (s_ "a") 1; HSet (s_ "b") 2; HGet (s_ "a")]. split.
  - cbn. intros k [H|[H|[H|[]]]]; discriminate.
  - eexists. eexists. split; [vm_compute; reflexivity|]. vm_compute. discriminate.
Qed.
Print Assumptions C14_bare_get_refuted.

(** ... for every reachable hash: after touching [k0], get of any key that is set returns [k0]'s value. *)
Theorem C14_bare_get_returns_last_touched : forall (V : Type) (os : list (hop V)) k0 v0 k v,
  forallb (idiomatic V) os = true ->
  snd (hspec V (fun _ => None) os) k0 = Some v0 -> snd (hspec V (fun _ => None) os) k = Some v ->
  exists rs p, hrun V [] os = Val (rs, p) /\
  exists p', hrun V p [HHas k0; HGet k] = Val ([RBool true; RPtr (Some v0)], p').
Proof.
  intros V os k0 v0 k v H H0 Hk. destruct (hash_map V os [] (fun _ => None)) as (rs & l' & Hr & -> & Hnd & Hm);
    [constructor|reflexivity|exact H|]. eexists. eexists. split; [exact Hr|].
  apply (hash_get_raw V l' k0 v0 k v); [exact Hnd| |]; rewrite Hm; assumption.
Qed.
Print Assumptions C14_bare_get_returns_last_touched.

(** C15 for a bare del is false: the freed node stays linked and the next operation reads it. *)
Theorem C15_bare_del_refuted : exists (os : list (hop nat)) p k,
  hrun nat [] os = Val ([RUnit; RUnit; RUnit], p) /\ hstep nat p (HHas k) = UB.
Proof.
  exists [HSet (s_ "a") 1; HSet (s_ "b") 2; HDel (s_ "a")]. eexists. exists (s_ "c").
  split; [vm_compute; reflexivity|]. vm_compute. reflexivity.
Qed.
Print Assumptions C15_bare_del_refuted.

(** C15 with the idiom: removes exactly that key. *)
Theorem C15_has_then_del : forall (V : Type) (os : list (hop V)) k x, forallb (idiomatic V) os = true ->
  exists rs p, hrun V [] (os ++ [HHasDel k; HHasGet x]) = Val (rs, p) /\
    last rs RUnit = RPtr (if str_eqb x k then None else snd (hspec V (fun _ => None) os) x).
Proof.
  intros V os k x H. destruct (hash_map V (os ++ [HHasDel k; HHasGet x]) [] (fun _ => None)) as (rs & l' & Hr & Hrs & _);
    [constructor|reflexivity| |].
  - rewrite forallb_app, H. reflexivity.
  - exists rs. eexists. split; [exact Hr|]. subst rs. generalize (fun _ : str => @None V). clear.
    induction os as [|o os IH]; intros m.
    + cbn. unfold upd. reflexivity.
    + cbn [app hspec]. destruct (hspec_step V m o) as [r m']. specialize (IH m').
      destruct (hspec V m' (os ++ _)) as [rs m2] eqn:E. destruct (hspec V m' os) as [rs' m2']. cbn in *.
      destruct rs; [|exact IH]. exfalso. destruct os as [|o' os]; cbn in E; [congruence|].
      destruct (hspec_step V m' o') as [? m3]. destruct (hspec V m3 (os ++ _)). congruence.
Qed.
Print Assumptions C15_has_then_del.

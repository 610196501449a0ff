(** One phase with a callback that edits the phase: determinism, and reading bytes in the decoding phase, whatever the
    division of the input into data. *)
From Verif Require Import Base Types M_Engine M_Raw.

Section Det.
Context {P : Type}.
Variable cb : rawcb P.
Ltac same := repeat match goal with A : ?x = LRes _ _ _ _ _ _, B : ?x = LRes _ _ _ _ _ _ |- _ => rewrite A in B; injection B; clear B; intros; subst end.
Lemma runs_det pv th pc pv1 th1 a1 b1 : phase_runs cb pv th pc pv1 th1 a1 b1 -> forall pv2 th2 a2 b2, phase_runs cb pv th pc pv2 th2 a2 b2 -> pv1 = pv2 /\ th1 = th2 /\ a1 = a2 /\ b1 = b2.
Proof.
  induction 1 as [? ? ? ? ? ? ? ? ? ? ? ? E _ IH|? ? ? ? ? ? ? g ? ? ? ? E Hg _ IH|? ? ? ? ? ? ? E]; intros pv2 th2 a2 b2 H2; inversion H2; subst; same;
    try (repeat match goal with H : _ \/ _ |- _ => destruct H end; congruence).
  - edestruct IH as (-> & -> & -> & ->); [eassumption|]. auto.
  - edestruct IH as (-> & -> & -> & ->); [eassumption|]. auto.
  - auto.
Qed.
Lemma calls_det pv th l pv1 th1 a1 b1 : calls cb pv th l pv1 th1 a1 b1 -> forall pv2 th2 a2 b2, calls cb pv th l pv2 th2 a2 b2 -> pv1 = pv2 /\ th1 = th2 /\ a1 = a2 /\ b1 = b2.
Proof.
  induction 1 as [|? ? ? ? ? ? ? ? ? ? ? ? R _ IH]; intros pv2 th2 a2 b2 H2; inversion H2; subst; [auto|].
  destruct (runs_det _ _ _ _ _ _ _ R _ _ _ _ ltac:(eassumption)) as (<- & <- & <- & <-). edestruct IH as (-> & -> & -> & ->); [eassumption|]. auto.
Qed.
Lemma flushes_det pv th pv1 th1 a1 b1 : flushes cb pv th pv1 th1 a1 b1 -> forall pv2 th2 a2 b2, flushes cb pv th pv2 th2 a2 b2 -> pv1 = pv2 /\ th1 = th2 /\ a1 = a2 /\ b1 = b2.
Proof.
  induction 1 as [|? ? ? ? ? ? ? ? ? ? ? R _ IH]; intros pv2 th2 a2 b2 H2; inversion H2; subst; [auto|congruence|congruence|].
  destruct (runs_det _ _ _ _ _ _ _ R _ _ _ _ ltac:(eassumption)) as (<- & <- & <- & <-). edestruct IH as (-> & -> & -> & ->); [eassumption|]. auto.
Qed.
(** A stream has one result. *)
Theorem streams_det pv th l pv1 th1 a1 b1 pv2 th2 a2 b2 : streams cb pv th l pv1 th1 a1 b1 -> streams cb pv th l pv2 th2 a2 b2 -> pv1 = pv2 /\ th1 = th2 /\ a1 = a2 /\ b1 = b2.
Proof.
  intros (? & ? & ? & ? & ? & ? & C1 & F1 & -> & ->) (? & ? & ? & ? & ? & ? & C2 & F2 & -> & ->).
  destruct (calls_det _ _ _ _ _ _ _ C1 _ _ _ _ C2) as (<- & <- & <- & <-). destruct (flushes_det _ _ _ _ _ _ F1 _ _ _ _ F2) as (<- & <- & <- & <-). auto.
Qed.
End Det.

Section Read.
Context {P : Type}.
Notation ephase := (ephase P).
Variable cb : rawcb P.

Definition rest_at (q : list (list N)) (cu i : nat) : list N := match cu with O => concat q | S n => skipn i (nth n q []) ++ concat (skipn cu q) end.
(** The bytes not yet read. *)
Definition unread (q : list (list N)) (cu i hl : nat) : list N := match cu with O => match q with [] => [] | _ => rest_at q 1 hl end | S _ => rest_at q cu i end.
Definition at_end (q : list (list N)) (cu i : nat) : Prop := match cu with O => True | S n => skipn i (nth n q []) = [] end.
Definition ok_pc (q : list (list N)) (cu i : nat) (pc : lpc) : Prop := match pc with LInner => 0 < cu | LOuter => at_end q cu i | _ => False end.
Definition moved (th : ephase) (cu i : nat) : ephase := set_i P (set_curr P th cu) i.

Lemma skipn_cons_nth {A} (d : A) : forall n l, n < length l -> skipn n l = nth n l d :: skipn (S n) l.
Proof. induction n as [|n IH]; intros [|x l] H; cbn in *; try lia; [reflexivity|]. apply IH. lia. Qed.
Lemma skipn_nil_len {A} i (l : list A) : skipn i l = [] -> length l <= i.
Proof. intros H. assert (E : length (skipn i l) = 0) by (rewrite H; reflexivity). rewrite skipn_length in E. lia. Qed.

(** At LOuter and more data: the next datum is entered. *)
Lemma outer_in pv (th : ephase) (q : list (list N)) : p_queue P pv = q -> p_type P th = FROM -> p_curr P th < length q ->
  raw_step P cb pv th LOuter = LRes P pv (moved th (S (p_curr P th)) (if p_curr P th =? 0 then p_headlen P th else 0)) 0 0 (Stay LInner).
Proof. intros Hq Ht Hc. unfold raw_step, local_step. rewrite Ht. unfold from_step. rewrite Hq. apply Nat.ltb_lt in Hc. unfold datum. rewrite Hc. reflexivity. Qed.
Lemma outer_break pv (th : ephase) (q : list (list N)) : p_queue P pv = q -> p_type P th = FROM -> length q <= p_curr P th -> raw_step P cb pv th LOuter = LRes P pv th 0 0 GBreak.
Proof. intros Hq Ht Hc. unfold raw_step, local_step. rewrite Ht. unfold from_step. rewrite Hq. apply Nat.ltb_ge in Hc. unfold datum. rewrite Hc. reflexivity. Qed.
Lemma inner_out pv (th : ephase) (q : list (list N)) n : p_queue P pv = q -> p_type P th = FROM -> p_curr P th = S n -> n < length q -> skipn (p_i P th) (nth n q []) = [] ->
  raw_step P cb pv th LInner = LRes P pv th 0 0 (Stay LOuter).
Proof.
  intros Hq Ht Hc Hn Hs. unfold raw_step, local_step. rewrite Ht. unfold from_step, curr_len. rewrite Hc, Hq. unfold datum. rewrite (nth_error_nth' q [] Hn). cbn [option_map].
  apply skipn_nil_len in Hs. replace (p_i P th <? length (nth n q [])) with false by (symmetry; apply Nat.ltb_ge; exact Hs). reflexivity.
Qed.
Lemma moved_id th : moved th (p_curr P th) (p_i P th) = th.
Proof. destruct th; reflexivity. Qed.
Lemma moved_moved th a b c d : moved (moved th a b) c d = moved th c d.
Proof. reflexivity. Qed.

(** Moving to the next byte. *)
Lemma to_byte pv (th : ephase) (q : list (list N)) b R : p_queue P pv = q -> p_type P th = FROM -> forall n cu i pc, n = length q - cu -> cu <= length q -> ok_pc q cu i pc ->
  unread q cu i (p_headlen P th) = b :: R ->
  exists m i' d, nth_error q m = Some d /\ nth_error d i' = Some b /\ R = rest_at q (S m) (S i') /\
    forall pv' th' x y, phase_runs cb pv (moved th (S m) i') LInner pv' th' x y -> phase_runs cb pv (moved th cu i) pc pv' th' x y.
Proof.
  intros Hq Ht. induction n as [n IHn] using lt_wf_ind.
  assert (Inner : forall m i, n = length q - S m -> m < length q -> unread q (S m) i (p_headlen P th) = b :: R -> exists m' i' d, nth_error q m' = Some d /\ nth_error d i' = Some b /\ R = rest_at q (S m') (S i') /\
    forall pv' th' x y, phase_runs cb pv (moved th (S m') i') LInner pv' th' x y -> phase_runs cb pv (moved th (S m) i) LInner pv' th' x y).
  { intros m i En Hm HU. cbn [unread rest_at] in HU. destruct (skipn i (nth m q [])) as [|b' l] eqn:Es.
    - cbn [app] in HU. assert (Hlt : S m < length q). { destruct (Nat.le_gt_cases (length q) (S m)) as [L|L]; [|exact L]. rewrite skipn_all2 in HU by exact L. discriminate. }
      destruct (IHn (length q - S (S m)) ltac:(lia) (S (S m)) 0 LInner eq_refl ltac:(lia) ltac:(cbn; lia)) as (m' & i' & d & H1 & H2 & H3 & H4).
      { cbn [unread rest_at skipn]. rewrite (skipn_cons_nth [] (S m) q Hlt) in HU. cbn [concat] in HU. destruct q as [|q0 q']; [cbn in Hlt; lia|]. cbn [skipn nth] in HU |- *. exact HU. }
      exists m', i', d. split; [exact H1|]. split; [exact H2|]. split; [exact H3|]. intros pv' th' x y Hrun.
      change x with (0 + x). change y with (0 + y). eapply pr_stay; [apply (inner_out pv _ q m Hq); [exact Ht|reflexivity|exact Hm|exact Es]|].
      change x with (0 + x). change y with (0 + y). eapply pr_stay; [apply (outer_in pv _ q Hq); [exact Ht|exact Hlt]|]. cbn [moved set_i set_curr p_curr Nat.eqb]. apply H4. exact Hrun.
    - injection HU as -> HR. exists m, i, (nth m q []). split; [apply nth_error_nth'; exact Hm|].
      assert (Hi : i < length (nth m q [])). { destruct (Nat.le_gt_cases (length (nth m q [])) i) as [L|L]; [|exact L]. rewrite skipn_all2 in Es by exact L. discriminate. }
      rewrite (skipn_cons_nth 0%N i _ Hi) in Es. injection Es as Eb El. change (skipn (S i) (nth m q []) = l) in El. split; [rewrite (nth_error_nth' _ 0%N Hi), Eb; reflexivity|]. split; [|auto].
      cbn [rest_at]. rewrite El. symmetry. exact HR. }
  intros cu i pc En Hle Hpc HU. destruct pc; try contradiction; cbn [ok_pc] in Hpc.
  - (* LOuter *)
    destruct cu as [|m].
    + cbn [unread] in HU. assert (Hq0 : 0 < length q) by (destruct q; [discriminate|cbn; lia]).
      destruct (IHn (length q - 1) ltac:(lia) 1 (p_headlen P th) LInner eq_refl ltac:(lia) ltac:(cbn; lia)) as (m' & i' & d & H1 & H2 & H3 & H4).
      { cbn [unread]. destruct q; [discriminate|exact HU]. }
      exists m', i', d. split; [exact H1|]. split; [exact H2|]. split; [exact H3|]. intros pv' th' x y Hrun.
      change x with (0 + x). change y with (0 + y). eapply pr_stay; [apply (outer_in pv _ q Hq); [exact Ht|exact Hq0]|]. cbn [moved set_i set_curr p_curr Nat.eqb p_headlen]. apply H4. exact Hrun.
    + cbn [at_end] in Hpc. cbn [unread rest_at] in HU. rewrite Hpc in HU. cbn [app] in HU.
      assert (Hlt : S m < length q). { destruct (Nat.le_gt_cases (length q) (S m)) as [L|L]; [|exact L]. rewrite skipn_all2 in HU by exact L. discriminate. }
      destruct (IHn (length q - S (S m)) ltac:(lia) (S (S m)) 0 LInner eq_refl ltac:(lia) ltac:(cbn; lia)) as (m' & i' & d & H1 & H2 & H3 & H4).
      { cbn [unread rest_at skipn]. rewrite (skipn_cons_nth [] (S m) q Hlt) in HU. cbn [concat] in HU. destruct q as [|q0 q']; [cbn in Hlt; lia|]. cbn [skipn nth] in HU |- *. exact HU. }
      exists m', i', d. split; [exact H1|]. split; [exact H2|]. split; [exact H3|]. intros pv' th' x y Hrun.
      change x with (0 + x). change y with (0 + y). eapply pr_stay; [apply (outer_in pv _ q Hq); [exact Ht|exact Hlt]|]. cbn [moved set_i set_curr p_curr Nat.eqb]. apply H4. exact Hrun.
  - destruct cu as [|m]; [lia|]. apply (Inner m i En Hle HU).
Qed.

(** Reading on when nothing is left: the phase stops at the end. *)
Lemma to_end pv (th : ephase) (q : list (list N)) : p_queue P pv = q -> p_type P th = FROM -> forall n cu i pc, n = length q - cu -> cu <= length q -> ok_pc q cu i pc ->
  unread q cu i (p_headlen P th) = [] ->
  exists i', at_end q (length q) i' /\ phase_runs cb pv (moved th cu i) pc pv (moved th (length q) i') 0 0.
Proof.
  intros Hq Ht. induction n as [n IHn] using lt_wf_ind. intros cu i pc En Hle Hpc HU.
  assert (Hnext : forall m, S m < length q -> unread q (S m) i (p_headlen P th) = [] -> n = length q - S m -> exists i', at_end q (length q) i' /\ phase_runs cb pv (moved th (S (S m)) 0) LInner pv (moved th (length q) i') 0 0).
  { intros m Hm HU' En'. apply (IHn (length q - S (S m)) ltac:(lia) (S (S m)) 0 LInner eq_refl ltac:(lia) ltac:(cbn; lia)).
    cbn [unread rest_at] in HU' |- *. apply app_eq_nil in HU' as [_ HU']. rewrite (skipn_cons_nth [] (S m) q Hm) in HU'. cbn [concat] in HU'. apply app_eq_nil in HU' as [K1 K2].
    cbn [skipn]. destruct q as [|q0 q']; [cbn in Hm; lia|]. cbn [skipn nth] in *. rewrite K1, K2. reflexivity. }
  destruct pc; try contradiction; cbn [ok_pc] in Hpc.
  - destruct cu as [|m].
    + destruct (Nat.eq_dec (length q) 0) as [E0|E0].
      * exists i. split; [rewrite E0; exact I|]. rewrite E0. apply pr_idle. apply (outer_break pv _ q Hq); [exact Ht|rewrite E0; cbn; lia].
      * destruct (IHn (length q - 1) ltac:(lia) 1 (p_headlen P th) LInner eq_refl ltac:(lia) ltac:(cbn; lia)) as (i' & H1 & H2).
        { cbn [unread] in HU |- *. destruct q; [cbn in E0; lia|exact HU]. }
        exists i'. split; [exact H1|]. change 0 with (0 + 0). eapply pr_stay; [apply (outer_in pv _ q Hq); [exact Ht|cbn; lia]|]. exact H2.
    + cbn [at_end] in Hpc. destruct (Nat.eq_dec (S m) (length q)) as [E|E].
      * exists i. rewrite <- E. split; [exact Hpc|]. apply pr_idle. apply (outer_break pv _ q Hq); [exact Ht|cbn; lia].
      * destruct (Hnext m ltac:(lia) HU En) as (i' & H1 & H2). exists i'. split; [exact H1|]. change 0 with (0 + 0). eapply pr_stay; [apply (outer_in pv _ q Hq); [exact Ht|cbn; lia]|]. exact H2.
  - destruct cu as [|m]; [lia|]. pose proof HU as HU0. cbn [unread rest_at] in HU. apply app_eq_nil in HU as [Hs _].
    destruct (Nat.eq_dec (S m) (length q)) as [E|E].
    + exists i. rewrite <- E. split; [exact Hs|]. change 0 with (0 + 0). eapply pr_stay; [apply (inner_out pv _ q m Hq); [exact Ht|reflexivity|lia|exact Hs]|].
      apply pr_idle. apply (outer_break pv _ q Hq); [exact Ht|cbn; lia].
    + destruct (Hnext m ltac:(lia) HU0 En) as (i' & H1 & H2). exists i'. split; [exact H1|].
      change 0 with (0 + 0). eapply pr_stay; [apply (inner_out pv _ q m Hq); [exact Ht|reflexivity|lia|exact Hs]|].
      change 0 with (0 + 0). eapply pr_stay; [apply (outer_in pv _ q Hq); [exact Ht|cbn; lia]|]. exact H2.
Qed.
End Read.

(** A decoding phase as a machine on bytes. *)
Section Machine.
Context {P X : Type}.
Notation ephase := (ephase P).
Variable cb : rawcb P.
Variable tr : X -> N -> option (X * list datum * nat).
(** What the phase looks like in state [x], with [R] left to read; the position of the cursor does not matter. *)
Variable rep : X -> list (list N) -> list N -> ephase -> Prop.
Hypothesis rep_type : forall x q R th, rep x q R th -> p_type P th = FROM.
Hypothesis rep_moved : forall x q R th cu i, rep x q R th -> rep x q R (moved th cu i).
Hypothesis rep_push : forall x q ds R th, rep x q R th -> rep x (q ++ ds) (R ++ concat ds) th.
Hypothesis rep_step : forall x b x' o e, tr x b = Some (x', o, e) -> forall pv (th : ephase) (q : list (list N)) m i d, p_queue P pv = q -> p_tail P pv = length q ->
  rep x q (b :: rest_at q (S m) (S i)) th -> p_curr P th = S m -> p_i P th = i -> nth_error q m = Some d -> nth_error d i = Some b ->
  exists pv1 th1 q1 pc1, p_queue P pv1 = q1 /\ p_tail P pv1 = length q1 /\ q1 <> [] /\ p_curr P th1 <= length q1 /\ ok_pc q1 (p_curr P th1) (p_i P th1) pc1 /\
    unread q1 (p_curr P th1) (p_i P th1) (p_headlen P th1) = rest_at q (S m) (S i) /\ rep x' q1 (rest_at q (S m) (S i)) th1 /\
    p_queue P th1 = p_queue P th ++ o /\
    forall pv' th' a b', phase_runs cb pv1 th1 pc1 pv' th' a b' -> phase_runs cb pv th LInner pv' th' (e + a) b'.

Fixpoint trs (x : X) (bs : list N) : option (X * list datum * nat) :=
  match bs with
  | [] => Some (x, [], 0)
  | b :: r => match tr x b with
              | None => None
              | Some (x1, o1, e1) => match trs x1 r with None => None | Some (x2, o2, e2) => Some (x2, o1 ++ o2, e1 + e2) end
              end
  end.
Lemma trs_app : forall a x b, trs x (a ++ b) = match trs x a with None => None | Some (x1, o1, e1) => match trs x1 b with None => None | Some (x2, o2, e2) => Some (x2, o1 ++ o2, e1 + e2) end end.
Proof.
  induction a as [|c a IH]; intros x b.
  - cbn. destruct (trs x b) as [[[? ?] ?]|]; reflexivity.
  - cbn [app trs]. destruct (tr x c) as [[[x1 o1] e1]|]; [|reflexivity]. rewrite IH. destruct (trs x1 a) as [[[x2 o2] e2]|]; [|reflexivity].
    destruct (trs x2 b) as [[[x3 o3] e3]|]; [|reflexivity]. rewrite app_assoc, Nat.add_assoc. reflexivity.
Qed.

(** At the end of a call. *)
Definition paused (x : X) (pv th : ephase) (q : list (list N)) : Prop :=
  p_queue P pv = q /\ p_tail P pv = length q /\ p_curr P th = length q /\ at_end q (length q) (p_i P th) /\ (q = [] -> p_headlen P th = 0) /\ rep x q [] th.

Lemma machine_run : forall R x x' o e, trs x R = Some (x', o, e) -> forall pv (th : ephase) (q : list (list N)) pc, p_queue P pv = q -> p_tail P pv = length q -> (q = [] -> p_headlen P th = 0) ->
  p_curr P th <= length q -> ok_pc q (p_curr P th) (p_i P th) pc -> unread q (p_curr P th) (p_i P th) (p_headlen P th) = R -> rep x q R th ->
  exists pv' th' q', paused x' pv' th' q' /\ p_queue P th' = p_queue P th ++ o /\ phase_runs cb pv th pc pv' th' e 0.
Proof.
  induction R as [|b R IH]; intros x x' o e HT pv th q pc Hq Ht Hh Hc Hpc HU Hr.
  - injection HT as <- <- <-. destruct (to_end cb pv th q Hq (rep_type _ _ _ _ Hr) _ (p_curr P th) (p_i P th) pc eq_refl Hc Hpc HU) as (i' & He & Hrun). rewrite moved_id in Hrun.
    exists pv, (moved th (length q) i'), q. split; [|split; [cbn; rewrite app_nil_r; reflexivity|exact Hrun]].
    repeat split; try assumption. apply rep_moved. exact Hr.
  - cbn [trs] in HT. destruct (tr x b) as [[[x1 o1] e1]|] eqn:Et; [|discriminate]. destruct (trs x1 R) as [[[x2 o2] e2]|] eqn:E2; [|discriminate]. injection HT as <- <- <-.
    destruct (to_byte cb pv th q b R Hq (rep_type _ _ _ _ Hr) _ (p_curr P th) (p_i P th) pc eq_refl Hc Hpc HU) as (m & i & d & Hm & Hi & HR & Hrun). rewrite moved_id in Hrun. subst R.
    destruct (rep_step _ _ _ _ _ Et pv (moved th (S m) i) q m i d Hq Ht (rep_moved _ _ _ _ _ _ Hr) eq_refl eq_refl Hm Hi) as (pv1 & th1 & q1 & pc1 & Q1 & T1 & N1 & C1 & O1 & U1 & R1 & D1 & K1).
    destruct (IH x1 x2 o2 e2 E2 pv1 th1 q1 pc1 Q1 T1 ltac:(contradiction) C1 O1 U1 R1) as (pv' & th' & q' & Hp & Hd & Hrun2).
    exists pv', th', q'. split; [exact Hp|]. split; [rewrite Hd, D1, <- app_assoc; reflexivity|]. apply Hrun. apply K1. exact Hrun2.
Qed.

Lemma concat_app_datum (a b : list (list N)) : concat (a ++ b) = concat a ++ concat b. Proof. apply concat_app. Qed.
Lemma unread_push (q ds : list (list N)) i hl : at_end q (length q) i -> (q = [] -> hl = 0) -> unread (q ++ ds) (length q) i hl = concat ds /\ ok_pc (q ++ ds) (length q) i LOuter.
Proof.
  intros He Hh. destruct q as [|d q]; cbn [length].
  - cbn [app unread ok_pc at_end]. rewrite (Hh eq_refl). split; [|exact I]. destruct ds as [|x ds]; [reflexivity|]. cbn. reflexivity.
  - cbn [unread rest_at ok_pc at_end length] in *. rewrite app_nth1 by (cbn; lia). rewrite He. cbn [app]. split; [|reflexivity].
    change (skipn (S (length q)) (d :: q ++ ds)) with (skipn (length q) (q ++ ds)). rewrite skipn_app, skipn_all, Nat.sub_diag. reflexivity.
Qed.
Theorem machine_calls : forall l x x' o e pv (th : ephase) q, trs x (concat (concat l)) = Some (x', o, e) -> paused x pv th q ->
  exists pv' th' q', paused x' pv' th' q' /\ p_queue P th' = p_queue P th ++ o /\ calls cb pv th l pv' th' e 0.
Proof.
  induction l as [|ds l IH]; intros x x' o e pv th q HT (Hq & Ht & Hc & He & Hh & Hr).
  - injection HT as <- <- <-. exists pv, th, q. split; [repeat split; assumption|]. split; [rewrite app_nil_r; reflexivity|apply cl_nil].
  - cbn [concat] in HT. rewrite concat_app, trs_app in HT. destruct (trs x (concat ds)) as [[[x1 o1] e1]|] eqn:E1; [|discriminate].
    destruct (trs x1 (concat (concat l))) as [[[x2 o2] e2]|] eqn:E2; [|discriminate]. injection HT as <- <- <-.
    destruct (unread_push q ds (p_i P th) (p_headlen P th) He Hh) as [HU HP].
    destruct (machine_run (concat ds) x x1 o1 e1 E1 (push pv ds) th (q ++ ds) LOuter) as (pv1 & th1 & q1 & Hp1 & Hd1 & Hrun1).
    + cbn. rewrite Hq. reflexivity.
    + cbn. rewrite Ht, app_length. reflexivity.
    + intros H. apply app_eq_nil in H as [H _]. exact (Hh H).
    + rewrite Hc, app_length. lia.
    + rewrite Hc. exact HP.
    + rewrite Hc. exact HU.
    + exact (rep_push _ _ ds _ _ Hr).
    + destruct (IH x1 x2 o2 e2 pv1 th1 q1 E2 Hp1) as (pv2 & th2 & q2 & Hp2 & Hd2 & Hrun2). exists pv2, th2, q2. split; [exact Hp2|].
      split; [rewrite Hd2, Hd1, <- app_assoc; reflexivity|]. change 0 with (0 + 0). eapply cl_cons; [exact Hrun1|exact Hrun2].
Qed.
End Machine.

(** The same runs, computed. *)
Section Exec.
Context {P : Type}.
Variable cb : rawcb P.
Fixpoint prun (fuel : nat) (pv th : ephase P) (pc : lpc) : option (ephase P * ephase P * nat * nat) :=
  match fuel with
  | O => None
  | S f => match raw_step P cb pv th pc with
           | LUB _ => None
           | LRes _ pv1 th1 a b g =>
               match g with
               | GBreak => Some (pv1, th1, a, b)
               | Stay pc1 => match prun f pv1 th1 pc1 with Some (pv', th', a', b') => Some (pv', th', a + a', b + b') | None => None end
               | _ => match prun f pv1 th1 LOuter with Some (pv', th', a', b') => Some (pv', th', a + a', b + b') | None => None end
               end
           end
  end.
Lemma prun_ok : forall f pv th pc pv' th' a b, prun f pv th pc = Some (pv', th', a, b) -> phase_runs cb pv th pc pv' th' a b.
Proof.
  induction f as [|f IH]; intros pv th pc pv' th' a b H; [discriminate|]. cbn [prun] in H. destruct (raw_step P cb pv th pc) as [pv1 th1 x y g|] eqn:E; [|discriminate].
  destruct g as [pc1| | |].
  - destruct (prun f pv1 th1 pc1) as [[[[? ?] ?] ?]|] eqn:Ef; [|discriminate]. injection H as <- <- <- <-. eapply pr_stay; [exact E|apply IH; exact Ef].
  - destruct (prun f pv1 th1 LOuter) as [[[[? ?] ?] ?]|] eqn:Ef; [|discriminate]. injection H as <- <- <- <-. eapply pr_again; [exact E|auto|apply IH; exact Ef].
  - destruct (prun f pv1 th1 LOuter) as [[[[? ?] ?] ?]|] eqn:Ef; [|discriminate]. injection H as <- <- <- <-. eapply pr_again; [exact E|auto|apply IH; exact Ef].
  - injection H as <- <- <- <-. apply pr_idle. exact E.
Qed.
Fixpoint crun (fuel : nat) (pv th : ephase P) (l : list (list datum)) : option (ephase P * ephase P * nat * nat) :=
  match l with
  | [] => Some (pv, th, 0, 0)
  | ds :: l' => match prun fuel (push pv ds) th LOuter with
                | None => None
                | Some (pv1, th1, a, b) => match crun fuel pv1 th1 l' with None => None | Some (pv', th', a', b') => Some (pv', th', a + a', b + b') end
                end
  end.
Lemma crun_ok f : forall l pv th pv' th' a b, crun f pv th l = Some (pv', th', a, b) -> calls cb pv th l pv' th' a b.
Proof.
  induction l as [|ds l IH]; intros pv th pv' th' a b H; cbn [crun] in H; [injection H as <- <- <- <-; apply cl_nil|].
  destruct (prun f (push pv ds) th LOuter) as [[[[? ?] ?] ?]|] eqn:E; [|discriminate]. destruct (crun f e e0 l) as [[[[? ?] ?] ?]|] eqn:E2; [|discriminate].
  injection H as <- <- <- <-. eapply cl_cons; [apply prun_ok in E; exact E|apply IH; exact E2].
Qed.
Fixpoint frun (n fuel : nat) (pv th : ephase P) : option (ephase P * ephase P * nat * nat) :=
  if p_fpending P th then
    match n with
    | O => None
    | S n' => match prun fuel pv th LDead with
              | None => None
              | Some (pv1, th1, a, b) => match frun n' fuel pv1 th1 with None => None | Some (pv', th', a', b') => Some (pv', th', a + a', b + b') end
              end
    end
  else Some (pv, th, 0, 0).
Lemma frun_ok f : forall n pv th pv' th' a b, frun n f pv th = Some (pv', th', a, b) -> flushes cb pv th pv' th' a b.
Proof.
  induction n as [|n IH]; intros pv th pv' th' a b H; cbn [frun] in H; destruct (p_fpending P th) eqn:Ep; try discriminate; try (injection H as <- <- <- <-; apply fl_done; exact Ep).
  destruct (prun f pv th LDead) as [[[[? ?] ?] ?]|] eqn:E; [|discriminate]. destruct (frun n f e e0) as [[[[? ?] ?] ?]|] eqn:E2; [|discriminate].
  injection H as <- <- <- <-. eapply fl_dead; [exact Ep|apply prun_ok in E; exact E|apply IH; exact E2].
Qed.
Definition srun (fuel : nat) (pv th : ephase P) (l : list (list datum)) : option (ephase P * ephase P * nat * nat) :=
  match crun fuel pv th l with
  | None => None
  | Some (pv1, th1, a, b) => match frun fuel fuel pv1 th1 with None => None | Some (pv', th', a', b') => Some (pv', th', a + a', b + b') end
  end.
Lemma srun_ok f l pv th pv' th' a b : srun f pv th l = Some (pv', th', a, b) -> streams cb pv th l pv' th' a b.
Proof.
  unfold srun. destruct (crun f pv th l) as [[[[? ?] ?] ?]|] eqn:E; [|discriminate]. destruct (frun f f e e0) as [[[[? ?] ?] ?]|] eqn:E2; [|discriminate].
  intros H. injection H as <- <- <- <-. eexists _, _, _, _, _, _. split; [apply crun_ok in E; exact E|]. split; [apply frun_ok in E2; exact E2|split; reflexivity].
Qed.
End Exec.

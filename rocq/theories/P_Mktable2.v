(** The table compiler: one source line as an update of the map from words to entries. *)
From Coq Require Import ZifyBool ZifyN ZifyNat FinFun.
From Verif Require Import Base Types M_Engine M_Mktable P_Mktable.

Lemma F2_len {A B} (R : A -> B -> Prop) l l' : Forall2 R l l' -> length l = length l'.
Proof. induction 1; cbn; congruence. Qed.

Record iop := mkIop { o_it : titem; o_w : list N; o_c : N }.
Definition target (ci : bool) (o : iop) : list (list N * nat) :=
  match sel ci (ti_lo (o_it o)) (ti_hi (o_it o)) (o_c o) with Some lv => [(o_w o ++ [o_c o], ti_level (o_it o) + lv)] | None => [] end.
Definition targets ci ops := flat_map (target ci) ops.

Definition at_path (l : list mstate) (o : iop) : Prop := path l (o_w o) = Some (ti_state (o_it o)).
Definition is_item (l : list mstate) (lo hi : N) (it : titem) (t : list N * nat) : Prop :=
  path l (fst t) = Some (ti_state it) /\ ti_lo it = lo /\ ti_hi it = hi /\ ti_level it = snd t.

Definition upd_on (T : list (list N * nat)) (e : list N -> nat -> option info -> info) (l l' : list mstate) : Prop :=
  (forall v lv, In (v, lv) T -> inf l' v = Some (e v lv (inf l v))) /\ (forall v, ~ In v (map fst T) -> inf l' v = inf l v).

Lemma interior_ops ci lo' hi' : forall ops l todo, good l -> Forall (at_path l) ops -> NoDup (map fst (targets ci ops)) ->
  exists l' new, fold_left (fun x o => interior ci lo' hi' (o_it o) x (o_c o)) ops (l, todo) = (l', todo ++ new) /\
    good l' /\ (forall v n, path l v = Some n -> path l' v = Some n) /\ Forall2 (is_item l' lo' hi') new (targets ci ops) /\
    upd_on (targets ci ops) (fun _ _ a => int_eff a) l l'.
Proof.
  induction ops as [|o ops IH]; intros l todo G HA HN.
  - exists l, []. rewrite app_nil_r. cbn. split; [reflexivity|]. split; [exact G|]. split; [auto|]. split; [constructor|]. split; [intros v lv []|auto].
  - inversion HA as [|? ? Ho HA']; subst. cbn [fold_left targets flat_map] in *. unfold target at 1 in HN. unfold target at 1 3.
    destruct (sel ci (ti_lo (o_it o)) (ti_hi (o_it o)) (o_c o)) as [lv|] eqn:Es.
    + destruct (interior_eff ci lo' hi' (o_it o) l todo (o_w o) (o_c o) lv G Ho Es) as (l1 & k & E1 & (G1 & I1 & P1 & _) & Pk). rewrite E1.
      cbn [app map fst] in HN. inversion HN as [|? ? Hnin HN']; subst.
      destruct (IH l1 (todo ++ [mkT k lo' hi' (ti_level (o_it o) + lv)]) G1) as (l2 & new & E2 & G2 & P2 & F2 & (U1 & U2)).
      { eapply Forall_impl; [|exact HA']. intros x Hx. unfold at_path in *. apply P1. exact Hx. } { exact HN'. }
      exists l2, (mkT k lo' hi' (ti_level (o_it o) + lv) :: new). split; [rewrite E2, <- app_assoc; reflexivity|]. split; [exact G2|]. split; [intros v n Hv; apply P2, P1, Hv|]. split.
      * cbn [app]. constructor; [|exact F2]. repeat split; cbn [fst]. apply P2. exact Pk.
      * cbn [app]. split.
        -- intros v lv' [E|Hin].
           ++ injection E as <- <-. rewrite U2 by exact Hnin. rewrite I1. destruct (list_eq_dec N.eq_dec (o_w o ++ [o_c o]) (o_w o ++ [o_c o])); [reflexivity|contradiction].
           ++ rewrite (U1 v lv' Hin). rewrite I1. destruct (list_eq_dec N.eq_dec v (o_w o ++ [o_c o])) as [->|]; [|reflexivity]. exfalso. apply Hnin. apply (in_map fst) in Hin. exact Hin.
        -- cbn [map fst]. intros v Hv. rewrite U2 by (intros H; apply Hv; right; exact H). rewrite I1. destruct (list_eq_dec N.eq_dec v (o_w o ++ [o_c o])) as [->|]; [|reflexivity]. exfalso. apply Hv. left. reflexivity.
    + assert (E1 : interior ci lo' hi' (o_it o) (l, todo) (o_c o) = (l, todo)) by (unfold interior; rewrite Es; reflexivity). rewrite E1. cbn [app] in *. apply IH; assumption.
Qed.

Lemma leaf_ops ci dat cbs : forall ops l, good l -> Forall (at_path l) ops -> NoDup (map fst (targets ci ops)) ->
  exists l', fold_left (fun x o => leaf ci false dat (o_it o) x (o_c o)) ops (mkMk l cbs) = mkMk l' cbs /\
    good l' /\ upd_on (targets ci ops) (fun _ lv a => leaf_eff dat lv a) l l'.
Proof.
  induction ops as [|o ops IH]; intros l G HA HN.
  - exists l. cbn. split; [reflexivity|]. split; [exact G|]. split; [intros v lv []|auto].
  - inversion HA as [|? ? Ho HA']; subst. cbn [fold_left targets flat_map] in *. unfold target at 1 in HN. unfold target at 1.
    destruct (sel ci (ti_lo (o_it o)) (ti_hi (o_it o)) (o_c o)) as [lv|] eqn:Es.
    + destruct (leaf_effect ci dat (o_it o) l (o_w o) (o_c o) lv G Ho Es) as (l1 & E1 & (G1 & I1 & P1 & _)). rewrite E1.
      cbn [app map fst] in HN. inversion HN as [|? ? Hnin HN']; subst.
      destruct (IH l1 G1) as (l2 & E2 & G2 & (U1 & U2)).
      { eapply Forall_impl; [|exact HA']. intros x Hx. unfold at_path in *. apply P1. exact Hx. } { exact HN'. }
      exists l2. split; [exact E2|]. split; [exact G2|]. cbn [app]. split.
      * intros v lv' [E|Hin].
        -- injection E as <- <-. rewrite U2 by exact Hnin. rewrite I1. destruct (list_eq_dec N.eq_dec (o_w o ++ [o_c o]) (o_w o ++ [o_c o])); [|contradiction]. rewrite (Nat.add_comm lv). reflexivity.
        -- rewrite (U1 v lv' Hin). rewrite I1. destruct (list_eq_dec N.eq_dec v (o_w o ++ [o_c o])) as [->|]; [|reflexivity]. exfalso. apply Hnin. apply (in_map fst) in Hin. exact Hin.
      * cbn [map fst]. intros v Hv. rewrite U2 by (intros H; apply Hv; right; exact H). rewrite I1. destruct (list_eq_dec N.eq_dec v (o_w o ++ [o_c o])) as [->|]; [|reflexivity]. exfalso. apply Hv. left. reflexivity.
    + assert (E1 : leaf ci false dat (o_it o) (mkMk l cbs) (o_c o) = mkMk l cbs) by (unfold leaf; rewrite Es; reflexivity). rewrite E1. cbn [app] in *. apply IH; assumption.
Qed.

(** *** from items to operations *)
Definition ops_of (todo : list titem) (ws : list (list N * nat)) : list iop :=
  flat_map (fun p => map (fun c => mkIop (fst p) (fst (snd p)) c) syms) (combine todo ws).
(** the words reached by one more symbol *)
Definition extend (ci : bool) (lo hi : N) (ws : list (list N * nat)) : list (list N * nat) :=
  flat_map (fun t => flat_map (fun c => match sel ci lo hi c with Some d => [(fst t ++ [c], snd t + d)] | None => [] end) syms) ws.

Lemma ops_targets ci lo hi l : forall todo ws, Forall2 (is_item l lo hi) todo ws -> targets ci (ops_of todo ws) = extend ci lo hi ws.
Proof.
  induction 1 as [|it t todo ws (H1 & H2 & H3 & H4) HF IH]; [reflexivity|].
  unfold ops_of, targets, extend in *. cbn [combine flat_map]. rewrite flat_map_app, IH. f_equal. cbn [fst snd].
  rewrite flat_map_concat_map, map_map, <- flat_map_concat_map. apply flat_map_ext. intros c. unfold target. cbn [o_it o_w o_c]. rewrite H2, H3, H4. reflexivity.
Qed.
Lemma ops_at lo hi l : forall todo ws, Forall2 (is_item l lo hi) todo ws -> Forall (at_path l) (ops_of todo ws).
Proof.
  induction 1 as [|it t todo ws (H1 & H2 & H3 & H4) HF IH]; [constructor|]. unfold ops_of in *. cbn [combine flat_map]. apply Forall_app. split; [|exact IH].
  apply Forall_forall. intros o Ho. apply in_map_iff in Ho as (c & <- & _). exact H1.
Qed.
Lemma fold_ops {A} (g : titem -> A -> N -> A) : forall todo (ws : list (list N * nat)) x, length todo = length ws ->
  fold_left (fun x it => fold_left (g it) syms x) todo x = fold_left (fun x o => g (o_it o) x (o_c o)) (ops_of todo ws) x.
Proof.
  induction todo as [|it todo IH]; intros [|t ws] x H; try discriminate; [reflexivity|]. cbn [fold_left]. unfold ops_of. cbn [combine flat_map]. rewrite fold_left_app.
  rewrite (IH ws) by (cbn in H; lia). unfold ops_of. f_equal.
Qed.

Lemma syms_nodup : NoDup syms.
Proof. apply Injective_map_NoDup; [intros a b H; lia|apply seq_NoDup]. Qed.
Lemma syms_in c : In c syms <-> (c <= 256)%N.
Proof.
  unfold syms. rewrite in_map_iff. split.
  - intros (n & <- & H). apply in_seq in H. lia.
  - intros H. exists (N.to_nat c). split; [lia|]. apply in_seq. lia.
Qed.

Lemma NoDup_app_disj {A} (l l' : list A) : NoDup l -> NoDup l' -> (forall x, In x l -> ~ In x l') -> NoDup (l ++ l').
Proof. induction l as [|x l IH]; intros H1 H2 H3; [exact H2|]. inversion H1; subst. cbn. constructor. { rewrite in_app_iff. intros [H|H]; [contradiction|]. apply (H3 x); cbn; auto. } apply IH; auto. intros y Hy. apply H3. right. exact Hy. Qed.

Lemma extend_nodup ci lo hi ws : NoDup (map fst ws) -> NoDup (map fst (extend ci lo hi ws)).
Proof.
  induction ws as [|t ws IH]; intros H; [constructor|]. inversion H as [|? ? H1 H2]; subst. unfold extend in *. cbn [flat_map]. rewrite map_app. apply NoDup_app_disj; [|apply IH; exact H2|].
  - clear. pose proof syms_nodup as HN. induction syms as [|c cs IHc]; [constructor|]. inversion HN as [|? ? A B]; subst. cbn [flat_map]. rewrite map_app. apply NoDup_app_disj; [|apply IHc; exact B|].
    + destruct (sel ci lo hi c); cbn; repeat constructor. intros [].
    + intros x Hx Hx'. assert (x = fst t ++ [c]) by (destruct (sel ci lo hi c); cbn in Hx; [destruct Hx as [<-|[]]; reflexivity|contradiction]). subst x.
      apply in_map_iff in Hx' as ((v & n) & Ev & Hin). cbn in Ev. subst v. apply in_flat_map in Hin as (c' & Hc' & Hin). destruct (sel ci lo hi c'); cbn in Hin; [|contradiction]. destruct Hin as [E|[]]. injection E as E _. apply app_inj_tail in E as (_ & ->). contradiction.
  - intros x Hx Hx'. apply in_map_iff in Hx as ((v & n) & Ev & Hin). cbn in Ev. subst v. apply in_flat_map in Hin as (c' & Hc' & Hin). destruct (sel ci lo hi c'); cbn in Hin; [|contradiction]. destruct Hin as [E|[]]. injection E as <- _.
    apply in_map_iff in Hx' as ((v & m) & Ev & Hin). cbn in Ev. subst v. apply in_flat_map in Hin as (t' & Ht' & Hin). apply in_flat_map in Hin as (c2 & Hc2 & Hin). destruct (sel ci lo hi c2); cbn in Hin; [|contradiction]. destruct Hin as [E|[]]. injection E as E _. apply app_inj_tail in E as (E & _). apply H1. rewrite <- E. apply in_map. exact Ht'.
Qed.

(** the words reached by the whole pattern *)
Fixpoint reach (ci : bool) (ws : list (list N * nat)) (pat : list (N * N)) : list (list N * nat) :=
  match pat with [] => ws | (lo, hi) :: p => reach ci (extend ci lo hi ws) p end.
(** all words reached by proper prefixes *)
Fixpoint inner (ci : bool) (ws : list (list N * nat)) (pat : list (N * N)) : list (list N * nat) :=
  match pat with
  | [] | [_] => []
  | (lo, hi) :: p => extend ci lo hi ws ++ inner ci (extend ci lo hi ws) p
  end.

(** every word of [extend] is one longer *)
Lemma extend_len ci lo hi ws n : Forall (fun t => length (fst t) = n) ws -> Forall (fun t => length (fst t) = S n) (extend ci lo hi ws).
Proof.
  intros H. apply Forall_forall. intros t Ht. apply in_flat_map in Ht as (t0 & H0 & Ht). apply in_flat_map in Ht as (c & Hc & Ht). destruct (sel ci lo hi c); cbn in Ht; [|contradiction]. destruct Ht as [<-|[]].
  cbn. rewrite app_length. cbn. rewrite Forall_forall in H. rewrite (H _ H0). lia.
Qed.
Lemma inner_len ci : forall pat ws n, Forall (fun t => length (fst t) = n) ws -> Forall (fun t => n < length (fst t)) (inner ci ws pat).
Proof.
  induction pat as [|[lo hi] p IH]; intros ws n H; [constructor|]. cbn [inner]. destruct p as [|y p']; [constructor|].
  pose proof (extend_len ci lo hi ws n H) as HE. apply Forall_app. split.
  - eapply Forall_impl; [|exact HE]. cbn. intros a Ha. lia.
  - eapply Forall_impl; [|apply (IH _ _ HE)]. cbn. intros a Ha. lia.
Qed.

Lemma upd_on_app T1 T2 e l l1 l2 : (forall v, In v (map fst T1) -> ~ In v (map fst T2)) -> upd_on T1 e l l1 -> upd_on T2 e l1 l2 -> upd_on (T1 ++ T2) e l l2.
Proof.
  intros HD (A1 & A2) (B1 & B2). split.
  - intros v lv Hin. apply in_app_iff in Hin as [Hin|Hin].
    + rewrite B2. { apply A1. exact Hin. } apply HD. apply (in_map fst) in Hin. exact Hin.
    + rewrite (B1 _ _ Hin). rewrite A2; [reflexivity|]. intros H. apply (HD v H). apply (in_map fst) in Hin. exact Hin.
  - intros v Hv. rewrite map_app, in_app_iff in Hv. rewrite B2, A2; auto.
Qed.

Lemma rounds_eff ci : forall pat lo hi l todo ws n, good l -> Forall2 (is_item l lo hi) todo ws -> NoDup (map fst ws) -> Forall (fun t => length (fst t) = n) ws ->
  exists l' todo', rounds ci todo l pat = (l', todo') /\ good l' /\
    Forall2 (is_item l' (fst (last ((lo, hi) :: pat) (lo, hi))) (snd (last ((lo, hi) :: pat) (lo, hi)))) todo' (reach ci ws (removelast ((lo, hi) :: pat))) /\
    NoDup (map fst (reach ci ws (removelast ((lo, hi) :: pat)))) /\
    upd_on (inner ci ws ((lo, hi) :: pat)) (fun _ _ a => int_eff a) l l'.
Proof.
  induction pat as [|[lo' hi'] pat IH]; intros lo hi l todo ws n G HF HN HL.
  - exists l, todo. cbn. split; [reflexivity|]. split; [exact G|]. split; [exact HF|]. split; [exact HN|]. split; [intros v lv []|auto].
  - cbn [rounds]. change (fold_left (interior_item ci lo' hi') todo (l, [])) with (fold_left (fun x it => fold_left (interior ci lo' hi' it) syms x) todo (l, [])).
    rewrite (fold_ops (interior ci lo' hi') todo ws) by (eapply F2_len; exact HF).
    destruct (interior_ops ci lo' hi' (ops_of todo ws) l [] G (ops_at lo hi l _ _ HF)) as (l1 & new & E1 & G1 & P1 & F1 & U1).
    { rewrite (ops_targets ci lo hi l _ _ HF). apply extend_nodup. exact HN. }
    rewrite E1. cbn [app]. rewrite (ops_targets ci lo hi l _ _ HF) in *.
    pose proof (extend_len ci lo hi ws n HL) as HL1. pose proof (extend_nodup ci lo hi ws HN) as HN1.
    destruct (IH lo' hi' l1 new (extend ci lo hi ws) (S n) G1 F1 HN1 HL1) as (l2 & todo2 & E2 & G2 & F2 & N2 & U2).
    exists l2, todo2. split; [exact E2|]. split; [exact G2|].
    change (last ((lo, hi) :: (lo', hi') :: pat) (lo, hi)) with (last ((lo', hi') :: pat) (lo, hi)).
    assert (HLA : forall d d', last ((lo', hi') :: pat) d = last ((lo', hi') :: pat) d').
    { intros d d'. generalize (lo', hi') as a. clear. induction pat as [|x p IHp]; intros a; [reflexivity|]. cbn [last] in *. apply (IHp x). }
    rewrite (HLA (lo, hi) (lo', hi')). change (removelast ((lo, hi) :: (lo', hi') :: pat)) with ((lo, hi) :: removelast ((lo', hi') :: pat)). cbn [reach].
    split; [exact F2|]. split; [exact N2|]. change (inner ci ws ((lo, hi) :: (lo', hi') :: pat)) with (extend ci lo hi ws ++ inner ci (extend ci lo hi ws) ((lo', hi') :: pat)).
    apply (upd_on_app _ _ _ l l1 l2); [|exact U1|exact U2]. intros v Hv Hv'. apply in_map_iff in Hv as (t & <- & Ht). apply in_map_iff in Hv' as (t' & E' & Ht').
    pose proof (inner_len ci ((lo', hi') :: pat) (extend ci lo hi ws) (S n) HL1) as HI. rewrite Forall_forall in HL1, HI. pose proof (HL1 _ Ht). specialize (HI _ Ht'). cbn in HI, H. rewrite E' in HI. lia.
Qed.

(** *** One line *)
Lemma reach_last ci : forall pat ws d, pat <> [] -> reach ci ws pat = extend ci (fst (last pat d)) (snd (last pat d)) (reach ci ws (removelast pat)).
Proof.
  induction pat as [|[lo hi] p IH]; intros ws d H; [contradiction|]. destruct p as [|[lo' hi'] p].
  - reflexivity.
  - change (last ((lo, hi) :: (lo', hi') :: p) d) with (last ((lo', hi') :: p) d). change (removelast ((lo, hi) :: (lo', hi') :: p)) with ((lo, hi) :: removelast ((lo', hi') :: p)). cbn [reach] in *. rewrite (IH _ d) by discriminate. reflexivity.
Qed.

Lemma last_default {A} : forall (l : list A) d d', l <> [] -> last l d = last l d'.
Proof. induction l as [|x l IH]; intros d d' H; [contradiction|]. destruct l; [reflexivity|]. change (last (a :: l) d = last (a :: l) d'). apply IH. discriminate. Qed.

Lemma add_line_eff l cbs ln : good l -> sl_pat ln <> [] -> sl_cb ln = false ->
  exists l' lm, add_line (mkMk l cbs) ln = mkMk l' cbs /\ good l' /\
    upd_on (inner (sl_ci ln) [([], 1)] (sl_pat ln)) (fun _ _ a => int_eff a) l lm /\
    upd_on (reach (sl_ci ln) [([], 1)] (sl_pat ln)) (fun _ lv a => leaf_eff (sl_out ln) lv a) lm l'.
Proof.
  intros G HP Hcb. unfold add_line. destruct (sl_pat ln) as [|[lo hi] pat] eqn:Ep; [contradiction|]. rewrite Hcb. cbn [k_states k_cbs].
  destruct (rounds_eff (sl_ci ln) pat lo hi l [mkT 0 lo hi 1] [([], 1)] 0 G) as (l1 & todo1 & E1 & G1 & F1 & N1 & U1).
  - constructor; [|constructor]. repeat split.
  - constructor; [intros []|constructor].
  - constructor; [reflexivity|constructor].
  - rewrite E1. change (fold_left (leaf_item (sl_ci ln) false (sl_out ln)) todo1 (mkMk l1 cbs)) with (fold_left (fun x it => fold_left (leaf (sl_ci ln) false (sl_out ln) it) syms x) todo1 (mkMk l1 cbs)).
    rewrite (fold_ops (leaf (sl_ci ln) false (sl_out ln)) todo1 (reach (sl_ci ln) [([], 1)] (removelast ((lo, hi) :: pat)))) by (eapply F2_len; exact F1).
    destruct (leaf_ops (sl_ci ln) (sl_out ln) cbs _ l1 G1 (ops_at _ _ l1 _ _ F1)) as (l2 & E2 & G2 & U2).
    { rewrite (ops_targets (sl_ci ln) _ _ l1 _ _ F1). apply extend_nodup. exact N1. }
    rewrite (ops_targets (sl_ci ln) _ _ l1 _ _ F1) in U2. rewrite <- (reach_last (sl_ci ln) ((lo, hi) :: pat)) in U2 by discriminate.
    exists l2, l1. auto.
Qed.

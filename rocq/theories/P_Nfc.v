(** Canonical composition: the module does what S_Nfc says. *)
From Verif Require Import Base Types M_Engine M_Star M_Norm M_Nfc S_Norm S_Nfc P_Inter P_Norm.
From Coq Require Import Sorted ZifyBool ZifyN ZifyNat.
Local Open Scope N_scope.

Section C.
Variable comb : datum -> datum -> option datum.
Notation equivalent := (equivalent comb).
Notation fully_composed := (fully_composed comb).
Notation NFC := (NFC comb).

Lemma equiv_app u a b w : equivalent a b -> equivalent (u ++ a ++ w) (u ++ b ++ w).
Proof.
  induction 1 as [ds|a b _ IH|a b c _ IH1 _ IH2|u0 a b w0 Ha Hb Hab|u0 a b c w0 Hc].
  - apply eqv_refl.
  - apply eqv_sym. exact IH.
  - eapply eqv_trans; eassumption.
  - rewrite <- !app_assoc. cbn [app]. rewrite !(app_assoc u u0). apply eqv_swap; assumption.
  - rewrite <- !app_assoc. cbn [app]. rewrite !(app_assoc u u0). apply eqv_pair. exact Hc.
Qed.
Lemma bubble s c w : forall p, Forall (fun b => ccc b <> 0 /\ ccc b < ccc c) p -> equivalent (s :: p ++ c :: w) (s :: c :: p ++ w).
Proof.
  assert (G : forall p u, Forall (fun b => ccc b <> 0 /\ ccc b < ccc c) p -> equivalent (u ++ p ++ c :: w) (u ++ c :: p ++ w)).
  { induction p as [|b p IH]; intros u Hp; [apply eqv_refl|]. inversion Hp as [|? ? (Hb1 & Hb2) Hp']; subst. eapply eqv_trans.
    - replace (u ++ (b :: p) ++ c :: w) with ((u ++ [b]) ++ p ++ c :: w) by (rewrite <- app_assoc; reflexivity). apply IH. exact Hp'.
    - rewrite <- app_assoc. cbn [app]. apply eqv_swap; lia. }
  intros p Hp. apply (G p [s] Hp).
Qed.

(** ** Marks behind a starter *)
Definition le_ccc (a b : datum) : Prop := ccc a <= ccc b.
Definition lastc (p : list datum) : N := last (map ccc p) 0.
Definition settled (s : datum) (p : list datum) : Prop := forall m c w, p = m ++ c :: w -> Forall (fun b => ccc b < ccc c) m -> comb s c = None.
Definition made (s' s : datum) : Prop := s' = s \/ exists x y, comb x y = Some s'.
Lemma lastc_snoc p c : lastc (p ++ [c]) = ccc c.
Proof. unfold lastc. rewrite map_app. cbn [map]. apply last_last. Qed.
Lemma sorted_last p c r : StronglySorted le_ccc (p ++ c :: r) -> Forall (fun b => ccc b <= lastc p) p /\ lastc p <= ccc c.
Proof.
  intros H. destruct p as [|b0 p0] using rev_ind; [split; [constructor|unfold lastc; cbn; lia]|]. clear IHp0. rewrite lastc_snoc.
  rewrite <- app_assoc in H. cbn [app] in H. split.
  - apply Forall_app. split; [|constructor; [lia|constructor]]. clear -H. induction p0 as [|a p0 IH]; [constructor|]. cbn in H. inversion H as [|? ? H1 H2]; subst. constructor; [|apply IH; exact H1].
    rewrite Forall_forall in H2. apply (H2 b0). apply in_or_app. right. left. reflexivity.
  - clear -H. induction p0 as [|a p0 IH]; cbn in H; inversion H as [|? ? H1 H2]; subst; [|apply IH; exact H1]. inversion H2; subst. assumption.
Qed.
Lemma sorted_drop p c r : StronglySorted le_ccc (p ++ c :: r) -> StronglySorted le_ccc (p ++ r).
Proof.
  induction p as [|a p IH]; cbn; intros H; inversion H as [|? ? H1 H2]; subst; [exact H1|]. constructor; [apply IH; exact H1|]. apply Forall_app in H2 as (A & B). inversion B; subst. apply Forall_app. auto.
Qed.
Lemma sorted_pre p r : StronglySorted le_ccc (p ++ r) -> StronglySorted le_ccc p.
Proof. induction p as [|a p IH]; cbn; intros H; [constructor|]. inversion H as [|? ? H1 H2]; subst. constructor; [apply IH; exact H1|]. apply Forall_app in H2. tauto. Qed.
Lemma snoc_split {A} (p : list A) c m x w : p ++ [c] = m ++ x :: w -> (exists w', p = m ++ x :: w') \/ (m = p /\ x = c).
Proof.
  revert m. induction p as [|a p IH]; intros [|b m] E; cbn in E.
  - injection E as E1 E2. right. auto.
  - injection E as E1 E2. destruct m; discriminate.
  - injection E as -> E2. left. exists p. reflexivity.
  - injection E as -> E2. destruct (IH m E2) as [(w' & ->)|(-> & ->)]; [left; exists w'; reflexivity|right; auto].
Qed.
Lemma settled_snoc s p c : settled s p -> (Forall (fun b => ccc b < ccc c) p -> comb s c = None) -> settled s (p ++ [c]).
Proof. intros H1 H2 m x w E Hm. destruct (snoc_split _ _ _ _ _ E) as [(w' & ->)|(-> & ->)]; [eapply H1; [reflexivity|exact Hm]|auto]. Qed.

Lemma marks_spec fuel : forall s k p wl, (length (p ++ wl) * S (length (p ++ wl)) + length wl < fuel)%nat ->
  StronglySorted le_ccc (p ++ wl) -> Forall (fun b => ccc b <> 0) (p ++ wl) -> Forall okbytes (p ++ wl) -> k = lastc p -> settled s p ->
  exists s' p', nfc_marks comb fuel s k p wl = (s', lastc p', p') /\ equivalent (s :: p ++ wl) (s' :: p') /\ StronglySorted le_ccc p' /\ incl p' (p ++ wl) /\ settled s' p' /\ made s' s.
Proof.
  induction fuel as [|f IH]; intros s k p wl Hf HS HZ HB Hk HD; [lia|]. destruct wl as [|c r].
  - rewrite app_nil_r in *. exists s, p. cbn. subst k. repeat (split; [solve [auto using eqv_refl, incl_refl]|]). left. reflexivity.
  - assert (Hbc : okbytes c) by (apply Forall_app in HB as (_ & B); inversion B; assumption).
    assert (Hzc : ccc c <> 0) by (apply Forall_app in HZ as (_ & B); inversion B; assumption).
    assert (Eapp : p ++ c :: r = (p ++ [c]) ++ r) by (rewrite <- app_assoc; reflexivity).
    destruct (sorted_last p c r HS) as (L1 & L2).
    assert (Hblock : Forall (fun b => ccc b < ccc c) p -> lastc p < ccc c).
    { intros H. destruct p as [|b0 p0] using rev_ind; [cbn; lia|]. rewrite lastc_snoc. apply Forall_app in H as (_ & H). inversion H; assumption. }
    assert (Hkeep : (Forall (fun b => ccc b < ccc c) p -> comb s c = None) -> exists s' p', nfc_marks comb f s (ccc c) (p ++ [c]) r = (s', lastc p', p') /\ equivalent (s :: p ++ c :: r) (s' :: p') /\ StronglySorted le_ccc p' /\ incl p' (p ++ c :: r) /\ settled s' p' /\ made s' s).
    { intros H. rewrite Eapp in *. apply IH; try assumption.
      - cbn [length] in Hf. lia.
      - rewrite lastc_snoc. reflexivity.
      - apply settled_snoc; assumption. }
    cbn [nfc_marks]. rewrite (ccc_of_spec c Hbc). destruct (ccc c <=? k) eqn:Ek.
    { apply Hkeep. intros H. specialize (Hblock H). lia. }
    destruct (comb s c) as [s'|] eqn:Ec; [|apply Hkeep; auto].
    destruct (IH s' 0 [] (p ++ r)) as (s2 & p2 & R1 & R2 & R3 & R4 & R5 & R6).
    + cbn [app]. rewrite app_length in *. cbn [length] in Hf. nia.
    + cbn [app]. eapply sorted_drop. exact HS.
    + cbn [app]. apply Forall_app in HZ as (A & B). inversion B; subst. apply Forall_app. auto.
    + cbn [app]. apply Forall_app in HB as (A & B). inversion B; subst. apply Forall_app. auto.
    + reflexivity.
    + intros m x w E. destruct m; discriminate.
    + cbn [app] in *. exists s2, p2. split; [exact R1|]. split; [|split; [exact R3|split; [|split; [exact R5|]]]].
      * eapply eqv_trans; [apply bubble|].
        -- apply Forall_app in HZ as (A & _). rewrite Forall_forall in *. intros b Hb. specialize (A b Hb). specialize (L1 b Hb). cbv beta in L1. lia.
        -- eapply eqv_trans; [apply (eqv_pair comb [] s c s' (p ++ r) Ec)|exact R2].
      * intros x Hx. specialize (R4 x Hx). apply in_app_or in R4. apply in_or_app. cbn. tauto.
      * destruct R6 as [->|R6]; right; eauto.
Qed.

(** ** Order and completeness, by recursion *)
Fixpoint ord (k : N) (l : list datum) : Prop := match l with [] => True | d :: r => (ccc d = 0 \/ k <= ccc d) /\ ord (ccc d) r end.
Lemma ord_app k a b : ord k (a ++ b) <-> ord k a /\ ord (last (map ccc a) k) b.
Proof.
  revert k. induction a as [|d a IH]; intros k; cbn [app ord map]; [tauto|]. rewrite IH. replace (last (ccc d :: map ccc a) k) with (last (map ccc a) (ccc d)); [tauto|].
  destruct a as [|x a]; [reflexivity|]. cbn [map]. clear. generalize (ccc x). revert k. generalize (ccc d). induction (map ccc a) as [|y l IHl]; intros n k x'; [reflexivity|]. change (last (x' :: y :: l) n) with (last (y :: l) n). change (last (n :: x' :: y :: l) k) with (last (x' :: y :: l) k). change (last (x' :: y :: l) k) with (last (y :: l) k). specialize (IHl n k y). exact IHl.
Qed.
Lemma in_order_ord l : in_order l <-> ord 0 l.
Proof.
  split.
  - intros H. destruct l as [|d l]; [exact I|]. split; [right; lia|]. revert d H. induction l as [|b l IH]; intros d H; [exact I|]. split.
    + destruct (N.eq_dec (ccc b) 0) as [E|E]; [left; exact E|right]. apply (H [] d b l eq_refl E).
    + apply IH. intros u a b' w E Hb. apply (H (d :: u) a b' w); [cbn; rewrite E; reflexivity|exact Hb].
  - intros H u a b w -> Hb. apply ord_app in H as (_ & H). cbn in H. destruct H as (_ & ([H|H] & _)); [congruence|exact H].
Qed.
Definition free (s : datum) (l : list datum) : Prop := forall m c w, l = m ++ c :: w -> unblocked m c -> comb s c = None.
Fixpoint full (l : list datum) : Prop := match l with [] => True | s :: r => (ccc s = 0 -> free s r) /\ full r end.
Lemma full_spec l : full l <-> fully_composed l.
Proof.
  split.
  - intros H u s m c w -> Hs Hm. revert H. induction u as [|x u IH]; cbn; intros (H1 & H2); [|auto]. eapply H1; eauto.
  - induction l as [|s r IH]; intros H; [exact I|]. split.
    + intros Hs m c w -> Hm. apply (H [] s m c w eq_refl Hs Hm).
    + apply IH. intros u s0 m c w -> Hs Hm. apply (H (s :: u) s0 m c w eq_refl Hs Hm).
Qed.
Lemma full_marks p l : Forall (fun b => ccc b <> 0) p -> full l -> full (p ++ l).
Proof. induction 1 as [|b p Hb _ IH]; intros H; [exact H|]. cbn. split; [congruence|auto]. Qed.
(** A starter with settled marks and then another starter. *)
Lemma free_before s p d l : Forall (fun b => ccc b <> 0) p -> settled s p -> ccc d = 0 -> (p = [] -> comb s d = None) -> free s (p ++ d :: l).
Proof.
  intros HZ HD Hd HC m c w E Hm. assert (Hm' : Forall (fun b => ccc b < ccc c) m) by (eapply Forall_impl; [|exact Hm]; cbn; tauto).
  revert m E Hm Hm'. assert (G : forall p' q, p = q ++ p' -> forall m, p' ++ d :: l = m ++ c :: w -> unblocked (q ++ m) c -> comb s c = None).
  { induction p' as [|x p' IH]; intros q Ep m E Hm.
    - rewrite app_nil_r in Ep. subst q. destruct m as [|y m]; cbn in E; injection E as E1 E2.
      + subst c. rewrite app_nil_r in Hm. destruct p as [|b p0]; [auto|]. inversion Hm as [|? ? (_ & Hb) _]; subst. lia.
      + subst y. apply Forall_app in Hm as (_ & Hm). inversion Hm as [|? ? (Hb & _) _]; subst. congruence.
    - destruct m as [|y m]; cbn in E; injection E as E1 E2.
      + subst c. rewrite app_nil_r in Hm. eapply HD; [exact Ep|]. eapply Forall_impl; [|exact Hm]. cbn. tauto.
      + subst y. apply (IH (q ++ [x])) with (m := m); [rewrite <- app_assoc; exact Ep|exact E2|rewrite <- app_assoc; exact Hm]. }
  intros m E Hm _. apply (G p [] eq_refl m E Hm).
Qed.
Lemma free_end s p : settled s p -> free s p.
Proof. intros H m c w E Hm. eapply H; [exact E|]. eapply Forall_impl; [|exact Hm]. cbn. tauto. Qed.

(** ** A whole stream *)
Hypothesis HC : composites comb.
Definition held (r : nfc) : list datum := if nf_on r then match nf_starter r with SHeld s => s :: nf_pend r | _ => [] end else [].
Definition Inv (r : nfc) : Prop :=
  if nf_on r then exists s, nf_starter r = SHeld s /\ ccc s = 0 /\ Forall (fun b => ccc b <> 0) (nf_pend r) /\ StronglySorted le_ccc (nf_pend r) /\ nf_ccc r = lastc (nf_pend r) /\ settled s (nf_pend r)
  else nf_starter r = SNull /\ nf_pend r = [].
Lemma ord_mono k k' l : k' <= k -> ord k l -> ord k' l.
Proof. destruct l as [|d l]; cbn; [auto|]. intros Hk ([H|H] & R); split; auto; right; lia. Qed.
Lemma ord_sorted k p : Forall (fun b => ccc b <> 0) p -> ord k p -> StronglySorted le_ccc p.
Proof.
  intros HZ. revert k. induction HZ as [|b p Hb HZ IH]; intros k H; [constructor|]. destruct H as (_ & H). constructor; [apply (IH (ccc b) H)|].
  clear IH. revert H. assert (G : forall p k, Forall (fun b => ccc b <> 0) p -> ord k p -> Forall (fun x => k <= ccc x) p).
  { clear. induction p as [|x p IH]; intros k HZ H; [constructor|]. inversion HZ; subst. destruct H as ([H|H] & R); [congruence|]. constructor; [exact H|]. eapply Forall_impl; [|apply (IH (ccc x)); assumption]. cbn. lia. }
  intros H. apply (G p (ccc b) HZ H).
Qed.
Lemma sorted_ord p : StronglySorted le_ccc p -> ord 0 p.
Proof.
  assert (G : forall p k, StronglySorted le_ccc p -> Forall (fun x => k <= ccc x) p -> ord k p).
  { clear. induction p as [|x p IH]; intros k HS HF; [exact I|]. inversion HS as [|? ? H1 H2]; subst. inversion HF; subst. split; [right; assumption|]. apply IH; assumption. }
  intros H. apply G; [exact H|]. apply Forall_forall. intros x _. lia.
Qed.
Lemma last_le p k : Forall (fun b => ccc b <= k) p -> last (map ccc p) 0 <= k.
Proof. intros H. destruct p as [|x p] using rev_ind; [cbn; lia|]. rewrite map_app. cbn [map]. rewrite last_last. apply Forall_app in H as (_ & H). inversion H; assumption. Qed.
Lemma last_irrel {A} (l : list A) a b : l <> [] -> last l a = last l b.
Proof. intros H. destruct l as [|x l] using rev_ind; [congruence|]. rewrite !last_last. reflexivity. Qed.
Lemma ccc_other d : (forall l, d <> 1 :: l) -> ccc d = 0.
Proof. intros H. destruct d as [|b l]; [reflexivity|]. unfold ccc. destruct b as [|[q|q|]]; try reflexivity. exfalso. apply (H l). reflexivity. Qed.
Lemma made_trans a b c : made a b -> made b c -> made a c.
Proof. intros [->|H1] H2; [exact H2|right; exact H1]. Qed.
Lemma made_starter a b : made a b -> ccc b = 0 -> ccc a = 0.
Proof. intros [->|(x & y & H)] Hb; [exact Hb|]. eapply (cp_starter _ HC); exact H. Qed.
Lemma made_ok a b : made a b -> okbytes b -> okbytes a.
Proof. intros [->|(x & y & H)] Hb; [exact Hb|]. destruct (cp_char _ HC x y a H) as (_ & _ & (_ & K)). exact K. Qed.
Lemma made_second s d d' : made d' d -> comb s d = None -> comb s d' = None.
Proof. intros [->|(x & y & H)] Hn; [exact Hn|]. destruct (comb s d') as [z|] eqn:E; [|reflexivity]. exfalso. exact (cp_second _ HC s d' z x y E H). Qed.

Lemma nfc_feed : forall ds r k0, Forall okbytes ds -> Forall okbytes (held r) -> Inv r -> ord k0 (held r ++ ds) ->
  exists r' out, star_feed NFC r (nf_on r) ds = Some (r', nf_on r', out) /\ Inv r' /\ equivalent (held r ++ ds) (out ++ held r') /\ ord k0 (out ++ held r') /\ full (out ++ held r') /\
    Forall okbytes (out ++ held r') /\
    forall s, nf_on r = true -> nf_starter r = SHeld s -> exists s' t, out ++ held r' = s' :: t /\ made s' s.
Proof.
  induction ds as [|d ds IH]; intros r k0 HB HBr HI HO.
  - exists r, []. cbn [star_feed app]. rewrite app_nil_r in HO |- *. split; [reflexivity|]. split; [exact HI|]. split; [apply eqv_refl|]. split; [exact HO|].
    unfold Inv, held in *. destruct (nf_on r); [|split; [exact I|split; [exact HBr|discriminate]]]. destruct HI as (s & E & Hs & HZ & HS & Hk & HD). rewrite E in *.
    split; [|split; [exact HBr|]].
    + cbn. split; [intros _; apply free_end; exact HD|]. rewrite <- (app_nil_r (nf_pend r)). apply full_marks; [exact HZ|exact I].
    + intros s0 _ E0. injection E0 as <-. eexists _, _. split; [reflexivity|left; reflexivity].
  - inversion HB as [|? ? Hd HB']; subst. cbn [star_feed]. unfold star_one. change (st_conv NFC) with (nfc_conv comb).
    assert (Hcase : (exists l, d = 1 :: l) \/ (forall l, d <> 1 :: l)).
    { destruct d as [|b l]; [right; discriminate|]. destruct (N.eq_dec b 1) as [->|Hb]; [left; eauto|right; intros l' E; injection E; congruence]. }
    destruct Hcase as [(l & El)|Hno].
    2:{ (* not a character *)
      pose proof (ccc_other d Hno) as Hd0.
      assert (Hnc : forall s, comb s d = None) by (intros s; destruct (comb s d) as [z|] eqn:E; [exfalso; destruct (cp_char _ HC s d z E) as (_ & H & _); destruct d as [|b l]; [discriminate|cbn in H; subst b; apply (Hno l); reflexivity]|reflexivity]).
      assert (Hdc : forall c, comb d c = None) by (intros c; destruct (comb d c) as [z|] eqn:E; [exfalso; destruct (cp_char _ HC d c z E) as (H & _); destruct d as [|b l]; [discriminate|cbn in H; subst b; apply (Hno l); reflexivity]|reflexivity]).
      set (r1 := mkNfc false SNull 0 []).
      assert (Econv : nfc_conv comb r d = (r1, NEXTPHASE, held r ++ [d])).
      { assert (E1 : nfc_flush (mkNfc (nf_on r) (nf_starter r) 0 (nf_pend r)) = (r1, held r)).
        { unfold nfc_flush, held, Inv in *. cbn [nf_on nf_starter nf_pend nf_ccc]. destruct (nf_on r); [destruct HI as (s & -> & _); reflexivity|destruct HI as (-> & ->); reflexivity]. }
        unfold nfc_conv. destruct d as [|b l]; [rewrite E1; reflexivity|]. destruct b as [|[q|q|]]; try (rewrite E1; reflexivity). exfalso. apply (Hno l). reflexivity. }
      rewrite Econv. apply ord_app in HO as (HO1 & HO2). cbn [ord] in HO2. destruct HO2 as (_ & HO2).
      destruct (IH r1 (ccc d) HB' ltac:(constructor) (conj eq_refl eq_refl) HO2) as (r' & out & R1 & R2 & R3 & R4 & R5 & R6 & _). cbn [held r1 nf_on app] in R3.
      change (nf_on r1) with false in R1. rewrite R1. exists r', ((held r ++ [d]) ++ out). split; [reflexivity|]. split; [exact R2|]. rewrite <- !app_assoc. cbn [app].
      split; [|split; [|split; [|split]]].
      - replace (held r ++ d :: ds) with ((held r ++ [d]) ++ ds ++ []) by (rewrite <- app_assoc, app_nil_r; reflexivity). replace (held r ++ d :: out ++ held r') with ((held r ++ [d]) ++ (out ++ held r') ++ []) by (rewrite <- app_assoc, app_nil_r; reflexivity).
        apply equiv_app. exact R3.
      - apply ord_app. split; [exact HO1|]. split; [left; exact Hd0|exact R4].
      - assert (Hfd : full (d :: out ++ held r')). { split; [|exact R5]. intros _ m c w _ _. apply Hdc. }
        unfold held, Inv in *. destruct (nf_on r); [|exact Hfd]. destruct HI as (s & E & Hs & HZ & HS & Hk & HD). rewrite E in *. cbn [app full]. split; [|apply full_marks; assumption].
        intros _. apply free_before; auto.
      - apply Forall_app. split; [exact HBr|]. constructor; assumption.
      - intros s Hon Es. unfold held. rewrite Hon, Es. eexists _, _. split; [reflexivity|left; reflexivity]. }
    (* a character *)
    unfold nfc_conv. rewrite El. rewrite <- El. rewrite (ccc_of_spec d Hd). unfold Inv, held in HI, HBr, HO |- *. destruct r as [on st k p]. cbn [nf_on nf_starter nf_pend nf_ccc] in *. destruct on.
    + destruct HI as (s & -> & Hs & HZ & HS & -> & HD). destruct (ccc d =? 0) eqn:E0.
      * assert (Ed : ccc d = 0) by lia. clear E0.
        (* out of the starter with its marks, the new starter *)
        assert (Hnext : (p = [] -> comb s d = None) -> exists r' out, match star_feed NFC (mkNfc true (SHeld d) 0 []) true ds with Some (s2, p2, o2) => Some (s2, p2, (s :: p) ++ o2) | None => None end = Some (r', nf_on r', out) /\
          Inv r' /\ equivalent ((s :: p) ++ d :: ds) (out ++ held r') /\ ord k0 (out ++ held r') /\ full (out ++ held r') /\ Forall okbytes (out ++ held r') /\
          forall s0 : datum, true = true -> SHeld s = SHeld s0 -> exists s' t, out ++ held r' = s' :: t /\ made s' s0).
        { intros Hn. apply ord_app in HO as (HO1 & HO2). 
          destruct (IH (mkNfc true (SHeld d) 0 []) (last (map ccc (s :: p)) k0) HB') as (r' & out & R1 & R2 & R3 & R4 & R5 & R6 & R7).
          - constructor; [exact Hd|constructor].
          - cbn. exists d. split; [reflexivity|]. split; [exact Ed|]. split; [constructor|]. split; [constructor|]. split; [reflexivity|]. intros m c w E. destruct m; discriminate.
          - exact HO2.
          - cbn [nf_on] in R1. rewrite R1. exists r', ((s :: p) ++ out). destruct (R7 d eq_refl eq_refl) as (d' & t & E7 & M7). rewrite <- !app_assoc. split; [reflexivity|]. split; [exact R2|].
            split; [|split; [|split; [|split]]].
            + replace ((s :: p) ++ d :: ds) with ((s :: p) ++ (d :: ds) ++ []) by (rewrite app_nil_r; reflexivity). replace ((s :: p) ++ out ++ held r') with ((s :: p) ++ (out ++ held r') ++ []) by (rewrite app_nil_r; reflexivity). apply equiv_app. exact R3.
            + apply ord_app. split; [exact HO1|exact R4].
            + rewrite E7 in *. cbn [app full]. split; [|apply full_marks; assumption]. intros _. apply free_before; [exact HZ|exact HD|eapply made_starter; eassumption|]. intros Hp. eapply made_second; [exact M7|auto].
            + apply Forall_app. split; [exact HBr|exact R6].
            + intros s0 _ E. injection E as <-. eexists _, _. split; [reflexivity|left; reflexivity]. }
        destruct p as [|b p].
        -- destruct (comb s d) as [x|] eqn:Ec; [|apply Hnext; auto].
           destruct (cp_char _ HC s d x Ec) as (_ & _ & (_ & Hx)). pose proof (cp_starter _ HC s d x Ec) as Hx0.
           destruct (IH (mkNfc true (SHeld x) 0 []) k0 HB') as (r' & out & R1 & R2 & R3 & R4 & R5 & R6 & R7).
           ++ constructor; [exact Hx|constructor].
           ++ cbn. exists x. split; [reflexivity|]. split; [exact Hx0|]. split; [constructor|]. split; [constructor|]. split; [reflexivity|]. intros m c w E. destruct m; discriminate.
           ++ cbn [app held nf_on nf_starter nf_pend ord] in HO |- *. rewrite Ed in HO. rewrite Hx0. tauto.
           ++ cbn [nf_on] in R1. rewrite R1. exists r', out. split; [reflexivity|]. split; [exact R2|]. split; [|split; [exact R4|split; [exact R5|split; [exact R6|]]]].
              ** eapply eqv_trans; [apply (eqv_pair comb [] s d x ds Ec)|exact R3].
              ** intros s0 _ E. injection E as <-. destruct (R7 x eq_refl eq_refl) as (s' & t & E7 & M7). exists s', t. split; [exact E7|]. destruct M7 as [->|M7]; right; eauto.
        -- apply Hnext. discriminate.
      * assert (Ed : ccc d <> 0) by lia. clear E0.
        assert (HOs : ord 0 (p ++ d :: ds)). { cbn [app ord] in HO. destruct HO as (_ & HO). rewrite Hs in HO. exact HO. }
        apply ord_app in HOs as (HO1 & HO2). cbn [ord] in HO2. destruct HO2 as (HO2 & HO3).
        assert (HZ1 : Forall (fun b => ccc b <> 0) (p ++ [d])) by (apply Forall_app; auto).
        assert (HS1 : StronglySorted le_ccc (p ++ [d])). { apply (ord_sorted 0); [exact HZ1|]. apply ord_app. split; [exact HO1|]. split; [exact HO2|exact I]. }
        destruct (marks_spec (nfc_fuel p) s (lastc p) p [d]) as (s' & p' & M1 & M2 & M3 & M4 & M5 & M6).
        { unfold nfc_fuel. rewrite app_length. cbn [length]. lia. }
        { exact HS1. } { exact HZ1. } { inversion HBr; subst. apply Forall_app. auto. } { reflexivity. } { exact HD. }
        rewrite M1. pose proof (made_starter _ _ M6 Hs) as Hs'.
        assert (HZ' : Forall (fun b => ccc b <> 0) p') by (apply Forall_forall; intros x Hx; rewrite Forall_forall in HZ1; apply HZ1; apply M4; exact Hx).
        assert (HB1 : Forall okbytes p') by (inversion HBr; subst; apply Forall_forall; intros x Hx; apply M4 in Hx; apply in_app_or in Hx as [Hx|[<-|[]]]; [match goal with H : Forall okbytes p |- _ => rewrite Forall_forall in H; auto end|exact Hd]).
        assert (Hle : Forall (fun b => ccc b <= ccc d) p').
        { apply Forall_forall. intros x Hx. apply M4 in Hx. clear - HS1 Hx. apply in_app_or in Hx as [Hx|[<-|[]]]; [|lia]. induction p as [|a p IHp]; [destruct Hx|]. cbn in HS1. inversion HS1 as [|? ? H1 H2]; subst. destruct Hx as [<-|Hx]; [|auto].
          rewrite Forall_forall in H2. apply (H2 d). apply in_or_app. right. left. reflexivity. }
        destruct (IH (mkNfc true (SHeld s') (lastc p') p') k0 HB') as (r' & out & R1 & R2 & R3 & R4 & R5 & R6 & R7).
        -- constructor; [inversion HBr; subst; eapply made_ok; eassumption|exact HB1].
        -- cbn. exists s'. auto 10.
        -- cbn [held nf_on nf_starter nf_pend app ord]. split; [left; exact Hs'|]. rewrite Hs'. apply ord_app. split; [apply sorted_ord; exact M3|]. eapply ord_mono; [|exact HO3]. apply last_le. exact Hle.
        -- cbn [nf_on] in R1. rewrite R1. exists r', out. split; [reflexivity|]. split; [exact R2|]. split; [|split; [exact R4|split; [exact R5|split; [exact R6|]]]].
           ++ eapply eqv_trans; [|exact R3]. cbn [held nf_on nf_starter nf_pend]. replace ((s :: p) ++ d :: ds) with ([] ++ (s :: p ++ [d]) ++ ds) by (cbn; rewrite <- app_assoc; reflexivity).
              apply (equiv_app [] (s :: p ++ [d]) (s' :: p') ds). exact M2.
           ++ intros s0 _ E. injection E as <-. destruct (R7 s' eq_refl eq_refl) as (s2 & t & E7 & M7). exists s2, t. split; [exact E7|]. eapply made_trans; eassumption.
    + destruct HI as (-> & ->). cbn [app] in HO |- *. cbn [ord] in HO. destruct HO as (HO1 & HO2). destruct (ccc d =? 0) eqn:E0.
      * assert (Ed : ccc d = 0) by lia.
        destruct (IH (mkNfc true (SHeld d) 0 []) k0 HB') as (r' & out & R1 & R2 & R3 & R4 & R5 & R6 & R7).
        -- constructor; [exact Hd|constructor].
        -- cbn. exists d. split; [reflexivity|]. split; [exact Ed|]. split; [constructor|]. split; [constructor|]. split; [reflexivity|]. intros m c w E. destruct m; discriminate.
        -- cbn [held nf_on nf_starter nf_pend app ord]. split; [left; exact Ed|exact HO2].
        -- cbn [nf_on] in R1. rewrite R1. exists r', out. split; [reflexivity|]. split; [exact R2|]. split; [exact R3|]. split; [exact R4|]. split; [exact R5|]. split; [exact R6|]. discriminate.
      * destruct (IH (mkNfc false SNull 0 []) (ccc d) HB' ltac:(constructor) (conj eq_refl eq_refl) HO2) as (r' & out & R1 & R2 & R3 & R4 & R5 & R6 & _). cbn [held nf_on app] in R3. cbn [nf_on] in R1. rewrite R1.
        exists r', (d :: out). split; [reflexivity|]. split; [exact R2|]. cbn [app]. split; [|split; [|split; [|split]]].
        -- change (equivalent (d :: ds) (d :: out ++ held r')). replace (d :: ds) with ([d] ++ ds ++ []) by (rewrite app_nil_r; reflexivity). replace (d :: out ++ held r') with ([d] ++ (out ++ held r') ++ []) by (rewrite app_nil_r; reflexivity). apply equiv_app. exact R3.
        -- cbn [ord]. split; [exact HO1|exact R4].
        -- split; [intros H; lia|exact R5].
        -- constructor; assumption.
        -- discriminate.
Qed.
Theorem nfc_stream r ds : nf_on r = false -> nf_starter r = SNull -> nf_pend r = [] -> Forall okbytes ds -> in_order ds ->
  exists r' out, star_stream NFC r ds = Some (r', out) /\ equivalent ds out /\ in_order out /\ fully_composed out /\ Forall okbytes out /\ nf_on r' = false /\ nf_starter r' = SNull /\ nf_pend r' = [].
Proof.
  intros H1 H2 H3 HB HO. apply in_order_ord in HO. destruct (nfc_feed ds r 0 HB) as (r' & out & R1 & R2 & R3 & R4 & R5 & R6 & _).
  - unfold held. rewrite H1. constructor.
  - unfold Inv. rewrite H1. auto.
  - unfold held. rewrite H1. exact HO.
  - unfold star_stream. rewrite H1 in R1. rewrite R1. unfold held at 1 in R3. rewrite H1 in R3. cbn [app] in R3. unfold Inv in R2. destruct (nf_on r') eqn:Eon.
    + destruct R2 as (s & E & _). assert (Ef : st_flush NFC r' = (mkNfc false SNull (nf_ccc r') [], held r')). { cbn [st_flush NFC M_Nfc.NFC]. unfold nfc_flush, held. rewrite Eon, E. reflexivity. }
      rewrite Ef. eexists _, _. split; [reflexivity|]. split; [exact R3|]. split; [apply in_order_ord; exact R4|]. split; [apply full_spec; exact R5|]. split; [exact R6|]. auto.
    + assert (Eh : held r' = []) by (unfold held; rewrite Eon; reflexivity). rewrite Eh, app_nil_r in *. eexists _, _. split; [reflexivity|]. split; [exact R3|]. split; [apply in_order_ord; exact R4|]. split; [apply full_spec; exact R5|]. split; [exact R6|]. destruct R2. auto.
Qed.
End C.

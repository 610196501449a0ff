(** After bsdconv_init nothing of the past matters, whole instances and histories. *)
From Verif Require Import Base Types M_Engine M_Output S_Session P_Output P_Output2 P_Output3 P_Session2 P_Output4 P_PrevPhase P_Reinit.

Section E.
Context {P : Type}.
Notation ephase := (ephase P). Notation inst := (inst P).

Lemma ep_eq (a b : ephase) : p_type P a = p_type P b -> p_codecs P a = p_codecs P b -> p_index P a = p_index P b -> p_curr P a = p_curr P b -> p_i P a = p_i P b -> p_bak P a = p_bak P b -> p_headlen P a = p_headlen P b -> p_match_data P a = p_match_data P b -> p_state P a = p_state P b -> p_offset P a = p_offset P b -> p_fmatch P a = p_fmatch P b -> p_fpending P a = p_fpending P b -> p_floop P a = p_floop P b -> p_queue P a = p_queue P b -> p_tail P a = p_tail P b -> a = b.
Proof. destruct a, b. cbn. intros. subst. reflexivity. Qed.

Definition pvsim (a b : ephase) : Prop := p_queue P a = p_queue P b /\ p_headlen P a = p_headlen P b /\ p_tail P a = p_tail P b.

Lemma pvsim_step pv pv' t pc : pvsim pv pv' -> Rres pvsim (local_step P pv t pc) (local_step P pv' t pc).
Proof.
  apply local_step_R.
  - intros a b (H & _). exact H.
  - intros a b (_ & H & _). exact H.
  - intros a b n (H1 & H2 & H3). destruct n; cbn; [exact I|]. repeat split; cbn; congruence.
  - intros a b (_ & _ & H). exact H.
  - intros a b q n (H1 & H2 & H3). repeat split; cbn; congruence.
Qed.
Lemma sim_step pv pv' t pc : sim false pv pv' -> Rres (sim false) (local_step P pv t pc) (local_step P pv' t pc).
Proof.
  apply local_step_R.
  - intros a b (i & x & -> & _). reflexivity.
  - intros a b (i & x & -> & _). reflexivity.
  - intros a b n (i & x & -> & H1 & H2). destruct n; cbn [listfree]; [exact I|]. match goal with |- sim false ?u ?v => change v with (md i x u) end. apply sim_mk; auto.
  - intros a b (i & x & -> & _). reflexivity.
  - intros a b q n (i & x & -> & H1 & H2). match goal with |- sim false ?u ?v => change v with (md i x u) end. apply sim_mk; auto.
Qed.

Definition prel (pc : gpc) (p : nat) (a b : ephase) : Prop :=
  match p with
  | O => pvsim a b
  | _ => sim (match pc with PLocal q lp => (p =? q) && im_pc lp | _ => false end) a b
  end.
Definition lsim (pc : gpc) (l l' : list ephase) : Prop :=
  length l = length l' /\ forall p a b, nth_error l p = Some a -> nth_error l' p = Some b -> prel pc p a b.
(** counters may start from different values *)
Definition ssim (pc : gpc) (s s' : inst) (di di' dO dO' : nat) : Prop :=
  lsim pc (i_phases P s) (i_phases P s') /\ i_flush P s = i_flush P s' /\ i_ierr P s + di' = i_ierr P s' + di /\ i_oerr P s + dO' = i_oerr P s' + dO.

Lemma prel_weak pc p a b : prel pc p a b -> prel PDone p a b.
Proof. destruct p; [auto|]. cbn. apply sim_weak. Qed.
Lemma lsim_weak pc pc' l l' : lsim pc l l' -> (forall q lp, pc' = PLocal q lp -> im_pc lp = false) -> lsim pc' l l'.
Proof.
  intros (H1 & H2) H. split; [exact H1|]. intros p a b Ha Hb. pose proof (prel_weak _ _ _ _ (H2 p a b Ha Hb)) as HW. destruct p; [exact HW|]. cbn in *.
  destruct pc'; try exact HW. rewrite (H p0 pc0 eq_refl), andb_false_r. exact HW.
Qed.
Lemma lsim_nth pc l l' p a : lsim pc l l' -> nth_error l p = Some a -> exists b, nth_error l' p = Some b /\ prel pc p a b.
Proof.
  intros (H1 & H2) Ha. destruct (nth_error l' p) as [b|] eqn:Eb; [exists b; split; [reflexivity|]; eapply H2; eassumption|].
  apply nth_error_None in Eb. assert (p < length l) by (apply nth_error_Some; congruence). lia.
Qed.
Lemma lsim_none pc l l' p : lsim pc l l' -> nth_error l p = None -> nth_error l' p = None.
Proof. intros (H1 & _) H. apply nth_error_None in H. apply nth_error_None. lia. Qed.

Lemma ssim_weak pc pc' s s' di di' dO dO' : ssim pc s s' di di' dO dO' -> (forall q lp, pc' = PLocal q lp -> im_pc lp = false) -> ssim pc' s s' di di' dO dO'.
Proof. intros (H1 & H2) H. split; [|exact H2]. eapply lsim_weak; eassumption. Qed.

Lemma prel_queue pc p a b : prel pc p a b -> p_queue P a = p_queue P b.
Proof. destruct p; [intros (H & _); exact H|intros (i & x & -> & _); reflexivity]. Qed.

Lemma step_both pc lp p pv pv' t t' : 1 <= p -> pc = PLocal p lp -> prel pc (p - 1) pv pv' -> prel pc p t t' ->
  match local_step P pv t lp, local_step P pv' t' lp with
  | LRes _ a x ie oe g, LRes _ b y ie' oe' g' => ie = ie' /\ oe = oe' /\ g = g' /\ prel PDone (p - 1) a b /\ sim (im_of g) x y
  | LUB _, LUB _ => True
  | _, _ => False
  end.
Proof.
  intros Hp -> H1 H2.
  assert (Hst : sim (im_pc lp) t t') by (destruct p; [lia|]; cbn in H2; rewrite Nat.eqb_refl in H2; exact H2).
  pose proof (local_step_sim pv' t t' lp Hst) as HS.
  assert (HR : Rres (prel PDone (p - 1)) (local_step P pv t lp) (local_step P pv' t lp)).
  { destruct (p - 1) as [|q] eqn:E; [apply pvsim_step; exact H1|]. apply sim_step. eapply sim_weak. exact H1. }
  destruct (local_step P pv t lp) as [a x ie oe g|]; destruct (local_step P pv' t lp) as [b y ie' oe' g'|]; try contradiction; destruct (local_step P pv' t' lp) as [b2 y2 ie2 oe2 g2|]; try contradiction; auto.
  cbn in HR, HS. destruct HR as (-> & -> & -> & -> & HR). destruct HS as (-> & -> & -> & -> & HS). auto.
Qed.

Lemma gstep_sim pc s s' di di' dO dO' : ssim pc s s' di di' dO dO' -> pc_ok pc ->
  match gstep P s pc, gstep P s' pc with
  | GNextState _ s1 pc1, GNextState _ s1' pc1' => pc1 = pc1' /\ pc_ok pc1 /\ ssim pc1 s1 s1' di di' dO dO'
  | GHalt _ s1, GHalt _ s1' => ssim PDone s1 s1' di di' dO dO'
  | GUB _, GUB _ => True
  | _, _ => False
  end.
Proof.
  intros HS0 Hpc. pose proof HS0 as (HL & HF & HI & HO). assert (Hn : phasen P s' = phasen P s) by (unfold phasen; rewrite (proj1 HL); reflexivity).
  destruct pc as [p|p lp|p|p|]; cbn [gstep].
  - rewrite Hn. destruct (0 <? p) eqn:E0; cbn [andb]; [destruct (p <=? phasen P s)|]; (split; [reflexivity|]); cbn [pc_ok]; try (apply Nat.ltb_lt in E0);
      (split; [solve [auto | lia]|]); (eapply ssim_weak; [exact HS0|]); intros q lp0 E; inversion E; reflexivity.
  - destruct (nth_error (i_phases P s) (p - 1)) as [pv|] eqn:E1.
    2:{ rewrite (lsim_none _ _ _ _ HL E1). exact I. }
    destruct (lsim_nth _ _ _ _ _ HL E1) as (pv' & E1' & R1). rewrite E1'.
    destruct (nth_error (i_phases P s) p) as [t|] eqn:E2.
    2:{ rewrite (lsim_none _ _ _ _ HL E2). exact I. }
    destruct (lsim_nth _ _ _ _ _ HL E2) as (t' & E2' & R2). rewrite E2'. cbn in Hpc.
    pose proof (step_both _ lp p pv pv' t t' Hpc eq_refl R1 R2) as HS.
    destruct (local_step P pv t lp) as [a x ie oe g|]; destruct (local_step P pv' t' lp) as [b y ie' oe' g'|]; try contradiction; auto.
    destruct HS as (<- & <- & <- & HA & HX).
    assert (HLs : forall pc1, (pc1 = match g with Stay lp' => PLocal p lp' | GBegin => PBegin p | GNext => PBegin (S p) | GBreak => PCheck (phasen P s) end) ->
       lsim pc1 (list_upd (list_upd (i_phases P s) (p - 1) a) p x) (list_upd (list_upd (i_phases P s') (p - 1) b) p y)).
    { intros pc1 Epc. split; [rewrite !list_upd_len; apply HL|]. intros q u v Hu Hv.
      destruct (Nat.eq_dec q p) as [->|Hqp].
      - assert (u = x) by (rewrite (P_Engine3.list_upd_nth _ _ _ t) in Hu; [congruence|]; rewrite P_Engine3.list_upd_nth_ne by lia; exact E2).
        assert (v = y) by (rewrite (P_Engine3.list_upd_nth _ _ _ t') in Hv; [congruence|]; rewrite P_Engine3.list_upd_nth_ne by lia; exact E2'). subst u v.
        destruct p; [lia|]. unfold prel. subst pc1. destruct g as [lp'| | |]; try exact HX. rewrite Nat.eqb_refl. cbn. destruct lp'; exact HX.
      - rewrite P_Engine3.list_upd_nth_ne in Hu, Hv by lia. assert (HP : prel PDone q u v).
        { destruct (Nat.eq_dec q (p - 1)) as [->|Hq1].
          - rewrite (P_Engine3.list_upd_nth _ _ _ pv) in Hu by exact E1. rewrite (P_Engine3.list_upd_nth _ _ _ pv') in Hv by exact E1'. injection Hu as <-. injection Hv as <-. exact HA.
          - rewrite P_Engine3.list_upd_nth_ne in Hu, Hv by lia. eapply prel_weak. eapply (proj2 HL); eassumption. }
        destruct q; [exact HP|]. unfold prel in *. subst pc1. destruct g as [lp'| | |]; try exact HP. replace (S q =? p) with false by (symmetry; apply Nat.eqb_neq; lia). exact HP. }
    rewrite Hn. destruct g; (split; [reflexivity|]); (split; [cbn; auto|]); (split; [apply HLs; reflexivity|]); cbn; repeat split; auto; lia.
  - destruct p as [|p].
    + rewrite <- HF. destruct (i_flush P s); (split; [reflexivity|]); (split; [cbn; auto|]); (eapply ssim_weak; [exact HS0|]); discriminate.
    + destruct (nth_error (i_phases P s) p) as [pv|] eqn:E1.
      2:{ rewrite (lsim_none _ _ _ _ HL E1). exact I. }
      destruct (lsim_nth _ _ _ _ _ HL E1) as (pv' & E1' & R1). rewrite E1'.
      destruct (nth_error (i_phases P s) (S p)) as [t|] eqn:E2.
      2:{ rewrite (lsim_none _ _ _ _ HL E2). exact I. }
      destruct (lsim_nth _ _ _ _ _ HL E2) as (t' & E2' & R2). rewrite E2'. rewrite <- (prel_queue _ _ _ _ R1). assert (Ec : p_curr P t' = p_curr P t) by (destruct R2 as (i & b & -> & _); reflexivity). rewrite Ec.
      destruct (_ <? _); (split; [reflexivity|]); (split; [cbn; auto|]); (eapply ssim_weak; [exact HS0|]); discriminate.
  - rewrite Hn. destruct (p <=? phasen P s).
    + destruct (nth_error (i_phases P s) p) as [t|] eqn:E2.
      2:{ rewrite (lsim_none _ _ _ _ HL E2). exact I. }
      destruct (lsim_nth _ _ _ _ _ HL E2) as (t' & E2' & R2). rewrite E2'. cbn in Hpc. destruct p; [lia|]. assert (Ec : p_fpending P t' = p_fpending P t) by (destruct R2 as (i & b & -> & _); reflexivity). rewrite Ec.
      destruct (p_fpending P t); (split; [reflexivity|]); (split; [cbn; auto; lia|]); (eapply ssim_weak; [exact HS0|]); intros q lp E; inversion E; reflexivity.
    + split; [reflexivity|]. split; [cbn; auto|]. (eapply ssim_weak; [exact HS0|]); discriminate.
  - repeat split; auto; apply HL.
Qed.

Lemma grun_sim : forall fuel pc s s' di di' dO dO', ssim pc s s' di di' dO dO' -> pc_ok pc ->
  match grun P fuel s pc, grun P fuel s' pc with
  | RDone _ s1, RDone _ s1' => ssim PDone s1 s1' di di' dO dO'
  | RUB _, RUB _ => True
  | RFuel _, RFuel _ => True
  | _, _ => False
  end.
Proof.
  induction fuel as [|f IH]; intros pc s s' di di' dO dO' H Hpc; [exact I|]. cbn [grun].
  pose proof (gstep_sim pc s s' di di' dO dO' H Hpc) as HS. destruct (gstep P s pc); destruct (gstep P s' pc); try contradiction; auto.
  destruct HS as (-> & H1 & H2). apply IH; assumption.
Qed.

Lemma engine_sim fuel s s' inp fl di di' dO dO' : ssim PDone s s' di di' dO dO' ->
  match bsdconv_engine P fuel s inp fl, bsdconv_engine P fuel s' inp fl with
  | RDone _ s1, RDone _ s1' => ssim PDone s1 s1' di di' dO dO'
  | RUB _, RUB _ => True
  | RFuel _, RFuel _ => True
  | _, _ => False
  end.
Proof.
  intros (HL & HF & HI & HO). unfold bsdconv_engine. cbv zeta. apply grun_sim; [|exact I]. unfold enqueue.
  destruct inp as [[d c]|].
  2:{ destruct (i_phases P s) eqn:E1; destruct (i_phases P s') eqn:E2; (split; [|cbn; auto]); cbn; rewrite ?E1, ?E2; apply (lsim_weak PDone); auto; discriminate. }
  destruct (i_phases P s) as [|a l] eqn:E1; destruct (i_phases P s') as [|a' l'] eqn:E2; try (destruct HL as (HL & _); discriminate); (split; [|cbn; auto]); cbn; rewrite ?E1, ?E2.
  - split; [reflexivity|]. intros [|p]; discriminate.
  - destruct HL as (HL1 & HL2). split; [exact HL1|]. intros [|p] u v Hu Hv.
    + destruct (HL2 0 a a' eq_refl eq_refl) as (Q1 & Q2 & Q3). cbn in Hu, Hv. injection Hu as <-. injection Hv as <-. cbn. unfold pvsim. cbn. rewrite Q1, Q2, Q3. auto.
    + exact (HL2 (S p) u v Hu Hv).
Qed.

Lemma last_sim s s' di di' dO dO' : ssim PDone s s' di di' dO dO' ->
  match last_phase P s, last_phase P s' with
  | Some a, Some b => phasen P s = phasen P s' /\ pvsim a b /\ forall q n, prel PDone (phasen P s) (set_queue P a q n) (set_queue P b q n)
  | None, None => True
  | _, _ => False
  end.
Proof.
  intros (HL & _). assert (Hn : phasen P s' = phasen P s) by (unfold phasen; rewrite (proj1 HL); reflexivity).
  unfold last_phase. rewrite Hn. destruct (nth_error (i_phases P s) (phasen P s)) as [a|] eqn:E.
  - destruct (lsim_nth _ _ _ _ _ HL E) as (b & -> & HR). split; [reflexivity|].
    destruct (phasen P s).
    + split; [exact HR|]. intros q n. destruct HR as (H1 & H2 & H3). repeat split; cbn; congruence.
    + destruct HR as (i & x & -> & H1 & H2). split; [repeat split; reflexivity|]. intros q m. apply (sim_mk false (set_queue P a q m) i x); auto.
  - rewrite (lsim_none _ _ _ _ HL E). exact I.
Qed.

Lemma output_sim a b m : pvsim a b -> output_switch P a m = output_switch P b m.
Proof. intros (H1 & H2 & H3). unfold output_switch. rewrite H1, H2, H3. reflexivity. Qed.

Lemma hist_sim fuel : forall h s s' di di' dO dO', ssim PDone s s' di di' dO dO' ->
  match run_hist P fuel s h, run_hist P fuel s' h with
  | Some (s1, out), Some (s1', out') => out = out' /\ ssim PDone s1 s1' di di' dO dO'
  | None, None => True
  | _, _ => False
  end.
Proof.
  induction h as [|c h IH]; intros s s' di di' dO dO' H; [cbn; auto|]. cbn [run_hist]. unfold bsdconv_call.
  pose proof (engine_sim fuel s s' (c_input c) (c_flush c) _ _ _ _ H) as HE.
  destruct (bsdconv_engine P fuel s (c_input c) (c_flush c)) as [s1| |]; destruct (bsdconv_engine P fuel s' (c_input c) (c_flush c)) as [s1'| |]; try contradiction; auto.
  pose proof (last_sim _ _ _ _ _ _ HE) as HLs. destruct (last_phase P s1) as [a|] eqn:Ea; destruct (last_phase P s1') as [b|] eqn:Eb; try contradiction; auto.
  destruct HLs as (Hn & Hv & Hq). rewrite <- (output_sim a b (c_mode c) Hv). destruct (output_switch P a (c_mode c)) as [r|]; [|exact I].
  assert (HS : ssim PDone (set_last P s1 (or_queue r) (or_tail r)) (set_last P s1' (or_queue r) (or_tail r)) di di' dO dO').
  { unfold set_last. rewrite Ea, Eb. destruct HE as ((L1 & L2) & HF & HI & HO). split; [|auto]. cbn. rewrite <- Hn. split; [rewrite !list_upd_len; exact L1|].
    intros p u v Hu Hv'. destruct (Nat.eq_dec (phasen P s1) p) as [<-|Hne].
    - unfold last_phase in Ea, Eb. rewrite <- Hn in Eb. rewrite (P_Engine3.list_upd_nth _ _ _ a Ea) in Hu. rewrite (P_Engine3.list_upd_nth _ _ _ b Eb) in Hv'. injection Hu as <-. injection Hv' as <-. apply Hq.
    - rewrite P_Engine3.list_upd_nth_ne in Hu, Hv' by exact Hne. eapply L2; eassumption. }
  specialize (IH _ _ _ _ _ _ HS). destruct (run_hist P fuel (set_last P s1 _ _) h) as [[s2 o2]|]; destruct (run_hist P fuel (set_last P s1' _ _) h) as [[s2' o2']|]; try contradiction; auto.
  destruct IH as (-> & IH). auto.
Qed.

Lemma init_sim s0 s0' a b : same_setup s0 s0' -> bsdconv_init P s0 = Some a -> bsdconv_init P s0' = Some b ->
  ssim PDone a b (i_ierr P a) (i_ierr P b) (i_oerr P a) (i_oerr P b).
Proof.
  unfold same_setup, bsdconv_init. destruct (i_phases P s0) as [|p0 l]; [discriminate|]. destruct (i_phases P s0') as [|p0' l']; [discriminate|]. cbn [tl]. intros HF.
  destruct (init_phase P true p0) as [q0|] eqn:E0; cbn [obind]; [|discriminate]. destruct (init_phase P true p0') as [q0'|] eqn:E0'; cbn [obind]; [|discriminate].
  destruct (fold_right _ _ l) as [r|] eqn:Er; cbn [obind]; [|discriminate]. destruct (fold_right _ _ l') as [r'|] eqn:Er'; cbn [obind]; [|discriminate].
  intros Ea Eb. injection Ea as <-. injection Eb as <-. apply init_rest_spec in Er, Er'.
  split; [|cbn; repeat split; lia]. cbn [i_phases].
  assert (HR : Forall2 (sim false) r r').
  { clear E0 E0'. revert r r' Er Er'. induction HF as [|x y l l' (H1 & H2) HF IH]; intros r r' Er Er'; [inversion Er; inversion Er'; subst; constructor|].
    inversion Er as [|? u ? ru A A' Q1 Q2]. inversion Er' as [|? v ? rv B B' Q3 Q4]. clear Q1 Q2 Q3 Q4. constructor; [|apply IH; assumption].
    unfold init_phase, reset in A, B; cbn [set_codecs p_codecs set_curr set_match_data set_headlen set_queue set_offset set_flags] in A, B. rewrite <- H2 in B.
    destruct (map (init_codec P) (p_codecs P x)) as [|cc cs] eqn:Em; [discriminate|]. destruct (read_state (e_tab P cc) 0); [|discriminate].
    injection A as <-. injection B as <-. exists (p_i P y), (p_bak P y). split; [|split; discriminate]. apply ep_eq; cbn; auto. }
  split.
  - cbn. f_equal. clear -HR. induction HR; cbn; congruence.
  - intros [|p] u v Hu Hv.
    + cbn in Hu, Hv. injection Hu as <-. injection Hv as <-. unfold init_phase in E0, E0'. injection E0 as <-. injection E0' as <-. repeat split.
    + cbn in Hu, Hv. cbn. destruct (Forall2_nth_l _ _ _ HR _ _ Hu) as (y & Hy & Hs). assert (y = v) by congruence. subst. exact Hs.
Qed.

Theorem reinit_isolates fuel s0 s0' a b h : same_setup s0 s0' -> bsdconv_init P s0 = Some a -> bsdconv_init P s0' = Some b ->
  match run_hist P fuel a h, run_hist P fuel b h with
  | Some (a', out), Some (b', out') => out = out' /\ pending P a' = pending P b' /\
      i_ierr P a' + i_ierr P b = i_ierr P b' + i_ierr P a /\ i_oerr P a' + i_oerr P b = i_oerr P b' + i_oerr P a
  | None, None => True
  | _, _ => False
  end.
Proof.
  intros HS Ha Hb. pose proof (hist_sim fuel h a b _ _ _ _ (init_sim _ _ _ _ HS Ha Hb)) as H.
  destruct (run_hist P fuel a h) as [[a' o]|]; destruct (run_hist P fuel b h) as [[b' o']|]; try contradiction; auto. destruct H as (-> & H). split; [reflexivity|].
  pose proof (last_sim _ _ _ _ _ _ H) as HL. split; [|destruct H as (_ & _ & H1 & H2); auto].
  unfold pending. destruct (last_phase P a'); destruct (last_phase P b'); try contradiction; auto. destruct HL as (_ & (-> & _) & _). reflexivity.
Qed.
End E.

(** Whole calls: output modes do not influence the conversion. *)
From Verif Require Import Base Types M_Engine M_Output P_Output.

Section E.
Context {P : Type}.
Notation ephase := (ephase P). Notation inst := (inst P).

Lemma list_upd_app_l {A} (l : list A) t p x : p < length l -> list_upd (l ++ [t]) p x = list_upd l p x ++ [t].
Proof. revert p. induction l as [|a l IH]; intros p H; [cbn in H; lia|]. destruct p; [reflexivity|]. cbn. f_equal. apply IH. cbn in H. lia. Qed.
Lemma list_upd_app_r {A} (l : list A) t p x : p = length l -> list_upd (l ++ [t]) p x = l ++ [x].
Proof. intros ->. induction l as [|a l IH]; [reflexivity|]. cbn. f_equal. exact IH. Qed.
Lemma list_upd_len {A} (l : list A) p x : length (list_upd l p x) = length l.
Proof. revert p. induction l as [|a l IH]; intros [|p]; cbn; auto. Qed.
Lemma nth_app_last {A} (l : list A) t : nth_error (l ++ [t]) (length l) = Some t.
Proof. rewrite nth_error_app2, Nat.sub_diag by lia. reflexivity. Qed.

(** [s'] is [s] with [a] put in front of the list of the last phase. *)
Definition Rel (a : list datum) (s s' : inst) : Prop :=
  exists l t, 1 <= length l /\ i_phases P s = l ++ [t] /\ i_phases P s' = l ++ [pfx a t] /\
    i_flush P s = i_flush P s' /\ i_ierr P s = i_ierr P s' /\ i_oerr P s = i_oerr P s'.

Definition pc_ok (pc : gpc) : Prop := match pc with PLocal p _ => 1 <= p | PFlush p => 1 <= p | _ => True end.

(** what an engine step does to the list of the last phase *)
Definition grows (t t' : ephase) : Prop := exists out, p_queue P t' = firstn (p_tail P t) (p_queue P t) ++ out /\ p_tail P t' = p_tail P t + length out.

Lemma gstep_rel a s s' pc : Rel a s s' -> pc_ok pc ->
  match gstep P s pc, gstep P s' pc with
  | GNextState _ s1 pc1, GNextState _ s1' pc1' => pc1 = pc1' /\ pc_ok pc1 /\ Rel a s1 s1'
  | GHalt _ s1, GHalt _ s1' => Rel a s1 s1'
  | GUB _, GUB _ => True
  | _, _ => False
  end.
Proof.
  intros (l & t & Hl & E & E' & F1 & F2 & F3) Hpc.
  assert (HR : Rel a s s') by (exists l, t; auto 10).
  assert (Hn : phasen P s = length l) by (unfold phasen; rewrite E, app_length; cbn; lia).
  assert (Hn' : phasen P s' = length l) by (unfold phasen; rewrite E', app_length; cbn; lia).
  destruct pc as [p|p lp|p|p|]; cbn [gstep pc_ok] in *.
  - rewrite Hn, Hn'. destruct (Nat.ltb_spec 0 p); cbn [andb]; [destruct (p <=? length l)|]; cbn; auto.
  - rewrite E, E', Hn, Hn'.
    destruct (Nat.lt_trichotomy p (length l)) as [H|[H|H]].
    + rewrite !nth_error_app1 by lia. destruct (nth_error l (p - 1)) as [pv|]; [|exact I]. destruct (nth_error l p) as [th|]; [|exact I].
      destruct (local_step P pv th lp) as [pv' th' ie oe g|]; [|exact I].
      assert (HR1 : forall g', match g' with O => True | _ => True end -> Rel a (mkInst P (list_upd (list_upd (l ++ [t]) (p - 1) pv') p th') (i_flush P s) (i_ierr P s + ie) (i_oerr P s + oe))
                (mkInst P (list_upd (list_upd (l ++ [pfx a t]) (p - 1) pv') p th') (i_flush P s') (i_ierr P s' + ie) (i_oerr P s' + oe))).
      { intros _ _. exists (list_upd (list_upd l (p - 1) pv') p th'), t. cbn.
        rewrite !list_upd_app_l by (rewrite ?list_upd_len; lia). rewrite !list_upd_len. rewrite F1, F2, F3. auto 10. }
      specialize (HR1 0 I). destruct g as [lp'| | |]; cbn; repeat split; auto; lia.
    + subst p. rewrite !nth_app_last, (nth_error_app1 l [t]) by lia; rewrite (nth_error_app1 l [pfx a t]) by lia. destruct (nth_error l (length l - 1)) as [pv|]; [|exact I].
      rewrite local_step_pfx. destruct (local_step P pv t lp) as [pv' th' ie oe g|]; [|exact I]. cbn [lres_map].
      assert (HR1 : Rel a (mkInst P (list_upd (list_upd (l ++ [t]) (length l - 1) pv') (length l) th') (i_flush P s) (i_ierr P s + ie) (i_oerr P s + oe))
                (mkInst P (list_upd (list_upd (l ++ [pfx a t]) (length l - 1) pv') (length l) (pfx a th')) (i_flush P s') (i_ierr P s' + ie) (i_oerr P s' + oe))).
      { exists (list_upd l (length l - 1) pv'), th'. cbn [i_phases i_flush i_ierr i_oerr]. rewrite (list_upd_app_l l t), (list_upd_app_l l (pfx a t)) by lia. rewrite !list_upd_app_r by (rewrite list_upd_len; reflexivity).
        rewrite list_upd_len, F1, F2, F3. auto 10. }
      destruct g as [lp'| | |]; cbn; repeat split; auto; try lia.
    + assert (N1 : nth_error (l ++ [t]) p = None) by (apply nth_error_None; rewrite app_length; cbn; lia).
      assert (N2 : nth_error (l ++ [pfx a t]) p = None) by (apply nth_error_None; rewrite app_length; cbn; lia).
      rewrite N1, N2. destruct (nth_error (l ++ [t]) (p - 1)); destruct (nth_error (l ++ [pfx a t]) (p - 1)); exact I.
  - destruct p as [|p].
    + rewrite F1. destruct (i_flush P s'); cbn; auto.
    + rewrite E, E'. destruct (Nat.lt_trichotomy (S p) (length l)) as [H|[H|H]].
      * rewrite !nth_error_app1 by lia. destruct (nth_error l p); [|exact I]. destruct (nth_error l (S p)); [|exact I]. destruct (_ <? _); cbn; auto.
      * rewrite H, !nth_app_last, (nth_error_app1 l [t]) by lia; rewrite (nth_error_app1 l [pfx a t]) by lia. destruct (nth_error l p); [|exact I]. cbn [pfx set_queue p_curr]. destruct (_ <? _); cbn; auto.
      * assert (N1 : nth_error (l ++ [t]) (S p) = None) by (apply nth_error_None; rewrite app_length; cbn; lia).
        assert (N2 : nth_error (l ++ [pfx a t]) (S p) = None) by (apply nth_error_None; rewrite app_length; cbn; lia).
        rewrite N1, N2. destruct (nth_error (l ++ [t]) p); destruct (nth_error (l ++ [pfx a t]) p); exact I.
  - rewrite E, E', Hn, Hn'. destruct (Nat.leb_spec p (length l)); [|cbn; auto].
    destruct (Nat.eq_dec p (length l)) as [->|Hne].
    + rewrite !nth_app_last. cbn [pfx set_queue p_fpending]. destruct (p_fpending P t); cbn; auto.
    + rewrite !nth_error_app1 by lia. destruct (nth_error l p) as [th|]; [|exact I]. destruct (p_fpending P th); cbn; auto.
  - exact HR.
Qed.

Lemma grun_rel a : forall fuel s s' pc, Rel a s s' -> pc_ok pc ->
  match grun P fuel s pc, grun P fuel s' pc with
  | RDone _ s1, RDone _ s1' => Rel a s1 s1'
  | RUB _, RUB _ => True
  | RFuel _, RFuel _ => True
  | _, _ => False
  end.
Proof.
  induction fuel as [|f IH]; intros s s' pc HR Hpc; [exact I|]. cbn [grun]. pose proof (gstep_rel a s s' pc HR Hpc) as H.
  destruct (gstep P s pc) as [s1 pc1|s1|]; destruct (gstep P s' pc) as [s1' pc1'|s1'|]; try contradiction; auto.
  destruct H as (<- & H1 & H2). apply IH; assumption.
Qed.

Lemma enqueue_rel a s s' inp : Rel a s s' -> Rel a (enqueue P s inp) (enqueue P s' inp).
Proof.
  intros (l & t & Hl & E & E' & F1 & F2 & F3). destruct l as [|ph0 l]; [cbn in Hl; lia|]. unfold enqueue. rewrite E, E'. cbn [app].
  destruct inp as [[d c]|].
  - exists (set_queue P ph0 (firstn (p_tail P ph0) (p_queue P ph0) ++ d :: c) (S (p_tail P ph0)) :: l), t. cbn. auto 10.
  - exists (ph0 :: l), t. cbn. auto 10.
Qed.

Lemma engine_rel a fuel s s' inp fl : Rel a s s' ->
  match bsdconv_engine P fuel s inp fl, bsdconv_engine P fuel s' inp fl with
  | RDone _ s1, RDone _ s1' => Rel a s1 s1'
  | RUB _, RUB _ => True
  | RFuel _, RFuel _ => True
  | _, _ => False
  end.
Proof.
  intros HR. unfold bsdconv_engine. cbv zeta. apply grun_rel; [|exact I].
  destruct (enqueue_rel a s s' inp HR) as (l & t & Hl & E & E' & F1 & F2 & F3). exists l, t. cbn. auto 10.
Qed.

(** ** The tail of the last phase's list *)
Definition tail_ok (t : ephase) : Prop := p_tail P t = length (p_queue P t).
Lemma app_tail_ok t ds : tail_ok t -> tail_ok (app_tail P t ds).
Proof.
  unfold tail_ok, app_tail. intros H. destruct ds as [|d ds]; [exact H|]. cbn. rewrite H, firstn_all, app_length. reflexivity.
Qed.
Lemma reset_ok t t' : tail_ok t -> reset P t = Some t' -> tail_ok t'.
Proof. unfold reset. intros H. destruct (p_codecs P t); [discriminate|]. destruct (read_state _ _); [|discriminate]. intros E. injection E as <-. exact H. Qed.
Lemma feed_tail c t v t' : tail_ok t -> feed P c t v = Some t' -> tail_ok t'.
Proof. unfold feed. intros H. destruct (get_offset _ _); [|discriminate]. destruct (read_state _ _); [|discriminate]. intros E. injection E as <-. exact H. Qed.
Lemma call_cb_tail pv t t' : tail_ok t -> call_cb P pv t = Some t' -> tail_ok t'.
Proof.
  unfold call_cb. intros H. destruct (this_codec P t) as [c|]; [|discriminate]. destruct (e_conv P c) as [f|]; [|discriminate]. destruct (curr_node P pv t); [|discriminate].
  intros E. injection E as <-. match goal with |- tail_ok (set_state P ?x _) => assert (tail_ok x) end; [apply app_tail_ok; exact H|assumption].
Qed.
Lemma call_flush_tail t t' : tail_ok t -> call_flush P t = Some t' -> tail_ok t'.
Proof.
  unfold call_flush. intros H. destruct (this_codec P t) as [c|]; [|discriminate]. destruct (e_flush P c) as [f|]; [|intros E; injection E as <-; exact H].
  destruct (f (e_priv P c)). intros E. injection E as <-. apply app_tail_ok. exact H.
Qed.
Lemma bytes_loop_tail c : forall bs t t' b, tail_ok t -> bytes_loop P c t bs = Some (t', b) -> tail_ok t'.
Proof.
  induction bs as [|x bs IH]; intros t t' b H; cbn; [intros E; injection E as <- <-; exact H|].
  destruct (feed P c t x) as [t1|] eqn:Ef; [|discriminate]. pose proof (feed_tail _ _ _ _ H Ef) as H1.
  destruct (t_status (p_state P t1)); try (apply IH; exact H1). intros E. injection E as <- <-. exact H1.
Qed.

Ltac tails := repeat match goal with
  | H : match ?x with _ => _ end = _ |- _ => let E := fresh "E" in destruct x eqn:E; try discriminate
  | H : (if ?x then _ else _) = _ |- _ => let E := fresh "E" in destruct x eqn:E; try discriminate
  | H : ub_or P (obind ?x _) = LRes _ _ _ _ _ _ |- _ => let E := fresh "E" in destruct x eqn:E; cbn [obind ub_or] in H; try discriminate
  | H : ub_or P (Some _) = _ |- _ => cbn [ub_or] in H
  | H : ub_or P None = _ |- _ => discriminate
  | H : ub_or P (if ?x then _ else _) = _ |- _ => let E := fresh "E" in destruct x eqn:E
  | H : ub_or P (match ?x with _ => _ end) = _ |- _ => let E := fresh "E" in destruct x eqn:E
  | H : LRes _ _ _ _ _ _ = LRes _ _ _ _ _ _ |- _ => injection H as <- <- <- <- <-
  end.

Lemma from_commit_tail pv t ds pv' t' ie oe g : tail_ok t -> from_commit P pv t ds = LRes P pv' t' ie oe g -> tail_ok t'.
Proof.
  intros H. unfold from_commit. cbv zeta. intros Hs. tails. eapply reset_ok; [|eassumption].
  match goal with |- tail_ok (set_headlen P (set_curr P (set_bak P ?x _) _) _) => assert (tail_ok x) as Hx; [apply app_tail_ok; exact H|exact Hx] end.
Qed.
Lemma data_commit_tail pv t ds pv' t' ie oe g : tail_ok t -> data_commit P pv t ds = LRes P pv' t' ie oe g -> tail_ok t'.
Proof.
  intros H. unfold data_commit. cbv zeta. intros Hs. tails. eapply reset_ok; [|eassumption].
  match goal with |- tail_ok (set_curr P (set_bak P ?x _) _) => assert (tail_ok x) as Hx; [apply app_tail_ok; exact H|exact Hx] end.
Qed.
Lemma data_hold_tail pv t pv' t' ie oe g : tail_ok t -> data_hold P pv t = LRes P pv' t' ie oe g -> tail_ok t'.
Proof.
  intros H. unfold data_hold. cbv zeta. intros Hs. tails. match goal with |- tail_ok (set_state P ?x _) => assert (tail_ok x) as Hx; [|exact Hx] end. eapply reset_ok; [|eassumption]. exact H.
Qed.
Lemma from_dead_tail pv t pv' t' ie oe g : tail_ok t -> from_dead P pv t = LRes P pv' t' ie oe g -> tail_ok t'.
Proof.
  intros H. unfold from_dead. cbv zeta. intros Hs. tails.
  - eapply reset_ok; [|eassumption]. match goal with Hf : call_flush P _ = Some ?x |- _ => assert (Hx : tail_ok x); [eapply call_flush_tail; [|exact Hf]; exact H|exact Hx] end.
  - eapply reset_ok; [|eassumption].
    match goal with |- tail_ok (set_flags P (set_i P (set_curr P (set_bak P ?x _) _) _) _ _ _) => assert (tail_ok x) as Hx; [apply app_tail_ok; exact H|exact Hx] end.
  - exact H.
  - match goal with Hf : reset P _ = Some ?x |- _ => assert (Hx : tail_ok x); [eapply reset_ok; [|exact Hf]; exact H|exact Hx] end.
Qed.
Lemma data_dead_tail pv t pv' t' ie oe g : tail_ok t -> data_dead P pv t = LRes P pv' t' ie oe g -> tail_ok t'.
Proof.
  intros H. unfold data_dead. cbv zeta. intros Hs. tails.
  - eapply reset_ok; [|eassumption]. match goal with Hf : call_flush P _ = Some ?x |- _ => assert (Hx : tail_ok x); [eapply call_flush_tail; [|exact Hf]; exact H|exact Hx] end.
  - eapply reset_ok; [|eassumption].
    match goal with |- tail_ok (set_flags P (set_curr P (set_bak P ?x _) _) _ _ _) => assert (tail_ok x) as Hx; [apply app_tail_ok; exact H|exact Hx] end.
  - exact H.
  - match goal with Hf : reset P _ = Some ?x |- _ => assert (Hx : tail_ok x); [eapply reset_ok; [|exact Hf]; exact H|exact Hx] end.
  - eapply reset_ok; [|eassumption]. apply app_tail_ok. exact H.
Qed.

Lemma local_step_tail pv t pc pv' t' ie oe g : tail_ok t -> local_step P pv t pc = LRes P pv' t' ie oe g -> tail_ok t'.
Proof.
  intros H. unfold local_step. destruct (p_type P t); try discriminate.
  - destruct pc; cbn [from_step]; intros Hs.
    + tails; exact H.
    + tails; try exact H. eapply feed_tail; eassumption.
    + destruct (t_status (p_state P t)); try (tails; exact H); try (eapply from_commit_tail; eassumption);
        (destruct (call_cb P pv t) as [t1|] eqn:Ec; [|discriminate]; tails; assert (Hx : tail_ok t1) by (eapply call_cb_tail; eassumption); exact Hx).
    + eapply from_dead_tail; eassumption.
    + discriminate.
  - destruct pc; cbn [data_step]; intros Hs; try discriminate.
    + tails; try exact H; (eapply bytes_loop_tail; [|eassumption]; exact H).
    + destruct (t_status (p_state P t)); try (tails; exact H); try (eapply data_commit_tail; eassumption); try (eapply data_hold_tail; eassumption);
        (destruct (call_cb P pv t) as [t1|] eqn:Ec; [|discriminate]; tails; eapply call_cb_tail; eassumption).
    + eapply data_dead_tail; eassumption.
    + tails; (eapply feed_tail; eassumption).
  - destruct pc; cbn [data_step]; intros Hs; try discriminate.
    + tails; try exact H; (eapply bytes_loop_tail; [|eassumption]; exact H).
    + destruct (t_status (p_state P t)); try (tails; exact H); try (eapply data_commit_tail; eassumption); try (eapply data_hold_tail; eassumption);
        (destruct (call_cb P pv t) as [t1|] eqn:Ec; [|discriminate]; tails; eapply call_cb_tail; eassumption).
    + eapply data_dead_tail; eassumption.
    + tails; (eapply feed_tail; eassumption).
Qed.

Definition last_ok (s : inst) : Prop := exists l t, 1 <= length l /\ i_phases P s = l ++ [t] /\ tail_ok t.

Lemma gstep_last_ok s pc s' pc' : last_ok s -> pc_ok pc -> gstep P s pc = GNextState P s' pc' -> last_ok s' /\ pc_ok pc'.
Proof.
  intros (l & t & Hl & E & Ht) Hpc.
  assert (HL : last_ok s) by (exists l, t; auto).
  assert (Hn : phasen P s = length l) by (unfold phasen; rewrite E, app_length; cbn; lia).
  destruct pc as [p|p lp|p|p|]; cbn [gstep pc_ok] in *.
  - destruct (Nat.ltb_spec 0 p); cbn [andb]; [destruct (p <=? phasen P s)|]; intros Hs; injection Hs as <- <-; cbn; auto.
  - rewrite E. destruct (nth_error (l ++ [t]) (p - 1)) as [pv|] eqn:E1; [|discriminate]. destruct (nth_error (l ++ [t]) p) as [th|] eqn:E2; [|discriminate].
    destruct (local_step P pv th lp) as [pv' th' ie oe g|] eqn:Es; [|discriminate].
    assert (Hp : p <= length l). { assert (p < length (l ++ [t])) by (apply nth_error_Some; congruence). rewrite app_length in H. cbn in H. lia. }
    assert (HL' : last_ok (mkInst P (list_upd (list_upd (l ++ [t]) (p - 1) pv') p th') (i_flush P s) (i_ierr P s + ie) (i_oerr P s + oe))).
    { rewrite list_upd_app_l by lia. destruct (Nat.eq_dec p (length l)) as [->|Hne].
      - rewrite nth_app_last in E2. injection E2 as ->. exists (list_upd l (length l - 1) pv'), th'. cbn. rewrite list_upd_len, list_upd_app_r by (rewrite list_upd_len; reflexivity).
        split; [assumption|]. split; [reflexivity|]. eapply local_step_tail; eassumption.
      - exists (list_upd (list_upd l (p - 1) pv') p th'), t. cbn. rewrite list_upd_app_l by (rewrite list_upd_len; lia). rewrite !list_upd_len. auto. }
    destruct g; intros Hs; injection Hs as <- <-; cbn; auto.
  - destruct p as [|p].
    + destruct (i_flush P s); intros Hs; injection Hs as <- <-; cbn; auto.
    + destruct (nth_error _ p); [|discriminate]. destruct (nth_error _ (S p)); [|discriminate]. destruct (_ <? _); intros Hs; injection Hs as <- <-; cbn; auto.
  - destruct (p <=? phasen P s); [|intros Hs; injection Hs as <- <-; cbn; auto]. destruct (nth_error _ p) as [th|]; [|discriminate].
    destruct (p_fpending P th); intros Hs; injection Hs as <- <-; cbn; auto.
  - discriminate.
Qed.

Lemma grun_last_ok : forall fuel s pc s', last_ok s -> pc_ok pc -> grun P fuel s pc = RDone P s' -> last_ok s'.
Proof.
  induction fuel as [|f IH]; intros s pc s' HL Hpc; [discriminate|]. cbn [grun].
  destruct (gstep P s pc) as [s1 pc1|s1|] eqn:E; try discriminate.
  - destruct (gstep_last_ok _ _ _ _ HL Hpc E). apply IH; assumption.
  - intros H. injection H as <-. destruct pc; cbn [gstep] in E; try discriminate.
    + destruct (_ && _); discriminate.
    + destruct (nth_error _ (p - 1)); [|discriminate]. destruct (nth_error _ p); [|discriminate]. destruct (local_step P _ _ _) as [? ? ? ? []|]; discriminate.
    + destruct p; [destruct (i_flush P s); discriminate|]. destruct (nth_error _ p); [|discriminate]. destruct (nth_error _ (S p)); [|discriminate]. destruct (_ <? _); discriminate.
    + destruct (p <=? _); [|discriminate]. destruct (nth_error _ p) as [th|]; [|discriminate]. destruct (p_fpending P th); discriminate.
    + injection E as <-. exact HL.
Qed.

Lemma engine_last_ok fuel s inp fl s' : last_ok s -> bsdconv_engine P fuel s inp fl = RDone P s' -> last_ok s'.
Proof.
  intros (l & t & Hl & E & Ht). unfold bsdconv_engine. cbv zeta. apply grun_last_ok; [|exact I].
  destruct l as [|ph0 l]; [cbn in Hl; lia|]. unfold enqueue. rewrite E. cbn [app]. destruct inp as [[d c]|].
  - exists (set_queue P ph0 (firstn (p_tail P ph0) (p_queue P ph0) ++ d :: c) (S (p_tail P ph0)) :: l), t. cbn. auto.
  - exists (ph0 :: l), t. cbn. rewrite E. auto.
Qed.
End E.

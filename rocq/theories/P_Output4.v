(** Invariants of reachable states used by the output modes. *)
From Verif Require Import Base Types M_Engine M_Output S_Session P_Output P_Output2 P_Output3 P_Session2.

Section E.
Context {P : Type}.
Notation ephase := (ephase P). Notation inst := (inst P).

Lemma output_switch_tail (t : ephase) mode r : tail_ok t -> output_switch P t mode = Some r -> or_tail r = length (or_queue r).
Proof.
  intros Ht. destruct mode as [|slack|b| |acc| |]; cbn [output_switch]; cbv zeta; try (intros E; injection E as <-; cbn; auto; fail).
  - destruct (auto_copy _ _ _); [|discriminate]. intros E; injection E as <-. reflexivity.
  - destruct b as [[|x buf]|]; try (intros E; injection E as <-; exact Ht).
    destruct (pre_copy_ok (p_queue P t) (map Some (x :: buf)) (length (x :: buf)) 0 (p_tail P t)) as (a & b & E & H1 & H2 & H3); [apply map_length|lia|exact Ht|].
    rewrite H2. intros Er; injection Er as <-. reflexivity.
Qed.

Lemma init_last_ok (s0 s : inst) : 2 <= length (i_phases P s0) -> bsdconv_init P s0 = Some s -> last_ok s.
Proof.
  intros Hl. unfold bsdconv_init. destruct (i_phases P s0) as [|ph0 rest]; [discriminate|]. cbn in Hl.
  destruct (init_phase P true ph0) as [p0|]; cbn [obind]; [|discriminate].
  destruct (fold_right _ _ rest) as [r|] eqn:Er; cbn [obind]; [|discriminate]. intros E. injection E as <-.
  apply init_rest_spec in Er.
  destruct (@exists_last _ rest) as (l & t & ->); [destruct rest; [cbn in Hl; lia|discriminate]|].
  apply Forall2_app_inv_l in Er. destruct Er as (r1 & r2 & F1 & F2 & ->). inversion F2 as [|? t' ? ? Ht F3]; subst. inversion F3; subst.
  exists (p0 :: r1), t'. cbn. split; [lia|]. split; [reflexivity|].
  unfold init_phase, reset in Ht. destruct (p_codecs P _); [discriminate|]. destruct (read_state _ _); [|discriminate]. injection Ht as <-. reflexivity.
Qed.

Lemma call_last_ok s fuel inp fl mode s' r : last_ok s -> bsdconv_call P fuel s inp fl mode = CDone P s' r -> last_ok s'.
Proof.
  intros HL. unfold bsdconv_call. destruct (bsdconv_engine P fuel s inp fl) as [s1| |] eqn:E; try discriminate.
  destruct (engine_last_ok _ _ _ _ _ HL E) as (l & t & Hl & Ep & Ht). destruct (last_phase_app s1 l t Ep) as (-> & _).
  destruct (output_switch P t mode) as [r0|] eqn:Eo; [|discriminate]. intros Ec. injection Ec as <- <-.
  rewrite (set_last_app s1 l t _ _ Ep). exists l, (set_queue P t (or_queue r0) (or_tail r0)). cbn. repeat split; auto. exact (output_switch_tail _ _ _ Ht Eo).
Qed.

Lemma reachable_last_ok (s : inst) : reachable s -> last_ok s.
Proof. induction 1; [eapply init_last_ok; eassumption|eapply call_last_ok; eassumption]. Qed.

(** ** data_head->len of phases that do not decode stays 0 *)
Definition keeps (t t' : ephase) : Prop := p_type P t' = p_type P t /\ (p_type P t <> FROM -> p_headlen P t' = p_headlen P t).
Lemma keeps_refl t : keeps t t. Proof. split; auto. Qed.
Lemma keeps_trans a b c : keeps a b -> keeps b c -> keeps a c.
Proof. intros (H1 & H2) (H3 & H4). split; [congruence|]. intros H. rewrite H4 by congruence. auto. Qed.
Lemma keeps_mk (t t' : ephase) : p_type P t' = p_type P t -> p_headlen P t' = p_headlen P t -> keeps t t'.
Proof. split; auto. Qed.
Lemma app_tail_keeps t ds : keeps t (app_tail P t ds). Proof. destruct ds; split; reflexivity. Qed.
Lemma reset_keeps t t' : reset P t = Some t' -> keeps t t'.
Proof. unfold reset. destruct (p_codecs P t); [discriminate|]. destruct (read_state _ _); [|discriminate]. intros E; injection E as <-. split; reflexivity. Qed.
Lemma feed_keeps c t v t' : feed P c t v = Some t' -> keeps t t'.
Proof. unfold feed. destruct (get_offset _ _); [|discriminate]. destruct (read_state _ _); [|discriminate]. intros E; injection E as <-. split; reflexivity. Qed.
Lemma listfree_keeps t b t' : listfree P t b = Some t' -> keeps t t'.
Proof. destruct b; [discriminate|]. intros E; injection E as <-. split; reflexivity. Qed.
Lemma call_cb_keeps pv t t' : call_cb P pv t = Some t' -> keeps t t'.
Proof.
  unfold call_cb. destruct (this_codec P t) as [c|]; [|discriminate]. destruct (e_conv P c) as [f|]; [|discriminate]. destruct (curr_node P pv t); [|discriminate].
  intros E. injection E as <-. match goal with |- keeps _ (set_state P (app_tail P ?x ?y) _) => apply keeps_trans with (app_tail P x y); [apply keeps_trans with x; [apply keeps_mk; reflexivity|apply app_tail_keeps]|apply keeps_mk; reflexivity] end.
Qed.
Lemma call_flush_keeps t t' : call_flush P t = Some t' -> keeps t t'.
Proof.
  unfold call_flush. destruct (this_codec P t) as [c|]; [|discriminate]. destruct (e_flush P c) as [f|]; [|intros E; injection E as <-; apply keeps_refl].
  destruct (f (e_priv P c)). intros E. injection E as <-. match goal with |- keeps _ (app_tail P ?x _) => apply keeps_trans with x; [apply keeps_mk; reflexivity|apply app_tail_keeps] end.
Qed.
Lemma bytes_loop_keeps c : forall bs t t' b, bytes_loop P c t bs = Some (t', b) -> keeps t t'.
Proof.
  induction bs as [|x bs IH]; intros t t' b; cbn; [intros E; injection E as <- <-; apply keeps_refl|].
  destruct (feed P c t x) as [t1|] eqn:Ef; [|discriminate]. pose proof (feed_keeps _ _ _ _ Ef) as H1.
  destruct (t_status (p_state P t1)); try (intros E; eapply keeps_trans; [exact H1|]; eapply keeps_trans; [|eapply IH; exact E]; apply keeps_mk; reflexivity).
  intros E. injection E as <- <-. exact H1.
Qed.

Ltac tails := repeat match goal with
  | H : match ?x with _ => _ end = _ |- _ => let E := fresh "E" in destruct x eqn:E; try discriminate
  | H : (if ?x then _ else _) = _ |- _ => let E := fresh "E" in destruct x eqn:E; try discriminate
  | H : ub_or P (obind ?x _) = LRes _ _ _ _ _ _ |- _ => let E := fresh "E" in destruct x eqn:E; cbn [obind ub_or] in H; try discriminate
  | H : ub_or P (Some _) = _ |- _ => cbn [ub_or] in H
  | H : ub_or P None = _ |- _ => discriminate
  | H : ub_or P (if ?x then _ else _) = _ |- _ => let E := fresh "E" in destruct x eqn:E
  | H : ub_or P (match ?x with _ => _ end) = _ |- _ => let E := fresh "E" in destruct x eqn:E
  | H : LRes _ _ _ _ _ _ = LRes _ _ _ _ _ _ |- _ => injection H as <- <- <- <- <-
  end.
Ltac kp := repeat match goal with
  | |- _ /\ _ => split
  | |- keeps ?x ?x => apply keeps_refl
  | H : reset P ?x = Some ?y |- keeps _ ?y => eapply keeps_trans; [|exact (reset_keeps _ _ H)]; clear H
  | H : listfree P ?x _ = Some ?y |- keeps _ ?y => eapply keeps_trans; [|exact (listfree_keeps _ _ _ H)]; clear H
  | H : feed P _ ?x _ = Some ?y |- keeps _ ?y => eapply keeps_trans; [|exact (feed_keeps _ _ _ _ H)]; clear H
  | H : call_cb P _ ?x = Some ?y |- keeps _ ?y => eapply keeps_trans; [|exact (call_cb_keeps _ _ _ H)]; clear H
  | H : call_flush P ?x = Some ?y |- keeps _ ?y => eapply keeps_trans; [|exact (call_flush_keeps _ _ H)]; clear H
  | H : bytes_loop P _ ?x _ = Some (?y, _) |- keeps _ ?y => eapply keeps_trans; [|exact (bytes_loop_keeps _ _ _ _ _ H)]; clear H
  | |- keeps _ (app_tail P ?x _) => eapply keeps_trans; [|apply app_tail_keeps]
  | |- keeps _ (set_flags P ?x _ _ _) => apply keeps_trans with x; [|apply keeps_mk; reflexivity]
  | |- keeps _ (set_curr P ?x _) => apply keeps_trans with x; [|apply keeps_mk; reflexivity]
  | |- keeps _ (set_bak P ?x _) => apply keeps_trans with x; [|apply keeps_mk; reflexivity]
  | |- keeps _ (set_i P ?x _) => apply keeps_trans with x; [|apply keeps_mk; reflexivity]
  | |- keeps _ (set_index P ?x _) => apply keeps_trans with x; [|apply keeps_mk; reflexivity]
  | |- keeps _ (set_state P ?x _) => apply keeps_trans with x; [|apply keeps_mk; reflexivity]
  | |- keeps _ (set_match_data P ?x _) => apply keeps_trans with x; [|apply keeps_mk; reflexivity]
  | |- keeps _ (set_queue P ?x _ _) => apply keeps_trans with x; [|apply keeps_mk; reflexivity]
  end.

Definition tyk (t t' : ephase) : Prop := p_type P t' = p_type P t.
Lemma tyk_headlen t t' x : tyk t t' -> tyk t (set_headlen P t' x). Proof. auto. Qed.

Lemma data_step_keeps pv t pc pv' t' ie oe g : data_step P pv t pc = LRes P pv' t' ie oe g -> keeps pv pv' /\ keeps t t'.
Proof.
  destruct pc; cbn [data_step]; intros Hs; try discriminate.
  - tails; kp.
  - destruct (t_status (p_state P t)); unfold data_commit, data_hold in Hs; cbv zeta in Hs; tails; kp.
  - unfold data_dead in Hs. cbv zeta in Hs. tails; kp.
  - tails; kp.
Qed.

Lemma from_step_keeps pv t pc pv' t' ie oe g : p_type P t = FROM -> from_step P pv t pc = LRes P pv' t' ie oe g -> keeps pv pv' /\ keeps t t'.
Proof.
  intros HT Hs. assert (H : keeps pv pv' /\ p_type P t' = p_type P t).
  { assert (Hk : forall a b, keeps a b -> p_type P b = p_type P a) by (intros a b []; assumption).
    destruct pc; cbn [from_step] in Hs; try discriminate.
    - tails; split; kp; reflexivity.
    - tails; (split; [kp|]); try reflexivity. apply Hk; kp.
    - destruct (t_status (p_state P t)); unfold from_commit in Hs; cbv zeta in Hs; tails; (split; [kp|]); try reflexivity; try (apply Hk; kp; fail);
        rewrite (Hk _ _ (reset_keeps _ _ ltac:(eassumption))); cbn [set_headlen p_type]; apply Hk; kp.
    - unfold from_dead in Hs. cbv zeta in Hs. tails; (split; [kp|]); try reflexivity; try (apply Hk; kp; fail).
      cbn. match goal with H : reset P _ = Some ?x |- p_type P ?x = _ => rewrite (Hk _ _ (reset_keeps _ _ H)) end. reflexivity. }
  destruct H as (H1 & H2). split; [exact H1|]. split; [exact H2|]. intros; contradiction.
Qed.

Lemma local_step_keeps pv t pc pv' t' ie oe g : local_step P pv t pc = LRes P pv' t' ie oe g -> keeps pv pv' /\ keeps t t'.
Proof.
  unfold local_step. destruct (p_type P t) eqn:E; try discriminate; [apply from_step_keeps; exact E|apply data_step_keeps|apply data_step_keeps].
Qed.

Definition heads0 (l : list ephase) : Prop := forall p th, nth_error l p = Some th -> 1 <= p -> p_type P th <> FROM -> p_headlen P th = 0.
Lemma nth_list_upd {A} (l : list A) i x j y : nth_error (list_upd l i x) j = Some y -> (j = i /\ y = x /\ i < length l) \/ nth_error l j = Some y.
Proof. revert i j. induction l as [|a l IH]; intros [|i] [|j]; cbn; intros H; auto. - injection H as <-. left. repeat split; lia. - destruct (IH _ _ H) as [(-> & -> & H2)|H1]; auto. left. repeat split; lia. Qed.
Lemma heads0_upd l p th th' : heads0 l -> nth_error l p = Some th -> keeps th th' -> heads0 (list_upd l p th').
Proof.
  intros H Hn (K1 & K2) q t Hq Hp Ht. destruct (nth_list_upd _ _ _ _ _ Hq) as [(-> & -> & _)|Hq']; [|eapply H; eassumption].
  rewrite K2 by congruence. eapply H; try eassumption. congruence.
Qed.
Lemma grun_heads0 : forall fuel s pc s', heads0 (i_phases P s) -> pc_ok pc -> grun P fuel s pc = RDone P s' -> heads0 (i_phases P s').
Proof.
  induction fuel as [|f IH]; intros s pc s' H0 Hpc; [discriminate|]. cbn [grun].
  destruct (gstep P s pc) as [s1 pc1|s1|] eqn:E; try discriminate.
  - enough (heads0 (i_phases P s1) /\ pc_ok pc1) as (A & B) by (apply IH; assumption).
    destruct pc as [p|p lp|p|p|]; cbn [gstep pc_ok] in *.
    + destruct (Nat.ltb_spec 0 p); cbn [andb] in E; [destruct (p <=? phasen P s)|]; injection E as <- <-; cbn; auto.
    + destruct (nth_error _ (p - 1)) as [pv|] eqn:E1; [|discriminate]. destruct (nth_error _ p) as [th|] eqn:E2; [|discriminate].
      destruct (local_step P pv th lp) as [pv' th' ie oe g|] eqn:Es; [|discriminate]. destruct (local_step_keeps _ _ _ _ _ _ _ _ Es) as (K1 & K2).
      assert (heads0 (list_upd (list_upd (i_phases P s) (p - 1) pv') p th')).
      { apply heads0_upd with th; [eapply heads0_upd; eassumption| |exact K2]. rewrite P_Engine3.list_upd_nth_ne by lia. exact E2. }
      destruct g; injection E as <- <-; cbn; auto.
    + destruct p as [|p].
      * destruct (i_flush P s); injection E as <- <-; cbn; auto.
      * destruct (nth_error _ p); [|discriminate]. destruct (nth_error _ (S p)); [|discriminate]. destruct (_ <? _); injection E as <- <-; cbn; auto.
    + destruct (p <=? phasen P s); [|injection E as <- <-; cbn; auto]. destruct (nth_error _ p) as [th|]; [|discriminate].
      destruct (p_fpending P th); injection E as <- <-; cbn; auto.
    + discriminate.
  - intros H. injection H as <-. destruct pc; cbn [gstep] in E; try discriminate.
    + destruct (_ && _); discriminate.
    + destruct (nth_error _ (p - 1)); [|discriminate]. destruct (nth_error _ p); [|discriminate]. destruct (local_step P _ _ _) as [? ? ? ? []|]; discriminate.
    + destruct p; [destruct (i_flush P s); discriminate|]. destruct (nth_error _ p); [|discriminate]. destruct (nth_error _ (S p)); [|discriminate]. destruct (_ <? _); discriminate.
    + destruct (p <=? _); [|discriminate]. destruct (nth_error _ p) as [th|]; [|discriminate]. destruct (p_fpending P th); discriminate.
    + injection E as <-. exact H0.
Qed.
Lemma engine_heads0 fuel s inp fl s' : heads0 (i_phases P s) -> bsdconv_engine P fuel s inp fl = RDone P s' -> heads0 (i_phases P s').
Proof.
  intros H0. unfold bsdconv_engine. cbv zeta. apply grun_heads0; [|exact I]. cbn [i_phases]. unfold enqueue. destruct inp as [[d c]|]; [|destruct (i_phases P s); exact H0].
  destruct (i_phases P s) as [|ph rest] eqn:E; [rewrite E; exact H0|]. cbn. intros [|p] th Hp H1; [lia|]. exact (H0 (S p) th Hp H1).
Qed.
Lemma reachable_heads0 (s : inst) : reachable s -> heads0 (i_phases P s).
Proof.
  induction 1 as [s0 s Hl Hi|s fuel inp fl mode s' r H IH Hc].
  - unfold bsdconv_init in Hi. destruct (i_phases P s0) as [|ph0 rest]; [discriminate|].
    destruct (init_phase P true ph0) as [p0|]; cbn [obind] in Hi; [|discriminate].
    destruct (fold_right _ _ rest) as [r|] eqn:Er; cbn [obind] in Hi; [|discriminate]. injection Hi as <-. apply init_rest_spec in Er.
    intros [|p] th Hp H1 _; [lia|]. cbn in Hp. apply nth_error_In in Hp. 
    assert (HF : Forall (fun t => p_headlen P t = 0) r). { clear -Er. induction Er as [|a b l l' H HF IH]; constructor; auto. unfold init_phase, reset in H. destruct (p_codecs P _); [discriminate|]. destruct (read_state _ _); [|discriminate]. injection H as <-. reflexivity. }
    rewrite Forall_forall in HF. apply HF, Hp.
  - unfold bsdconv_call in Hc. destruct (bsdconv_engine P fuel s inp fl) as [s1| |] eqn:E; try discriminate.
    pose proof (engine_heads0 _ _ _ _ _ IH E) as H1. destruct (last_phase P s1) as [ph|] eqn:El; [|discriminate].
    destruct (output_switch P ph mode) as [r0|]; [|discriminate]. injection Hc as <- <-. unfold set_last. rewrite El. cbn. eapply heads0_upd; [exact H1|exact El|split; reflexivity].
Qed.
End E.

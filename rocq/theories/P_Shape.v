(** Calls change nothing about the codecs of an instance except their private states. *)
From Verif Require Import Base Types M_Engine M_Output S_Session P_Engine3 P_Session2.

Section E.
Context {P : Type}.
Notation ephase := (ephase P). Notation inst := (inst P). Notation ecodec := (ecodec P).

Definition sc (c c' : ecodec) : Prop := exists p, evolves c p /\ c' = set_priv P c p.
Lemma sc_refl c : sc c c. Proof. exists (e_priv P c). split; [apply ev_start|destruct c; reflexivity]. Qed.
Lemma evolves_trans (c : ecodec) p q : evolves c p -> evolves (set_priv P c p) q -> evolves c q.
Proof.
  intros Hp. induction 1 as [|f q H _ IH|f q d i sd H _ IH|f q H _ IH]; [exact Hp| | |]; cbn [set_priv e_init e_conv e_flush] in H; [apply ev_init|apply ev_conv|apply ev_flush]; assumption.
Qed.
Lemma sc_trans a b c : sc a b -> sc b c -> sc a c.
Proof. intros (p & Hp & ->) (q & Hq & ->). exists q. split; [eapply evolves_trans; eassumption|reflexivity]. Qed.
Definition shc (l l' : list ecodec) : Prop := Forall2 sc l l'.
Lemma shc_refl l : shc l l. Proof. induction l; constructor; auto using sc_refl. Qed.
Lemma shc_trans a b c : shc a b -> shc b c -> shc a c.
Proof. intros H. revert c. induction H; intros d Hd; inversion Hd; subst; constructor; eauto using sc_trans. eapply IHForall2. assumption. Qed.
Lemma shc_upd l n c p : evolves c p -> nth_error l n = Some c -> shc l (list_upd l n (set_priv P c p)).
Proof. intros Hev. revert n. induction l as [|x l IH]; intros [|n] H; cbn in *; try discriminate. - injection H as ->. constructor; [exists p; split; [exact Hev|reflexivity]|apply shc_refl]. - constructor; [apply sc_refl|apply IH; exact H]. Qed.

Definition sh (a b : ephase) : Prop := p_type P a = p_type P b /\ shc (p_codecs P a) (p_codecs P b).
Lemma sh_refl a : sh a a. Proof. split; [reflexivity|apply shc_refl]. Qed.
Lemma sh_trans a b c : sh a b -> sh b c -> sh a c. Proof. intros (H1 & H2) (H3 & H4). split; [congruence|eapply shc_trans; eassumption]. Qed.
Lemma sh_eq a b : p_type P b = p_type P a -> p_codecs P b = p_codecs P a -> sh a b.
Proof. intros H1 H2. split; [auto|]. rewrite H2. apply shc_refl. Qed.

Lemma app_tail_type t ds : p_type P (app_tail P t ds) = p_type P t. Proof. destruct ds; reflexivity. Qed.
Lemma app_tail_codecs t ds : p_codecs P (app_tail P t ds) = p_codecs P t. Proof. destruct ds; reflexivity. Qed.
Lemma reset_sh t t' : reset P t = Some t' -> sh t t'.
Proof. unfold reset. destruct (p_codecs P t) as [|c cs]; [discriminate|]. destruct (read_state _ _); [|discriminate]. intros H. injection H as <-. apply sh_eq; reflexivity. Qed.
Lemma listfree_sh t n t' : listfree P t n = Some t' -> sh t t'.
Proof. destruct n; [discriminate|]. cbn [listfree]. intros H. injection H as <-. apply sh_eq; reflexivity. Qed.
Lemma feed_sh c t v t' : feed P c t v = Some t' -> sh t t'.
Proof. unfold feed. destruct (get_offset _ _); [|discriminate]. destruct (read_state _ _); [|discriminate]. intros H. injection H as <-. apply sh_eq; reflexivity. Qed.
Lemma call_cb_sh pv t t' : call_cb P pv t = Some t' -> sh t t'.
Proof.
  unfold call_cb. destruct (this_codec P t) as [c|] eqn:E; [|discriminate]. destruct (e_conv P c) as [f|] eqn:Ef; [|discriminate]. destruct (curr_node P pv t); [|discriminate]. cbv zeta. intros H. injection H as <-.
  split; cbn [set_state set_i set_codecs p_type p_codecs]; rewrite ?app_tail_type, ?app_tail_codecs; [reflexivity|]. apply shc_upd; [apply ev_conv; [exact Ef|apply ev_start]|exact E].
Qed.
Lemma call_flush_sh t t' : call_flush P t = Some t' -> sh t t'.
Proof.
  unfold call_flush. destruct (this_codec P t) as [c|] eqn:E; [|discriminate]. destruct (e_flush P c) as [f|] eqn:Ef; [|intros H; injection H as <-; apply sh_refl]. destruct (f (e_priv P c)) as [p o] eqn:Efo. intros H. injection H as <-.
  split; rewrite ?app_tail_type, ?app_tail_codecs; [reflexivity|]. apply shc_upd; [|exact E]. change p with (fst (p, o)). rewrite <- Efo. apply ev_flush; [exact Ef|apply ev_start].
Qed.
Lemma bytes_loop_sh c : forall bs t t' b, bytes_loop P c t bs = Some (t', b) -> sh t t'.
Proof.
  induction bs as [|x bs IH]; intros t t' b H; cbn [bytes_loop] in H; [injection H as <- _; apply sh_refl|].
  destruct (feed P c t x) as [t1|] eqn:E; [|discriminate]. apply feed_sh in E. eapply sh_trans; [exact E|].
  destruct (t_status (p_state P t1)); try (injection H as <- _; apply sh_refl); apply IH in H; (eapply sh_trans; [|exact H]); apply sh_eq; reflexivity.
Qed.

Definition rsh (pv th : ephase) (r : lres P) : Prop := match r with LRes _ pv' th' _ _ _ => sh pv pv' /\ sh th th' | LUB _ => True end.

Ltac triv := apply sh_eq; cbn; rewrite ?app_tail_type, ?app_tail_codecs; reflexivity.
Ltac go := cbn [obind ub_or rsh]; try exact I; try (split; [apply sh_refl|triv]).
Ltac fin_reset := match goal with |- context [reset P ?x] => let E := fresh in destruct (reset P x) eqn:E; [apply reset_sh in E|exact I]; cbn [obind ub_or rsh] end.
Ltac fin_free := match goal with |- context [listfree P ?x ?n] => let E := fresh in destruct (listfree P x n) eqn:E; [apply listfree_sh in E|exact I]; cbn [obind ub_or rsh] end.
Ltac close := match goal with H : sh ?x ?b |- sh ?a ?b => apply (sh_trans a x b); [|exact H]; triv end.

Lemma from_commit_sh pv th ds : rsh pv th (from_commit P pv th ds).
Proof. unfold from_commit. cbv zeta. fin_free. fin_reset. split; [assumption|]. eapply sh_trans; [|eassumption]. triv. Qed.
Lemma data_commit_sh pv th ds : rsh pv th (data_commit P pv th ds).
Proof. unfold data_commit. cbv zeta. fin_free. fin_reset. split; [assumption|]. eapply sh_trans; [|eassumption]. triv. Qed.
Lemma from_dead_sh pv th : rsh pv th (from_dead P pv th).
Proof.
  unfold from_dead. cbv zeta. destruct (p_fmatch P _).
  - destruct (p_match_data P _).
    + destruct (call_flush P _) as [t1|] eqn:E; [apply call_flush_sh in E|exact I]. cbn [obind ub_or]. fin_reset. split; [apply sh_refl|]. eapply sh_trans; [|eassumption]. eapply sh_trans; [|apply sh_eq; reflexivity]. eapply sh_trans; [|exact E]. triv.
    + fin_free. fin_reset. split; [assumption|]. eapply sh_trans; [|eassumption]. triv.
  - destruct (_ <? _).
    + destruct (this_codec P _) as [c|]; [|exact I]. cbn [obind]. destruct (read_state (e_tab P c) 0); go.
    + fin_reset. fin_free. split; [assumption|]. eapply sh_trans; [|apply sh_eq; reflexivity]. eapply sh_trans; [|eassumption]. triv.
Qed.
Lemma data_dead_sh pv th : rsh pv th (data_dead P pv th).
Proof.
  unfold data_dead. cbv zeta. destruct (p_fmatch P _).
  - destruct (p_match_data P _).
    + destruct (call_flush P _) as [t1|] eqn:E; [apply call_flush_sh in E|exact I]. cbn [obind ub_or]. fin_reset. split; [apply sh_refl|]. eapply sh_trans; [|eassumption]. eapply sh_trans; [|apply sh_eq; reflexivity]. eapply sh_trans; [|exact E]. triv.
    + fin_free. fin_reset. split; [assumption|]. eapply sh_trans; [|eassumption]. triv.
  - destruct (_ <? _).
    + destruct (this_codec P _) as [c|]; [|exact I]. cbn [obind]. destruct (read_state (e_tab P c) 0); go.
    + destruct (is_to P _).
      * fin_reset. fin_free. split; [assumption|]. eapply sh_trans; [|apply sh_eq; reflexivity]. eapply sh_trans; [|eassumption]. triv.
      * destruct (p_queue P pv); [exact I|]. fin_reset. split; [triv|]. eapply sh_trans; [|eassumption]. triv.
Qed.
Lemma local_step_sh pv th pc : rsh pv th (local_step P pv th pc).
Proof.
  unfold local_step. destruct (p_type P th) eqn:ET; try exact I.
  - destruct pc; cbn [from_step].
    + destruct (_ <? _); go.
    + destruct (curr_len P pv th); [|exact I]. destruct (_ <? _); [|go]. destruct (curr_node P pv th); [|exact I]. destruct (this_codec P th); [|exact I]. destruct (nth_error _ _); [|exact I].
      destruct (feed P _ _ _) eqn:E; [|exact I]. apply feed_sh in E. split; [apply sh_refl|exact E].
    + destruct (t_status (p_state P th)); try apply from_commit_sh; go; (destruct (call_cb P pv th) eqn:E; [|exact I]; apply call_cb_sh in E; split; [apply sh_refl|]; eapply sh_trans; [exact E|]; triv).
    + apply from_dead_sh.
    + exact I.
  - destruct pc; cbn [data_step].
    + destruct (_ <? _); [|go]. cbv zeta. destruct (curr_node P pv _); [|exact I]. destruct (this_codec P _); [|exact I]. destruct (bytes_loop P _ _ _) as [[t3 x]|] eqn:E; [|exact I]. apply bytes_loop_sh in E.
      destruct x; (split; [apply sh_refl|]); (eapply sh_trans; [|exact E]); triv.
    + exact I.
    + destruct (t_status (p_state P th)); try apply data_commit_sh; go; try (destruct (call_cb P pv th) eqn:E; [|exact I]; apply call_cb_sh in E; split; [apply sh_refl|exact E]).
      * cbv zeta. destruct (_ <? _); [go|]. split; triv.
      * destruct (is_to P th); go.
      * unfold data_hold. cbv zeta. fin_free. fin_reset. split; [assumption|]. eapply sh_trans; [|apply sh_eq; reflexivity]. eapply sh_trans; [|eassumption]. triv.
    + apply data_dead_sh.
    + destruct (this_codec P th); [|exact I]. destruct (feed P _ _ _) eqn:E; [|exact I]. apply feed_sh in E. destruct (t_status _); split; try apply sh_refl; exact E.
  - destruct pc; cbn [data_step].
    + destruct (_ <? _); [|go]. cbv zeta. destruct (curr_node P pv _); [|exact I]. destruct (this_codec P _); [|exact I]. destruct (bytes_loop P _ _ _) as [[t3 x]|] eqn:E; [|exact I]. apply bytes_loop_sh in E.
      destruct x; (split; [apply sh_refl|]); (eapply sh_trans; [|exact E]); triv.
    + exact I.
    + destruct (t_status (p_state P th)); try apply data_commit_sh; go; try (destruct (call_cb P pv th) eqn:E; [|exact I]; apply call_cb_sh in E; split; [apply sh_refl|exact E]).
      * cbv zeta. destruct (_ <? _); [go|]. split; triv.
      * destruct (is_to P th); go.
      * unfold data_hold. cbv zeta. fin_free. fin_reset. split; [assumption|]. eapply sh_trans; [|apply sh_eq; reflexivity]. eapply sh_trans; [|eassumption]. triv.
    + apply data_dead_sh.
    + destruct (this_codec P th); [|exact I]. destruct (feed P _ _ _) eqn:E; [|exact I]. apply feed_sh in E. destruct (t_status _); split; try apply sh_refl; exact E.
Qed.

Definition shl (l l' : list ephase) : Prop := Forall2 sh l l'.
Lemma shl_refl l : shl l l. Proof. induction l; constructor; auto using sh_refl. Qed.
Lemma shl_trans a b c : shl a b -> shl b c -> shl a c.
Proof. intros H. revert c. induction H; intros d Hd; inversion Hd; subst; constructor; eauto using sh_trans. eapply IHForall2. assumption. Qed.
Lemma shl_upd l n a b : nth_error l n = Some a -> sh a b -> shl l (list_upd l n b).
Proof. revert n. induction l as [|x l IH]; intros [|n] H HS; cbn in *; try discriminate. - injection H as ->. constructor; [exact HS|apply shl_refl]. - constructor; [apply sh_refl|apply IH; auto]. Qed.

Lemma gstep_shl s pc s' pc' : gstep P s pc = GNextState P s' pc' -> shl (i_phases P s) (i_phases P s').
Proof.
  destruct pc as [p|p lp|p|p|]; cbn [gstep].
  - destruct (_ && _); intros H; injection H as <- _; apply shl_refl.
  - destruct (nth_error (i_phases P s) (p - 1)) as [pv|] eqn:E1; [|discriminate]. destruct (nth_error (i_phases P s) p) as [th|] eqn:E2; [|discriminate].
    pose proof (local_step_sh pv th lp) as H. destruct (local_step P pv th lp) as [pv' th' ie oe g|]; [|discriminate]. destruct H as (H1 & H2). cbv zeta. intros HG.
    assert (shl (i_phases P s) (list_upd (list_upd (i_phases P s) (p - 1) pv') p th')).
    { destruct (Nat.eq_dec (p - 1) p) as [Ep|Ep].
      - assert (p = 0) by lia. subst p. cbn [Nat.sub] in *. assert (pv = th) by congruence. subst. pose proof (shl_upd _ _ _ _ E2 H2) as Hu. destruct (i_phases P s); exact Hu.
      - eapply shl_trans; [exact (shl_upd _ _ _ _ E1 H1)|]. eapply shl_upd; [rewrite list_upd_nth_ne by exact Ep; exact E2|exact H2]. }
    destruct g; injection HG as <- _; exact H.
  - destruct p as [|p'].
    + destruct (i_flush P s); intros H; injection H as <- _; apply shl_refl.
    + destruct (nth_error _ _); [|discriminate]. destruct (nth_error _ _); [|discriminate]. destruct (_ <? _); intros H; injection H as <- _; apply shl_refl.
  - destruct (_ <=? _); [|intros H; injection H as <- _; apply shl_refl]. destruct (nth_error _ _); [|discriminate]. destruct (p_fpending _ _); intros H; injection H as <- _; apply shl_refl.
  - discriminate.
Qed.
Lemma grun_shl : forall f s pc s', grun P f s pc = RDone P s' -> shl (i_phases P s) (i_phases P s').
Proof.
  induction f as [|f IH]; intros s pc s' H; [discriminate|]. cbn [grun] in H. destruct (gstep P s pc) as [s1 pc1|s1|] eqn:E; try discriminate.
  - eapply shl_trans; [eapply gstep_shl; exact E|eapply IH; exact H].
  - injection H as <-. destruct pc; cbn [gstep] in E; try discriminate.
    + destruct (_ && _); discriminate.
    + destruct (nth_error _ _); [|discriminate]. destruct (nth_error _ _); [|discriminate]. destruct (local_step _ _ _ _) as [? ? ? ? g|]; [|discriminate]. destruct g; discriminate.
    + destruct p; [destruct (i_flush P s); discriminate|]. destruct (nth_error _ _); [|discriminate]. destruct (nth_error _ _); [|discriminate]. destruct (_ <? _); discriminate.
    + destruct (_ <=? _); [|discriminate]. destruct (nth_error _ _); [|discriminate]. destruct (p_fpending _ _); discriminate.
    + injection E as <-. apply shl_refl.
Qed.
Lemma engine_shl f s inp fl s' : bsdconv_engine P f s inp fl = RDone P s' -> shl (i_phases P s) (i_phases P s').
Proof.
  unfold bsdconv_engine. cbv zeta. intros H. apply grun_shl in H. cbn [i_phases] in H. eapply shl_trans; [|exact H]. unfold enqueue. destruct inp as [[d ch]|]; [|apply shl_refl]. destruct (i_phases P s) as [|ph0 rest] eqn:E; [rewrite E; constructor|]. cbn. constructor; [triv|apply shl_refl].
Qed.
Lemma call_shl f s inp fl m s' r : bsdconv_call P f s inp fl m = CDone P s' r -> shl (i_phases P s) (i_phases P s').
Proof.
  unfold bsdconv_call. destruct (bsdconv_engine P f s inp fl) as [s1| |] eqn:E; try discriminate. apply engine_shl in E. destruct (last_phase P s1) as [ph|] eqn:EL; [|discriminate]. destruct (output_switch P ph m) as [r'|]; [|discriminate]. intros H. injection H as <- <-.
  eapply shl_trans; [exact E|]. unfold set_last. rewrite EL. cbn [i_phases]. eapply shl_upd; [exact EL|]. triv.
Qed.
Lemma hist_shl f : forall h s s' o, run_hist P f s h = Some (s', o) -> shl (i_phases P s) (i_phases P s').
Proof.
  induction h as [|k h IH]; intros s s' o H; cbn in H; [injection H as <- _; apply shl_refl|]. destruct (bsdconv_call P f s (c_input k) (c_flush k) (c_mode k)) as [s1 r| |] eqn:E; try discriminate. apply call_shl in E.
  destruct (run_hist P f s1 h) as [[s2 o2]|] eqn:E2; [|discriminate]. injection H as <- _. eapply shl_trans; [exact E|eapply IH; exact E2].
Qed.
Lemma init_shl s s' : bsdconv_init P s = Some s' -> shl (i_phases P s) (i_phases P s').
Proof.
  unfold bsdconv_init. destruct (i_phases P s) as [|ph0 rest]; [discriminate|]. destruct (init_phase P true ph0) as [p0|] eqn:E0; [|discriminate]. cbn [obind].
  destruct (fold_right _ _ rest) as [r|] eqn:E; [|discriminate]. cbn [obind]. intros H. injection H as <-. cbn [i_phases]. constructor; [unfold init_phase in E0; injection E0 as <-; triv|]. clear E0.
  revert r E. induction rest as [|t rest IH]; intros r E; cbn [fold_right] in E; [injection E as <-; constructor|].
  destruct (fold_right _ _ rest) as [l|]; [|discriminate E]. cbn [obind] in E. destruct (init_phase P false t) as [t'|] eqn:Et; [|discriminate]. cbn [obind] in E. injection E as <-. constructor; [|apply IH; reflexivity].
  unfold init_phase in Et. cbv zeta in Et. apply reset_sh in Et. eapply sh_trans; [|exact Et]. split; [reflexivity|]. cbn. clear. induction (p_codecs P t) as [|c cs IH]; constructor; auto. unfold init_codec. destruct (e_init P c) as [f|] eqn:Ef; [exists (f (e_priv P c)); split; [apply ev_init; [exact Ef|apply ev_start]|reflexivity]|apply sc_refl].
Qed.
End E.

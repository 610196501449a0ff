(** Phases of stateless codecs as instances of P_Flow. *)
From Verif Require Import Base Types M_Engine M_Output S_Session S_Engine P_Trans P_Engine1 P_Engine2 P_Engine3 P_Engine4 P_Engine5 P_Engine6 P_Ebcdic P_Flow.

Section E.
Context {P : Type}.
Notation ecodec := (ecodec P). Notation ephase := (ephase P).
Arguments p_type {P}. Arguments p_codecs {P}. Arguments p_index {P}. Arguments p_curr {P}. Arguments p_i {P}.
Arguments p_bak {P}. Arguments p_headlen {P}. Arguments p_match_data {P}. Arguments p_state {P}. Arguments p_offset {P}.
Arguments p_fmatch {P}. Arguments p_fpending {P}. Arguments p_floop {P}. Arguments p_queue {P}. Arguments p_tail {P}.
Arguments e_tab {P}. Arguments e_conv {P}. Arguments e_flush {P}. Arguments e_init {P}. Arguments e_priv {P}.
Arguments cb_priv {P}. Arguments cb_i {P}. Arguments cb_status {P}. Arguments cb_out {P}.
Arguments local_step {P}. Arguments from_step {P}. Arguments LRes {P}. Arguments LUB {P}.

(** ** A decoding phase that produces only non-empty data *)
Record codec_ne (c : ecodec) : Prop := {
  cn_tab : Forall (fun st => Forall ne (t_data st)) (e_tab c);
  cn_conv : forall f p d i sd, e_conv c = Some f -> Forall ne (cb_out (f p d i sd));
  cn_flush : forall f p, e_flush c = Some f -> Forall ne (snd (f p))
}.
Record phase_ne (th : ephase) : Prop := {
  pn_codecs : Forall codec_ne (p_codecs th);
  pn_match : Forall ne (p_match_data th);
  pn_state : Forall ne (t_data (p_state th))
}.
Definition grows (th th' : ephase) : Prop :=
  p_type th' = p_type th /\ phase_ne th' /\ p_tail th' = length (p_queue th') /\ exists o, p_queue th' = p_queue th ++ o /\ Forall ne o.

Lemma codec_ne_priv c p : codec_ne c -> codec_ne (set_priv P c p).
Proof. intros [A B C]. constructor; assumption. Qed.
Lemma codecs_ne_upd (cs : list ecodec) n c : Forall codec_ne cs -> codec_ne c -> Forall codec_ne (list_upd cs n c).
Proof. intros H Hc. revert n. induction H; intros [|n]; cbn; constructor; auto. Qed.
Lemma tab_ne c off s : codec_ne c -> read_state (e_tab c) off = Some s -> Forall ne (t_data s).
Proof. intros [A _ _] E. unfold read_state in E. apply nth_error_In in E. rewrite Forall_forall in A. apply A. exact E. Qed.
Lemma this_ne th c : phase_ne th -> this_codec P th = Some c -> codec_ne c.
Proof. intros [A _ _] E. unfold this_codec in E. apply nth_error_In in E. rewrite Forall_forall in A. apply A. exact E. Qed.

(** the shape shared by all steps: new control fields, data appended *)
Lemma grows_mk th th' cs md st o : p_tail th = length (p_queue th) -> Forall codec_ne cs -> Forall ne md -> Forall ne (t_data st) -> Forall ne o ->
  p_type th' = p_type th -> p_codecs th' = cs -> p_match_data th' = md -> p_state th' = st -> p_queue th' = p_queue th ++ o -> p_tail th' = p_tail th + length o -> grows th th'.
Proof.
  intros Ht H1 H2 H3 H4 E1 E2 E3 E4 E5 E6. split; [exact E1|]. split; [constructor; congruence|]. split; [rewrite E5, E6, app_length; lia|]. exists o. auto.
Qed.

Lemma feed_ne c th v th' : p_tail th = length (p_queue th) -> phase_ne th -> codec_ne c -> feed P c th v = Some th' -> grows th th'.
Proof.
  intros Ht HN HC. unfold feed. destruct (get_offset (p_state th) v); [|discriminate]. destruct (read_state _ _) eqn:E; [|discriminate]. intros H. injection H as <-.
  destruct HN. apply (grows_mk th _ (p_codecs th) (p_match_data th) t []); auto; cbn.
  - eapply tab_ne; eassumption.
  - rewrite app_nil_r. reflexivity.
Qed.
Lemma grows_trans a b c : grows a b -> grows b c -> grows a c.
Proof.
  intros (A1 & A2 & A3 & o & A4 & A5) (B1 & B2 & B3 & o' & B4 & B5). split; [congruence|]. split; [assumption|]. split; [assumption|]. exists (o ++ o'). split; [rewrite B4, A4, app_assoc; reflexivity|apply Forall_app; auto].
Qed.
Lemma reset_ne th th' : p_tail th = length (p_queue th) -> phase_ne th -> reset P th = Some th' -> grows th th'.
Proof.
  intros Ht HN. unfold reset. destruct (p_codecs th) as [|c cs] eqn:Ec; [discriminate|]. destruct (read_state _ _) eqn:E; [|discriminate]. intros H. injection H as <-.
  destruct HN as [N1 N2 N3]. rewrite Ec in N1. inversion N1; subst. apply (grows_mk th _ (c :: cs) (p_match_data th) t []); auto; cbn.
  - eapply tab_ne; eassumption.
  - rewrite app_nil_r. reflexivity.
Qed.
Lemma app_ne th ds : p_tail th = length (p_queue th) -> phase_ne th -> Forall ne ds -> grows th (app_tail P th ds).
Proof.
  intros Ht [N1 N2 N3] Hd. rewrite app_tail_end by exact Ht. apply (grows_mk th _ (p_codecs th) (p_match_data th) (p_state th) ds); auto. cbn. rewrite app_length. lia.
Qed.
Lemma call_cb_ne pv th th' : p_tail th = length (p_queue th) -> phase_ne th -> call_cb P pv th = Some th' -> grows th th'.
Proof.
  intros Ht HN. unfold call_cb. destruct (this_codec P th) as [c|] eqn:Ec; [|discriminate]. pose proof (this_ne _ _ HN Ec) as HC.
  destruct (e_conv c) as [f|] eqn:Ef; [|discriminate]. destruct (curr_node P pv th) as [d|]; [|discriminate]. intros H. injection H as <-. destruct HN as [N1 N2 N3].
  rewrite app_tail_end by exact Ht.
  apply (grows_mk th _ (list_upd (p_codecs th) (p_index th) (set_priv P c (cb_priv (f (e_priv c) d (p_i th) (t_data (p_state th)))))) (p_match_data th) (with_status (p_state th) (cb_status (f (e_priv c) d (p_i th) (t_data (p_state th))))) (cb_out (f (e_priv c) d (p_i th) (t_data (p_state th))))); auto.
  - apply codecs_ne_upd; [exact N1|apply codec_ne_priv; exact HC].
  - apply (cn_conv _ HC). exact Ef.
  - cbn. rewrite app_length. lia.
Qed.
Lemma call_flush_ne th th' : p_tail th = length (p_queue th) -> phase_ne th -> call_flush P th = Some th' -> grows th th'.
Proof.
  intros Ht HN. unfold call_flush. destruct (this_codec P th) as [c|] eqn:Ec; [|discriminate]. pose proof (this_ne _ _ HN Ec) as HC.
  destruct (e_flush c) as [f|] eqn:Ef.
  - pose proof (cn_flush _ HC f (e_priv c) Ef) as Ho. destruct (f (e_priv c)) as [p out]. cbn [snd] in Ho. intros H. injection H as <-. destruct HN as [N1 N2 N3].
    rewrite app_tail_end by exact Ht. apply (grows_mk th _ (list_upd (p_codecs th) (p_index th) (set_priv P c p)) (p_match_data th) (p_state th) out); auto.
    + apply codecs_ne_upd; [exact N1|apply codec_ne_priv; exact HC].
    + cbn. rewrite app_length. lia.
  - intros H. injection H as <-. destruct HN. apply (grows_mk th th (p_codecs th) (p_match_data th) (p_state th) []); auto; rewrite app_nil_r; reflexivity.
Qed.
(** control fields do not matter *)
Lemma grows_ctl a b b' : grows a b -> p_type b' = p_type b -> p_codecs b' = p_codecs b -> p_match_data b' = p_match_data b \/ p_match_data b' = [] \/ p_match_data b' = t_data (p_state b) ->
  t_data (p_state b') = t_data (p_state b) \/ Forall ne (t_data (p_state b')) -> p_queue b' = p_queue b -> p_tail b' = p_tail b -> grows a b'.
Proof.
  intros (A1 & [N1 N2 N3] & A3 & o & A4 & A5) E1 E2 E3 E4 E5 E6. split; [congruence|]. split.
  - constructor; [rewrite E2; exact N1| |destruct E4 as [->|E4]; assumption]. destruct E3 as [->|[->| ->]]; [assumption|constructor|assumption].
  - split; [congruence|]. exists o. split; [congruence|assumption].
Qed.
Lemma grows_refl th : p_tail th = length (p_queue th) -> phase_ne th -> grows th th.
Proof. intros Ht HN. split; [reflexivity|]. split; [assumption|]. split; [assumption|]. exists []. split; [rewrite app_nil_r; reflexivity|constructor]. Qed.
Lemma grows_ok a b : grows a b -> p_tail b = length (p_queue b) /\ phase_ne b.
Proof. intros (A1 & A2 & A3 & _). auto. Qed.
Ltac gctl H := eapply grows_ctl; [exact H|first [reflexivity|auto]..].

Lemma from_step_ne pv th pc pv' th' ie oe g : p_tail th = length (p_queue th) -> phase_ne th -> from_step pv th pc = LRes pv' th' ie oe g -> grows th th'.
Proof.
  intros Ht HN. pose proof (grows_refl th Ht HN) as G0. destruct pc; cbn [from_step].
  - destruct (p_curr th <? length (p_queue pv)); intros H; injection H as _ <- _ _ _; [gctl G0|exact G0].
  - destruct (curr_len P pv th); [|discriminate]. destruct (p_i th <? n); [|intros H; injection H as _ <- _ _ _; exact G0].
    destruct (curr_node P pv th); [|discriminate]. destruct (this_codec P th) as [c|] eqn:Ec; [|discriminate]. destruct (nth_error d (p_i th)); [|discriminate].
    destruct (feed P c th n0) eqn:Ef; [|discriminate]. intros H. injection H as _ <- _ _ _. eapply feed_ne; [exact Ht|exact HN|eapply this_ne; eassumption|exact Ef].
  - assert (Hcommit : forall ds, Forall ne ds -> from_commit P pv th ds = LRes pv' th' ie oe g -> grows th th').
    { intros ds Hd. unfold from_commit. cbv zeta. set (t0 := set_match_data P (set_flags P th false false false) []).
      assert (G1 : grows th t0) by gctl G0. destruct (grows_ok _ _ G1) as (T1 & T2). pose proof (grows_trans _ _ _ G1 (app_ne t0 ds T1 T2 Hd)) as G2. set (t1 := app_tail P t0 ds) in *.
      destruct (listfree P pv (p_curr t1)); [|discriminate]. cbn [obind].
      set (t2 := set_headlen P _ _). assert (G3 : grows th t2) by gctl G2. destruct (grows_ok _ _ G3) as (T3 & T4). destruct (reset P t2) eqn:Er; [|discriminate]. cbn [obind ub_or]. intros H. injection H as _ <- _ _ _.
      eapply grows_trans; [exact G3|]. eapply reset_ne; eassumption. }
    destruct (t_status (p_state th)).
    + intros H. injection H as _ <- _ _ _. gctl G0.
    + intros H. injection H as _ <- _ _ _. exact G0.
    + apply Hcommit. apply HN.
    + intros H. injection H as _ <- _ _ _. gctl G0.
    + destruct (call_cb P pv th) eqn:Ec; [|discriminate]. intros H. injection H as _ <- _ _ _. pose proof (call_cb_ne _ _ _ Ht HN Ec) as G1. gctl G1.
    + destruct (call_cb P pv th) eqn:Ec; [|discriminate]. intros H. injection H as _ <- _ _ _. pose proof (call_cb_ne _ _ _ Ht HN Ec) as G1. gctl G1.
    + apply Hcommit. constructor.
    + intros H. injection H as _ <- _ _ _. gctl G0.
    + intros H. injection H as _ <- _ _ _. exact G0.
  - unfold from_dead. cbv zeta. set (t0 := set_flags P th (p_fmatch th) false false). assert (G1 : grows th t0) by gctl G0. destruct (grows_ok _ _ G1) as (T1 & T2).
    destruct (p_fmatch t0).
    + assert (Hmd : Forall ne (p_match_data t0)) by apply T2. destruct (p_match_data t0) as [|m0 ms] eqn:Em.
      * destruct (call_flush P t0) as [t1|] eqn:Ef; [|discriminate]. cbn [obind]. pose proof (grows_trans _ _ _ G1 (call_flush_ne _ _ T1 T2 Ef)) as G2.
        set (t2 := set_flags P t1 false false false). assert (G3 : grows th t2) by gctl G2. destruct (grows_ok _ _ G3) as (T3 & T4).
        destruct (reset P t2) eqn:Er; [|discriminate]. cbn [obind ub_or]. intros H. injection H as _ <- _ _ _. eapply grows_trans; [exact G3|]. eapply reset_ne; eassumption.
      * destruct (listfree P pv (p_bak t0)); [|discriminate]. cbn [obind].
        pose proof (grows_trans _ _ _ G1 (app_ne t0 (m0 :: ms) T1 T2 Hmd)) as G2. set (t1 := app_tail P t0 (m0 :: ms)) in *.
        set (t2 := set_flags P _ false false false). assert (G3 : grows th t2) by gctl G2. destruct (grows_ok _ _ G3) as (T3 & T4).
        destruct (reset P t2) eqn:Er; [|discriminate]. cbn [obind ub_or]. intros H. injection H as _ <- _ _ _. eapply grows_trans; [exact G3|]. eapply reset_ne; eassumption.
    + destruct (p_index t0 <? codecn P t0).
      * destruct (this_codec P (set_index P t0 (S (p_index t0)))) as [c|] eqn:Ec; [|discriminate]. cbn [obind]. destruct (read_state (e_tab c) 0) as [s|] eqn:Es; [|discriminate]. cbn [obind ub_or].
        intros H. injection H as _ <- _ _ _.
        assert (HC : codec_ne c). { eapply this_ne; [|exact Ec]. destruct T2. constructor; assumption. }
        eapply grows_ctl; [exact G1|reflexivity|reflexivity|auto|right; cbn; eapply tab_ne; eassumption|reflexivity|reflexivity].
      * destruct (reset P t0) as [t1|] eqn:Er; [|discriminate]. cbn [obind]. pose proof (grows_trans _ _ _ G1 (reset_ne _ _ T1 T2 Er)) as G2.
        destruct (listfree P pv (p_curr t1)); [|discriminate]. cbn [obind ub_or]. intros H. injection H as _ <- _ _ _. gctl G2.
  - discriminate.
Qed.
Lemma lsteps_ne pv th pc pv' th' ie oe g : lsteps pv th pc pv' th' ie oe g -> p_type th = FROM -> p_tail th = length (p_queue th) -> phase_ne th -> grows th th'.
Proof.
  assert (Hl : forall pv th pc pv' th' ie oe g, local_step pv th pc = LRes pv' th' ie oe g -> p_type th = FROM -> p_tail th = length (p_queue th) -> phase_ne th -> grows th th').
  { intros pv0 th0 pc0 pv0' th0' ie0 oe0 g0 H Hty Ht HN. unfold local_step in H. rewrite Hty in H. eapply from_step_ne; eassumption. }
  induction 1 as [pv th pc pv' th' ie oe g H|pv th pc pv1 th1 ie1 oe1 pc1 pv' th' ie oe g H _ IH]; intros Hty Ht HN; [eauto|].
  pose proof (Hl _ _ _ _ _ _ _ _ H Hty Ht HN) as G1. destruct (grows_ok _ _ G1) as (T1 & T2). eapply grows_trans; [exact G1|]. apply IH; auto. destruct G1; congruence.
Qed.

(** ** The instance *)
Variable ty : ptype.
Variable ks : list (codec_spec (P:=P)).
Variable cout : bool.
Hypothesis cout_from : cout = true -> ty = FROM.
Hypothesis ks_eof : forall j k, nth_error ks j = Some k -> eof_clean k \/ (ty = FROM /\ j = length ks - 1 /\ no_sub (k_v k)).

Definition tden (B : list datum) : Den (P:=P) := fun Y o e f =>
  f = None /\ exists o1 e1, trans (kind_of ty) (sems ks) (B ++ inj (kind_of ty) Y) = (o1, e1) /\ o = filter nonempty o1 /\ err_of (kind_of ty) e1 = (0, e).
Definition tinv (fin mid : bool) (pv th : ephase) (D : Den (P:=P)) (m : list nat) : Prop :=
  p_type th = ty /\ (cout = true -> phase_ne th) /\ exists B pre, pinv fin mid pv th ks B pre /\ m = pmeasure pv th B /\ forall Y o e f, D Y o e f -> tden B Y o e f.
Definition table_spec : pspec (P:=P) := mkPs ty false cout tinv (fun _ f => f = None).

Lemma err_of_add k a b e : err_of k (a + b) = (0, e) -> exists x y, err_of k a = (0, x) /\ err_of k b = (0, y) /\ e = x + y.
Proof.
  destruct k; cbn; intros H; pose proof (f_equal fst H) as F1; pose proof (f_equal snd H) as F2; cbn in F1, F2; clear H.
  - assert (a + b = 0 /\ e = 0) as (H1 & ->) by lia. exists 0, 0. split; [f_equal; lia|]. split; [f_equal; lia|reflexivity].
  - exists 0, 0. split; [reflexivity|]. split; [reflexivity|lia].
  - exists a, b. split; [reflexivity|]. split; [reflexivity|lia].
  - exists 0, 0. split; [reflexivity|]. split; [reflexivity|lia].
Qed.

Lemma ach_table fin (pv th : ephase) (D : Den (P:=P)) m pc B : p_type th = ty -> p_tail th = length (p_queue th) -> (cout = true -> phase_ne th) -> m = pmeasure pv th B ->
  (forall Y o e f, D Y o e f -> tden B Y o e f) -> live fin D -> achieves fin pv th ks B pc -> ach table_spec fin pv th D m pc.
Proof.
  intros Hty Ht Hne Hm HD (Y0 & o0 & e0 & f0 & Ha0 & HD0) (pv' & th' & ie & oe & g & Hls & Hctl & Hst & out0 & out & e & B' & pre' & mid' & A1 & A1b & A2 & A3 & A4 & A5 & A6 & A7 & A8).
  rewrite Hty in *.
  assert (Hal : forall Y, alw fin Y -> alw fin (inj (kind_of ty) Y)) by (intros Y H Ef; rewrite (H Ef); apply inj_nil).
  assert (Hstep : forall Y o e2 f, alw fin Y -> D Y o e2 f -> ie = 0 /\ exists o' e', tden B' Y o' e' f /\ o = filter nonempty out0 ++ o' /\ e2 = oe + e').
  { intros Y o e2 f HY HDY. destruct (HD _ _ _ _ HDY) as (-> & o1 & e1 & T1 & T2 & T3). rewrite (A4 _ (Hal Y HY)) in T1.
    destruct (trans (kind_of ty) (sems ks) (B' ++ inj (kind_of ty) Y)) as [o1' e1'] eqn:ET. cbn [fst snd] in T1. injection T1 as <- <-.
    destruct (err_of_add _ _ _ _ T3) as (x & y & X1 & X2 & X3). rewrite <- A5 in X1. injection X1 as -> ->. split; [reflexivity|].
    exists (filter nonempty o1'), y. split; [split; [reflexivity|]; exists o1', e1'; auto|]. split; [rewrite T2, filter_app, A1b; reflexivity|exact X3]. }
  destruct (Hstep _ _ _ _ Ha0 HD0) as (-> & _).
  assert (Hg : cout = true -> grows th th') by (intros Hc; eapply lsteps_ne; [exact Hls|rewrite Hty; apply cout_from; exact Hc|exact Ht|apply Hne; exact Hc]).
  exists pv', th', oe, g. split; [exact Hls|]. split; [exact Hctl|]. split; [exact Hst|]. exists out0, (tden B'), (pmeasure pv' th' B'), mid'.
  split; [exact A1|]. split; [exact A2|]. split; [|split; [|split; [|split]]].
  - cbn. intros Hc. destruct (Hg Hc) as (_ & _ & _ & o & Eo & Ho). rewrite A1 in Eo. apply app_inv_head in Eo. subst o. exact Ho.
  - cbn. split; [destruct Hst as (H & _); congruence|]. split; [intros Hc; apply (Hg Hc)|]. exists B', pre'. auto.
  - intros Y o e2 f HY HDY. apply (Hstep _ _ _ _ HY HDY).
  - rewrite Hm. exact A6.
  - exact A8.
Qed.

Lemma phase_ne_ctl (a b : ephase) : phase_ne a -> same_ctl a b -> phase_ne b.
Proof. intros [] ->. constructor; assumption. Qed.

Theorem table_ok : pspec_ok table_spec.
Proof.
  constructor; cbn [table_spec s_type s_cin s_cout s_inv s_fin].
  - intros fin mid pv th D m (Hty & _ & B & pre & HI & -> & _). split; [exact Hty|]. split; [apply HI|reflexivity].
  - intros fin pv th D m (Hty & Hne & B & pre & HI & Hm & HD) Ht HL Hlt. eapply ach_table; eauto. eapply local_outer; eassumption.
  - intros Hf fin pv th D m (Hty & Hne & B & pre & HI & Hm & HD) Ht HL.
    assert (Herr : err_okE false fin pv th ks B).
    { right. intros _. right. destruct HL as (Y & o & e & f & HY & HDY). destruct (HD _ _ _ _ HDY) as (_ & o1 & e1 & T1 & T2 & T3). exists (inj (kind_of ty) Y). split; [intros Ef; rewrite (HY Ef); apply inj_nil|].
      rewrite Hf in *. cbn [kind_of] in *. cbn in T3. rewrite T1. cbn. congruence. }
    destruct (local_inner false fin pv th ks B pre (eq_trans Hty Hf) Ht HI Herr) as [[HA|(Hx & _)]|(Hs & HI')].
    + left. eapply ach_table; eauto.
    + discriminate.
    + right. split; [exact Hs|]. split; [exact Hty|]. split; [exact Hne|]. exists B, pre. auto.
  - intros fin mid pv th D m (Hty & Hne & B & pre & HI & Hm & HD) Hle. eapply local_outer_idle; eassumption.
  - intros fin pv th D m (Hty & Hne & B & pre & HI & Hm & HD) Ht Hle Hpend (o & e & f & HD0).
    destruct (HD _ _ _ _ HD0) as (_ & o1 & e1 & T1 & T2 & T3). rewrite inj_nil, app_nil_r in T1.
    assert (HL : live true D) by (exists [], o, e, f; split; [intros _; reflexivity|exact HD0]).
    destruct (eof_dead false fin pv th ks B pre HI Hle Hpend) as [HDI|(Hx & _)]; [|  |discriminate].
    { intros j k Hk. destruct (ks_eof j k Hk) as [H|(H1 & H2 & H3)]; [left; exact H|right]. split; [congruence|]. split; [exact H2|]. split; [exact H3|]. right.
      rewrite H1 in T1, T3. cbn [kind_of] in *. cbn in T3. rewrite T1. cbn. congruence. }
    assert (Herr : err_okE false true pv th ks B).
    { right. intros Hf. right. exists []. split; [intros _; reflexivity|]. rewrite app_nil_r. rewrite Hty in Hf. rewrite Hf in *. cbn [kind_of] in *. cbn in T3. rewrite T1. cbn. congruence. }
    destruct (dead_progressE false true pv th ks B Ht HDI Herr) as [HA|(Hx & _)]; [|discriminate].
    eapply ach_table; eauto. apply ach3_ach. exact HA.
  - intros fin pv th D m o e f (Hty & Hne & B & pre & HI & Hm & HD) Hle Hpend HD0. destruct (HD _ _ _ _ HD0) as (-> & o1 & e1 & T1 & T2 & T3).
    assert (HB : B = []).
    { rewrite (idle_all _ _ _ _ _ _ HI Hle). destruct HI as [_ _ _ _ _ Hpe _ _]. rewrite Hpend in Hpe. destruct pre; [reflexivity|discriminate]. }
    rewrite HB, inj_nil, app_nil_l, trans_nil in T1. injection T1 as <- <-. cbn in T2. split; [exact T2|]. split; [|reflexivity]. destruct (kind_of ty); cbn in T3; congruence.
  - intros mid pv pv' th D m ds (Hty & Hne & B & pre & HI & Hm & HD) Hq Ht Hh _. eexists. split; [exact Hty|]. split; [exact Hne|].
    exists (B ++ inj (kind_of (p_type th)) ds), pre. split; [|split; [reflexivity|]].
    + eapply pinv_append; eauto.
      * intros Hf. rewrite Hh by congruence. destruct HI as [_ _ _ _ _ _ _ Hpos]. rewrite Hf in Hpos. apply Hpos.
      * intros Ef. discriminate.
    + intros Y o e f HDY. unfold fed in HDY. destruct (HD _ _ _ _ HDY) as (-> & o1 & e1 & T1 & T2). split; [reflexivity|]. exists o1, e1. split; [|exact T2].
      rewrite <- T1. rewrite inj_app, Hty, app_assoc. do 2 f_equal. f_equal. apply inj_strip. clear. induction ds as [|[|x d] ds IH]; cbn; [reflexivity|exact IH|f_equal; exact IH].
  - intros fin mid pv th th' D m (Hty & Hne & B & pre & HI & Hm & HD) Hc. split; [rewrite Hc; exact Hty|]. split; [intros H; eapply phase_ne_ctl; [apply Hne; exact H|exact Hc]|].
    exists B, pre. split; [eapply pinv_same_ctl; eassumption|]. split; [rewrite (pmeasure_ctl pv th th' B Hc); exact Hm|exact HD].
  - intros fin pv th D m (Hty & Hne & B & pre & HI & Hm & HD). split; [exact Hty|]. split; [exact Hne|]. exists B, pre. split; [apply pinv_mid; exact HI|auto].
  - intros mid pv th D m (Hty & Hne & B & pre & HI & Hm & HD). split; [exact Hty|]. split; [exact Hne|]. exists B, pre. split; [apply pinv_fin; exact HI|auto].
  - intros th th' f -> _. reflexivity.
Qed.
End E.

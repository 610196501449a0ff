(** Chained input (BSDCONV_PASS) at the level of dictionaries; sequences of streams. *)
From Verif Require Import Base Types M_Engine M_Output S_Session S_Engine S_Dict S_Table S_Convert S_Streams P_Trans P_Engine1 P_Engine2 P_Engine3 P_Engine4 P_Engine5 P_Engine6 P_Output P_Output2 P_Output3 P_Session P_Dict P_Convert P_Session2 P_Session3 P_Output4 P_PrevPhase P_Pass.

Section Glue.
Context {P : Type}.
Variable c : list phase_desc.
Variable s0 : inst P.
Hypothesis Hok : conv_ok c.
Hypothesis Him : implements P s0 c.
Notation gquiet := (gquiet c s0).

Theorem gmulti s d chain mode out oe : gquiet s -> lossless mode -> run_conv c [concat (d :: chain)] out 0 oe ->
  exists fuel0 s' r, (forall fuel, fuel0 <= fuel -> bsdconv_call P fuel s (Some (d, chain)) true mode = CDone P s' r) /\
    delivered mode r ++ pending P s' = pending P s ++ concat out /\ i_ierr P s' = i_ierr P s /\ i_oerr P s' = i_oerr P s + oe.
Proof.
  intros HQ Hll HR.
  destruct (pipeline_run_conv c [concat (d :: chain)] 0 0 (co_types _ Hok)) as (ie' & oe' & HR' & E1 & E2).
  destruct (run_conv_det _ _ _ _ _ HR _ _ _ HR') as (Eo & <- & <-). clear HR'.
  assert (ER : pipeline (the_pipe (gn c) (gTY c) (gKS c s0)) (concat (d :: chain)) = (out, 0, oe)).
  { rewrite (gpipe c s0 Hok Him). unfold pipeline. destruct (fold_left _ _ _) as [[xd xi] xo]. cbn in Eo, E1, E2. subst. reflexivity. }
  destruct (multi_call (gn c) (gTY c) (gKS c s0) (gn_pos c s0 Hok Him) (gTY_adj c Hok) s d chain mode HQ (gTY_first c s0 Hok Him) Hll) as (fuel0 & s' & r & R1 & R2 & R3 & R4).
  - rewrite ER. reflexivity.
  - intros p j k Hp Hk. left. unfold gKS in Hk. destruct (nth_error (i_phases P s0) p); [|destruct j; discriminate]. destruct (nth_error c (p - 1)) as [[t Ds]|]; [|destruct j; discriminate]. eapply specs_eof; eassumption.
  - rewrite ER in *. cbn in R2, R3, R4. exists fuel0, s', r. rewrite Nat.add_0_r in R3. auto.
Qed.

Lemma run_hist_app fuel : forall h1 h2 (s : inst P) s1 o1 s2 o2, run_hist P fuel s h1 = Some (s1, o1) -> run_hist P fuel s1 h2 = Some (s2, o2) -> run_hist P fuel s (h1 ++ h2) = Some (s2, o1 ++ o2).
Proof.
  induction h1 as [|k h1 IH]; intros h2 s s1 o1 s2 o2 H1 H2; cbn in *; [injection H1 as -> <-; exact H2|].
  destruct (bsdconv_call P fuel s (c_input k) (c_flush k) (c_mode k)) as [sa ra| |]; try discriminate. destruct (run_hist P fuel sa h1) as [[sb ob]|] eqn:E; [|discriminate]. injection H1 as -> <-.
  rewrite (IH h2 sa s1 ob s2 o2 E H2), app_assoc. reflexivity.
Qed.

Theorem gstreams : forall ls s outs oes, gquiet s -> streams_ok c ls outs oes ->
  exists s' got, runs_to s (flat_map stream_calls ls) s' got /\ got ++ pending P s' = pending P s ++ concat outs /\
    i_ierr P s' = i_ierr P s /\ i_oerr P s' = i_oerr P s + oes /\ gquiet s'.
Proof.
  intros ls s outs oes HQ H. revert s HQ. induction H as [|l r out oe outs oes Hne Hll HR HS IH]; intros s HQ.
  - exists s, []. cbn. rewrite app_nil_r, Nat.add_0_r. split; [exists 0; intros; reflexivity|]. auto.
  - destruct (gstream c s0 Hok Him s l out 0 oe HQ Hne Hll HR (or_introl eq_refl)) as (s1 & g1 & (f1 & R1) & E1 & I1 & O1 & Q1).
    destruct (IH s1 Q1) as (s2 & g2 & (f2 & R2) & E2 & I2 & O2 & Q2).
    exists s2, (g1 ++ g2). split; [exists (f1 + f2); intros fuel Hf; cbn [flat_map]; eapply run_hist_app; [apply R1|apply R2]; lia|].
    split; [rewrite <- app_assoc, E2, app_assoc, E1, concat_app, app_assoc; reflexivity|]. split; [lia|]. split; [lia|exact Q2].
Qed.
End Glue.

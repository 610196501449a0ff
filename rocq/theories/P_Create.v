(** Instances built from sources implement the dictionaries of the sources; histories. *)
From Verif Require Import Base Types M_Engine M_Output M_Mktable M_Create S_Session S_Dict S_Table S_Source S_Convert P_Session P_Session2 P_Mktable4 P_Shape P_Reinit2.

Lemma codecs_ok ess : Forall (Forall entry_ok) ess -> exists cs, all_some (map (fun src => option_map table_codec (mktable src)) (map text_file ess)) = Some cs /\
  Forall2 (fun cd D => timpl (e_tab unit cd) D) cs (map file_dict ess).
Proof.
  induction 1 as [|es ess H HF (cs & E & F2)]; [exists []; split; [reflexivity|constructor]|]. cbn [map all_some]. destruct (mktable_implements es H) as (tab & -> & Ht). cbn [option_map]. rewrite E. eexists. split; [reflexivity|]. constructor; assumption.
Qed.
Theorem create_implements c : Forall (fun x => Forall (Forall entry_ok) (snd x)) c -> exists s0, create_from_sources (texts c) = Some s0 /\ implements unit s0 (meaning c).
Proof.
  intros HF. assert (H : exists phs, all_some (map (fun x => option_map (pair (fst x)) (all_some (map (fun src => option_map table_codec (mktable src)) (snd x)))) (texts c)) = Some phs /\
    Forall2 (fun ph d => fst ph = fst d /\ Forall2 (fun cd D => timpl (e_tab unit cd) D) (snd ph) (snd d)) phs (meaning c)).
  { induction HF as [|[t ess] c H HF (phs & E & F2)]; [exists []; split; [reflexivity|constructor]|]. cbn [texts map all_some fst snd] in *. destruct (codecs_ok ess H) as (cs & -> & Hcs). cbn [option_map]. unfold texts in E. rewrite E. eexists. split; [reflexivity|]. constructor; [split; [reflexivity|exact Hcs]|exact F2]. }
  destruct H as (phs & E & F2). unfold create_from_sources. rewrite E. eexists. split; [reflexivity|]. constructor.
  - unfold new_instance. cbn [i_phases length]. rewrite map_length. f_equal. clear -F2. induction F2; cbn; congruence.
  - intros p t Ds Hp. unfold new_instance. cbn [i_phases nth_error]. rewrite nth_error_map.
    assert (exists ph, nth_error phs p = Some ph /\ fst ph = t /\ Forall2 (fun cd D => timpl (e_tab unit cd) D) (snd ph) Ds) as (ph & -> & H1 & H2).
    { clear -F2 Hp. revert p Hp. induction F2 as [|x y l l' (H1 & H2) F2 IH]; intros [|p] Hp; cbn in *; try discriminate; [injection Hp as ->; eauto|apply IH; exact Hp]. }
    eexists. split; [reflexivity|]. cbn. auto.
Qed.

Section G.
Context {P : Type}.
Lemma used_shl (s0 s : inst P) : used s0 s -> shl (i_phases P s0) (i_phases P s).
Proof. induction 1; [apply shl_refl| |]; (eapply shl_trans; [eassumption|]); [eapply init_shl|eapply call_shl]; eassumption. Qed.
Lemma implements_shl (s s' : inst P) c : shl (i_phases P s) (i_phases P s') -> implements P s c -> implements P s' c.
Proof.
  intros HS [HL HP]. constructor; [rewrite <- HL; symmetry; clear -HS; induction HS; cbn; congruence|]. intros p t Ds Hp. destruct (HP p t Ds Hp) as (th & H1 & H2 & H3). destruct (Forall2_nth_l _ _ _ HS _ _ H1) as (th' & H1' & (HT & HC)). exists th'. split; [exact H1'|]. split; [congruence|].
  clear -HC H3. revert Ds H3. induction HC as [|a b ? ? (q & _ & ->) HC IH]; intros Ds H3; inversion H3; subst; constructor; auto.
Qed.
Lemma used_implements (s0 s : inst P) c : used s0 s -> implements P s0 c -> implements P s c.
Proof. intros H. apply implements_shl. apply used_shl. exact H. Qed.
Lemma used_same_setup (s0 s : inst P) : used s0 s -> resets s0 -> same_setup s0 s.
Proof.
  intros HU HR. apply used_shl in HU. unfold same_setup. unfold resets in HR. destruct HU as [|a b l l' Hab HU]; [constructor|]. cbn [tl] in *. clear Hab a b.
  induction HU as [|a b l l' (H1 & H2) HU IH]; constructor.
  - split; [exact H1|]. specialize (fun cd p => HR a cd p (or_introl eq_refl)). clear -H2 HR. induction H2 as [|x y ? ? (q & Hq & ->) H2 IH]; [reflexivity|]. cbn [map]. f_equal; [symmetry; apply HR; [left; reflexivity|exact Hq]|]. apply IH. intros cd p Hin. apply HR. right. exact Hin.
  - apply IH. intros th cd p H. apply HR. right. exact H.
Qed.

Lemma call_mono f f' (s : inst P) inp fl m s' r : f <= f' -> bsdconv_call P f s inp fl m = CDone P s' r -> bsdconv_call P f' s inp fl m = CDone P s' r.
Proof.
  intros Hf. unfold bsdconv_call, bsdconv_engine. cbv zeta. set (a := mkInst P _ _ _ _). destruct (grun P f a (PBegin 1)) as [s1| |] eqn:E; try discriminate. rewrite (grun_mono f f' a _ s1 Hf E). auto.
Qed.
Lemma hist_mono f f' : f <= f' -> forall h (s : inst P) x, run_hist P f s h = Some x -> run_hist P f' s h = Some x.
Proof.
  intros Hf. induction h as [|k h IH]; intros s x; cbn; [auto|]. destruct (bsdconv_call P f s (c_input k) (c_flush k) (c_mode k)) as [s1 r| |] eqn:E; try discriminate. rewrite (call_mono _ _ _ _ _ _ _ _ Hf E). destruct (run_hist P f s1 h) as [[s2 o]|] eqn:E2; [|discriminate]. rewrite (IH _ _ E2). auto.
Qed.
Lemma hist_runs f h (s : inst P) s' out : run_hist P f s h = Some (s', out) -> runs_to s h s' out.
Proof. intros H. exists f. intros f' Hf. eapply hist_mono; eassumption. Qed.
Lemma runs_unique (s : inst P) h s1 o1 s2 o2 : runs_to s h s1 o1 -> runs_to s h s2 o2 -> s1 = s2 /\ o1 = o2.
Proof. intros (f1 & H1) (f2 & H2). specialize (H1 (f1 + f2) ltac:(lia)). specialize (H2 (f1 + f2) ltac:(lia)). rewrite H1 in H2. injection H2 as -> ->. auto. Qed.

Lemma init_pending (s0 s : inst P) : 2 <= length (i_phases P s0) -> bsdconv_init P s0 = Some s -> pending P s = [].
Proof.
  unfold bsdconv_init. destruct (i_phases P s0) as [|ph0 rest] eqn:E0; [discriminate|]. intros HL. destruct (init_phase P true ph0) as [p0|]; [|discriminate]. cbn [obind].
  destruct (fold_right _ _ rest) as [r|] eqn:E; [|discriminate]. cbn [obind]. intros H. injection H as <-.
  assert (HQ : length r = length rest /\ Forall (fun t => p_queue P t = []) r).
  { clear -E. revert r E. induction rest as [|t rest IH]; intros r E; cbn [fold_right] in E; [injection E as <-; auto|]. destruct (fold_right _ _ rest) as [l|]; [|discriminate E]. cbn [obind] in E. destruct (init_phase P false t) as [t'|] eqn:Et; [|discriminate]. cbn [obind] in E. injection E as <-. destruct (IH l eq_refl) as (H1 & H2). split; [cbn; congruence|]. constructor; [|exact H2].
    unfold init_phase, reset in Et. cbv zeta in Et. cbn [set_codecs set_curr p_codecs] in Et. destruct (map _ _); [discriminate|]. destruct (read_state _ _); [|discriminate]. injection Et as <-. reflexivity. }
  destruct HQ as (H1 & H2). unfold pending, last_phase, phasen. cbn [i_phases length]. rewrite H1. destruct rest as [|t rest]; [cbn in HL; lia|]. replace (S (length (t :: rest)) - 1) with (S (length rest)) by (cbn [length]; lia). cbn [nth_error]. destruct (nth_error r (length rest)) as [x|] eqn:Ex; [|reflexivity]. apply nth_error_In in Ex. rewrite Forall_forall in H2. rewrite (H2 x Ex). reflexivity.
Qed.
Lemma init_queue0 (s0 s : inst P) : bsdconv_init P s0 = Some s -> exists ph0, nth_error (i_phases P s) 0 = Some ph0 /\ p_queue P ph0 = [].
Proof.
  unfold bsdconv_init. destruct (i_phases P s0) as [|ph0 rest]; [discriminate|]. destruct (init_phase P true ph0) as [p0|] eqn:E0; [|discriminate]. cbn [obind]. destruct (fold_right _ _ rest) as [r|]; [|discriminate]. cbn [obind]. intros H. injection H as <-. exists p0. split; [reflexivity|]. unfold init_phase in E0. injection E0 as <-. reflexivity.
Qed.
End G.

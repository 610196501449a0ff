(** Table-driven conversions: from tables that implement dictionaries to whole sessions. *)
From Verif Require Import Base Types M_Engine M_Output S_Session S_Engine S_Dict S_Table S_Convert P_Trans P_Engine1 P_Engine2 P_Engine3 P_Engine4 P_Engine5 P_Engine6 P_Output P_Output2 P_Output3 P_Session P_Dict P_Convert P_Session2.

(** ** The specification is deterministic *)
Lemma chosen_det t Ds ds n o n' o' : chosen t Ds ds n o -> chosen t Ds ds n' o' -> n = n' /\ o = o'.
Proof.
  intros (j & D & H1 & H2 & H3 & H4) (j' & D' & H1' & H2' & H3' & H4').
  assert (j = j'). { destruct (lt_eq_lt_dec j j') as [[H|H]|H]; auto; exfalso; [eapply (H2' j D H H1); exact H3|eapply (H2 j' D' H H1'); exact H3']. }
  subst j'. assert (D' = D) by congruence. subst D'.
  assert (n = n') by (pose proof (H4 _ _ H3'); pose proof (H4' _ _ H3); lia). subst n'. split; [reflexivity|]. destruct H3, H3'. congruence.
Qed.
Lemma chosen_matched t Ds ds n o : chosen t Ds ds n o -> unmatched t Ds ds -> False.
Proof. intros (j & D & H1 & _ & H3 & _) HU. eapply (HU D); [eapply nth_error_In; exact H1|exact H3]. Qed.
Lemma dropped_det Ds ds k k' : dropped Ds ds k -> dropped Ds ds k' -> k = k'.
Proof.
  intros (A1 & A2 & A3) (B1 & B2 & B3). destruct (lt_eq_lt_dec k k') as [[H|H]|H]; auto; exfalso.
  - specialize (B2 k ltac:(lia)). specialize (A3 ltac:(lia)). congruence.
  - specialize (A2 k' ltac:(lia)). specialize (B3 ltac:(lia)). congruence.
Qed.
Lemma run_phase_det t Ds ds out e : run_phase t Ds ds out e -> forall out' e', run_phase t Ds ds out' e' -> out = out' /\ e = e'.
Proof.
  induction 1 as [|ds n o out e Hc H IH|x ds out e Ht Hu H IH|x ds out e Ht Hu H IH|ds k out e Ht Hne Hu Hd H IH]; intros out' e' H'; inversion H' as [|ds2 n2 o2 out2 e2 Hc2 H2|x2 ds2 out2 e2 Ht2 Hu2 H2|x2 ds2 out2 e2 Ht2 Hu2 H2|ds2 k2 out2 e2 Ht2 Hne2 Hu2 Hd2 H2]; subst; try congruence;
    try (exfalso; eapply chosen_matched; eassumption).
  - split; reflexivity.
  - destruct Hc2 as (j & D & _ & _ & ((H0 & H0') & _) & _). cbn in H0'. lia.
  - destruct Hc as (j & D & _ & _ & ((H0 & H0') & _) & _). cbn in H0'. lia.
  - destruct (chosen_det _ _ _ _ _ _ _ Hc Hc2) as (-> & ->). destruct (IH _ _ H2) as (-> & ->). auto.
  - destruct (IH _ _ H2) as (-> & ->). auto.
  - destruct (IH _ _ H2) as (-> & ->). auto.
  - rewrite (dropped_det _ _ _ _ Hd2 Hd) in H2. destruct (IH _ _ H2) as (-> & ->). auto.
Qed.
Lemma run_conv_det c ds out ie oe : run_conv c ds out ie oe -> forall out' ie' oe', run_conv c ds out' ie' oe' -> out = out' /\ ie = ie' /\ oe = oe'.
Proof.
  induction 1 as [|t Ds r ds mid out e ie oe Hp H IH]; intros out' ie' oe' H'; inversion H'; subst; [auto|].
  match goal with X : run_phase _ _ _ ?m ?e0, Y : run_conv _ ?m _ _ _ |- _ => destruct (run_phase_det _ _ _ _ _ Hp _ _ X) as (<- & <-); destruct (IH _ _ _ Y) as (-> & -> & ->) end. auto.
Qed.
Lemma run_conv_total c : (forall t Ds, In (t, Ds) c -> (t = FROM \/ t = INTER \/ t = TO) /\ Ds <> []) -> forall ds, exists out ie oe, run_conv c ds out ie oe.
Proof. intros H ds. destruct (pipeline_run_conv c ds 0 0 H) as (ie & oe & HR & _). eauto. Qed.

Lemma nth_error_ext {A} : forall (l l' : list A), (forall i, nth_error l i = nth_error l' i) -> l = l'.
Proof.
  induction l as [|x l IH]; intros [|y l'] H; [reflexivity|specialize (H 0); discriminate|specialize (H 0); discriminate|].
  pose proof (H 0) as H0. cbn in H0. injection H0 as ->. f_equal. apply IH. intros i. exact (H (S i)).
Qed.

(** ** Tables *)
Section Glue.
Context {P : Type}.
Variable c : list phase_desc.
Variable s0 : inst P.
Hypothesis Hok : conv_ok c.
Hypothesis Him : implements P s0 c.

Definition spec_of (t : ptype) (D : dict) (tab : table) : codec_spec (P:=P) := match t with FROM => from_spec D tab | _ => data_spec D tab end.
Fixpoint specs (t : ptype) (cs : list (ecodec P)) (Ds : list dict) : list (codec_spec (P:=P)) :=
  match cs, Ds with cd :: cs', D :: Ds' => spec_of t D (e_tab P cd) :: specs t cs' Ds' | _, _ => [] end.
Definition gTY (p : nat) : ptype := match nth_error c (p - 1) with Some (t, _) => t | None => TO end.
Definition gKS (p : nat) : list (codec_spec (P:=P)) :=
  match nth_error (i_phases P s0) p, nth_error c (p - 1) with
  | Some th, Some (t, Ds) => specs t (p_codecs P th) Ds
  | _, _ => []
  end.
Definition gn := length c.

Lemma gn_pos : 1 <= gn.
Proof. unfold gn. destruct (co_first _ Hok) as (Ds & r & ->). cbn. lia. Qed.
Lemma gTY_first : gTY 1 = FROM.
Proof. unfold gTY. destruct (co_first _ Hok) as (Ds & r & ->). reflexivity. Qed.
Lemma gTY_adj p : 1 <= p -> gTY p = FROM -> gTY (S p) <> FROM.
Proof.
  intros Hp H1 H2. unfold gTY in *. destruct (nth_error c (p - 1)) as [[t Ds]|] eqn:E1; [|discriminate]. destruct (nth_error c (S p - 1)) as [[t' Ds']|] eqn:E2; [|discriminate]. subst.
  replace (S p - 1) with (S (p - 1)) in E2 by lia. exact (co_adj _ Hok _ _ _ E1 E2).
Qed.
Lemma gTY_cases p : 1 <= p <= gn -> gTY p = FROM \/ gTY p = INTER \/ gTY p = TO.
Proof.
  intros Hp. unfold gTY. destruct (nth_error c (p - 1)) as [[t Ds]|] eqn:E; [|right; right; reflexivity]. apply nth_error_In in E. exact (proj1 (co_types _ Hok _ _ E)).
Qed.

Lemma specs_sems t cs Ds : (t = FROM \/ t = INTER \/ t = TO) -> Forall2 (fun cd D => timpl (e_tab P cd) D) cs Ds -> sems (specs t cs Ds) = map (sem_of t) Ds.
Proof.
  intros Ht. induction 1 as [|cd D cs Ds H HF IH]; [reflexivity|]. cbn [specs sems map] in *. unfold sems in *. rewrite IH. f_equal.
  destruct Ht as [->|[-> | ->]]; reflexivity.
Qed.

Lemma specs_ok t cs Ds : (t = FROM \/ t = INTER \/ t = TO) -> Forall2 (fun cd D => timpl (e_tab P cd) D) cs Ds -> Forall sub_nonempty Ds ->
  Forall2 (codec_ok t) cs (specs t cs Ds) /\ Forall2 (fun cd k => k_clean k (e_priv P (init_codec P cd))) cs (specs t cs Ds).
Proof.
  intros Ht HF. induction HF as [|cd D cs Ds H HF IH]; intros Hs; cbn [specs]; [split; constructor|]. inversion Hs; subst. destruct (IH H3) as (I1 & I2).
  split; constructor; auto.
  - destruct Ht as [->|[-> | ->]]; cbn [codec_ok spec_of]; [apply from_table_ok|apply data_table_ok|apply data_table_ok]; assumption.
  - destruct Ht as [->|[-> | ->]]; exact I.
Qed.

Lemma specs_eof t cs Ds j k : nth_error (specs t cs Ds) j = Some k -> eof_clean k.
Proof.
  revert Ds j. induction cs as [|cd cs IH]; intros [|D Ds] [|j]; cbn; try discriminate; eauto. intros E. injection E as <-. destruct t; [apply from_eof|apply data_eof..].
Qed.

Lemma phase_at p : 1 <= p <= gn -> exists th t Ds, nth_error (i_phases P s0) p = Some th /\ nth_error c (p - 1) = Some (t, Ds) /\ p_type P th = t /\
  Forall2 (fun cd D => timpl (e_tab P cd) D) (p_codecs P th) Ds /\ (t = FROM \/ t = INTER \/ t = TO) /\ Ds <> [] /\ Forall sub_nonempty Ds.
Proof.
  intros Hp. destruct (nth_error c (p - 1)) as [[t Ds]|] eqn:E; [|apply nth_error_None in E; unfold gn in Hp; lia].
  destruct (im_ph _ _ _ Him _ _ _ E) as (th & H1 & H2 & H3). replace (S (p - 1)) with p in H1 by lia.
  pose proof (nth_error_In _ _ E) as Hin. destruct (co_types _ Hok _ _ Hin) as (H4 & H5).
  exists th, t, Ds. repeat split; auto. apply Forall_forall. intros D HD w o Hl Hm. eapply (co_sub _ Hok); eassumption.
Qed.

Lemma gready p th : 1 <= p <= gn -> nth_error (i_phases P s0) p = Some th -> ready_phase gTY gKS p th.
Proof.
  intros Hp Hth. destruct (phase_at p Hp) as (th' & t & Ds & H1 & H2 & H3 & H4 & H5 & H6 & H7). assert (th' = th) by congruence. subst th'.
  destruct (specs_ok _ _ _ H5 H4 H7) as (I1 & I2).
  unfold ready_phase. assert (E1 : gTY p = t) by (unfold gTY; rewrite H2; reflexivity). assert (E2 : gKS p = specs t (p_codecs P th) Ds) by (unfold gKS; rewrite H1, H2; reflexivity).
  rewrite E1, E2. repeat split; auto. inversion H4; subst; [congruence|]. cbn. discriminate.
Qed.

Lemma gpipe : the_pipe gn gTY gKS = map psem_of c.
Proof.
  unfold the_pipe. apply nth_error_ext. intros i. rewrite !nth_error_map. destruct (nth_error c i) as [[t Ds]|] eqn:E.
  - assert (Hi : i < gn) by (unfold gn; apply nth_error_Some; congruence). rewrite (nth_error_nth' _ 0) by (rewrite seq_length; lia). rewrite seq_nth by lia. cbn [option_map].
    destruct (phase_at (1 + i) ltac:(lia)) as (th & t' & Ds' & H1 & H2 & H3 & H4 & H5 & H6 & H7). replace (1 + i - 1) with i in H2 by lia. assert (Et : (t', Ds') = (t, Ds)) by congruence. injection Et as -> ->.
    unfold psem_of, gTY, gKS. rewrite H1. replace (1 + i - 1) with i by lia. rewrite E. cbn [fst snd]. rewrite (specs_sems t (p_codecs P th) Ds H5 H4). destruct H5 as [->|[-> | ->]]; reflexivity.
  - apply nth_error_None in E. destruct (nth_error (seq 1 gn) i) eqn:E2; [|reflexivity]. exfalso. assert (i < length (seq 1 gn)) by (apply nth_error_Some; congruence). rewrite seq_length in H. unfold gn in H. lia.
Qed.

Definition gquiet := quiet gn gTY gKS.

Lemma ginit : exists s, bsdconv_init P s0 = Some s /\ gquiet s.
Proof.
  assert (Hl : length (i_phases P s0) = S gn) by apply (im_len _ _ _ Him).
  destruct (init_some gn gTY gKS gn_pos s0 Hl (fun p th => gready p th)) as (s & Hs). exists s. split; [exact Hs|].
  eapply quiet_init; eauto using gn_pos, gready, gTY_cases.
Qed.

(** one stream from a quiet state *)
Theorem gstream s l out ie oe : gquiet s -> l <> [] -> Forall (fun x => lossless (snd x)) l ->
  run_conv c [concat (inputs l)] out ie oe ->
  (ie = 0 \/ (length l = 1 /\ one_decoder c /\ exists ph0, nth_error (i_phases P s) 0 = Some ph0 /\ p_queue P ph0 = [])) ->
  exists s' got, runs_to s (stream_calls l) s' got /\
    got ++ pending P s' = pending P s ++ concat out /\ i_ierr P s' = i_ierr P s + ie /\ i_oerr P s' = i_oerr P s + oe /\ gquiet s'.
Proof.
  intros HQ Hne Hll HR Hm.
  destruct (pipeline_run_conv c [concat (inputs l)] 0 0 (co_types _ Hok)) as (ie' & oe' & HR' & E1 & E2).
  destruct (run_conv_det _ _ _ _ _ HR _ _ _ HR') as (Eo & <- & <-). clear HR'.
  assert (ER : pipeline (the_pipe gn gTY gKS) (concat (inputs l)) = (out, ie, oe)).
  { rewrite gpipe. unfold pipeline. destruct (fold_left _ _ _) as [[xd xi] xo]. cbn in Eo, E1, E2. subst. reflexivity. }
  destruct (stream_correct gn gTY gKS gn_pos gTY_adj s l HQ gTY_first Hne Hll) as (fuel0 & s' & got & R1 & R2 & R3 & R4 & R5).
  - rewrite ER. cbn. destruct Hm as [H|(H1 & H2 & H3)]; [left; exact H|right]. split; [exact H1|]. split; [|exact H3]. split; [exact gTY_first|].
    intros p Hp Hf. unfold gTY in Hf. destruct (nth_error c (p - 1)) as [[t Ds]|] eqn:E; [|discriminate]. subst. apply H2 in E. lia.
  - intros p j k Hp Hk. left. unfold gKS in Hk. destruct (nth_error (i_phases P s0) p); [|destruct j; discriminate]. destruct (nth_error c (p - 1)) as [[t Ds]|]; [|destruct j; discriminate]. eapply specs_eof; eassumption.
  - rewrite ER in *. cbn in R2, R3, R4. exists s', got. split; [exists fuel0; exact R1|]. auto.
Qed.

(** a stream with decoding errors is noticed however it is cut *)
Theorem gdetect s l out ie oe s' got : gquiet s -> l <> [] -> Forall (fun x => lossless (snd x)) l ->
  run_conv c [concat (inputs l)] out ie oe -> 1 <= ie -> runs_to s (stream_calls l) s' got -> i_ierr P s < i_ierr P s'.
Proof.
  intros HQ Hne Hll HR Hie (f & Hrun).
  destruct (pipeline_run_conv c [concat (inputs l)] 0 0 (co_types _ Hok)) as (ie' & oe' & HR' & E1 & E2).
  destruct (run_conv_det _ _ _ _ _ HR _ _ _ HR') as (Eo & <- & <-). clear HR'.
  assert (ER : flow_ierr (pipeline (the_pipe gn gTY gKS) (concat (inputs l))) = ie).
  { rewrite gpipe. unfold pipeline. destruct (fold_left _ _ _) as [[xd xi] xo]. cbn in Eo, E1, E2. subst. reflexivity. }
  refine (stream_detect gn gTY gKS gn_pos gTY_adj s l HQ gTY_first Hne Hll _ _ f s' got (Hrun f (le_n f))).
  - rewrite ER. exact Hie.
  - intros p j k Hp Hk. left. unfold gKS in Hk. destruct (nth_error (i_phases P s0) p); [|destruct j; discriminate]. destruct (nth_error c (p - 1)) as [[t Ds]|]; [|destruct j; discriminate]. eapply specs_eof; eassumption.
Qed.
End Glue.

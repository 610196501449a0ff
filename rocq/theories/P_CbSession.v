(** Sessions of conversions whose codecs are given by their semantics ([codec_spec]). *)
From Verif Require Import Base Types M_Engine M_Output M_Create S_Session S_Engine S_Dict S_Convert P_Trans P_Engine1 P_Engine2 P_Engine3 P_Engine4 P_Engine5 P_Engine6 P_Output P_Output2 P_Output3 P_Session P_Session2 P_Session3 P_Shape P_Create.

Section G.
Context {P : Type}.
Variable c : list (ptype * list (ecodec P * codec_spec (P:=P))).

Definition cTY (p : nat) : ptype := match nth_error c (p - 1) with Some (t, _) => t | None => TO end.
Definition cKS (p : nat) : list (codec_spec (P:=P)) := match nth_error c (p - 1) with Some (_, l) => map snd l | None => [] end.
Definition cn := length c.

Record cb_ok : Prop := {
  cb_first : exists l r, c = (FROM, l) :: r;
  cb_types : forall t l, In (t, l) c -> (t = FROM \/ t = INTER \/ t = TO) /\ l <> [];
  cb_adj : forall i l l', nth_error c i = Some (FROM, l) -> nth_error c (S i) <> Some (FROM, l');
  cb_cod : forall t l x, In (t, l) c -> In x l -> codec_ok t (fst x) (snd x) /\ k_clean (snd x) (e_priv P (init_codec P (fst x)));
  cb_eof : forall t l j x, In (t, l) c -> nth_error l j = Some x -> eof_clean (snd x) \/ (t = FROM /\ j = length l - 1 /\ no_sub (k_v (snd x)))
}.
(** The instance that bsdconv_create makes. *)
Definition cb_inst : inst P := new_instance P (map (fun x => (fst x, map fst (snd x))) c).
(** Its phases. *)
Definition cb_pipe : list psem := map (fun x => mkPsem (kind_of (fst x)) (map (fun y => k_v (snd y)) (snd x))) c.

Hypothesis Hok : cb_ok.
Lemma cn_pos : 1 <= cn. Proof. unfold cn. destruct (cb_first Hok) as (l & r & ->). cbn. lia. Qed.
Lemma cTY_first : cTY 1 = FROM. Proof. unfold cTY. destruct (cb_first Hok) as (l & r & ->). reflexivity. Qed.
Lemma cTY_adj p : 1 <= p -> cTY p = FROM -> cTY (S p) <> FROM.
Proof.
  intros Hp H1 H2. unfold cTY in *. destruct (nth_error c (p - 1)) as [[t l]|] eqn:E1; [|discriminate]. destruct (nth_error c (S p - 1)) as [[t' l']|] eqn:E2; [|discriminate]. subst.
  replace (S p - 1) with (S (p - 1)) in E2 by lia. exact (cb_adj Hok _ _ _ E1 E2).
Qed.
Lemma cTY_cases p : 1 <= p <= cn -> cTY p = FROM \/ cTY p = INTER \/ cTY p = TO.
Proof. intros Hp. unfold cTY. destruct (nth_error c (p - 1)) as [[t l]|] eqn:E; [|auto]. apply nth_error_In in E. exact (proj1 (cb_types Hok _ _ E)). Qed.

Lemma cpipe : the_pipe cn cTY cKS = cb_pipe.
Proof.
  unfold the_pipe, cb_pipe. apply nth_error_ext. intros i. rewrite !nth_error_map. destruct (nth_error c i) as [[t l]|] eqn:E.
  - assert (Hi : i < cn) by (unfold cn; apply nth_error_Some; congruence). rewrite (nth_error_nth' _ 0) by (rewrite seq_length; lia). rewrite seq_nth by lia. cbn [option_map].
    unfold cTY, cKS. replace (1 + i - 1) with i by lia. rewrite E. cbn [fst snd]. unfold sems. rewrite map_map. reflexivity.
  - apply nth_error_None in E. destruct (nth_error (seq 1 cn) i) eqn:E2; [|reflexivity]. exfalso. assert (i < length (seq 1 cn)) by (apply nth_error_Some; congruence). rewrite seq_length in H. unfold cn in H. lia.
Qed.

Lemma inst_phase p th : 1 <= p -> nth_error (i_phases P cb_inst) p = Some th -> exists t l, nth_error c (p - 1) = Some (t, l) /\ p_type P th = t /\ p_codecs P th = map fst l.
Proof.
  intros Hp H. destruct p as [|p]; [lia|]. cbn in H. rewrite map_map, nth_error_map in H. replace (S p - 1) with p by lia. destruct (nth_error c p) as [[t l]|]; [|discriminate]. cbn in H. injection H as <-. exists t, l. auto.
Qed.
Lemma cready p th : 1 <= p <= cn -> nth_error (i_phases P cb_inst) p = Some th -> ready_phase cTY cKS p th.
Proof.
  intros Hp Hth. destruct (inst_phase p th (proj1 Hp) Hth) as (t & l & H1 & H2 & H3). pose proof (nth_error_In _ _ H1) as Hin. destruct (cb_types Hok _ _ Hin) as (H4 & H5).
  unfold ready_phase, cTY, cKS. rewrite H1, H2, H3. split; [reflexivity|].
  assert (HF : forall l', incl l' l -> Forall2 (codec_ok t) (map fst l') (map snd l') /\ Forall2 (fun c k => k_clean k (e_priv P (init_codec P c))) (map fst l') (map snd l')).
  { induction l' as [|x l' IH]; intros Hi; [split; constructor|]. destruct IH as (I1 & I2); [intros y Hy; apply Hi; right; exact Hy|]. destruct (cb_cod Hok _ _ x Hin (Hi x (or_introl eq_refl))) as (C1 & C2). split; constructor; auto. }
  destruct (HF l (incl_refl l)) as (F1 & F2). split; [exact F1|]. split; [|exact F2]. destruct l; [contradiction|discriminate].
Qed.

Definition cquiet := quiet cn cTY cKS.
Lemma cinit : exists s, bsdconv_init P cb_inst = Some s /\ cquiet s /\ i_ierr P s = 0 /\ i_oerr P s = 0 /\ pending P s = [].
Proof.
  assert (Hl : length (i_phases P cb_inst) = S cn) by (cbn; rewrite !map_length; reflexivity).
  destruct (init_some cn cTY cKS cn_pos cb_inst Hl cready) as (s & Hs). exists s. split; [exact Hs|]. split.
  - eapply quiet_init; eauto using cn_pos, cready, cTY_cases.
  - assert (Hp : pending P s = []) by (eapply init_pending; [|exact Hs]; rewrite Hl; pose proof cn_pos; lia).
    unfold bsdconv_init in Hs. destruct (i_phases P cb_inst); [discriminate|]. destruct (init_phase P true e); cbn [obind] in Hs; [|discriminate]. destruct (fold_right _ _ l); cbn [obind] in Hs; [|discriminate]. injection Hs as <-. auto.
Qed.

(** A stream that the first decoder reads without error. *)
Theorem cstream s l out oe : cquiet s -> l <> [] -> Forall (fun x => lossless (snd x)) l ->
  pipeline cb_pipe (concat (inputs l)) = (out, 0, oe) ->
  exists s' got, runs_to s (stream_calls l) s' got /\
    got ++ pending P s' = pending P s ++ concat out /\ i_ierr P s' = i_ierr P s /\ i_oerr P s' = i_oerr P s + oe /\ cquiet s'.
Proof.
  intros HQ Hne Hll HR. rewrite <- cpipe in HR.
  destruct (stream_correct cn cTY cKS cn_pos cTY_adj s l HQ cTY_first Hne Hll) as (fuel0 & s' & got & R1 & R2 & R3 & R4 & R5).
  - rewrite HR. left. reflexivity.
  - intros p j k Hp Hk. unfold cKS in Hk. destruct (nth_error c (p - 1)) as [[t l0]|] eqn:E; [|destruct j; discriminate]. rewrite nth_error_map in Hk. destruct (nth_error l0 j) as [x|] eqn:Ex; [|discriminate]. injection Hk as <-.
    destruct (cb_eof Hok _ _ _ _ (nth_error_In _ _ E) Ex) as [H|(H1 & H2 & H3)]; [left; exact H|right]. rewrite HR. split; [reflexivity|]. split; [unfold cTY; rewrite E; exact H1|]. split; [unfold cKS; rewrite E, map_length; exact H2|exact H3].
  - rewrite HR in *. cbn in R2, R3, R4. exists s', got. split; [exists fuel0; exact R1|]. rewrite Nat.add_0_r in R3. auto.
Qed.

(** A stream in one call, whatever its errors, if no codec keeps state over the end of a stream. *)
Theorem cstream1 s d m out ie oe : cquiet s -> (exists ph0, nth_error (i_phases P s) 0 = Some ph0 /\ p_queue P ph0 = []) -> lossless m ->
  (forall t l x, In (t, l) c -> In x l -> eof_clean (snd x)) -> (forall i l, nth_error c i = Some (FROM, l) -> i = 0) ->
  pipeline cb_pipe d = (out, ie, oe) ->
  exists s' got, runs_to s [mkCall (Some (d, [])) true m] s' got /\
    got ++ pending P s' = pending P s ++ concat out /\ i_ierr P s' = i_ierr P s + ie /\ i_oerr P s' = i_oerr P s + oe /\ cquiet s'.
Proof.
  intros HQ HQ0 Hll Heof Hone HR. rewrite <- cpipe in HR.
  destruct (stream_correct cn cTY cKS cn_pos cTY_adj s [(Some d, m)] HQ cTY_first) as (fuel0 & s' & got & R1 & R2 & R3 & R4 & R5); [discriminate|repeat constructor; exact Hll| | |].
  - right. split; [reflexivity|]. split; [|exact HQ0]. split; [exact cTY_first|]. intros p Hp Hf. unfold cTY in Hf. destruct (nth_error c (p - 1)) as [[t l]|] eqn:E; [|discriminate]. subst. apply Hone in E. lia.
  - intros p j k Hp Hk. unfold cKS in Hk. destruct (nth_error c (p - 1)) as [[t l0]|] eqn:E; [|destruct j; discriminate]. rewrite nth_error_map in Hk. destruct (nth_error l0 j) as [x|] eqn:Ex; [|discriminate]. injection Hk as <-. left.
    eapply Heof; [exact (nth_error_In _ _ E)|exact (nth_error_In _ _ Ex)].
  - cbn [inputs flat_map fst concat app] in R2, R3, R4. rewrite app_nil_r in *. rewrite HR in *. cbn in R2, R3, R4. exists s', got. split; [exists fuel0; exact R1|]. auto.
Qed.
(** A stream that the first decoder, or a later one, cannot read: every completed conversion reports it. *)
Theorem cdetect s l s' got : cquiet s -> l <> [] -> Forall (fun x => lossless (snd x)) l ->
  1 <= flow_ierr (pipeline cb_pipe (concat (inputs l))) ->
  runs_to s (stream_calls l) s' got -> i_ierr P s < i_ierr P s'.
Proof.
  intros HQ Hne Hll HR (f & Hrun). rewrite <- cpipe in HR.
  refine (stream_detect cn cTY cKS cn_pos cTY_adj s l HQ cTY_first Hne Hll HR _ f s' got (Hrun f (le_n f))).
  intros p j k Hp Hk. unfold cKS in Hk. destruct (nth_error c (p - 1)) as [[t l0]|] eqn:E; [|destruct j; discriminate]. rewrite nth_error_map in Hk. destruct (nth_error l0 j) as [x|] eqn:Ex; [|discriminate]. injection Hk as <-.
  destruct (cb_eof Hok _ _ _ _ (nth_error_In _ _ E) Ex) as [H|(H1 & H2 & H3)]; [left; exact H|right]. split; [unfold cTY; rewrite E; exact H1|]. split; [unfold cKS; rewrite E, map_length; exact H2|exact H3].
Qed.

(** Re-initialisation after any use. *)
Lemma F2_len {A B} (R : A -> B -> Prop) l l' : Forall2 R l l' -> length l = length l'. Proof. induction 1; cbn; congruence. Qed.
Definition restores : Prop := forall t l x q, In (t, l) c -> In x l -> evolves (fst x) q -> k_clean (snd x) (e_priv P (init_codec P (set_priv P (fst x) q))).
Theorem creinit s1 : used cb_inst s1 -> restores -> exists s, bsdconv_init P s1 = Some s /\ cquiet s /\ i_ierr P s = i_ierr P s1 /\ i_oerr P s = i_oerr P s1 /\ pending P s = [].
Proof.
  intros HU HR. apply used_shl in HU.
  assert (Hl : length (i_phases P s1) = S cn) by (rewrite <- (F2_len _ _ _ HU); cbn; rewrite !map_length; reflexivity).
  assert (Hready : forall p th, 1 <= p <= cn -> nth_error (i_phases P s1) p = Some th -> ready_phase cTY cKS p th).
  { intros p th Hp Hth. destruct (nth_error (i_phases P cb_inst) p) as [th0|] eqn:E0.
    2:{ apply nth_error_None in E0. rewrite (F2_len _ _ _ HU), Hl in E0. lia. }
    destruct (Forall2_nth_l _ _ _ HU _ _ E0) as (th' & E1 & (HT & HC)). assert (th' = th) by congruence. subst th'.
    destruct (cready p th0 Hp E0) as (R1 & R2 & R3 & R4). split; [congruence|].
    destruct (inst_phase p th0 (proj1 Hp) E0) as (t & l & L1 & L2 & L3). rewrite L3 in HC, R2. unfold cKS in *. rewrite L1 in *. clear R4.
    specialize (fun x q => HR t l x q (nth_error_In _ _ L1)).
    assert (Hboth : forall l0 cs', incl l0 l -> shc (map fst l0) cs' -> Forall2 (codec_ok (cTY p)) (map fst l0) (map snd l0) ->
       Forall2 (codec_ok (cTY p)) cs' (map snd l0) /\ Forall2 (fun c k => k_clean k (e_priv P (init_codec P c))) cs' (map snd l0)).
    { clear -HR. induction l0 as [|x l0 IH]; intros cs' Hi HC F1; inversion HC as [|? b ? l' (q & Hq & ->) HC']; subst; [split; constructor|]. inversion F1; subst.
      destruct (IH l') as (I1 & I2); [intros y Hy; apply Hi; right; exact Hy|assumption|assumption|]. split; constructor; auto.
      - apply codec_ok_priv. assumption.
      - apply HR; [apply Hi; left; reflexivity|exact Hq]. }
    destruct (Hboth l _ (incl_refl l) HC R2). auto. }
  destruct (init_some cn cTY cKS cn_pos s1 Hl Hready) as (s & Hs). exists s. split; [exact Hs|]. split; [|split; [|split]].
  - eapply quiet_init; eauto using cn_pos, cTY_cases.
  - unfold bsdconv_init in Hs. destruct (i_phases P s1); [discriminate|]. destruct (init_phase P true e); cbn [obind] in Hs; [|discriminate]. destruct (fold_right _ _ l); cbn [obind] in Hs; [|discriminate]. injection Hs as <-. reflexivity.
  - unfold bsdconv_init in Hs. destruct (i_phases P s1); [discriminate|]. destruct (init_phase P true e); cbn [obind] in Hs; [|discriminate]. destruct (fold_right _ _ l); cbn [obind] in Hs; [|discriminate]. injection Hs as <-. reflexivity.
  - eapply init_pending; [|exact Hs]. rewrite Hl. pose proof cn_pos. lia.
Qed.
End G.

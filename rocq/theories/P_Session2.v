(** From initialisation to whole sessions of table-driven conversions. *)
From Verif Require Import Base Types M_Engine M_Output S_Session S_Engine S_Dict S_Table S_Convert P_Trans P_Engine1 P_Engine2 P_Engine3 P_Engine4 P_Engine5 P_Engine6 P_Output P_Output2 P_Output3 P_Session P_Dict P_Convert.

Lemma Forall2_nth_l {A B} (R : A -> B -> Prop) l1 l2 : Forall2 R l1 l2 -> forall i x, nth_error l1 i = Some x -> exists y, nth_error l2 i = Some y /\ R x y.
Proof. induction 1; intros [|i] z Hz; cbn in *; try discriminate; eauto. injection Hz as <-. eauto. Qed.

Section Init.
Context {P : Type}.
Notation ecodec := (ecodec P). Notation ephase := (ephase P). Notation inst := (inst P).
Variable n : nat.
Variable TY : nat -> ptype.
Variable KS : nat -> list (codec_spec (P:=P)).
Hypothesis n_pos : 1 <= n.

Lemma init_rest_spec : forall rest r,
  fold_right (fun t acc => obind acc (fun l => obind (init_phase P false t) (fun t' => Some (t' :: l)))) (Some []) rest = Some r ->
  Forall2 (fun t t' => init_phase P false t = Some t') rest r.
Proof.
  induction rest as [|t rest IH]; intros r; cbn [fold_right]; [intros E; injection E as <-; constructor|].
  destruct (fold_right _ _ rest) as [l|] eqn:El; cbn [obind]; [|discriminate]. destruct (init_phase P false t) as [t'|] eqn:Et; cbn [obind]; [|discriminate].
  intros E. inversion E; subst. constructor; [exact Et|apply IH; reflexivity].
Qed.
Lemma init_rest_some : forall rest, Forall (fun t => exists t', init_phase P false t = Some t') rest ->
  exists r, fold_right (fun t acc => obind acc (fun l => obind (init_phase P false t) (fun t' => Some (t' :: l)))) (Some []) rest = Some r.
Proof.
  induction 1 as [|t rest (t' & Ht) _ (r & Hr)]; [exists []; reflexivity|]. cbn [fold_right]. rewrite Hr. cbn [obind]. rewrite Ht. exists (t' :: r). reflexivity.
Qed.

Definition ready_phase (p : nat) (th : ephase) : Prop :=
  p_type P th = TY p /\ Forall2 (codec_ok (TY p)) (p_codecs P th) (KS p) /\ KS p <> [] /\
  Forall2 (fun c k => k_clean k (e_priv P (init_codec P c))) (p_codecs P th) (KS p).

Lemma init_codecs_ok t cs ks : Forall2 (codec_ok t) cs ks -> Forall2 (codec_ok t) (map (init_codec P) cs) ks.
Proof.
  induction 1; cbn; constructor; auto. unfold init_codec. destruct (e_init P x); [apply codec_ok_priv|]; assumption.
Qed.

Lemma init_phase_spec p th : ready_phase p th -> exists th', init_phase P false th = Some th' /\
  p_type P th' = TY p /\ p_queue P th' = [] /\ p_tail P th' = 0 /\ p_headlen P th' = 0 /\ p_curr P th' = 0 /\ p_index P th' = 0 /\
  p_fmatch P th' = false /\ p_fpending P th' = false /\ p_floop P th' = false /\ p_codecs P th' = map (init_codec P) (p_codecs P th) /\
  exists c cs, p_codecs P th' = c :: cs /\ read_state (e_tab P c) 0 = Some (p_state P th').
Proof.
  intros (Ht & Hc & Hne & _). unfold init_phase. cbv zeta. unfold reset. cbn [set_codecs set_curr set_match_data set_headlen set_queue set_offset set_flags p_codecs].
  pose proof (init_codecs_ok _ _ _ Hc) as Hc'. destruct (map (init_codec P) (p_codecs P th)) as [|c cs] eqn:E.
  - inversion Hc'. subst. exfalso. apply Hne. symmetry. assumption.
  - inversion Hc' as [|? k ? ks Hck]; subst. destruct (codec_ok_root _ _ _ Hck) as (s0 & Hs0 & _). rewrite Hs0. eexists. split; [reflexivity|]. cbn. repeat split; auto. exists c, cs. auto.
Qed.

Lemma quiet_init (s0 s : inst) : bsdconv_init P s0 = Some s -> length (i_phases P s0) = S n ->
  (forall p th, 1 <= p <= n -> nth_error (i_phases P s0) p = Some th -> ready_phase p th) -> (forall p, 1 <= p <= n -> TY p = FROM \/ TY p = INTER \/ TY p = TO) -> quiet n TY KS s.
Proof.
  unfold bsdconv_init. destruct (i_phases P s0) as [|ph0 rest] eqn:E0; [discriminate|]. intros Hi Hl Hready Htypes.
  cbn [init_phase obind] in Hi. set (p0 := set_match_data P _ []) in Hi.
  destruct (fold_right _ _ rest) as [r|] eqn:Er; cbn [obind] in Hi; [|discriminate]. injection Hi as <-.
  apply init_rest_spec in Er. cbn in Hl. injection Hl as Hl.
  assert (Hphase : forall p, 1 <= p <= n -> exists th th', nth_error rest (p - 1) = Some th /\ nth_error r (p - 1) = Some th' /\ ready_phase p th /\ init_phase P false th = Some th').
  { intros p Hp. destruct (nth_error rest (p - 1)) as [th|] eqn:Eth; [|apply nth_error_None in Eth; lia].
    destruct (Forall2_nth_l _ _ _ Er _ _ Eth) as (th' & Eth' & Hin). exists th, th'. split; [reflexivity|]. split; [exact Eth'|]. split; [|exact Hin]. apply Hready; [exact Hp|]. destruct p; [lia|]. cbn. rewrite Nat.sub_succ, Nat.sub_0_r in Eth. exact Eth. }
  assert (Hq : forall p pv, p <= n -> nth_error (p0 :: r) p = Some pv -> p_queue P pv = [] /\ p_tail P pv = 0 /\ p_headlen P pv = 0).
  { intros p pv Hp Hpv. destruct p as [|p]; [cbn in Hpv; injection Hpv as <-; cbn; auto|]. destruct (Hphase (S p)) as (th & th' & A1 & A2 & A3 & A4); [lia|].
    rewrite Nat.sub_succ, Nat.sub_0_r in A2. cbn in Hpv. assert (pv = th') by congruence. subst. destruct (init_phase_spec _ _ A3) as (th2 & B1 & _ & B2 & B3 & B4 & _). assert (th2 = th') by congruence. subst. auto. }
  exists (fun _ => []), (fun _ => []). split; [|auto]. constructor.
  - cbn. rewrite <- (Forall2_len _ _ _ Er), Hl. reflexivity.
  - intros p Hp. destruct (Hphase p Hp) as (th & th' & A1 & A2 & A3 & A4).
    destruct (nth_error (p0 :: r) (p - 1)) as [pv|] eqn:Epv.
    2:{ apply nth_error_None in Epv. cbn in Epv. rewrite <- (Forall2_len _ _ _ Er), Hl in Epv. lia. }
    destruct (Hq (p - 1) pv ltac:(lia) Epv) as (Q1 & Q2 & Q3).
    destruct (init_phase_spec _ _ A3) as (th2 & B1 & B2 & B3 & B4 & B5 & B6 & B7 & B8 & B9 & B10 & B11 & c & cs & B12 & B13). assert (th2 = th') by congruence. subst th2. clear B1.
    destruct A3 as (R1 & R2 & R3 & R4).
    exists pv, th'. split; [exact Epv|]. split; [destruct p; [lia|]; cbn; rewrite Nat.sub_succ, Nat.sub_0_r in A2; exact A2|]. split; [exact B2|].
    destruct (KS p) as [|k ks] eqn:EK; [contradiction|].
    apply pinv_start with c k; auto.
    + rewrite Q1. exact Q2.
    + rewrite B2, B11. apply init_codecs_ok. exact R2.
    + intros j c' k' Hj Hk. rewrite B11 in Hj. rewrite nth_error_map in Hj. destruct (nth_error (p_codecs P th) j) as [c0|] eqn:Ec0; [|discriminate]. cbn in Hj. injection Hj as <-.
      destruct (Forall2_nth_l _ _ _ R4 _ _ Ec0) as (k2 & Ek2 & Hcl). assert (k2 = k') by congruence. subst. exact Hcl.
    + rewrite B7, B12. reflexivity.
    + rewrite B7. reflexivity.
    + rewrite B7. intros; lia.
    + rewrite B2. destruct (Htypes p Hp) as [->|[-> | ->]]; rewrite Q1; auto. rewrite Q3, B5. cbn. auto.
  - destruct (nth_error (p0 :: r) n) as [th|] eqn:Eth.
    + exists th. split; [exact Eth|]. destruct (Hq n th (le_n _) Eth) as (-> & -> & _). auto.
    + apply nth_error_None in Eth. cbn in Eth. rewrite <- (Forall2_len _ _ _ Er), Hl in Eth. lia.
  - intros; lia.
Qed.

Lemma init_some (s0 : inst) : length (i_phases P s0) = S n ->
  (forall p th, 1 <= p <= n -> nth_error (i_phases P s0) p = Some th -> ready_phase p th) -> exists s, bsdconv_init P s0 = Some s.
Proof.
  intros Hl Hr. unfold bsdconv_init. destruct (i_phases P s0) as [|ph0 rest]; [discriminate|].
  destruct (init_rest_some rest) as (r & Hr0).
  - apply Forall_forall. intros th Hin. apply In_nth_error in Hin. destruct Hin as (i & Hi).
    assert (i < length rest) by (apply nth_error_Some; congruence). cbn in Hl.
    destruct (init_phase_spec (S i) th) as (th' & H' & _); [apply Hr; [lia|exact Hi]|]. eauto.
  - destruct (init_phase P true ph0) as [p0|] eqn:E0; [|discriminate E0]. cbn [obind]. rewrite Hr0. cbn [obind]. eauto.
Qed.
End Init.

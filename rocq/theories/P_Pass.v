(** A chain of data handed over by BSDCONV_PASS: data_tail of the input list points to its first datum, which
    does not matter within one call when the first phase decodes. *)
From Verif Require Import Base Types M_Engine M_Output S_Session S_Engine S_Dict S_Table S_Convert P_Trans P_Engine1 P_Engine2 P_Engine3 P_Engine4 P_Engine5 P_Engine6 P_Output P_Output2 P_Output3 P_Session P_Dict P_Convert P_Session2 P_Session3 P_Output4 P_PrevPhase.

Section E.
Context {P : Type}.
Notation ephase := (ephase P). Notation inst := (inst P).

Definition R0 (a b : ephase) : Prop := p_queue P a = p_queue P b /\ p_headlen P a = p_headlen P b.
Lemma R0_step pv pv' t pc : R0 pv pv' -> Rres R0 (from_step P pv t pc) (from_step P pv' t pc).
Proof.
  apply from_step_R.
  - intros a b (H & _). exact H.
  - intros a b (_ & H). exact H.
  - intros a b n (H1 & H2). destruct n; cbn; [exact I|]. split; cbn; congruence.
Qed.

Definition tsim (s s' : inst) : Prop :=
  exists p0 p0' t rest, i_phases P s = p0 :: t :: rest /\ i_phases P s' = p0' :: t :: rest /\ R0 p0 p0' /\ p_type P t = FROM /\
    i_flush P s = i_flush P s' /\ i_ierr P s = i_ierr P s' /\ i_oerr P s = i_oerr P s'.

Lemma list_upd_big {A} (x y : A) l q a : 2 <= q -> list_upd (x :: y :: l) q a = x :: y :: list_upd l (q - 2) a.
Proof. intros H. destruct q as [|[|q]]; try lia. cbn. rewrite Nat.sub_0_r. reflexivity. Qed.

Lemma gstep_tsim pc s s' : tsim s s' -> pc_ok pc ->
  match gstep P s pc, gstep P s' pc with
  | GNextState _ s1 pc1, GNextState _ s1' pc1' => pc1 = pc1' /\ pc_ok pc1 /\ tsim s1 s1'
  | GHalt _ s1, GHalt _ s1' => tsim s1 s1'
  | GUB _, GUB _ => True
  | _, _ => False
  end.
Proof.
  intros HS Hpc. pose proof HS as (p0 & p0' & t1 & rest & E & E' & HR & HT & HF & HI & HO).
  assert (Hn : phasen P s' = phasen P s) by (unfold phasen; rewrite E, E'; reflexivity).
  destruct pc as [p|p lp|p|p|]; cbn [gstep].
  - rewrite Hn. destruct (0 <? p) eqn:E0; cbn [andb]; [destruct (p <=? phasen P s)|]; (split; [reflexivity|]); (split; [cbn; auto; apply Nat.ltb_lt in E0; lia|exact HS]).
  - cbn in Hpc. destruct (Nat.eq_dec p 1) as [->|Hp1].
    + rewrite E, E'. cbn [nth_error Nat.sub]. unfold local_step. rewrite HT. pose proof (R0_step p0 p0' t1 lp HR) as HS2.
      destruct (from_step P p0 t1 lp) as [a x ie oe g|] eqn:Es; destruct (from_step P p0' t1 lp) as [b y ie' oe' g'|]; try contradiction; auto.
      cbn in HS2. destruct HS2 as (<- & <- & <- & <- & HR2).
      destruct (from_step_keeps _ _ _ _ _ _ _ _ HT Es) as (_ & K & _).
      assert (HS3 : tsim (mkInst P (list_upd (list_upd (p0 :: t1 :: rest) 0 a) 1 x) (i_flush P s) (i_ierr P s + ie) (i_oerr P s + oe))
                         (mkInst P (list_upd (list_upd (p0' :: t1 :: rest) 0 b) 1 x) (i_flush P s') (i_ierr P s' + ie) (i_oerr P s' + oe))).
      { exists a, b, x, rest. cbn. repeat split; auto; try apply HR2; try congruence; lia. }
      rewrite Hn. destruct g; (split; [reflexivity|]); (split; [cbn; auto|exact HS3]).
    + assert (Hnth : forall q, 1 <= q -> nth_error (i_phases P s') q = nth_error (i_phases P s) q) by (intros [|q] Hq; [lia|]; rewrite E, E'; reflexivity).
      rewrite !Hnth by lia. destruct (nth_error (i_phases P s) (p - 1)) as [pv|] eqn:E1; [|exact I]. destruct (nth_error (i_phases P s) p) as [th|] eqn:E2; [|exact I].
      destruct (local_step P pv th lp) as [a x ie oe g|] eqn:Es; [|exact I]. destruct (local_step_keeps _ _ _ _ _ _ _ _ Es) as ((K & _) & _).
      assert (HS3 : tsim (mkInst P (list_upd (list_upd (i_phases P s) (p - 1) a) p x) (i_flush P s) (i_ierr P s + ie) (i_oerr P s + oe))
                         (mkInst P (list_upd (list_upd (i_phases P s') (p - 1) a) p x) (i_flush P s') (i_ierr P s' + ie) (i_oerr P s' + oe))).
      { rewrite E, E' in *. destruct (Nat.eq_dec p 2) as [->|Hp2].
        - cbn in E1. injection E1 as ->. exists p0, p0', a, (list_upd rest 0 x). cbn. repeat split; try apply HR; try congruence; destruct rest; reflexivity.
        - exists p0, p0', t1, (list_upd (list_upd rest (p - 1 - 2) a) (p - 2) x). cbn [i_phases i_flush i_ierr i_oerr]. rewrite !list_upd_big by lia. repeat split; try apply HR; try congruence. }
      rewrite Hn. destruct g; (split; [reflexivity|]); (split; [cbn; auto|exact HS3]).
  - destruct p as [|p].
    + rewrite <- HF. destruct (i_flush P s) eqn:Ef; (split; [reflexivity|]); (split; [cbn; auto|exact HS]).
    + destruct p as [|p].
      * rewrite E, E'. cbn [nth_error]. rewrite <- (proj1 HR). destruct (_ <? _); (split; [reflexivity|]); (split; [cbn; auto|exact HS]).
      * rewrite E, E'. cbn [nth_error]. destruct (nth_error (t1 :: rest) p); [|exact I]. destruct (nth_error rest p); [|exact I]. destruct (_ <? _); (split; [reflexivity|]); (split; [cbn; auto|exact HS]).
  - rewrite Hn. destruct (p <=? phasen P s); [|split; [reflexivity|split; [exact I|exact HS]]]. cbn in Hpc. destruct p; [lia|]. rewrite E, E'. cbn [nth_error].
    destruct (nth_error (t1 :: rest) p) as [th|]; [|exact I]. destruct (p_fpending P th); (split; [reflexivity|]); (split; [cbn; auto; lia|exact HS]).
  - exact HS.
Qed.

Lemma grun_tsim : forall fuel pc s s', tsim s s' -> pc_ok pc ->
  match grun P fuel s pc, grun P fuel s' pc with
  | RDone _ s1, RDone _ s1' => tsim s1 s1'
  | RUB _, RUB _ => True
  | RFuel _, RFuel _ => True
  | _, _ => False
  end.
Proof.
  induction fuel as [|f IH]; intros pc s s' H Hpc; [exact I|]. cbn [grun].
  pose proof (gstep_tsim pc s s' H Hpc) as HS. destruct (gstep P s pc); destruct (gstep P s' pc); try contradiction; auto.
  destruct HS as (-> & H1 & H2). apply IH; assumption.
Qed.

Fixpoint enq (s : inst) (ds : list datum) : inst := match ds with [] => s | d :: r => enq (enqueue P s (Some (d, []))) r end.
Lemma enq_phases : forall ds (s : inst) ph0 rest, i_phases P s = ph0 :: rest -> p_tail P ph0 = length (p_queue P ph0) ->
  exists ph0', i_phases P (enq s ds) = ph0' :: rest /\ p_queue P ph0' = p_queue P ph0 ++ ds /\ p_headlen P ph0' = p_headlen P ph0 /\ i_flush P (enq s ds) = i_flush P s /\ i_ierr P (enq s ds) = i_ierr P s /\ i_oerr P (enq s ds) = i_oerr P s.
Proof.
  induction ds as [|d ds IH]; intros s ph0 rest E Ht; cbn [enq].
  - exists ph0. rewrite app_nil_r. auto 10.
  - unfold enqueue. rewrite E. edestruct (IH (mkInst P (set_queue P ph0 (firstn (p_tail P ph0) (p_queue P ph0) ++ [d]) (S (p_tail P ph0)) :: rest) (i_flush P s) (i_ierr P s) (i_oerr P s))) as (ph0' & H1 & H2 & H3 & H4 & H5 & H6); [reflexivity| |].
    + cbn. rewrite app_length, firstn_length. cbn. lia.
    + exists ph0'. rewrite H1, H2, H3, H4, H5, H6. cbn. rewrite Ht, firstn_all, <- app_assoc. auto 10.
Qed.
End E.

Section Multi.
Context {P : Type}.
Notation inst := (inst P).
Variable n : nat.
Variable TY : nat -> ptype.
Variable KS : nat -> list (codec_spec (P:=P)).
Hypothesis n_pos : 1 <= n.
Hypothesis TY_adj : forall p, 1 <= p -> TY p = FROM -> TY (S p) <> FROM.

Lemma okst_enq X E0 : flow_ierr X <= E0 -> forall ds Z' (s : inst) B pre, okst n TY KS X (ds ++ Z') E0 false 0 0 s B pre ->
  exists B', okst n TY KS X Z' E0 false 0 0 (enq s ds) B' pre.
Proof.
  intros Hie. induction ds as [|d ds IH]; intros Z' s B pre HO; [exists B; exact HO|]. cbn [enq].
  destruct HO as [O1 O2 OE O3 O4 O5 O6].
  apply (IH Z' _ (upd1 B (B 1 ++ inj (kind_of (TY 1)) [d])) pre).
  assert (Ei : i_ierr P (enqueue P s (Some (d, []))) = i_ierr P s) by (unfold enqueue; destruct (i_phases P s); reflexivity).
  assert (Eo : i_oerr P (enqueue P s (Some (d, []))) = i_oerr P s) by (unfold enqueue; destruct (i_phases P s); reflexivity).
  assert (Ef : i_flush P (enqueue P s (Some (d, []))) = i_flush P s) by (unfold enqueue; destruct (i_phases P s); reflexivity).
  constructor; rewrite ?Ei, ?Eo, ?Ef; auto; try lia.
  - apply enqueue_ginv; auto.
  - intros Hf. specialize (O4 Hf). discriminate.
  - rewrite dd_upd1 by assumption. rewrite <- O5. cbn [app].
    replace (dd n TY KS B) with (dd n TY KS (upd1 B (B 1))).
    2:{ unfold dd. apply map_ext_in. intros p _. unfold upd1. destruct (Nat.eqb_spec p 1); [subst; reflexivity|reflexivity]. }
    rewrite dd_upd1 by assumption. rewrite denote_enqueue. rewrite (proj1 (kind_of_psem n TY KS n_pos 1 ltac:(lia))). reflexivity.
  - right. left. exact Hie.
Qed.

Theorem multi_call (s : inst) d chain mode : quiet n TY KS s -> TY 1 = FROM -> lossless mode ->
  let R := pipeline (the_pipe n TY KS) (concat (d :: chain)) in
  flow_ierr R = 0 ->
  (forall p j k, 1 <= p <= n -> nth_error (KS p) j = Some k ->
     eof_clean k \/ (flow_ierr R = 0 /\ TY p = FROM /\ j = length (KS p) - 1 /\ no_sub (k_v k))) ->
  exists fuel0 s' r, (forall fuel, fuel0 <= fuel -> bsdconv_call P fuel s (Some (d, chain)) true mode = CDone P s' r) /\
    delivered mode r ++ pending P s' = pending P s ++ out_bytes R /\
    i_ierr P s' = i_ierr P s + flow_ierr R /\ i_oerr P s' = i_oerr P s + flow_oerr R.
Proof.
  intros HQ HT Hll R Hie Heof. pose proof HQ as (B & pre & HG & HB).
  set (X := denote (dd n TY KS B) (d :: chain, i_ierr P s, i_oerr P s)).
  assert (EX : X = (B (S n) ++ filter nonempty (flow_data R), flow_ierr R + i_ierr P s, flow_oerr R + i_oerr P s)).
  { unfold X. rewrite (denote_pipe n TY KS n_pos TY_adj) by exact HB. cbv zeta. rewrite (pipe_chunks n TY KS n_pos TY_adj) by exact HT. fold R. destruct R as [[rd ri] ro]. reflexivity. }
  assert (HXE : flow_ierr X <= i_ierr P s) by (rewrite EX; cbn; lia).
  assert (HO : okst n TY KS X ((d :: chain) ++ []) (i_ierr P s) false 0 0 (mkInst P (i_phases P s) false (i_ierr P s) (i_oerr P s)) B pre).
  { rewrite app_nil_r. constructor; auto; try lia; try (cbn; congruence).
    - apply ginv_flush; auto.
    - right. left. exact HXE. }
  destruct (okst_enq X _ HXE _ _ _ _ _ HO) as (B' & HO'). set (s1 := enq _ (d :: chain)) in *.
  assert (HO2 : okst n TY KS X [] (i_ierr P s) false 0 0 (mkInst P (i_phases P s1) true (i_ierr P s1) (i_oerr P s1)) B' pre).
  { destruct HO' as [O1 O2 OE O3 O4 O5 O6]. constructor; auto. apply ginv_flush; auto. }
  assert (Heof' : eof_cond n TY KS X (i_ierr P s) false).
  { intros p j k Hp Hk. destruct (Heof p j k Hp Hk) as [H|(H1 & H2)]; [left; exact H|right]. split; [right; exact HXE|exact H2]. }
  set (s2 := mkInst P (i_phases P s1) true _ _) in *.
  destruct (run_all n TY KS n_pos TY_adj X [] _ false Heof' (gmeasure n s2 B' ++ [rk n (PBegin 1)]) (lex_acc _ _ eq_refl) s2 (PBegin 1) 0 0 B' pre eq_refl HO2) as [(fuel0 & sH & R1 & R2 & R3)|(HE & _)]; [| |discriminate].
  { cbn. auto. }
  destruct (final_flush n TY KS n_pos TY_adj _ _ _ _ R2 R3) as (HQ' & th & T1 & T2 & T3).
  (* the real state differs in data_tail of the input list *)
  assert (HP0 : exists ph0 t1 rest, i_phases P s = ph0 :: t1 :: rest /\ p_tail P ph0 = length (p_queue P ph0) /\ p_type P t1 = FROM).
  { destruct HG as [G1 G2 G3 G4]. destruct (G2 1 ltac:(lia)) as (pv & t1 & E1 & E2 & E3 & HI). change (1 - 1) with 0 in E1. destruct (i_phases P s) as [|ph0 [|t1' rest]]; try discriminate. cbn in E1, E2. injection E1 as <-. injection E2 as <-.
    exists ph0, t1', rest. split; [reflexivity|]. split; [apply HI|congruence]. }
  destruct HP0 as (ph0 & t1 & rest & Eph & Etl & Ety).
  destruct (enq_phases (d :: chain) (mkInst P (i_phases P s) false (i_ierr P s) (i_oerr P s)) ph0 (t1 :: rest) Eph Etl) as (ph0' & N1 & N2 & N3 & N4 & N5 & N6). fold s1 in N1, N4, N5, N6.
  assert (HTS : forall fuel, fuel0 <= fuel -> exists s3, bsdconv_engine P fuel s (Some (d, chain)) true = RDone P s3 /\ tsim s3 sH).
  { intros fuel Hf. pose proof (grun_mono _ _ _ _ _ Hf R1) as R1'. unfold bsdconv_engine. cbv zeta. unfold enqueue. rewrite Eph. cbn [i_phases i_ierr i_oerr].
    match goal with |- exists s3, grun P fuel ?u _ = _ /\ _ => assert (HTs : tsim u s2) end.
    { exists (set_queue P ph0 (firstn (p_tail P ph0) (p_queue P ph0) ++ d :: chain) (S (p_tail P ph0))), ph0', t1, rest. cbn [i_phases i_flush i_ierr i_oerr s2]. split; [reflexivity|]. split; [exact N1|]. split; [split; [cbn; rewrite N2, Etl, firstn_all; reflexivity|symmetry; exact N3]|]. split; [exact Ety|]. split; [reflexivity|]. split; [symmetry; exact N5|symmetry; exact N6]. }
    pose proof (grun_tsim fuel (PBegin 1) _ _ HTs I) as HG2. rewrite R1' in HG2. clear R1'. destruct (grun P fuel _ (PBegin 1)) as [s3| |]; try contradiction. exists s3. split; [reflexivity|exact HG2]. }
  destruct (HTS fuel0 (le_n _)) as (s3 & E3 & HS3).
  assert (HS4 : forall fuel, fuel0 <= fuel -> bsdconv_engine P fuel s (Some (d, chain)) true = RDone P s3).
  { intros fuel Hf. unfold bsdconv_engine in *. eapply grun_mono; eassumption. }
  destruct HS3 as (q0 & q0' & u1 & urest & U1 & U2 & U3 & U4 & U5 & U6 & U7).
  assert (HLs : last_phase P s3 = last_phase P sH) by (unfold last_phase, phasen; rewrite U1, U2; reflexivity).
  assert (HLok : last_ok (P:=P) s3) by (eapply engine_last_ok; [eapply ginv_last_ok; [exact n_pos|exact TY_adj|exact HG]|exact E3]).
  destruct HLok as (l & t & Hl & Ep & Ht). destruct (last_phase_app s3 l t Ep) as (EL & _).
  destruct (output_switch_spec t mode Ht Hll) as (r & x & Hr & Hq & Htl & Hd).
  exists fuel0, (set_last P s3 (or_queue r) (or_tail r)), r. split.
  { intros fuel Hf. unfold bsdconv_call. rewrite (HS4 fuel Hf), EL, Hr. reflexivity. }
  rewrite (set_last_app s3 l t _ _ Ep).
  split.
  - unfold pending at 1. match goal with |- context [last_phase P ?u] => assert (EL2 : last_phase P u = Some (set_queue P t (or_queue r) (or_tail r))) by (apply (last_phase_app u l); reflexivity) end. rewrite EL2. cbn [set_queue p_queue].
    rewrite Hd. assert (EC : concat x ++ concat (or_queue r) = concat (p_queue P t)) by (rewrite Hq, concat_app; reflexivity). rewrite EC.
    rewrite HLs in EL. destruct (quiet_pending n TY KS n_pos TY_adj sH HQ') as (th' & T4 & T5). assert (th' = th) by congruence. subst th'.
    assert (EPH : pending P sH = concat (p_queue P t)) by (unfold pending; rewrite EL; reflexivity).
    destruct (quiet_pending n TY KS n_pos TY_adj s HQ) as (ths & T6 & ->). destruct (gi_sink _ _ _ _ _ _ _ _ HG) as (ths' & T7 & _ & T8). assert (ths' = ths) by congruence. subst ths'.
    rewrite <- EPH, T5. rewrite <- (concat_filter (p_queue P th)), <- (concat_filter (p_queue P ths)), <- T8. rewrite EX in T2.
    assert (ET : filter nonempty (p_queue P th) = B (S n) ++ filter nonempty (flow_data R)) by congruence. rewrite ET, concat_app, (concat_filter (flow_data R)). reflexivity.
  - cbn. rewrite U6, U7. rewrite EX in T2. injection T2 as T2a T2b T2c. split; lia.
Qed.
End Multi.

(** Engine runs with phases described by relations: pipelines that contain stateful intermediate modules. *)
From Verif Require Import Base Types M_Engine M_Output S_Session S_Engine P_Trans P_Engine1 P_Engine2 P_Engine3 P_Engine4 P_Engine5 P_Engine6 P_Output P_Output2 P_Output3 P_Session.

Section E.
Context {P : Type}.
Notation ecodec := (ecodec P). Notation ephase := (ephase P). Notation inst := (inst P).
Arguments p_type {P}. Arguments p_codecs {P}. Arguments p_index {P}. Arguments p_curr {P}. Arguments p_i {P}.
Arguments p_bak {P}. Arguments p_headlen {P}. Arguments p_match_data {P}. Arguments p_state {P}. Arguments p_offset {P}.
Arguments p_fmatch {P}. Arguments p_fpending {P}. Arguments p_floop {P}. Arguments p_queue {P}. Arguments p_tail {P}.
Arguments e_priv {P}. Arguments set_queue {P}. Arguments local_step {P}. Arguments LRes {P}.
Arguments gstep {P}. Arguments grun {P}. Arguments i_phases {P}. Arguments i_flush {P}. Arguments i_ierr {P}. Arguments i_oerr {P}.
Arguments RDone {P}. Arguments mkInst {P}. Arguments phasen {P}. Arguments enqueue {P}. Arguments bsdconv_engine {P}.
Arguments GNextState {P}. Arguments with_pair {P}.

(** What a phase will still do: future input, output, output errors, final state. *)
Definition Den := list datum -> list datum -> nat -> option P -> Prop.
Definition ne (d : datum) : Prop := match d with [] => False | b :: _ => (b < 257)%N end.
Record pspec := mkPs {
  s_type : ptype;
  s_cin : bool;                 (* wants non-empty data *)
  s_cout : bool;                (* produces non-empty data *)
  s_inv : bool -> bool -> ephase -> ephase -> Den -> list nat -> Prop;
  s_fin : ephase -> option P -> Prop
}.
Definition ach (S : pspec) (fin : bool) (pv th : ephase) (D : Den) (m : list nat) (pc : lpc) : Prop :=
  exists pv' th' oe g, lsteps pv th pc pv' th' 0 oe g /\ same_ctl pv pv' /\ same_static th th' /\
  exists out0 D' m' mid',
    p_queue th' = p_queue th ++ out0 /\ p_tail th' = length (p_queue th') /\ (s_cout S = true -> Forall ne out0) /\
    s_inv S fin mid' pv' th' D' m' /\
    (forall Y o e f, alw fin Y -> D Y o e f -> exists o' e', D' Y o' e' f /\ o = filter nonempty out0 ++ o' /\ e = oe + e') /\
    lex m' m /\
    match g with Stay LInner => s_type S = FROM | Stay LOuter | GBegin | GNext => mid' = false | _ => False end.
Definition live (fin : bool) (D : Den) : Prop := exists Y o e f, alw fin Y /\ D Y o e f.
Definition fed (D : Den) (ds : list datum) : Den := fun Y => D (filter nonempty ds ++ Y).
Record pspec_ok (S : pspec) : Prop := {
  so_type : forall fin mid pv th D m, s_inv S fin mid pv th D m -> p_type th = s_type S /\ p_tail pv = length (p_queue pv) /\ length m = 4;
  so_outer : forall fin pv th D m, s_inv S fin false pv th D m -> p_tail th = length (p_queue th) -> live fin D -> p_curr th < length (p_queue pv) -> ach S fin pv th D m LOuter;
  so_inner : s_type S = FROM -> forall fin pv th D m, s_inv S fin true pv th D m -> p_tail th = length (p_queue th) -> live fin D ->
    ach S fin pv th D m LInner \/ (local_step pv th LInner = LRes pv th 0 0 (Stay LOuter) /\ s_inv S fin false pv th D m);
  so_idle : forall fin mid pv th D m, s_inv S fin mid pv th D m -> length (p_queue pv) <= p_curr th -> local_step pv th LOuter = LRes pv th 0 0 GBreak;
  so_eof : forall fin pv th D m, s_inv S fin false pv th D m -> p_tail th = length (p_queue th) -> length (p_queue pv) <= p_curr th -> p_fpending th = true ->
    (exists o e f, D [] o e f) -> ach S true pv th D m LDead;
  so_rest : forall fin pv th D m o e f, s_inv S fin false pv th D m -> length (p_queue pv) <= p_curr th -> p_fpending th = false -> D [] o e f ->
    o = [] /\ e = 0 /\ s_fin S th f;
  so_append : forall mid pv pv' th D m ds, s_inv S false mid pv th D m -> p_queue pv' = p_queue pv ++ ds -> p_tail pv' = length (p_queue pv') ->
    (s_type S = FROM -> p_headlen pv' = p_headlen pv) -> (s_cin S = true -> Forall ne ds) -> exists m', s_inv S false mid pv' th (fed D ds) m';
  so_ctl : forall fin mid pv th th' D m, s_inv S fin mid pv th D m -> same_ctl th th' -> s_inv S fin mid pv th' D m;
  so_mid : forall fin pv th D m, s_inv S fin false pv th D m -> s_inv S fin true pv th D m;
  so_fin : forall mid pv th D m, s_inv S false mid pv th D m -> s_inv S true mid pv th D m;
  so_finctl : forall th th' f, s_fin S th f -> same_ctl th th' -> s_fin S th' f
}.

Variable n : nat.
Variable SP : nat -> pspec.
Hypothesis n_pos : 1 <= n.
Hypothesis SP_ok : forall p, 1 <= p <= n -> pspec_ok (SP p).
Hypothesis SP_from : forall p, 1 <= p <= n -> s_type (SP p) = FROM -> p = 1.
Hypothesis SP_clean : forall p, 1 <= p < n -> s_cin (SP (S p)) = true -> s_cout (SP p) = true.
Hypothesis SP_in : s_cin (SP 1) = false.

Definition inv_at (s : inst) (fin mid : bool) (p : nat) (D : Den) (m : list nat) : Prop :=
  exists pv th, nth_error (i_phases s) (p - 1) = Some pv /\ nth_error (i_phases s) p = Some th /\ s_inv (SP p) fin mid pv th D m.
Definition rest_at (s : inst) (p : nat) : Prop :=
  exists pv th, nth_error (i_phases s) (p - 1) = Some pv /\ nth_error (i_phases s) p = Some th /\ length (p_queue pv) <= p_curr th /\ p_fpending th = false.
Definition idle_at (s : inst) (p : nat) : Prop :=
  exists pv th, nth_error (i_phases s) (p - 1) = Some pv /\ nth_error (i_phases s) p = Some th /\ length (p_queue pv) <= p_curr th.

Record finv (F midp : nat) (s : inst) (D : nat -> Den) (m : nat -> list nat) : Prop := {
  fi_len : length (i_phases s) = S n;
  fi_ph : forall p, 1 <= p <= n -> inv_at s (p <=? F) (p =? midp) p (D p) (m p);
  fi_sink : exists th, nth_error (i_phases s) n = Some th /\ p_tail th = length (p_queue th);
  fi_drained : forall p, 1 <= p < F -> rest_at s p;
  fi_mid : midp = 0 \/ F <= midp
}.

Definition fmeasure (m : nat -> list nat) : list nat := concat (map m (seq 1 n)).

Lemma fi_tail F midp s D m p th : finv F midp s D m -> 1 <= p <= n -> nth_error (i_phases s) p = Some th -> p_tail th = length (p_queue th).
Proof.
  intros [Hl Hp (t & Ht & Htt) _ _] Hpn E. destruct (Nat.eq_dec p n) as [->|Hne].
  - congruence.
  - destruct (Hp (S p)) as (pv & th' & E1 & _ & HI); [lia|]. replace (S p - 1) with p in E1 by lia. assert (pv = th) by congruence. subst.
    apply (so_type _ (SP_ok (S p) ltac:(lia)) _ _ _ _ _ _ HI).
Qed.
Lemma fi_m4 F midp s D m p : finv F midp s D m -> 1 <= p <= n -> length (m p) = 4.
Proof. intros HG Hp. destruct (fi_ph _ _ _ _ _ HG p Hp) as (pv & th & _ & _ & HI). apply (so_type _ (SP_ok p Hp) _ _ _ _ _ _ HI). Qed.

Lemma concat_len4 (m m' : nat -> list nat) l : (forall q, In q l -> length (m q) = 4 /\ length (m' q) = 4) -> length (concat (map m l)) = length (concat (map m' l)).
Proof.
  induction l as [|a l IH]; intros H; [reflexivity|]. cbn. rewrite !app_length. destruct (H a (or_introl eq_refl)) as (-> & ->). rewrite IH; [reflexivity|]. intros q Hq. apply H. right. exact Hq.
Qed.

(** ** The flow of data that is still to come *)
Variable fz : nat -> option P.
Variable XO : list datum.
Variable Xe E0 : nat.
Record flows (F : nat) (Z : list datum) (s : inst) (D : nat -> Den) (I : nat -> list datum) (e : nat -> nat) : Prop := {
  fl_in : I 1 = Z;
  fl_d : forall p, 1 <= p <= n -> D p (I p) (I (S p)) (e p) (fz p);
  fl_fin : forall p, 1 <= p <= F -> I p = [];
  fl_out : exists th, nth_error (i_phases s) n = Some th /\ XO = filter nonempty (p_queue th) ++ I (S n);
  fl_err : Xe = i_oerr s + list_sum (map e (seq 1 n));
  fl_ierr : i_ierr s = E0
}.

Lemma sum_upd (e : nat -> nat) p a b : 1 <= p <= n -> e p = a + b ->
  list_sum (map e (seq 1 n)) = a + list_sum (map (fun q => if q =? p then b else e q) (seq 1 n)).
Proof.
  intros Hp E. replace n with ((p - 1) + (1 + (n - p))) by lia. rewrite seq_app, !map_app, !list_sum_app. replace (1 + (p - 1)) with p by lia. cbn [seq map list_sum fold_right plus].
  rewrite !(map_ext_in (fun q => if q =? p then b else e q) e (seq 1 (p - 1))).
  2:{ intros q Hq. apply in_seq in Hq. destruct (Nat.eqb_spec q p); [lia|reflexivity]. }
  rewrite !(map_ext_in (fun q => if q =? p then b else e q) e (seq (S p) (n - p))).
  2:{ intros q Hq. apply in_seq in Hq. destruct (Nat.eqb_spec q p); [lia|reflexivity]. }
  rewrite Nat.eqb_refl. unfold list_sum. cbn [fold_right]. lia.
Qed.

Lemma flow_commit F midp s D m Z I e p pv th pc :
  finv F midp s D m -> flows F Z s D I e -> 1 <= p <= n -> F <= p ->
  nth_error (i_phases s) (p - 1) = Some pv -> nth_error (i_phases s) p = Some th -> midp = p \/ midp = 0 ->
  ach (SP p) (p <=? F) pv th (D p) (m p) pc ->
  exists s' g D' m' I' e' midp', gsteps s (PLocal p pc) s' (gpc_of n p g) /\ i_flush s' = i_flush s /\
    finv F midp' s' D' m' /\ flows F Z s' D' I' e' /\ lex (fmeasure m') (fmeasure m) /\
    match g with
    | Stay LInner => s_type (SP p) = FROM /\ midp' = p
    | Stay LOuter | GBegin | GNext => midp' = 0
    | _ => False
    end.
Proof.
  intros HG HW Hp HFp E1 E2 Hmid (pv' & th' & oe & g & Hls & Hctl & Hst & out0 & D1 & m1 & mid1 & A1 & A2 & A3 & A4 & A5 & A6 & A7).
  pose proof (lsteps_gsteps _ _ _ _ _ _ _ _ Hls s p (proj1 Hp) E1 E2) as Hgs.
  assert (Hph : phasen s = n) by (unfold phasen; rewrite (fi_len _ _ _ _ _ HG); lia).
  rewrite Hph in Hgs.
  set (s' := with_pair s p pv' th' 0 oe) in *.
  assert (N1 : nth_error (i_phases s') (p - 1) = Some pv').
  { cbn. rewrite list_upd_nth_ne by lia. eapply list_upd_nth; eassumption. }
  assert (N2 : nth_error (i_phases s') p = Some th').
  { cbn. eapply list_upd_nth. rewrite list_upd_nth_ne by lia. exact E2. }
  assert (N3 : forall q, q <> p -> q <> p - 1 -> nth_error (i_phases s') q = nth_error (i_phases s) q).
  { intros q Hq1 Hq2. cbn. rewrite !list_upd_nth_ne by lia. reflexivity. }
  set (midp' := match g with Stay LInner => p | _ => 0 end).
  (* the invariant of a later phase *)
  assert (Hnext : p < n -> exists mS, inv_at s' (S p <=? F) (S p =? midp') (S p) (fed (D (S p)) out0) mS).
  { intros Hpn. destruct (fi_ph _ _ _ _ _ HG (S p) ltac:(lia)) as (pvq & thq & Q1 & Q2 & Q4).
    replace (S p - 1) with p in Q1 by lia. assert (pvq = th) by congruence. subst pvq.
    assert (Hf : (S p <=? F) = false) by (apply Nat.leb_gt; lia). rewrite Hf in *.
    assert (Hm : (S p =? midp) = false) by (apply Nat.eqb_neq; lia). rewrite Hm in Q4.
    destruct (so_append _ (SP_ok (S p) ltac:(lia)) _ _ th' _ _ _ out0 Q4 A1 A2) as (mS & HS).
    - intros Ef. exfalso. pose proof (SP_from (S p) ltac:(lia) Ef). lia.
    - intros Hc. apply A3, SP_clean; [lia|exact Hc].
    - exists mS, th', thq. replace (S p - 1) with p by lia. split; [assumption|]. split; [rewrite N3 by lia; assumption|].
      destruct (S p =? midp'); [apply (so_mid _ (SP_ok (S p) ltac:(lia)))|]; exact HS. }
  assert (HmS : exists mS, p < n -> inv_at s' (S p <=? F) (S p =? midp') (S p) (fed (D (S p)) out0) mS).
  { destruct (Nat.lt_ge_cases p n) as [H|H]; [destruct (Hnext H) as (x & Hx); exists x; auto|exists []; lia]. }
  destruct HmS as (mS & HmS). clear Hnext.
  set (D' := fun q => if q =? p then D1 else if q =? S p then fed (D (S p)) out0 else D q).
  set (m' := fun q => if q =? p then m1 else if q =? S p then mS else m q).
  assert (HG' : finv F midp' s' D' m').
  { constructor.
    - cbn. rewrite !list_upd_length. apply HG.
    - intros q Hq. unfold D', m'. destruct (Nat.eqb_spec q p) as [->|Hqp].
      + exists pv', th'. repeat (split; [assumption|]).
        unfold midp'. destruct g as [lp| | |]; cbn in A7; try contradiction; try (subst mid1; destruct (Nat.eqb_spec p 0); [lia|]; exact A4).
        destruct lp; try contradiction; try (subst mid1; destruct (Nat.eqb_spec p 0); [lia|]; exact A4).
        rewrite Nat.eqb_refl. destruct mid1; [exact A4|apply (so_mid _ (SP_ok p Hp)); exact A4].
      + destruct (Nat.eqb_spec q (S p)) as [->|HqS]; [apply HmS; lia|].
        destruct (fi_ph _ _ _ _ _ HG q Hq) as (pvq & thq & Q1 & Q2 & Q4).
        assert (Qm : s_inv (SP q) (q <=? F) (q =? midp') pvq thq (D q) (m q)).
        { assert (Hf : (q =? midp) = false) by (apply Nat.eqb_neq; lia). rewrite Hf in Q4.
          destruct (q =? midp'); [apply (so_mid _ (SP_ok q Hq))|]; exact Q4. }
        destruct (Nat.eq_dec q (p - 1)) as [->|HqP].
        * assert (thq = pv) by congruence. subst thq. exists pvq, pv'.
          split; [rewrite N3 by lia; assumption|]. split; [assumption|]. eapply (so_ctl _ (SP_ok _ Hq)); eassumption.
        * exists pvq, thq. split; [rewrite N3 by lia; assumption|]. split; [rewrite N3 by lia; assumption|]. assumption.
    - destruct (fi_sink _ _ _ _ _ HG) as (tn & K1 & K2). destruct (Nat.eq_dec p n) as [->|Hpn].
      + exists th'. split; assumption.
      + destruct (Nat.eq_dec n (p - 1)); [lia|]. exists tn. split; [rewrite N3 by lia; exact K1|exact K2].
    - intros q Hq. destruct (fi_drained _ _ _ _ _ HG q Hq) as (pvq & thq & Q1 & Q2 & Q3 & Q4). destruct (Nat.eq_dec q (p - 1)) as [->|HqP].
      + assert (thq = pv) by congruence. subst thq. exists pvq, pv'. split; [rewrite N3 by lia; assumption|]. split; [assumption|]. rewrite Hctl. auto.
      + exists pvq, thq. rewrite !N3 by lia. auto.
    - unfold midp'. destruct g as [[]| | |]; auto. }
  (* the flow *)
  pose proof (fl_d _ _ _ _ _ _ HW p Hp) as HDp.
  assert (Halw : alw (p <=? F) (I p)).
  { intros Ef. apply Nat.leb_le in Ef. apply (fl_fin _ _ _ _ _ _ HW). lia. }
  destruct (A5 _ _ _ _ Halw HDp) as (o' & e1 & B1 & B2 & B3).
  set (I' := fun q => if q =? S p then o' else I q).
  set (e' := fun q => if q =? p then e1 else e q).
  assert (HW' : flows F Z s' D' I' e').
  { constructor.
    - unfold I'. destruct (Nat.eqb_spec 1 (S p)); [lia|]. apply HW.
    - intros q Hq. unfold D', I', e'. destruct (Nat.eqb_spec q p) as [->|Hqp].
      + destruct (Nat.eqb_spec p (S p)); [lia|]. rewrite Nat.eqb_refl. exact B1.
      + destruct (Nat.eqb_spec q (S p)) as [->|HqS].
        * destruct (Nat.eqb_spec (S (S p)) (S p)); [lia|]. unfold fed. rewrite <- B2. apply (fl_d _ _ _ _ _ _ HW). exact Hq.
        * destruct (Nat.eqb_spec (S q) (S p)); [lia|]. apply (fl_d _ _ _ _ _ _ HW). exact Hq.
    - intros q Hq. unfold I'. destruct (Nat.eqb_spec q (S p)); [lia|]. apply (fl_fin _ _ _ _ _ _ HW). exact Hq.
    - destruct (fl_out _ _ _ _ _ _ HW) as (tn & K1 & K2). unfold I'. destruct (Nat.eq_dec p n) as [->|Hpn].
      + exists th'. split; [assumption|]. rewrite Nat.eqb_refl. assert (tn = th) by congruence. subst tn. rewrite A1, filter_app, <- app_assoc, <- B2. exact K2.
      + exists tn. split; [rewrite N3 by lia; exact K1|]. destruct (Nat.eqb_spec (S n) (S p)); [lia|exact K2].
    - rewrite (fl_err _ _ _ _ _ _ HW). rewrite (sum_upd e p oe e1 Hp B3). fold e'. cbn [s' i_oerr with_pair]. unfold with_pair. cbn. lia.
    - cbn. rewrite Nat.add_0_r. apply HW. }
  exists s', g, D', m', I', e', midp'. split; [exact Hgs|]. split; [reflexivity|]. split; [exact HG'|]. split; [exact HW'|]. split.
  { unfold fmeasure. replace n with ((p - 1) + (1 + (n - p))) by lia. rewrite seq_app, !map_app, !concat_app. replace (1 + (p - 1)) with p by lia. cbn [plus seq map concat].
    rewrite (map_ext_in m' m (seq 1 (p - 1))).
    2:{ intros q Hq. apply in_seq in Hq. unfold m'. destruct (Nat.eqb_spec q p); [lia|]. destruct (Nat.eqb_spec q (S p)); [lia|]. reflexivity. }
    apply lex_app_same. apply lex_app; [unfold m'; rewrite Nat.eqb_refl; exact A6|].
    apply concat_len4. intros q Hq. apply in_seq in Hq. split; [exact (fi_m4 _ _ _ _ _ q HG' ltac:(lia))|exact (fi_m4 _ _ _ _ _ q HG ltac:(lia))]. }
  unfold midp'. destruct g as [[]| | |]; try contradiction; auto.
Qed.

Record okf (F midp : nat) (Z : list datum) (s : inst) (D : nat -> Den) (m : nat -> list nat) (I : nat -> list datum) (e : nat -> nat) : Prop := {
  of_g : finv F midp s D m;
  of_w : flows F Z s D I e;
  of_F : F <= n;
  of_flush : i_flush s = true -> Z = [];
  of_nf : i_flush s = false -> F = 0
}.
Definition okpcf (midp : nat) (s : inst) (pc : gpc) : Prop :=
  match pc with
  | PBegin p => 1 <= p /\ midp = 0
  | PLocal p LOuter => 1 <= p <= n /\ midp = 0
  | PLocal p LInner => 1 <= p <= n /\ midp = p /\ s_type (SP p) = FROM
  | PLocal _ _ => False
  | PCheck p => p <= n /\ midp = 0 /\ forall q, p < q <= n -> idle_at s q
  | PFlush p => 1 <= p <= S n /\ midp = 0 /\ i_flush s = true /\ (forall q, 1 <= q <= n -> idle_at s q) /\ forall q, 1 <= q < p -> rest_at s q
  | PDone => midp = 0 /\ (forall q, 1 <= q <= n -> idle_at s q) /\ (i_flush s = true -> forall q, 1 <= q <= n -> rest_at s q)
  end.

Lemma okf_commit F midp Z s D m I e p pv th pc :
  okf F midp Z s D m I e -> 1 <= p <= n -> F <= p ->
  nth_error (i_phases s) (p - 1) = Some pv -> nth_error (i_phases s) p = Some th -> midp = p \/ midp = 0 ->
  ach (SP p) (p <=? F) pv th (D p) (m p) pc ->
  exists s' pc' D' m' I' e' midp', gsteps s (PLocal p pc) s' pc' /\ okf F midp' Z s' D' m' I' e' /\ okpcf midp' s' pc' /\ i_flush s' = i_flush s /\
    forall r r', lex (fmeasure m' ++ [r]) (fmeasure m ++ [r']).
Proof.
  intros [HG HW HF Hfl Hnf] Hp HFp E1 E2 Hm HA.
  destruct (flow_commit F midp s D m Z I e p pv th pc HG HW Hp HFp E1 E2 Hm HA) as (s' & g & D' & m' & I' & e' & midp' & G1 & G2 & G3 & G4 & G5 & G6).
  exists s', (gpc_of n p g), D', m', I', e', midp'. split; [exact G1|]. split; [|split; [|split]].
  - constructor; auto; rewrite G2; assumption.
  - destruct g as [[]| | |]; cbn in *; try contradiction; subst; auto; try lia. destruct G6 as (A & ->). auto.
  - exact G2.
  - intros r r'. apply lex_app; [exact G5|reflexivity].
Qed.

Lemma of_live F midp Z s D m I e p : okf F midp Z s D m I e -> 1 <= p <= n -> live (p <=? F) (D p).
Proof.
  intros HO Hp. exists (I p), (I (S p)), (e p), (fz p). split; [|apply (fl_d _ _ _ _ _ _ (of_w _ _ _ _ _ _ _ _ HO)); exact Hp].
  intros Ef. apply Nat.leb_le in Ef. apply (fl_fin _ _ _ _ _ _ (of_w _ _ _ _ _ _ _ _ HO)). lia.
Qed.

(** data cannot come out of phases at rest *)
Lemma rest_flow F Z s D m I e p : okf F 0 Z s D m I e -> Z = [] -> p <= n -> (forall q, 1 <= q <= p -> rest_at s q) ->
  forall q, 1 <= q <= S p -> I q = [].
Proof.
  intros HO HZ Hp Hr. induction q as [|q IH]; intros Hq; [lia|]. destruct q as [|q]; [rewrite (fl_in _ _ _ _ _ _ (of_w _ _ _ _ _ _ _ _ HO)); exact HZ|].
  assert (Hq' : 1 <= S q <= n) by lia. assert (Hq2 : 1 <= S q <= S p) by lia.
  pose proof (fl_d _ _ _ _ _ _ (of_w _ _ _ _ _ _ _ _ HO) (S q) Hq') as HD. rewrite (IH Hq2) in HD.
  destruct (fi_ph _ _ _ _ _ (of_g _ _ _ _ _ _ _ _ HO) (S q) Hq') as (pv & th & Q1 & Q2 & Q4). 
  destruct (Hr (S q) ltac:(lia)) as (pv1 & th1 & R1 & R2 & R3 & R4). assert (pv1 = pv) by congruence. assert (th1 = th) by congruence. subst.
  apply (so_rest _ (SP_ok (S q) Hq') _ _ _ _ _ _ _ _ Q4 R3 R4 HD).
Qed.

Lemma okf_raise F Z s D m I e p : okf F 0 Z s D m I e -> i_flush s = true -> 1 <= p <= n -> F <= p -> (forall q, 1 <= q < p -> rest_at s q) -> okf p 0 Z s D m I e.
Proof.
  intros HO Hf Hp HFp Hr. pose proof (of_flush _ _ _ _ _ _ _ _ HO Hf) as HZ. assert (HI : forall q, 1 <= q <= p -> I q = []).
  { intros q Hq. apply (rest_flow F Z s D m I e (p - 1) HO HZ); [lia| |lia]. intros q' Hq'. apply Hr. lia. }
  destruct HO as [[G1 G2 G3 G4 G5] [W1 W2 W3 W4 W5 W6] HF Hfl Hnf]. constructor; auto; [|constructor; auto|lia|congruence].
  constructor; auto. intros q Hq. destruct (G2 q Hq) as (pv & th & E1 & E2 & E3). exists pv, th. repeat (split; [assumption|]).
  destruct (Nat.leb_spec q F) as [H|H].
  - rewrite (proj2 (Nat.leb_le q p)) by lia. exact E3.
  - destruct (q <=? p); [apply (so_fin _ (SP_ok q Hq))|]; exact E3.
Qed.

Definition finalf (Z : list datum) (s : inst) : Prop :=
  exists F D m I e, okf F 0 Z s D m I e /\ (forall q, 1 <= q <= n -> idle_at s q) /\ (i_flush s = true -> forall q, 1 <= q <= n -> rest_at s q).

Lemma with_pair_same (s : inst) p (pv th : ephase) : nth_error (i_phases s) (p - 1) = Some pv -> nth_error (i_phases s) p = Some th -> with_pair s p pv th 0 0 = s.
Proof. intros Q1 Q2. unfold with_pair. rewrite (list_upd_same _ _ _ Q1), (list_upd_same _ _ _ Q2), !Nat.add_0_r. destruct s; reflexivity. Qed.

Lemma run_flow Z : forall M, Acc lex M -> forall s pc F midp D m I e, M = fmeasure m ++ [rk n pc] -> okf F midp Z s D m I e -> okpcf midp s pc ->
  exists fuel s', grun fuel s pc = RDone s' /\ finalf Z s' /\ i_flush s' = i_flush s.
Proof.
  intros M HM. induction HM as [M _ IH]. intros s pc F midp D m I e -> HO HPC.
  set (goal := exists fuel s', grun fuel s pc = RDone s' /\ finalf Z s' /\ i_flush s' = i_flush s).
  assert (Hcont : forall s1 pc1 F1 midp1 D1 m1 I1 e1, gsteps s pc s1 pc1 -> lex (fmeasure m1 ++ [rk n pc1]) (fmeasure m ++ [rk n pc]) ->
      okf F1 midp1 Z s1 D1 m1 I1 e1 -> okpcf midp1 s1 pc1 -> i_flush s1 = i_flush s -> goal).
  { intros s1 pc1 F1 midp1 D1 m1 I1 e1 HS HL HO1 HPC1 Hfl. destruct (IH _ HL s1 pc1 F1 midp1 D1 m1 I1 e1 eq_refl HO1 HPC1) as (fuel & s' & Hr & Hf & Hf2).
    destruct (grun_gsteps _ _ _ _ HS _ _ Hr) as (fuel' & Hr'). exists fuel', s'. split; [exact Hr'|]. split; [exact Hf|congruence]. }
  assert (Hsame : forall pc1, gsteps s pc s pc1 -> rk n pc1 < rk n pc -> okpcf midp s pc1 -> goal).
  { intros pc1 HS Hr HP. eapply Hcont; [exact HS| |exact HO|exact HP|reflexivity]. apply lex_app_same. apply lex_here; [exact Hr|reflexivity]. }
  assert (Hphn : phasen s = n) by (unfold phasen; rewrite (fi_len _ _ _ _ _ (of_g _ _ _ _ _ _ _ _ HO)); lia).
  pose proof (of_g _ _ _ _ _ _ _ _ HO) as HG.
  assert (Hwork : forall p, gsteps s pc s (PLocal p LOuter) -> 1 <= p <= n -> midp = 0 ->
     (exists pv th, nth_error (i_phases s) (p - 1) = Some pv /\ nth_error (i_phases s) p = Some th /\ p_curr th < length (p_queue pv)) -> goal).
  { intros p HS Hp Hm (pv & th & E1 & E2 & Hlt). subst midp.
    destruct (fi_ph _ _ _ _ _ HG p Hp) as (pv0 & th0 & Q1 & Q2 & Q4). assert (pv0 = pv) by congruence. assert (th0 = th) by congruence. subst pv0 th0.
    assert (Hz : (p =? 0) = false) by (apply Nat.eqb_neq; lia). rewrite Hz in Q4.
    assert (HFp : F <= p).
    { destruct (Nat.le_gt_cases F p) as [H|H]; [exact H|]. destruct (fi_drained _ _ _ _ _ HG p ltac:(lia)) as (a & b & R1 & R2 & R3 & _). rewrite E1 in R1. rewrite E2 in R2. injection R1 as <-. injection R2 as <-. lia. }
    pose proof (so_outer _ (SP_ok p Hp) _ _ _ _ _ Q4 (fi_tail _ _ _ _ _ _ _ HG Hp E2) (of_live _ _ _ _ _ _ _ _ p HO Hp) Hlt) as HA.
    destruct (okf_commit _ _ _ _ _ _ _ _ _ _ _ _ HO Hp HFp E1 E2 (or_intror eq_refl) HA) as (s' & pc' & D' & m' & I' & e' & midp' & S1 & S2 & S3 & S4 & S5).
    eapply Hcont; [eapply gsteps_trans; [exact HS|exact S1]|apply S5|exact S2|exact S3|exact S4]. }
  destruct pc as [p|p lp|p|p|].
  - (* PBegin *)
    destruct HPC as (Hp & Hm). destruct (Nat.leb_spec p n) as [Hle|Hgt].
    + apply (Hsame (PLocal p LOuter)); [|cbn; lia|cbn; auto]. apply gsteps_one. cbn [gstep]. rewrite Hphn.
      destruct (Nat.ltb_spec 0 p); [|lia]. destruct (Nat.leb_spec p n); [|lia]. reflexivity.
    + apply (Hsame (PCheck n)); [|cbn; lia|cbn; split; [lia|]; split; [assumption|intros; lia]]. apply gsteps_one. cbn [gstep]. rewrite Hphn.
      destruct (Nat.leb_spec p n); [lia|]. rewrite andb_false_r. reflexivity.
  - destruct lp; try contradiction.
    + (* LOuter *)
      destruct HPC as (Hp & Hm).
      destruct (fi_ph _ _ _ _ _ HG p Hp) as (pv & th & Q1 & Q2 & Q4).
      destruct (Nat.lt_ge_cases (p_curr th) (length (p_queue pv))) as [Hlt|Hge].
      * apply (Hwork p); auto; [apply gs_refl|]. exists pv, th. auto.
      * apply (Hsame (PCheck n)); [|cbn; lia|cbn; split; [lia|]; split; [assumption|intros; lia]].
        pose proof (lsteps_gsteps _ _ _ _ _ _ _ _ (ls_one _ _ _ _ _ _ _ _ (so_idle _ (SP_ok p Hp) _ _ _ _ _ _ Q4 Hge)) s p (proj1 Hp) Q1 Q2) as HS.
        cbn [gpc_of] in HS. rewrite Hphn, (with_pair_same s p pv th Q1 Q2) in HS. exact HS.
    + (* LInner *)
      destruct HPC as (Hp & Hm & HF). subst midp.
      destruct (fi_ph _ _ _ _ _ HG p Hp) as (pv & th & Q1 & Q2 & Q4). rewrite Nat.eqb_refl in Q4.
      destruct (so_inner _ (SP_ok p Hp) HF _ _ _ _ _ Q4 (fi_tail _ _ _ _ _ _ _ HG Hp Q2) (of_live _ _ _ _ _ _ _ _ p HO Hp)) as [HA|(Hst & Q4')].
      * assert (HFp : F <= p) by (destruct (fi_mid _ _ _ _ _ HG); lia).
        destruct (okf_commit _ _ _ _ _ _ _ _ _ _ _ _ HO Hp HFp Q1 Q2 (or_introl eq_refl) HA) as (s' & pc' & D' & m' & I' & e' & midp' & S1 & S2 & S3 & S4 & S5).
        eapply Hcont; [exact S1|apply S5|exact S2|exact S3|exact S4].
      * pose proof (lsteps_gsteps _ _ _ _ _ _ _ _ (ls_one _ _ _ _ _ _ _ _ Hst) s p (proj1 Hp) Q1 Q2) as HS.
        cbn [gpc_of] in HS. rewrite (with_pair_same s p pv th Q1 Q2) in HS.
        assert (HO' : okf F 0 Z s D m I e).
        { destruct HO as [O1 O2 O3 O4 O5]. constructor; auto. destruct O1 as [G1 G2 G3 G4 G5]. constructor; auto.
          intros q Hq. destruct (Nat.eq_dec q p) as [->|Hqp].
          - exists pv, th. assert (Hz : (p =? 0) = false) by (apply Nat.eqb_neq; lia). rewrite Hz. auto.
          - specialize (G2 q Hq). assert (Hz : (q =? 0) = false) by (apply Nat.eqb_neq; lia). assert (Hz2 : (q =? p) = false) by (apply Nat.eqb_neq; lia).
            rewrite Hz2 in G2. rewrite Hz. exact G2. }
        apply (Hcont s (PLocal p LOuter) F 0 D m I e); auto.
        -- apply lex_app_same, lex_here; [cbn; lia|reflexivity].
        -- cbn. auto.
  - (* PCheck *)
    destruct HPC as (Hp & Hm & Hidle). subst midp. destruct p as [|p'].
    + destruct (i_flush s) eqn:Efl.
      * apply (Hsame (PFlush 1)); [|cbn; lia|].
        -- apply gsteps_one. cbn [gstep]. rewrite Efl. reflexivity.
        -- cbn. split; [lia|]. split; [reflexivity|]. split; [assumption|]. split; [intros; apply Hidle; lia|intros; lia].
      * apply (Hsame PDone); [|cbn; lia|].
        -- apply gsteps_one. cbn [gstep]. rewrite Efl. reflexivity.
        -- cbn. split; [reflexivity|]. split; [intros; apply Hidle; lia|congruence].
    + assert (Hp' : 1 <= S p' <= n) by lia.
      destruct (fi_ph _ _ _ _ _ HG (S p') Hp') as (pv & th & Q1 & Q2 & Q4). replace (S p' - 1) with p' in Q1 by lia.
      destruct (Nat.ltb_spec (p_curr th) (length (p_queue pv))) as [Hlt|Hge].
      * apply (Hwork (S p')); auto.
        -- eapply gs_step; [cbn [gstep]; rewrite Q1, Q2, (proj2 (Nat.ltb_lt _ _) Hlt); reflexivity|]. apply gsteps_one. cbn [gstep]. rewrite Hphn.
           destruct (Nat.ltb_spec 0 (S p')); [|lia]. destruct (Nat.leb_spec (S p') n); [|lia]. reflexivity.
        -- exists pv, th. replace (S p' - 1) with p' by lia. auto.
      * apply (Hsame (PCheck p')); [|cbn; lia|].
        -- apply gsteps_one. cbn [gstep]. rewrite Q1, Q2, (proj2 (Nat.ltb_ge _ _) Hge). reflexivity.
        -- cbn. split; [lia|]. split; [reflexivity|]. intros q Hq. destruct (Nat.eq_dec q (S p')) as [->|]; [|apply Hidle; lia].
           exists pv, th. replace (S p' - 1) with p' by lia. auto.
  - (* PFlush *)
    destruct HPC as (Hp & Hm & Hfl & Hidle & Hrest). subst midp.
    destruct (Nat.leb_spec p n) as [Hle|Hgt].
    + assert (Hp' : 1 <= p <= n) by lia.
      destruct (fi_ph _ _ _ _ _ HG p Hp') as (pv & th & Q1 & Q2 & Q4).
      assert (Hz : (p =? 0) = false) by (apply Nat.eqb_neq; lia). rewrite Hz in Q4.
      destruct (Hidle p Hp') as (pv1 & th1 & I1 & I2 & I3). assert (pv1 = pv) by congruence. assert (th1 = th) by congruence. subst pv1 th1.
      destruct (p_fpending th) eqn:Epend.
      * pose proof (of_flush _ _ _ _ _ _ _ _ HO Hfl) as HZ.
        assert (HFp : F <= p).
        { destruct (Nat.le_gt_cases F p) as [H|H]; [exact H|]. destruct (fi_drained _ _ _ _ _ HG p ltac:(lia)) as (a & b & R1 & R2 & _ & R3). rewrite Q2 in R2. injection R2 as <-. congruence. }
        pose proof (okf_raise F Z s D m I e p HO Hfl Hp' HFp Hrest) as HO'.
        assert (HSd : gsteps s (PFlush p) s (PLocal p LDead)).
        { apply gsteps_one. cbn [gstep]. rewrite Hphn, (proj2 (Nat.leb_le _ _) Hle), Q2, Epend. reflexivity. }
        assert (HL : exists o e0 f, D p [] o e0 f).
        { pose proof (fl_d _ _ _ _ _ _ (of_w _ _ _ _ _ _ _ _ HO') p Hp') as HD. rewrite (fl_fin _ _ _ _ _ _ (of_w _ _ _ _ _ _ _ _ HO') p ltac:(lia)) in HD. eauto. }
        pose proof (so_eof _ (SP_ok p Hp') _ _ _ _ _ Q4 (fi_tail _ _ _ _ _ _ _ HG Hp' Q2) I3 Epend HL) as HA.
        assert (HFt : (p <=? p) = true) by (apply Nat.leb_le; lia). rewrite <- HFt in HA.
        destruct (okf_commit _ _ _ _ _ _ _ _ _ _ _ _ HO' Hp' (le_n p) Q1 Q2 (or_intror eq_refl) HA) as (s' & pc' & D' & m' & I' & e' & midp' & S1 & S2 & S3 & S4 & S5).
        eapply Hcont; [|apply S5|exact S2|exact S3|exact S4]. eapply gsteps_trans; [exact HSd|exact S1].
      * apply (Hsame (PFlush (S p))); [|cbn; lia|].
        -- apply gsteps_one. cbn [gstep]. rewrite Hphn, (proj2 (Nat.leb_le _ _) Hle), Q2, Epend. reflexivity.
        -- cbn. split; [lia|]. split; [reflexivity|]. split; [assumption|]. split; [assumption|]. intros q Hq.
           destruct (Nat.eq_dec q p) as [->|]; [|apply Hrest; lia]. exists pv, th. auto.
    + apply (Hsame PDone); [|cbn; lia|].
      * apply gsteps_one. cbn [gstep]. rewrite Hphn. destruct (Nat.leb_spec p n); [lia|]. reflexivity.
      * cbn. split; [reflexivity|]. split; [assumption|]. intros _ q Hq. apply Hrest. lia.
  - (* PDone *)
    destruct HPC as (Hm & Hidle & HB). subst midp. exists 1, s. split; [reflexivity|]. split; [|reflexivity]. exists F, D, m, I, e. auto.
Qed.

(** ** Calls *)
Lemma finv_flush F s D m fl : finv F 0 s D m -> finv F 0 (mkInst (i_phases s) fl (i_ierr s) (i_oerr s)) D m.
Proof. intros [G1 G2 G3 G4 G5]. constructor; auto. Qed.

Definition opt_in (i : option datum) : list datum := filter nonempty (match i with Some d => [d] | None => [] end).
Definition some_in (i : option datum) : option (datum * list datum) := option_map (fun d => (d, [])) i.

Lemma enqueue_okf Z s D m I e i Z' : okf 0 0 Z s D m I e -> Z = opt_in i ++ Z' ->
  exists D' m' I', finv 0 0 (enqueue s (some_in i)) D' m' /\ flows 0 Z' (enqueue s (some_in i)) D' I' e.
Proof.
  intros [HG HW HF Hfl Hnf] HZ. destruct i as [d|]; cbn [some_in option_map].
  2:{ rewrite enqueue_none. exists D, m, I. cbn in HZ. subst Z'. split; assumption. }
  destruct HG as [G1 G2 G3 G4 G5]. destruct HW as [W1 W2 W3 W4 W5 W6].
  destruct (i_phases s) as [|ph0 rest] eqn:E; [discriminate|].
  assert (Hn1 : 1 <= 1 <= n) by lia.
  destruct (G2 1 Hn1) as (pv & th & E1 & E2 & HI). rewrite E in E1, E2. change (1 - 1) with 0 in E1. cbn in E1. injection E1 as <-.
  change (1 <=? 0) with false in HI. change (1 =? 0) with false in HI.
  destruct (so_type _ (SP_ok 1 Hn1) _ _ _ _ _ _ HI) as (_ & It & _).
  unfold enqueue. rewrite E. set (ph0' := set_queue ph0 (firstn (p_tail ph0) (p_queue ph0) ++ [d]) (S (p_tail ph0))).
  assert (Hq : p_queue ph0' = p_queue ph0 ++ [d]). { cbn. rewrite It, firstn_all. reflexivity. }
  assert (Hnth : forall q, 1 <= q -> nth_error (ph0' :: rest) q = nth_error (ph0 :: rest) q) by (intros [|q] Hq1; [lia|reflexivity]).
  destruct (so_append _ (SP_ok 1 Hn1) _ _ ph0' _ _ _ [d] HI Hq) as (m1 & HI1).
  { rewrite Hq, app_length. cbn. rewrite It. lia. }
  { reflexivity. }
  { rewrite SP_in. discriminate. }
  exists (fun q => if q =? 1 then fed (D 1) [d] else D q), (fun q => if q =? 1 then m1 else m q), (fun q => if q =? 1 then Z' else I q). split.
  - constructor; auto.
    + intros p Hp. destruct (Nat.eqb_spec p 1) as [->|Hp1].
      * exists ph0', th. cbn [i_phases]. split; [reflexivity|]. split; [rewrite Hnth by lia; exact E2|exact HI1].
      * destruct (G2 p Hp) as (pv & th' & Q1 & Q2 & Q3). exists pv, th'. cbn [i_phases]. rewrite E in Q1, Q2. rewrite !Hnth by lia. auto.
    + destruct G3 as (th' & Q1 & Q2). exists th'. cbn [i_phases]. rewrite Hnth by lia. auto.
    + intros p Hp. lia.
  - constructor; cbn [i_oerr i_ierr]; auto.
    + intros p Hp. specialize (W2 p Hp). destruct (Nat.eqb_spec (S p) 1); [lia|]. destruct (Nat.eqb_spec p 1) as [->|Hp1]; [|exact W2].
      unfold fed. rewrite W1, HZ in W2. exact W2.
    + intros p Hp. lia.
    + destruct W4 as (th' & Q1 & Q2). exists th'. cbn [i_phases]. rewrite Hnth by lia. split; [exact Q1|]. destruct (Nat.eqb_spec (S n) 1); [lia|exact Q2].
Qed.

Lemma flow_call Z s D m I e i Z' fl : okf 0 0 Z s D m I e -> Z = opt_in i ++ Z' -> (fl = true -> Z' = []) ->
  exists fuel s', bsdconv_engine fuel s (some_in i) fl = RDone s' /\ finalf Z' s' /\ i_flush s' = fl.
Proof.
  intros HO HZ Hfl. destruct (enqueue_okf Z s D m I e i Z' HO HZ) as (D1 & m1 & I1 & HG & HW).
  unfold bsdconv_engine. cbv zeta. set (s1 := mkInst _ _ _ _).
  assert (HO1 : okf 0 0 Z' s1 D1 m1 I1 e).
  { constructor; [apply finv_flush, HG| |lia|exact Hfl|reflexivity]. destruct HW as [W1 W2 W3 W4 W5 W6]. constructor; auto. }
  destruct (run_flow Z' (fmeasure m1 ++ [rk n (PBegin 1)]) (lex_acc _ _ eq_refl) s1 (PBegin 1) 0 0 D1 m1 I1 e eq_refl HO1) as (fuel & s' & R1 & R2 & R3); [cbn; auto|].
  exists fuel, s'. auto.
Qed.

(** ** A stream *)
Lemma flow_hold : forall l s D m I e, l <> [] -> okf 0 0 (filter nonempty (inputs l)) s D m I e ->
  exists fuel0 s', (forall fuel, fuel0 <= fuel -> run_hist P fuel s (map hold (stream_calls l)) = Some (s', [])) /\ finalf [] s' /\ i_flush s' = true.
Proof.
  induction l as [|[i m0] l IH]; intros s D m I e Hne HO; [contradiction|].
  assert (Hlen : forall Z s', finalf Z s' -> i_phases s' <> []).
  { intros Z s' (F & ? & ? & ? & ? & HO' & _) En. pose proof (fi_len _ _ _ _ _ (of_g _ _ _ _ _ _ _ _ HO')) as Hl. rewrite En in Hl. discriminate. }
  assert (Ein : inputs ((i, m0) :: l) = match i with Some d => [d] | None => [] end ++ inputs l) by reflexivity.
  rewrite Ein, filter_app in HO. fold (opt_in i) in HO.
  destruct l as [|x l].
  - destruct (flow_call _ s D m I e i [] true HO eq_refl (fun _ => eq_refl)) as (f & s' & R1 & R2 & R3).
    exists f, s'. split; [|auto]. intros fuel Hf. cbn [stream_calls map run_hist]. change (c_input (hold _)) with (some_in i). cbn [hold c_flush c_mode].
    assert (R1' : bsdconv_engine fuel s (some_in i) true = RDone s') by (unfold bsdconv_engine in *; eapply grun_mono; eassumption).
    destruct (hold_call fuel s s' _ _ R1' (Hlen _ _ R2)) as (r & Hc & Hd). rewrite Hc, Hd. reflexivity.
  - destruct (flow_call _ s D m I e i (filter nonempty (inputs (x :: l))) false HO eq_refl ltac:(discriminate)) as (f & s1 & R1 & R2 & R3).
    pose proof (Hlen _ _ R2) as Hl1. destruct R2 as (F & D1 & m1 & I1 & e1 & HO1 & _). rewrite (of_nf _ _ _ _ _ _ _ _ HO1 R3) in HO1.
    destruct (IH s1 D1 m1 I1 e1 ltac:(discriminate) HO1) as (f2 & s' & K1 & K2).
    exists (max f f2), s'. split; [|exact K2]. intros fuel Hf.
    change (stream_calls ((i, m0) :: x :: l)) with (mkCall (some_in i) false m0 :: stream_calls (x :: l)). cbn [map run_hist]. cbn [hold c_input c_flush c_mode].
    assert (R1' : bsdconv_engine fuel s (some_in i) false = RDone s1) by (unfold bsdconv_engine in *; eapply grun_mono; [|eassumption]; lia).
    destruct (hold_call fuel s s1 _ _ R1' Hl1) as (r & Hc & Hd). rewrite Hc, Hd, (K1 fuel) by lia. reflexivity.
Qed.

Lemma finv_last_ok F mi s D m : finv F mi s D m -> last_ok (P:=P) s.
Proof.
  intros [G1 _ (th & Q1 & Q2) _ _]. destruct (i_phases s) as [|a l0] eqn:E; [discriminate|].
  assert (Hne : a :: l0 <> []) by discriminate. destruct (exists_last Hne) as (l & t & E').
  rewrite E' in *. exists l, t. rewrite E. rewrite app_length in G1. cbn in G1. split; [lia|]. split; [reflexivity|].
  assert (Hnl : n = length l) by lia. rewrite Hnl, nth_app_last in Q1. injection Q1 as ->. exact Q2.
Qed.
Lemma pending_at (s : inst) th : length (i_phases s) = S n -> nth_error (i_phases s) n = Some th -> pending P s = concat (p_queue th).
Proof. intros Hl E. unfold pending, last_phase. replace (phasen s) with n by (unfold phasen; rewrite Hl; lia). rewrite E. reflexivity. Qed.

(** What is left when everything has been flushed. *)
Lemma finalf_done s : finalf [] s -> i_flush s = true -> (exists th, nth_error (i_phases s) n = Some th /\ XO = filter nonempty (p_queue th)) /\ Xe = i_oerr s /\ i_ierr s = E0 /\
  forall p, 1 <= p <= n -> exists th, nth_error (i_phases s) p = Some th /\ s_fin (SP p) th (fz p).
Proof.
  intros (F & D & m & I & e & HO & _ & Hr) Hfl. specialize (Hr Hfl).
  assert (HI : forall q, 1 <= q <= S n -> I q = []) by (apply (rest_flow F [] s D m I e n HO eq_refl (le_n n)); exact Hr).
  assert (Hall : forall p, 1 <= p <= n -> e p = 0 /\ exists th, nth_error (i_phases s) p = Some th /\ s_fin (SP p) th (fz p)).
  { intros p Hp. pose proof (fl_d _ _ _ _ _ _ (of_w _ _ _ _ _ _ _ _ HO) p Hp) as HD. rewrite (HI p) in HD by lia.
    destruct (fi_ph _ _ _ _ _ (of_g _ _ _ _ _ _ _ _ HO) p Hp) as (pv & th & Q1 & Q2 & Q4).
    destruct (Hr p Hp) as (pv1 & th1 & R1 & R2 & R3 & R4). assert (pv1 = pv) by congruence. assert (th1 = th) by congruence. subst.
    assert (Hz : (p =? 0) = false) by (apply Nat.eqb_neq; lia). rewrite Hz in Q4.
    destruct (so_rest _ (SP_ok p Hp) _ _ _ _ _ _ _ _ Q4 R3 R4 HD) as (_ & A & B). split; [exact A|]. exists th. auto. }
  split.
  { destruct (fl_out _ _ _ _ _ _ (of_w _ _ _ _ _ _ _ _ HO)) as (th & Q1 & Q2). exists th. split; [exact Q1|]. rewrite Q2, HI by lia. apply app_nil_r. }
  split; [|split; [apply (fl_ierr _ _ _ _ _ _ (of_w _ _ _ _ _ _ _ _ HO))|intros p Hp; apply Hall; exact Hp]].
  rewrite (fl_err _ _ _ _ _ _ (of_w _ _ _ _ _ _ _ _ HO)).
  assert (Hs : list_sum (map e (seq 1 n)) = 0); [|lia].
  rewrite (map_ext_in e (fun _ => 0)); [clear; induction (seq 1 n); auto|]. intros q Hq. apply in_seq in Hq. apply Hall. lia.
Qed.

Theorem flow_stream l s D m I e : l <> [] -> Forall (fun x => lossless (snd x)) l -> okf 0 0 (filter nonempty (inputs l)) (mkInst (i_phases s) false (i_ierr s) (i_oerr s)) D m I e ->
  exists s' out, runs_to s (stream_calls l) s' out /\ out ++ pending P s' = concat XO /\ i_oerr s' = Xe /\ i_ierr s' = E0 /\
    forall p, 1 <= p <= n -> exists th, nth_error (i_phases s') p = Some th /\ s_fin (SP p) th (fz p).
Proof.
  intros Hne Hll HO. destruct (flow_hold l _ D m I e Hne HO) as (f & sH & R1 & R2 & R3).
  destruct (finalf_done sH R2 R3) as ((th & T1 & T2) & T3 & T4 & T5).
  assert (HlH : length (i_phases sH) = S n).
  { destruct R2 as (F & ? & ? & ? & ? & HO' & _). apply (fi_len _ _ _ _ _ (of_g _ _ _ _ _ _ _ _ HO')). }
  assert (HLk : last_ok (P:=P) s) by (apply (finv_last_ok _ _ _ _ _ (of_g _ _ _ _ _ _ _ _ HO))).
  assert (Hll' : Forall (fun c => lossless (c_mode c)) (stream_calls l)).
  { clear -Hll. induction l as [|[i m] [|x l] IH]; [constructor|repeat constructor; inversion Hll; assumption|]. inversion Hll; subst. constructor; [assumption|apply IH; assumption]. }
  assert (Hflush : forall fuel, run_hist P fuel s (map hold (stream_calls l)) = run_hist P fuel (mkInst (i_phases s) false (i_ierr s) (i_oerr s)) (map hold (stream_calls l))).
  { intros fuel. destruct l as [|[i m0] l0]; [contradiction|]. destruct l0; cbn [stream_calls map run_hist]; unfold bsdconv_call; rewrite engine_flush_irrel; reflexivity. }
  assert (R1' : forall fuel, f <= fuel -> run_hist P fuel s (map hold (stream_calls l)) = Some (sH, [])) by (intros fuel Hf; rewrite Hflush; apply R1; exact Hf).
  pose proof (hist_rel f (stream_calls l) [] s s (rel_refl s HLk) HLk Hll') as HR. rewrite (R1' f) in HR by lia.
  destruct (run_hist P f s (stream_calls l)) as [[s' out]|] eqn:Er; [|contradiction]. destruct HR as (_ & a & HRa & Ha). cbn in Ha.
  exists s', out. split.
  { exists f. intros fuel Hf. clear -Er Hf. revert s s' out Er. induction (stream_calls l) as [|c h IH]; intros s s' out; [auto|]. cbn [run_hist]. unfold bsdconv_call.
    destruct (bsdconv_engine f s (c_input c) (c_flush c)) as [s1| |] eqn:Ee; try discriminate.
    assert (Ee' : bsdconv_engine fuel s (c_input c) (c_flush c) = RDone s1) by (unfold bsdconv_engine in *; eapply grun_mono; eassumption). rewrite Ee'.
    destruct (last_phase P s1); [|discriminate]. destruct (output_switch P e (c_mode c)); [|discriminate].
    destruct (run_hist P f _ h) as [[s2 o2]|] eqn:Eh; [|discriminate]. intros E. injection E as <- <-. rewrite (IH _ _ _ Eh). reflexivity. }
  split.
  { rewrite <- Ha, <- (pending_rel a s' sH HRa). rewrite (pending_at sH th HlH T1). rewrite T2. symmetry. apply concat_filter. }
  destruct HRa as (l1 & t1 & L1 & L2 & L3 & L4 & L5 & L6). split; [rewrite L6; symmetry; exact T3|]. split; [rewrite L5; exact T4|].
  intros p Hp. destruct (T5 p Hp) as (tp & U1 & U2). rewrite L3 in U1. rewrite L2.
  assert (Hll1 : length l1 = n) by (rewrite L3, app_length in HlH; cbn in HlH; lia).
  destruct (Nat.eq_dec p n) as [->|Hpn].
  - assert (U1' : nth_error (l1 ++ [pfx a t1]) (length l1) = Some tp) by (rewrite Hll1; exact U1). rewrite nth_app_last in U1'. injection U1' as <-. exists t1. split; [rewrite <- Hll1; apply nth_app_last|].
    eapply (so_finctl _ (SP_ok _ Hp)); [exact U2|]. unfold same_ctl, pfx, set_queue. cbn. destruct t1; reflexivity.
  - rewrite nth_error_app1 in U1 by lia. exists tp. rewrite nth_error_app1 by lia. auto.
Qed.
End E.

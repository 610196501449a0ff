(** The whole engine: global invariant, progress, termination. *)
From Verif Require Import Base Types M_Engine S_Engine P_Trans P_Engine1 P_Engine2 P_Engine3 P_Engine4 P_Engine5.

Section E.
Context {P : Type}.
Notation ecodec := (ecodec P). Notation ephase := (ephase P). Notation inst := (inst P).

Arguments p_type {P}. Arguments p_codecs {P}. Arguments p_index {P}. Arguments p_curr {P}. Arguments p_i {P}.
Arguments p_bak {P}. Arguments p_headlen {P}. Arguments p_match_data {P}. Arguments p_state {P}. Arguments p_offset {P}.
Arguments p_fmatch {P}. Arguments p_fpending {P}. Arguments p_floop {P}. Arguments p_queue {P}. Arguments p_tail {P}.
Arguments e_tab {P}. Arguments e_conv {P}. Arguments e_flush {P}. Arguments e_init {P}. Arguments e_priv {P}.
Arguments cb_priv {P}. Arguments cb_i {P}. Arguments cb_status {P}. Arguments cb_out {P}.
Arguments local_step {P}. Arguments from_step {P}. Arguments data_step {P}. Arguments LRes {P}. Arguments LUB {P}.
Arguments set_priv {P}. Arguments this_codec {P}. Arguments reset {P}. Arguments listfree {P}. Arguments app_tail {P}.
Arguments feed {P}. Arguments bytes_loop {P}. Arguments codecn {P}. Arguments is_to {P}.
Arguments k_v {P}. Arguments k_clean {P}. Arguments k_St {P}.
Arguments read_state : simpl never. Arguments Nat.ltb : simpl never. Arguments Nat.sub : simpl never.
Arguments gstep {P}. Arguments grun {P}. Arguments i_phases {P}. Arguments i_flush {P}. Arguments i_ierr {P}. Arguments i_oerr {P}.
Arguments GNextState {P}. Arguments GHalt {P}. Arguments GUB {P}. Arguments RDone {P}. Arguments mkInst {P}. Arguments phasen {P}.

(** ** Executions *)
Inductive gsteps : inst -> gpc -> inst -> gpc -> Prop :=
| gs_refl s pc : gsteps s pc s pc
| gs_step s pc s1 pc1 s2 pc2 : gstep s pc = GNextState s1 pc1 -> gsteps s1 pc1 s2 pc2 -> gsteps s pc s2 pc2.

Lemma gsteps_one s pc s' pc' : gstep s pc = GNextState s' pc' -> gsteps s pc s' pc'.
Proof. intros H. eapply gs_step; [exact H|apply gs_refl]. Qed.
Lemma gsteps_trans s pc s1 pc1 s2 pc2 : gsteps s pc s1 pc1 -> gsteps s1 pc1 s2 pc2 -> gsteps s pc s2 pc2.
Proof. induction 1; intros; [assumption|]. eapply gs_step; [eassumption|auto]. Qed.

Lemma grun_gsteps s pc s1 pc1 : gsteps s pc s1 pc1 -> forall fuel r, grun fuel s1 pc1 = r -> exists fuel', grun fuel' s pc = r.
Proof.
  induction 1 as [|s pc s1 pc1 s2 pc2 H _ IH]; intros fuel r Hr; [eauto|].
  destruct (IH _ _ Hr) as (f & Hf). exists (S f). cbn. rewrite H. exact Hf.
Qed.

Definition with_pair (s : inst) (p : nat) (pv th : ephase) (ie oe : nat) : inst :=
  mkInst (list_upd (list_upd (i_phases s) (p - 1) pv) p th) (i_flush s) (i_ierr s + ie) (i_oerr s + oe).

Definition gpc_of (n p : nat) (g : lgoto) : gpc :=
  match g with Stay lp => PLocal p lp | GBegin => PBegin p | GNext => PBegin (S p) | GBreak => PCheck n end.

Lemma list_upd_twice {A} (l : list A) n x y : list_upd (list_upd l n x) n y = list_upd l n y.
Proof. revert n. induction l; intros [|n]; cbn; congruence. Qed.
Lemma list_upd_comm {A} (l : list A) n m x y : n <> m -> list_upd (list_upd l n x) m y = list_upd (list_upd l m y) n x.
Proof. revert n m. induction l; intros [|n] [|m] H; cbn; try congruence. f_equal. apply IHl. lia. Qed.

Lemma lsteps_gsteps pv th pc pv' th' ie oe g : lsteps pv th pc pv' th' ie oe g -> forall s p, 1 <= p ->
  nth_error (i_phases s) (p - 1) = Some pv -> nth_error (i_phases s) p = Some th ->
  gsteps s (PLocal p pc) (with_pair s p pv' th' ie oe) (gpc_of (phasen s) p g).
Proof.
  induction 1 as [pv th pc pv' th' ie oe g H|pv th pc pv1 th1 ie1 oe1 pc1 pv' th' ie oe g H _ IH]; intros s p Hp E1 E2.
  - apply gsteps_one. cbn [gstep]. rewrite E1, E2, H. destruct g; reflexivity.
  - eapply gs_step.
    + cbn [gstep]. rewrite E1, E2, H. reflexivity.
    + set (s1 := mkInst _ _ _ _).
      assert (Hl1 : nth_error (i_phases s1) (p - 1) = Some pv1).
      { cbn. rewrite list_upd_nth_ne by lia. eapply list_upd_nth; eassumption. }
      assert (Hl2 : nth_error (i_phases s1) p = Some th1).
      { cbn. eapply list_upd_nth. rewrite list_upd_nth_ne by lia. exact E2. }
      specialize (IH s1 p Hp Hl1 Hl2).
      replace (phasen s1) with (phasen s) in IH by (unfold phasen, s1; cbn; rewrite !list_upd_length; reflexivity).
      replace (with_pair s p pv' th' (ie1 + ie) (oe1 + oe)) with (with_pair s1 p pv' th' ie oe); [exact IH|].
      unfold with_pair, s1. cbn. f_equal; try lia.
      rewrite (list_upd_comm _ p (p - 1)) by lia. rewrite (list_upd_twice _ (p - 1)). rewrite (list_upd_twice _ p). reflexivity.
Qed.

(** ** The global invariant *)
Variable n : nat.                                       (* number of phases besides _INPUT *)
Variable TY : nat -> ptype.
Variable KS : nat -> list (codec_spec (P:=P)).
Hypothesis n_pos : 1 <= n.
Hypothesis TY_adj : forall p, 1 <= p -> TY p = FROM -> TY (S p) <> FROM.

Definition psem_at (p : nat) : psem :=
  if p =? S n then mkPsem KSink [] else mkPsem (kind_of (TY p)) (sems (KS p)).

Definition pinv_at (s : inst) (fin mid : bool) (p : nat) (B pre : list datum) : Prop :=
  exists pv th, nth_error (i_phases s) (p - 1) = Some pv /\ nth_error (i_phases s) p = Some th /\ p_type th = TY p /\ pinv fin mid pv th (KS p) B pre.

Record ginv (F midp : nat) (s : inst) (B pre : nat -> list datum) : Prop := {
  gi_len : length (i_phases s) = S n;
  gi_ph : forall p, 1 <= p <= n -> pinv_at s (p <=? F) (p =? midp) p (B p) (pre p);
  gi_sink : exists th, nth_error (i_phases s) n = Some th /\ p_tail th = length (p_queue th) /\ B (S n) = filter nonempty (p_queue th);
  gi_drained : forall p, 1 <= p < F -> B p = []
}.

Definition dd (B : nat -> list datum) : list (psem * list datum) := map (fun p => (psem_at p, B p)) (seq 1 (S n)).

Lemma kind_of_psem p : 1 <= p <= n -> ps_kind (psem_at p) = kind_of (TY p) /\ ps_cs (psem_at p) = sems (KS p).
Proof. intros H. unfold psem_at. destruct (Nat.eqb_spec p (S n)); [lia|]. auto. Qed.

Lemma seq_split p : 1 <= p <= n -> seq 1 (S n) = seq 1 (p - 1) ++ p :: S p :: seq (S (S p)) (n - p).
Proof.
  intros H. replace (S n) with ((p - 1) + (2 + (n - p))) by lia. rewrite seq_app. f_equal.
  replace (1 + (p - 1)) with p by lia. reflexivity.
Qed.

Lemma gi_tail F midp s B pre p th : ginv F midp s B pre -> 1 <= p <= n -> nth_error (i_phases s) p = Some th -> p_tail th = length (p_queue th).
Proof.
  intros [Hl Hp (t & Ht & Htt & _) _] Hpn E. destruct (Nat.eq_dec p n) as [->|Hne].
  - congruence.
  - destruct (Hp (S p)) as (pv & th' & E1 & _ & _ & HI); [lia|]. replace (S p - 1) with p in E1 by lia. assert (pv = th) by congruence. subst. apply HI.
Qed.

(** data that arrives at phase p from upstream *)
Definition incoming (B : nat -> list datum) (x : flow) (p : nat) : list datum :=
  inj (kind_of (TY p)) (flow_data (denote (map (fun q => (psem_at q, B q)) (seq 1 (p - 1))) x)).

Lemma incoming_drained B p ie oe : (forall q, 1 <= q < p -> B q = []) -> incoming B ([], ie, oe) p = [].
Proof.
  intros H. unfold incoming. rewrite denote_drained.
  - apply inj_nil.
  - apply Forall_forall. intros [ph b] Hin. apply in_map_iff in Hin. destruct Hin as (q & E & Hq). injection E as <- <-. apply in_seq in Hq. apply H. lia.
Qed.

Definition upd_fun {A} (f : nat -> A) (p : nat) (x : A) : nat -> A := fun q => if q =? p then x else f q.

(** the measure *)
Definition gm (s : inst) (B : nat -> list datum) (p : nat) : list nat :=
  match nth_error (i_phases s) (p - 1), nth_error (i_phases s) p with
  | Some pv, Some th => pmeasure pv th (B p)
  | _, _ => [0; 0; 0; 0]
  end.
Definition gmeasure (s : inst) (B : nat -> list datum) : list nat := concat (map (gm s B) (seq 1 n)).

Lemma gm_length s B p : length (gm s B p) = 4.
Proof. unfold gm. destruct (nth_error _ (p - 1)); [destruct (nth_error _ p)|]; reflexivity. Qed.
Lemma concat_gm_length s B l : length (concat (map (gm s B) l)) = 4 * length l.
Proof. induction l as [|a l IH]; [reflexivity|]. cbn. rewrite app_length, gm_length, IH. lia. Qed.

Lemma pmeasure_ctl (pv th th' : ephase) B : same_ctl th th' -> pmeasure pv th' B = pmeasure pv th B.
Proof. intros ->. reflexivity. Qed.

Lemma commit_global F midp s B pre p pv th pc x :
  ginv F midp s B pre -> 1 <= p <= n -> (F <> 0 -> flow_data x = []) ->
  nth_error (i_phases s) (p - 1) = Some pv -> nth_error (i_phases s) p = Some th ->
  p_type th = TY p -> midp = p \/ midp = 0 ->
  (exists g0, flow_ierr x = g0 + i_ierr s) ->
  achieves (p <=? F) pv th (KS p) (B p) pc ->
  exists s' g B' pre' midp' e, gsteps s (PLocal p pc) s' (gpc_of n p g) /\ i_flush s' = i_flush s /\
    ginv F midp' s' B' pre' /\
    i_ierr s' = i_ierr s + fst e /\ i_oerr s' = i_oerr s + snd e /\
    denote (dd B) x = denote (dd B') (add_err x (fst e) (snd e)) /\
    lex (gmeasure s' B') (gmeasure s B) /\
    (TY p = FROM -> forall q0 q0', nth_error (i_phases s) (p - 1) = Some q0 -> nth_error (i_phases s') (p - 1) = Some q0' -> length (p_queue q0') <= length (p_queue q0)) /\
    (forall q, q <> p -> q <> p - 1 -> nth_error (i_phases s') q = nth_error (i_phases s) q) /\
    match g with
    | Stay LInner => TY p = FROM /\ midp' = p
    | Stay LOuter | GBegin | GNext => midp' = 0
    | _ => False
    end.
Proof.
  intros HG Hp HFx E1 E2 Hty Hmid _ (pv' & th' & ie & oe & g & Hls & Hctl & Hst & out0 & out & e & B1 & pre1 & mid1 & A1 & A1b & A2 & A3 & A4 & A5 & A6 & A7 & A8).
  pose proof (lsteps_gsteps _ _ _ _ _ _ _ _ Hls s p (proj1 Hp) E1 E2) as Hgs.
  assert (Hph : phasen s = n) by (unfold phasen; rewrite (gi_len _ _ _ _ _ HG); lia).
  rewrite Hph in Hgs.
  set (s' := with_pair s p pv' th' ie oe) in *.
  assert (N1 : nth_error (i_phases s') (p - 1) = Some pv').
  { cbn. rewrite list_upd_nth_ne by lia. eapply list_upd_nth; eassumption. }
  assert (N2 : nth_error (i_phases s') p = Some th').
  { cbn. eapply list_upd_nth. rewrite list_upd_nth_ne by lia. exact E2. }
  assert (N3 : forall q, q <> p -> q <> p - 1 -> nth_error (i_phases s') q = nth_error (i_phases s) q).
  { intros q Hq1 Hq2. cbn. rewrite !list_upd_nth_ne by lia. reflexivity. }
  assert (Hty' : p_type th' = TY p) by (destruct Hst as (H & _); congruence).
  assert (Hinj : forall k, inj k out0 = inj k out) by (intros k; apply inj_strip; exact A1b).
  set (knext := ps_kind (psem_at (S p))).
  set (B' := fun q => if q =? p then B1 else if q =? S p then B (S p) ++ inj knext out else B q).
  set (pre' := upd_fun pre p pre1).
  set (midp' := match g with Stay LInner => p | _ => 0 end).
  assert (Hdr : p < F -> out = [] /\ B1 = [] ).
  { intros HpF. pose proof (gi_drained _ _ _ _ _ HG p) as HBp. rewrite HBp in A4 by lia. 
    assert (Ha : alw (p <=? F) []) by (intros _; reflexivity). specialize (A4 [] Ha). cbn [app] in A4. rewrite trans_nil in A4.
    assert (Ho : out ++ fst (trans (kind_of (p_type th)) (sems (KS p)) (B1 ++ [])) = []) by congruence.
    apply app_eq_nil in Ho. split; [tauto|].
    (* B1 cannot be longer *)
    rewrite HBp in A6 by lia. unfold pmeasure, pmeasure3 in A6. cbn [length app] in A6. inversion A6; subst; [lia|]. destruct B1; [reflexivity|discriminate]. }
  assert (HG' : ginv F midp' s' B' pre').
  { constructor.
    - cbn. rewrite !list_upd_length. apply HG.
    - intros q Hq. unfold B', pre', upd_fun. destruct (Nat.eqb_spec q p) as [->|Hqp].
      + exists pv', th'. repeat (split; [assumption|]).
        unfold midp'. destruct g as [lp| | |]; cbn in A8; try contradiction; try (subst mid1; destruct (Nat.eqb_spec p 0); [lia|]; exact A3).
        destruct lp; try contradiction; try (subst mid1; destruct (Nat.eqb_spec p 0); [lia|]; exact A3).
        rewrite Nat.eqb_refl. destruct mid1; [exact A3|apply pinv_mid; exact A3].
      + destruct (gi_ph _ _ _ _ _ HG q Hq) as (pvq & thq & Q1 & Q2 & Q3 & Q4).
        assert (Qm : pinv (q <=? F) (q =? midp') pvq thq (KS q) (B q) (pre q)).
        { assert (Hf : (q =? midp) = false). { apply Nat.eqb_neq. lia. } rewrite Hf in Q4.
          destruct (q =? midp'); [apply pinv_mid|]; exact Q4. }
        destruct (Nat.eqb_spec q (S p)) as [->|HqS].
        * replace (S p - 1) with p in Q1 by lia. assert (pvq = th) by congruence. subst pvq.
          exists th', thq. replace (S p - 1) with p by lia. split; [assumption|]. split; [rewrite N3 by lia; assumption|]. split; [assumption|].
          assert (Hk : knext = kind_of (p_type thq)). { unfold knext. rewrite Q3. apply kind_of_psem. lia. }
          rewrite Hk, <- Hinj. apply pinv_append with th; auto.
          -- intros Ef. rewrite Q3 in Ef. destruct Hst as (_ & Hh & _). rewrite <- Hh.
             ++ destruct Qm as [_ _ _ _ _ _ _ Hpos]. rewrite Q3, Ef in Hpos. apply Hpos.
             ++ rewrite Hty. intros E. apply (TY_adj p (proj1 Hp) E). exact Ef.
          -- intros Ef. rewrite Hinj. apply Nat.leb_le in Ef. destruct (Hdr ltac:(lia)) as (-> & _). apply inj_nil.
        * destruct (Nat.eq_dec q (p - 1)) as [->|HqP].
          -- assert (thq = pv) by congruence. subst thq. exists pvq, pv'.
             split; [rewrite N3 by lia; assumption|]. split; [assumption|]. split; [rewrite Hctl; exact Q3|].
             eapply pinv_same_ctl; eassumption.
          -- exists pvq, thq. split; [rewrite N3 by lia; assumption|]. split; [rewrite N3 by lia; assumption|]. split; assumption.
    - destruct (gi_sink _ _ _ _ _ HG) as (tn & K1 & K2 & K3). destruct (Nat.eq_dec p n) as [->|Hpn].
      + assert (tn = th) by congruence. subst tn. exists th'. split; [assumption|]. split; [assumption|].
        unfold B'. destruct (Nat.eqb_spec (S n) n); [lia|]. rewrite Nat.eqb_refl. rewrite A1, filter_app, K3. f_equal.
        unfold knext, psem_at. rewrite Nat.eqb_refl. cbn [ps_kind inj]. symmetry. exact A1b.
      + exists tn. split; [rewrite N3 by lia; exact K1|]. split; [assumption|]. unfold B'. destruct (Nat.eqb_spec (S n) p); [lia|]. destruct (Nat.eqb_spec (S n) (S p)); [lia|]. exact K3.
    - intros q Hq. unfold B'. destruct (Nat.eqb_spec q p) as [->|Hqp]; [apply Hdr; lia|].
      destruct (Nat.eqb_spec q (S p)) as [->|HqS]; [|apply (gi_drained _ _ _ _ _ HG); lia].
      rewrite (gi_drained _ _ _ _ _ HG (S p)) by lia. destruct (Hdr ltac:(lia)) as (-> & _). rewrite inj_nil. reflexivity. }
  exists s', g, B', pre', midp', (ie, oe). cbn [fst snd].
  split; [exact Hgs|]. split; [reflexivity|]. split; [exact HG'|]. split; [reflexivity|]. split; [reflexivity|].
  split.
  { unfold dd. rewrite (seq_split p Hp), !map_app. cbn [map].
    assert (HM1 : map (fun q => (psem_at q, B' q)) (seq 1 (p - 1)) = map (fun q => (psem_at q, B q)) (seq 1 (p - 1))).
    { apply map_ext_in. intros q Hq. apply in_seq in Hq. unfold B'. destruct (Nat.eqb_spec q p); [lia|]. destruct (Nat.eqb_spec q (S p)); [lia|]. reflexivity. }
    assert (HM2 : map (fun q => (psem_at q, B' q)) (seq (S (S p)) (n - p)) = map (fun q => (psem_at q, B q)) (seq (S (S p)) (n - p))).
    { apply map_ext_in. intros q Hq. apply in_seq in Hq. unfold B'. destruct (Nat.eqb_spec q p); [lia|]. destruct (Nat.eqb_spec q (S p)); [lia|]. reflexivity. }
    rewrite HM1, HM2. unfold B' at 1 2. rewrite Nat.eqb_refl. destruct (Nat.eqb_spec (S p) p); [lia|]. rewrite Nat.eqb_refl.
    destruct (kind_of_psem p Hp) as (Kk & Kc).
    assert (Hee : (ie, oe) = err_of (ps_kind (psem_at p)) e) by (rewrite Kk, <- Hty; exact A5).
    replace ie with (fst (err_of (ps_kind (psem_at p)) e)) by (rewrite <- Hee; reflexivity).
    replace oe with (snd (err_of (ps_kind (psem_at p)) e)) by (rewrite <- Hee; reflexivity).
    apply denote_commit. intros Y HY. rewrite Kk, Kc, <- Hty. apply A4.
    intros Ef. apply Nat.leb_le in Ef. rewrite HY. rewrite Kk. destruct x as [[xd xi] xo]. cbn [flow_data fst] in HFx. rewrite (HFx ltac:(lia)).
    apply (incoming_drained B p xi xo). intros q Hq. apply (gi_drained _ _ _ _ _ HG). lia. }
  split.
  { unfold gmeasure. replace n with ((p - 1) + (1 + (n - p))) by lia. rewrite seq_app, !map_app, !concat_app. replace (1 + (p - 1)) with p by lia. cbn [plus seq map concat].
    replace (map (gm s' B') (seq 1 (p - 1))) with (map (gm s B) (seq 1 (p - 1))).
    2:{ apply map_ext_in. intros q Hq. apply in_seq in Hq. unfold gm.
        rewrite (N3 (q - 1)) by lia. assert (HBq : B' q = B q). { unfold B'. destruct (Nat.eqb_spec q p); [lia|]. destruct (Nat.eqb_spec q (S p)); [lia|]. reflexivity. }
        destruct (Nat.eq_dec q (p - 1)) as [->|HqP].
        - rewrite N1, E1, HBq. destruct (nth_error (i_phases s) (p - 1 - 1)); [|reflexivity]. symmetry. apply pmeasure_ctl. exact Hctl.
        - rewrite (N3 q) by lia. rewrite HBq. reflexivity. }
    apply lex_app_same. apply lex_app; [|rewrite !concat_gm_length; reflexivity].
    unfold gm. rewrite N1, N2, E1, E2. unfold B'. rewrite Nat.eqb_refl. exact A6. }
  split.
  { intros Ef q0 q0' G1 G2. assert (q0 = pv) by congruence. assert (q0' = pv') by congruence. subst. apply A7. congruence. }
  split; [exact N3|].
  unfold midp'. destruct g as [[]| | |]; try contradiction; auto. split; [congruence|reflexivity].
Qed.

(** ** Termination order *)
Lemma lex_acc : forall k l, length l = k -> Acc lex l.
Proof.
  induction k as [|k IH]; intros l Hl.
  - destruct l; [|discriminate]. constructor. intros y Hy. inversion Hy.
  - destruct l as [|a l]; [discriminate|]. cbn in Hl. injection Hl as Hl.
    revert l Hl. induction a as [a IHa] using (well_founded_induction lt_wf). intros l Hl.
    pose proof (IH l Hl) as HA. revert Hl. induction HA as [l HA IHl]. intros Hl.
    constructor. intros y Hy. inversion Hy as [a' b' l1 l2 Hlt Hlen|a' l1 l2 Hlex]; subst.
    + apply IHa; [assumption|congruence].
    + apply IHl; [assumption|]. apply lex_length in Hlex. congruence.
Qed.

(** ** The run of one call *)
Variable X : flow.            (* what the pipeline must produce in total *)
Variable Z : list datum.      (* input still to come in later calls *)
Variable E0 : nat.            (* input errors counted before *)
Variable E : bool.            (* true: stop following the denotation once an input error is reported *)

Definition single_from : Prop := TY 1 = FROM /\ forall p, 1 <= p <= n -> TY p = FROM -> p = 1.
Definition mode (s : inst) : Prop :=
  E = true \/ flow_ierr X <= E0 \/ (single_from /\ exists ph0, nth_error (i_phases s) 0 = Some ph0 /\ length (p_queue ph0) <= 1).

Definition eof_cond : Prop := forall p j k, 1 <= p <= n -> nth_error (KS p) j = Some k ->
  eof_clean k \/ ((E = true \/ flow_ierr X <= E0) /\ TY p = FROM /\ j = length (KS p) - 1 /\ no_sub (k_v k)).

Definition idle (s : inst) (p : nat) : Prop :=
  exists pv th, nth_error (i_phases s) (p - 1) = Some pv /\ nth_error (i_phases s) p = Some th /\ length (p_queue pv) <= p_curr th.

Record okst (F midp : nat) (s : inst) (B pre : nat -> list datum) : Prop := {
  ok_g : ginv F midp s B pre;
  ok_F : F <= n;
  ok_E0 : E0 <= i_ierr s;
  ok_FZ : F <> 0 -> Z = [];
  ok_flush : i_flush s = true -> Z = [];
  ok_den : denote (dd B) (Z, i_ierr s, i_oerr s) = X;
  ok_mode : mode s
}.

Definition okpc (midp : nat) (s : inst) (B : nat -> list datum) (pc : gpc) : Prop :=
  match pc with
  | PBegin p => 1 <= p /\ midp = 0
  | PLocal p LOuter => 1 <= p <= n /\ midp = 0
  | PLocal p LInner => 1 <= p <= n /\ midp = p /\ TY p = FROM
  | PLocal _ _ => False
  | PCheck p => p <= n /\ midp = 0 /\ forall q, p < q <= n -> idle s q
  | PFlush p => 1 <= p <= S n /\ midp = 0 /\ i_flush s = true /\ (forall q, 1 <= q <= n -> idle s q) /\ forall q, 1 <= q < p -> B q = []
  | PDone => midp = 0 /\ (forall q, 1 <= q <= n -> idle s q) /\ (i_flush s = true -> forall q, 1 <= q <= n -> B q = [])
  end.

Definition rk (pc : gpc) : nat :=
  match pc with
  | PBegin _ => 2 * n + 8
  | PLocal _ LInner => 2 * n + 7
  | PLocal _ _ => 2 * n + 6
  | PCheck p => n + 3 + p
  | PFlush p => n + 2 - p
  | PDone => 0
  end.

Lemma noerr_at B ie oe p : denote (dd B) (Z, ie, oe) = X -> E0 <= ie -> flow_ierr X <= E0 -> 1 <= p <= n -> TY p = FROM ->
  snd (trans KFrom (sems (KS p)) (B p ++ incoming B (Z, ie, oe) p)) = 0.
Proof.
  intros HD HE HX Hp HF. unfold dd in HD. rewrite (seq_split p Hp), map_app, denote_app in HD. cbn [map denote] in HD.
  rewrite <- HD in HX.
  destruct (kind_of_psem p Hp) as (Kk & Kc). rewrite HF in Kk. cbn in Kk.
  unfold incoming. rewrite HF. cbn [kind_of].
  pose proof (denote_ierr_le (map (fun q => (psem_at q, B q)) (seq 1 (p - 1))) (Z, ie, oe)) as Hle0.
  destruct (denote (map (fun q => (psem_at q, B q)) (seq 1 (p - 1))) (Z, ie, oe)) as [[xd xi] xo].
  match type of HX with flow_ierr (denote ?l ?y) <= _ => pose proof (denote_ierr_le l y) as Hle end.
  cbn [flow_data fst snd]. unfold apply_at in Hle, HX. rewrite Kk, Kc in Hle, HX.
  destruct (trans KFrom (sems (KS p)) (B p ++ inj KFrom xd)) as [o e]. cbn [snd].
  destruct (trans (ps_kind (psem_at (S p))) (ps_cs (psem_at (S p))) (B (S p) ++ inj (ps_kind (psem_at (S p))) o)) as [o2 e2].
  cbn in Hle0. destruct (ps_kind (psem_at (S p))); cbn in Hle, HX; cbn; lia.
Qed.

Lemma alw_incoming F midp s B pre p : okst F midp s B pre -> 1 <= p <= n -> alw (p <=? F) (incoming B (Z, i_ierr s, i_oerr s) p).
Proof.
  intros HO Hp Ef. apply Nat.leb_le in Ef. rewrite (ok_FZ _ _ _ _ _ HO) by lia. apply incoming_drained.
  intros q Hq. apply (gi_drained _ _ _ _ _ (ok_g _ _ _ _ _ HO)). lia.
Qed.

Lemma err_ok_at F midp s B pre p pv th : okst F midp s B pre -> 1 <= p <= n ->
  nth_error (i_phases s) (p - 1) = Some pv -> nth_error (i_phases s) p = Some th -> p_type th = TY p ->
  err_okE E (p <=? F) pv th (KS p) (B p).
Proof.
  intros HO Hp E1 E2 Ht. destruct (ok_mode _ _ _ _ _ HO) as [HE|[HX|(Hs & ph0 & Eph & Hl)]]; [left; exact HE|right; intros Hf|right; intros Hf].
  - right. exists (incoming B (Z, i_ierr s, i_oerr s) p). split; [eapply alw_incoming; eassumption|].
    apply noerr_at; auto; [apply (ok_den _ _ _ _ _ HO)|apply (ok_E0 _ _ _ _ _ HO)|congruence].
  - left. assert (p = 1) by (apply (proj2 Hs); [assumption|congruence]). subst p. change (1 - 1) with 0 in E1. rewrite Eph in E1. injection E1 as <-. exact Hl.
Qed.

(** after a commit everything still holds *)
Lemma okst_commit F midp s B pre p pv th pc :
  okst F midp s B pre -> 1 <= p <= n -> nth_error (i_phases s) (p - 1) = Some pv -> nth_error (i_phases s) p = Some th ->
  p_type th = TY p -> midp = p \/ midp = 0 -> achieves (p <=? F) pv th (KS p) (B p) pc ->
  exists s' pc' B' pre' midp', gsteps s (PLocal p pc) s' pc' /\ okst F midp' s' B' pre' /\ okpc midp' s' B' pc' /\ i_flush s' = i_flush s /\
    forall r r', lex (gmeasure s' B' ++ [r]) (gmeasure s B ++ [r']).
Proof.
  intros HO Hp E1 E2 Ht Hm HA.
  destruct (commit_global F midp s B pre p pv th pc (Z, i_ierr s, i_oerr s) (ok_g _ _ _ _ _ HO) Hp) as (s' & g & B' & pre' & midp' & e & G1 & G2 & G3 & G4 & G5 & G6 & G7 & G8 & G9 & G10); auto.
  { apply (ok_FZ _ _ _ _ _ HO). }
  { exists 0. reflexivity. }
  exists s', (gpc_of n p g), B', pre', midp'. split; [exact G1|]. split; [|split; [|split]].
  - constructor; auto; try apply HO.
    + rewrite G4. pose proof (ok_E0 _ _ _ _ _ HO). lia.
    + rewrite G2. apply HO.
    + rewrite G4, G5. rewrite (ok_den _ _ _ _ _ HO) in G6. symmetry. exact G6.
    + destruct (ok_mode _ _ _ _ _ HO) as [HE|[HX|(Hs & ph0 & Eph & Hl)]]; [left; exact HE|right; left; exact HX|right; right]. split; [exact Hs|].
      destruct (Nat.eq_dec p 1) as [->|Hp1].
      * change (1 - 1) with 0 in *.
        assert (Hn0 : exists q0', nth_error (i_phases s') 0 = Some q0').
        { destruct (nth_error (i_phases s') 0) eqn:En; [eauto|]. apply nth_error_None in En. rewrite (gi_len _ _ _ _ _ G3) in En. lia. }
        destruct Hn0 as (q0' & Hq0'). exists q0'. split; [exact Hq0'|]. 
        specialize (G8 (proj1 Hs) ph0 q0' Eph Hq0'). lia.
      * exists ph0. split; [rewrite G9 by lia; exact Eph|exact Hl].
  - destruct g as [[]| | |]; cbn in *; try contradiction; subst; auto; try lia.
    destruct G10 as (A & ->). auto.
  - exact G2.
  - intros r r'. apply lex_app; [exact G7|reflexivity].
Qed.

Definition final (s : inst) : Prop :=
  exists F B pre, okst F 0 s B pre /\ (forall q, 1 <= q <= n -> idle s q) /\ (i_flush s = true -> forall q, 1 <= q <= n -> B q = []).

Lemma ach3_ach fin (pv th : ephase) ks B pc : achieves3 fin pv th ks B pc -> achieves fin pv th ks B pc.
Proof.
  intros (pv' & th' & ie & oe & g & H1 & H2 & H3 & out0 & out & e & B' & pre' & mid' & A1 & A2 & A3 & A4 & A5 & A6 & A7 & A8).
  exists pv', th', ie, oe, g. repeat (split; [assumption|]). exists out0, out, e, B', pre', mid'. repeat (split; [assumption|]). split; [|exact A8].
  unfold pmeasure. apply lex_app; [exact A7|reflexivity].
Qed.

Lemma ginv_raise F s B pre p : ginv F 0 s B pre -> p <= n -> (forall q, 1 <= q < p -> B q = []) -> ginv (max F p) 0 s B pre.
Proof.
  intros [G1 G2 G3 G4] Hp Hd. constructor; auto.
  - intros q Hq. destruct (G2 q Hq) as (pv & th & E1 & E2 & E3 & HI). exists pv, th. repeat (split; [assumption|]).
    destruct (Nat.leb_spec q F) as [H|H].
    + assert (Em : (q <=? max F p) = true) by (apply Nat.leb_le; lia). rewrite Em. exact HI.
    + apply pinv_fin. exact HI.
  - intros q Hq. destruct (Nat.lt_ge_cases q F); [apply G4; lia|apply Hd; lia].
Qed.

(** either the run completes with the specified result, or it reports an input error on the way *)
Definition outcome (s : inst) (pc : gpc) : Prop :=
  (exists fuel s', grun fuel s pc = RDone s' /\ final s' /\ i_flush s' = i_flush s) \/
  (E = true /\ exists s1 pc1, gsteps s pc s1 pc1 /\ E0 < i_ierr s1).

Lemma fails_outcome F midp s B pre pc p pv th lp : okst F midp s B pre -> 1 <= p <= n -> E = true ->
  nth_error (i_phases s) (p - 1) = Some pv -> nth_error (i_phases s) p = Some th -> gsteps s pc s (PLocal p lp) -> fails pv th lp -> outcome s pc.
Proof.
  intros HO Hp HE E1 E2 HS (pv' & th' & ie & oe & g & HL & Hie). right. split; [exact HE|].
  eexists _, _. split; [eapply gsteps_trans; [exact HS|exact (lsteps_gsteps _ _ _ _ _ _ _ _ HL s p (proj1 Hp) E1 E2)]|].
  unfold with_pair. cbn [i_ierr]. pose proof (ok_E0 _ _ _ _ _ HO). lia.
Qed.

Lemma run_all : eof_cond -> forall M, Acc lex M -> forall s pc F midp B pre, M = gmeasure s B ++ [rk pc] -> okst F midp s B pre -> okpc midp s B pc ->
  outcome s pc.
Proof.
  intros Heof M HM. induction HM as [M _ IH]. intros s pc F midp B pre -> HO HPC.
  (* continue after some steps *)
  assert (Hcont : forall s1 pc1 F1 midp1 B1 pre1, gsteps s pc s1 pc1 -> lex (gmeasure s1 B1 ++ [rk pc1]) (gmeasure s B ++ [rk pc]) ->
      okst F1 midp1 s1 B1 pre1 -> okpc midp1 s1 B1 pc1 -> i_flush s1 = i_flush s -> outcome s pc).
  { intros s1 pc1 F1 midp1 B1 pre1 HS HL HO1 HPC1 Hfl. destruct (IH _ HL s1 pc1 F1 midp1 B1 pre1 eq_refl HO1 HPC1) as [(fuel & s' & Hr & Hf & Hf2)|(HE & s2 & pc2 & HS2 & Hgt)].
    - destruct (grun_gsteps _ _ _ _ HS _ _ Hr) as (fuel' & Hr'). left. exists fuel', s'. split; [exact Hr'|]. split; [exact Hf|congruence].
    - right. split; [exact HE|]. exists s2, pc2. split; [eapply gsteps_trans; eassumption|exact Hgt]. }
  assert (Hsame : forall pc1, gsteps s pc s pc1 -> rk pc1 < rk pc -> okpc midp s B pc1 -> outcome s pc).
  { intros pc1 HS Hr HP. eapply Hcont; [exact HS| |exact HO|exact HP|reflexivity]. apply lex_app_same. apply lex_here; [exact Hr|reflexivity]. }
  assert (Hphn : phasen s = n) by (unfold phasen; rewrite (gi_len _ _ _ _ _ (ok_g _ _ _ _ _ HO)); lia).
  pose proof (ok_g _ _ _ _ _ HO) as HG.
  assert (Hwork : forall p, gsteps s pc s (PLocal p LOuter) -> 1 <= p <= n -> midp = 0 ->
     (exists pv th, nth_error (i_phases s) (p - 1) = Some pv /\ nth_error (i_phases s) p = Some th /\ p_curr th < length (p_queue pv)) -> outcome s pc).
  { intros p HS Hp Hm (pv & th & E1 & E2 & Hlt). subst midp.
    destruct (gi_ph _ _ _ _ _ HG p Hp) as (pv0 & th0 & Q1 & Q2 & Q3 & Q4). assert (pv0 = pv) by congruence. assert (th0 = th) by congruence. subst pv0 th0.
    assert (Hz : (p =? 0) = false) by (apply Nat.eqb_neq; lia). rewrite Hz in Q4.
    pose proof (local_outer _ _ _ _ _ _ (gi_tail _ _ _ _ _ _ _ HG Hp E2) Q4 Hlt) as HA.
    destruct (okst_commit _ _ _ _ _ _ _ _ _ HO Hp E1 E2 Q3 (or_intror eq_refl) HA) as (s' & pc' & B' & pre' & midp' & S1 & S2 & S3 & S4 & S5).
    eapply Hcont; [eapply gsteps_trans; [exact HS|exact S1]|apply S5|exact S2|exact S3|exact S4]. }
  destruct pc as [p|p lp|p|p|].
  - (* PBegin *)
    destruct HPC as (Hp & Hm). destruct (Nat.leb_spec p n) as [Hle|Hgt].
    + apply (Hsame (PLocal p LOuter)); [|cbn; lia|cbn; auto]. apply gsteps_one. cbn [gstep]. rewrite Hphn.
      destruct (Nat.ltb_spec 0 p); [|lia]. destruct (Nat.leb_spec p n); [|lia]. reflexivity.
    + apply (Hsame (PCheck n)); [|cbn; lia|cbn; split; [lia|]; split; [assumption|intros; lia]]. apply gsteps_one. cbn [gstep]. rewrite Hphn.
      destruct (Nat.leb_spec p n); [lia|]. rewrite andb_false_r. reflexivity.
  - destruct lp; try contradiction.
    + (* LOuter *)
      destruct HPC as (Hp & Hm).
      destruct (gi_ph _ _ _ _ _ HG p Hp) as (pv & th & Q1 & Q2 & Q3 & Q4).
      destruct (Nat.lt_ge_cases (p_curr th) (length (p_queue pv))) as [Hlt|Hge].
      * apply (Hwork p); auto; [apply gs_refl|]. exists pv, th. auto.
      * apply (Hsame (PCheck n)); [|cbn; lia|cbn; split; [lia|]; split; [assumption|intros; lia]].
        pose proof (lsteps_gsteps _ _ _ _ _ _ _ _ (ls_one _ _ _ _ _ _ _ _ (local_outer_idle _ _ _ _ _ _ _ Q4 Hge)) s p (proj1 Hp) Q1 Q2) as HS.
        cbn [gpc_of] in HS. rewrite Hphn in HS.
        replace (with_pair s p pv th 0 0) with s in HS; [exact HS|].
        unfold with_pair. rewrite (list_upd_same _ _ _ Q1), (list_upd_same _ _ _ Q2), !Nat.add_0_r. destruct s; reflexivity.
    + (* LInner *)
      destruct HPC as (Hp & Hm & HF). subst midp.
      destruct (gi_ph _ _ _ _ _ HG p Hp) as (pv & th & Q1 & Q2 & Q3 & Q4). rewrite Nat.eqb_refl in Q4.
      destruct (local_inner _ _ _ _ _ _ _ (eq_trans Q3 HF) (gi_tail _ _ _ _ _ _ _ HG Hp Q2) Q4 (err_ok_at _ _ _ _ _ _ _ _ HO Hp Q1 Q2 Q3)) as [[HA|(HE & Hfail)]|(Hst & Q4')].
      * destruct (okst_commit _ _ _ _ _ _ _ _ _ HO Hp Q1 Q2 Q3 (or_introl eq_refl) HA) as (s' & pc' & B' & pre' & midp' & S1 & S2 & S3 & S4 & S5).
        eapply Hcont; [exact S1|apply S5|exact S2|exact S3|exact S4].
      * eapply fails_outcome; [exact HO|exact Hp|exact HE|exact Q1|exact Q2|apply gs_refl|exact Hfail].
      * pose proof (lsteps_gsteps _ _ _ _ _ _ _ _ (ls_one _ _ _ _ _ _ _ _ Hst) s p (proj1 Hp) Q1 Q2) as HS.
        cbn [gpc_of] in HS. 
        replace (with_pair s p pv th 0 0) with s in HS.
        2:{ unfold with_pair. rewrite (list_upd_same _ _ _ Q1), (list_upd_same _ _ _ Q2), !Nat.add_0_r. destruct s; reflexivity. }
        assert (HO' : okst F 0 s B pre).
        { destruct HO as [O1 O2 OE O3 O4 O5 O6]. constructor; auto. destruct O1 as [G1 G2 G3 G4]. constructor; auto.
          intros q Hq. destruct (Nat.eq_dec q p) as [->|Hqp].
          - exists pv, th. assert (Hz : (p =? 0) = false) by (apply Nat.eqb_neq; lia). rewrite Hz. auto.
          - specialize (G2 q Hq). assert (Hz : (q =? 0) = false) by (apply Nat.eqb_neq; lia). assert (Hz2 : (q =? p) = false) by (apply Nat.eqb_neq; lia).
            rewrite Hz2 in G2. rewrite Hz. exact G2. }
        apply (Hcont s (PLocal p LOuter) F 0 B pre); auto.
        -- apply lex_app_same, lex_here; [cbn; lia|reflexivity].
        -- cbn. auto.
  - (* PCheck *)
    destruct HPC as (Hp & Hm & Hidle). subst midp. destruct p as [|p'].
    + destruct (i_flush s) eqn:Efl.
      * apply (Hsame (PFlush 1)); [|cbn; lia|].
        -- apply gsteps_one. cbn [gstep]. rewrite Efl. reflexivity.
        -- cbn. split; [lia|]. split; [reflexivity|]. split; [assumption|]. split; [intros; apply Hidle; lia|intros; lia].
      * apply (Hsame PDone); [|cbn; lia|].
        -- apply gsteps_one. cbn [gstep]. rewrite Efl. reflexivity.
        -- cbn. split; [reflexivity|]. split; [intros; apply Hidle; lia|congruence].
    + assert (Hp' : 1 <= S p' <= n) by lia.
      destruct (gi_ph _ _ _ _ _ HG (S p') Hp') as (pv & th & Q1 & Q2 & Q3 & Q4). replace (S p' - 1) with p' in Q1 by lia.
      destruct (Nat.ltb_spec (p_curr th) (length (p_queue pv))) as [Hlt|Hge].
      * apply (Hwork (S p')); auto.
        -- eapply gs_step; [cbn [gstep]; rewrite Q1, Q2, (proj2 (Nat.ltb_lt _ _) Hlt); reflexivity|]. apply gsteps_one. cbn [gstep]. rewrite Hphn.
           destruct (Nat.ltb_spec 0 (S p')); [|lia]. destruct (Nat.leb_spec (S p') n); [|lia]. reflexivity.
        -- exists pv, th. replace (S p' - 1) with p' by lia. auto.
      * apply (Hsame (PCheck p')); [|cbn; lia|].
        -- apply gsteps_one. cbn [gstep]. rewrite Q1, Q2, (proj2 (Nat.ltb_ge _ _) Hge). reflexivity.
        -- cbn. split; [lia|]. split; [reflexivity|]. intros q Hq. destruct (Nat.eq_dec q (S p')) as [->|]; [|apply Hidle; lia].
           exists pv, th. replace (S p' - 1) with p' by lia. auto.
  - (* PFlush *)
    destruct HPC as (Hp & Hm & Hfl & Hidle & HB0). subst midp.
    destruct (Nat.leb_spec p n) as [Hle|Hgt].
    + assert (Hp' : 1 <= p <= n) by lia.
      destruct (gi_ph _ _ _ _ _ HG p Hp') as (pv & th & Q1 & Q2 & Q3 & Q4).
      assert (Hz : (p =? 0) = false) by (apply Nat.eqb_neq; lia). rewrite Hz in Q4.
      destruct (Hidle p Hp') as (pv1 & th1 & I1 & I2 & I3). assert (pv1 = pv) by congruence. assert (th1 = th) by congruence. subst pv1 th1.
      pose proof (idle_all _ _ _ _ _ _ Q4 I3) as HBpre.
      destruct (p_fpending th) eqn:Epend.
      * pose proof (ok_flush _ _ _ _ _ HO Hfl) as HZ.
        set (F' := max F p).
        assert (HO' : okst F' 0 s B pre).
        { destruct HO as [O1 O2 OE O3 O4 O5 O6]. constructor; auto; [|unfold F'; lia]. apply ginv_raise; auto. }
        assert (HSd : gsteps s (PFlush p) s (PLocal p LDead)).
        { apply gsteps_one. cbn [gstep]. rewrite Hphn, (proj2 (Nat.leb_le _ _) Hle), Q2, Epend. reflexivity. }
        assert (HD0 : dinv true pv th (KS p) (B p) \/ (E = true /\ fails pv th LDead)).
        { apply eof_dead with (p <=? F) (pre p); auto. intros j k Hk. destruct (Heof p j k Hp' Hk) as [He|(HX & HT & Hj & Hns)]; [left; exact He|right].
          split; [congruence|]. split; [exact Hj|]. split; [exact Hns|].
          destruct HX as [HX|HX]; [left; exact HX|right].
          pose proof (noerr_at B (i_ierr s) (i_oerr s) p (ok_den _ _ _ _ _ HO) (ok_E0 _ _ _ _ _ HO) HX Hp' HT) as Hn. rewrite HZ in Hn.
          rewrite (incoming_drained B p) in Hn by exact HB0. rewrite app_nil_r in Hn. exact Hn. }
        destruct HD0 as [HD|(HE & Hfail)]; [|eapply fails_outcome; [exact HO|exact Hp'|exact HE|exact Q1|exact Q2|exact HSd|exact Hfail]].
        assert (HFt : (p <=? F') = true) by (apply Nat.leb_le; unfold F'; lia).
        pose proof (err_ok_at _ _ _ _ _ _ _ _ HO' Hp' Q1 Q2 Q3) as Herr. rewrite HFt in Herr.
        destruct (dead_progressE _ _ _ _ _ _ (gi_tail _ _ _ _ _ _ _ HG Hp' Q2) HD Herr) as [HA0|(HE & Hfail)];
          [|eapply fails_outcome; [exact HO|exact Hp'|exact HE|exact Q1|exact Q2|exact HSd|exact Hfail]].
        pose proof (ach3_ach _ _ _ _ _ _ HA0) as HA. rewrite <- HFt in HA.
        destruct (okst_commit _ _ _ _ _ _ _ _ _ HO' Hp' Q1 Q2 Q3 (or_intror eq_refl) HA) as (s' & pc' & B' & pre' & midp' & S1 & S2 & S3 & S4 & S5).
        eapply Hcont; [|apply S5|exact S2|exact S3|exact S4].
        eapply gs_step; [|exact S1]. cbn [gstep]. rewrite Hphn, (proj2 (Nat.leb_le _ _) Hle), Q2, Epend. reflexivity.
      * apply (Hsame (PFlush (S p))); [|cbn; lia|].
        -- apply gsteps_one. cbn [gstep]. rewrite Hphn, (proj2 (Nat.leb_le _ _) Hle), Q2, Epend. reflexivity.
        -- cbn. split; [lia|]. split; [reflexivity|]. split; [assumption|]. split; [assumption|]. intros q Hq.
           destruct (Nat.eq_dec q p) as [->|]; [|apply HB0; lia].
           destruct Q4 as [_ _ _ _ _ Hpe _ _]. rewrite Epend in Hpe. rewrite HBpre. destruct (pre p); [reflexivity|discriminate].
    + apply (Hsame PDone); [|cbn; lia|].
      * apply gsteps_one. cbn [gstep]. rewrite Hphn. destruct (Nat.leb_spec p n); [lia|]. reflexivity.
      * cbn. split; [reflexivity|]. split; [assumption|]. intros _ q Hq. apply HB0. lia.
  - (* PDone *)
    destruct HPC as (Hm & Hidle & HB). subst midp. left. exists 1, s. split; [reflexivity|]. split; [|reflexivity]. exists F, B, pre. auto.
Qed.
End E.

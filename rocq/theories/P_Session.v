(** Sessions: any number of calls, then a flush. *)
From Verif Require Import Base Types M_Engine M_Output S_Session S_Engine P_Trans P_Engine1 P_Engine2 P_Engine3 P_Engine4 P_Engine5 P_Engine6 P_Output P_Output2 P_Output3.

Section E.
Context {P : Type}.
Notation ecodec := (ecodec P). Notation ephase := (ephase P). Notation inst := (inst P).
Arguments p_type {P}. Arguments p_codecs {P}. Arguments p_index {P}. Arguments p_curr {P}. Arguments p_i {P}.
Arguments p_bak {P}. Arguments p_headlen {P}. Arguments p_match_data {P}. Arguments p_state {P}. Arguments p_offset {P}.
Arguments p_fmatch {P}. Arguments p_fpending {P}. Arguments p_floop {P}. Arguments p_queue {P}. Arguments p_tail {P}.
Arguments e_priv {P}. Arguments set_queue {P}.
Arguments k_v {P}. Arguments k_clean {P}. Arguments k_St {P}.
Arguments gstep {P}. Arguments grun {P}. Arguments i_phases {P}. Arguments i_flush {P}. Arguments i_ierr {P}. Arguments i_oerr {P}.
Arguments RDone {P}. Arguments mkInst {P}. Arguments phasen {P}. Arguments enqueue {P}. Arguments bsdconv_engine {P}.

Lemma grun_mono : forall f f' (s : inst) pc s', f <= f' -> grun f s pc = RDone s' -> grun f' s pc = RDone s'.
Proof.
  induction f as [|f IH]; intros f' s pc s' H; [discriminate|]. destruct f' as [|f']; [lia|]. cbn [grun].
  destruct (gstep s pc); auto. apply IH. lia.
Qed.

(** errors are never uncounted *)
Lemma gstep_ierr (s s' : inst) pc pc' : gstep s pc = GNextState _ s' pc' -> i_ierr s <= i_ierr s'.
Proof.
  destruct pc as [p|p lp|[|p]|p|]; cbn [gstep]; intros H;
  repeat match goal with
  | H : (if ?c then _ else _) = _ |- _ => destruct c
  | H : match nth_error ?a ?b with _ => _ end = _ |- _ => destruct (nth_error a b)
  | H : match local_step _ ?a ?b ?c with _ => _ end = _ |- _ => destruct (local_step _ a b c)
  | H : match ?g with Stay _ => _ | _ => _ end = _ |- _ => destruct g
  end; try discriminate; injection H as <- <-; cbn; lia.
Qed.
Lemma grun_ierr fuel : forall (s s' : inst) pc, grun fuel s pc = RDone s' -> i_ierr s <= i_ierr s'.
Proof.
  induction fuel as [|f IH]; intros s s' pc; [discriminate|]. cbn [grun]. destruct (gstep s pc) as [s1 pc1|s1|] eqn:E; try discriminate.
  - intros H. apply gstep_ierr in E. apply IH in H. lia.
  - intros H. injection H as <-. destruct pc; cbn [gstep] in E; try (destruct p); repeat match goal with
  | H : (if ?c then _ else _) = _ |- _ => destruct c
  | H : match nth_error ?a ?b with _ => _ end = _ |- _ => destruct (nth_error a b)
  | H : match local_step _ ?a ?b ?c with _ => _ end = _ |- _ => destruct (local_step _ a b c)
  | H : match ?g with Stay _ => _ | _ => _ end = _ |- _ => destruct g
  end; try discriminate; injection E as <-; lia.
Qed.
Lemma grun_reach (s s1 : inst) pc pc1 : gsteps s pc s1 pc1 -> forall fuel s', grun fuel s pc = RDone s' -> i_ierr s1 <= i_ierr s'.
Proof.
  induction 1 as [|s pc s1 pc1 s2 pc2 H _ IH]; intros fuel s' Hr; [eapply grun_ierr; eassumption|].
  destruct fuel as [|fuel]; [discriminate|]. cbn [grun] in Hr. rewrite H in Hr. eauto.
Qed.
Lemma engine_ierr fuel (s s' : inst) inp fl : bsdconv_engine fuel s inp fl = RDone s' -> i_ierr s <= i_ierr s'.
Proof.
  unfold bsdconv_engine. cbv zeta. intros H. apply grun_ierr in H. cbn [i_ierr] in H.
  replace (i_ierr (enqueue s inp)) with (i_ierr s) in H; [exact H|]. unfold enqueue. destruct inp as [[d c]|], (i_phases s); reflexivity.
Qed.
Lemma call_ierr fuel (s s' : inst) inp fl m r : bsdconv_call P fuel s inp fl m = CDone P s' r -> i_ierr s <= i_ierr s'.
Proof.
  unfold bsdconv_call. destruct (bsdconv_engine fuel s inp fl) as [s1| |] eqn:E; try discriminate. destruct (last_phase P s1); [|discriminate].
  destruct (output_switch P e m) as [o|]; [|discriminate]. intros H. injection H as <- <-. apply engine_ierr in E. unfold set_last. destruct (last_phase P s1); exact E.
Qed.
Lemma hist_ierr fuel h : forall (s s' : inst) out, run_hist P fuel s h = Some (s', out) -> i_ierr s <= i_ierr s'.
Proof.
  induction h as [|c h IH]; intros s s' out; cbn [run_hist]; [intros H; injection H as <- <-; lia|].
  destruct (bsdconv_call P fuel s (c_input c) (c_flush c) (c_mode c)) as [s1 r| |] eqn:E; try discriminate.
  destruct (run_hist P fuel s1 h) as [[s2 o]|] eqn:E2; [|discriminate]. intros H. injection H as <- <-. apply call_ierr in E. apply IH in E2. lia.
Qed.

Variable n : nat.
Variable TY : nat -> ptype.
Variable KS : nat -> list (codec_spec (P:=P)).
Hypothesis n_pos : 1 <= n.
Hypothesis TY_adj : forall p, 1 <= p -> TY p = FROM -> TY (S p) <> FROM.

(** a conversion with nothing inside: all phases at rest, only finished output may be waiting *)
Definition quiet (s : inst) : Prop := exists B pre, ginv n TY KS 0 0 s B pre /\ forall q, 1 <= q <= n -> B q = [].

Definition upd1 (B : nat -> list datum) (x : list datum) : nat -> list datum := fun q => if q =? 1 then x else B q.

Lemma dd_upd1 B x : dd n TY KS (upd1 B x) = (psem_at n TY KS 1, x) :: map (fun p => (psem_at n TY KS p, B p)) (seq 2 n).
Proof.
  unfold dd. cbn [seq map]. f_equal. apply map_ext_in. intros p Hp. apply in_seq in Hp. unfold upd1. destruct (Nat.eqb_spec p 1); [lia|]. reflexivity.
Qed.

(** one call *)
Definition okst' X Z E0 E F s B pre := okst n TY KS X Z E0 E F 0 s B pre.

Lemma ginv_flush F s B pre fl : ginv n TY KS F 0 s B pre -> ginv n TY KS F 0 (mkInst (i_phases s) fl (i_ierr s) (i_oerr s)) B pre.
Proof. intros [G1 G2 G3 G4]. constructor; auto. Qed.

Lemma enqueue_none (s : inst) : enqueue s None = s.
Proof. unfold enqueue. destruct (i_phases s); reflexivity. Qed.

Lemma enqueue_ginv F s B pre d : ginv n TY KS F 0 s B pre -> F = 0 ->
  ginv n TY KS F 0 (enqueue s (Some (d, []))) (upd1 B (B 1 ++ inj (kind_of (TY 1)) [d])) pre.
Proof.
  intros [G1 G2 G3 G4] ->. destruct (i_phases s) as [|ph0 rest] eqn:E; [discriminate|].
  assert (Hn1 : 1 <= 1 <= n) by lia.
  destruct (G2 1 Hn1) as (pv & th & E1 & E2 & E3 & HI). rewrite E in E1, E2. change (1 - 1) with 0 in E1. cbn in E1. injection E1 as <-.
  unfold enqueue. rewrite E. set (ph0' := set_queue ph0 (firstn (p_tail ph0) (p_queue ph0) ++ [d]) (S (p_tail ph0))).
  assert (Hq : p_queue ph0' = p_queue ph0 ++ [d]). { destruct HI as [It]. cbn. rewrite It, firstn_all. reflexivity. }
  assert (Hnth : forall q, 1 <= q -> nth_error (ph0' :: rest) q = nth_error (ph0 :: rest) q) by (intros [|q] Hq1; [lia|reflexivity]).
  constructor.
  - cbn. exact G1.
  - intros p Hp. unfold upd1. destruct (Nat.eqb_spec p 1) as [->|Hp1].
    + exists ph0', th. cbn [i_phases]. split; [reflexivity|]. split; [rewrite Hnth by lia; exact E2|]. split; [exact E3|].
      rewrite <- E3. eapply pinv_append; eauto.
      * destruct HI as [It]. rewrite Hq, app_length. cbn. rewrite It. lia.
      * intros Ef. destruct HI as [_ _ _ _ _ _ _ Hpos]. rewrite Ef in Hpos. apply Hpos.
      * intros Ef. discriminate.
    + destruct (G2 p Hp) as (pv & th' & Q1 & Q2 & Q3 & Q4). exists pv, th'. cbn [i_phases]. rewrite E in Q1, Q2. rewrite !Hnth by lia. auto.
  - destruct G3 as (th' & Q1 & Q2 & Q3). exists th'. cbn [i_phases]. rewrite Hnth by lia. split; [exact Q1|]. split; [exact Q2|]. unfold upd1. destruct (Nat.eqb_spec (S n) 1); [lia|exact Q3].
  - intros p Hp. lia.
Qed.

Lemma one_call X Z E0 E F s B pre inp Z' fl :
  okst' X Z E0 E F s B pre -> eof_cond n TY KS X E0 E ->
  Z = (match inp with Some d => [d] | None => [] end) ++ Z' -> (fl = true -> Z' = []) ->
  (E = true \/ flow_ierr X <= E0 \/ (single_from n TY /\ exists ph0, nth_error (i_phases s) 0 = Some ph0 /\ length (p_queue ph0) + (match inp with Some _ => 1 | None => 0 end) <= 1)) ->
  (exists fuel s', bsdconv_engine fuel s (option_map (fun d => (d, [])) inp) fl = RDone s' /\ final n TY KS X Z' E0 E s' /\ i_flush s' = fl) \/
  (E = true /\ forall fuel s', bsdconv_engine fuel s (option_map (fun d => (d, [])) inp) fl = RDone s' -> E0 < i_ierr s').
Proof.
  intros HO Heof HZ Hfl Hmode. unfold bsdconv_engine. cbv zeta.
  assert (HOE : exists F1 B1, okst' X Z' E0 E F1 (mkInst (i_phases (enqueue s (option_map (fun d => (d, [])) inp))) fl (i_ierr (enqueue s (option_map (fun d => (d, [])) inp))) (i_oerr (enqueue s (option_map (fun d => (d, [])) inp)))) B1 pre).
  { destruct HO as [O1 O2 OE O3 O4 O5 O6]. destruct inp as [d|]; cbn [option_map].
    - assert (F = 0). { destruct F; [reflexivity|]. rewrite O3 in HZ by lia. discriminate. } subst F. exists 0, (upd1 B (B 1 ++ inj (kind_of (TY 1)) [d])).
      assert (Ei : i_ierr (enqueue s (Some (d, []))) = i_ierr s) by (unfold enqueue; destruct (i_phases s); reflexivity).
      assert (Eo : i_oerr (enqueue s (Some (d, []))) = i_oerr s) by (unfold enqueue; destruct (i_phases s); reflexivity).
      constructor; cbn [i_ierr i_oerr i_flush]; auto; try lia.
      + apply ginv_flush, enqueue_ginv; auto.
      + rewrite Ei, Eo. rewrite dd_upd1. rewrite <- O5, HZ. cbn [app].
        replace (dd n TY KS B) with (dd n TY KS (upd1 B (B 1))).
        2:{ unfold dd. apply map_ext_in. intros p _. unfold upd1. destruct (Nat.eqb_spec p 1); [subst; reflexivity|reflexivity]. }
        rewrite dd_upd1, denote_enqueue. rewrite (proj1 (kind_of_psem n TY KS n_pos 1 ltac:(lia))). reflexivity.
      + destruct Hmode as [H|[H|(Hs & ph0 & Hp0 & Hl)]]; [left; exact H|right; left; exact H|right; right]. split; [exact Hs|].
        destruct (i_phases s) as [|p0 rest] eqn:Eph; [discriminate|]. cbn in Hp0. injection Hp0 as ->.
        unfold enqueue. rewrite Eph. cbn [i_phases nth_error]. eexists. split; [reflexivity|]. cbn. rewrite app_length, firstn_length. cbn. lia.
    - exists F, B. rewrite enqueue_none. constructor; cbn [i_ierr i_oerr i_flush]; auto.
      + apply ginv_flush, O1.
      + intros HF. rewrite O3 in HZ by exact HF. destruct Z'; [reflexivity|discriminate].
      + rewrite <- O5, HZ. reflexivity. }
  destruct HOE as (F1 & B1 & HO1).
  set (s1 := mkInst _ _ _ _) in *.
  destruct (run_all n TY KS n_pos TY_adj X Z' E0 E Heof (gmeasure n s1 B1 ++ [rk n (PBegin 1)]) (lex_acc _ _ eq_refl) s1 (PBegin 1) F1 0 B1 pre eq_refl HO1) as [(fuel & s' & R1 & R2 & R3)|(HE & s2 & pc2 & HS & Hgt)].
  { cbn. auto. }
  2:{ right. split; [exact HE|]. intros fuel s' Hr. pose proof (grun_reach _ _ _ _ HS _ _ Hr). lia. }
  left. exists fuel, s'. split; [exact R1|]. split; [exact R2|]. rewrite R3. reflexivity.
Qed.

(** ** Streams *)
Lemma denote_all_drained B ie oe : (forall q, 1 <= q <= n -> B q = []) -> denote (dd n TY KS B) ([], ie, oe) = (B (S n), ie, oe).
Proof.
  intros H. unfold dd. replace (S n) with (n + 1) at 1 by lia. rewrite seq_app, map_app, denote_app. cbn [seq map].
  rewrite denote_drained.
  - cbn [denote apply_at inj]. unfold psem_at. replace (1 + n) with (S n) by lia. rewrite Nat.eqb_refl. cbn. rewrite app_nil_r, trans_sink. reflexivity.
  - apply Forall_forall. intros [ph b] Hin. apply in_map_iff in Hin. destruct Hin as (q & E & Hq). injection E as <- <-. apply in_seq in Hq. apply H. lia.
Qed.

Lemma final_flush X E0 E s : final n TY KS X [] E0 E s -> i_flush s = true ->
  quiet s /\ exists th, nth_error (i_phases s) n = Some th /\ X = (filter nonempty (p_queue th), i_ierr s, i_oerr s) /\ p_tail th = length (p_queue th).
Proof.
  intros (F & B & pre & HO & Hidle & HB) Hfl. specialize (HB Hfl). destruct HO as [[G1 G2 G3 G4] O2 OE O3 O4 O5 O6]. split.
  - exists B, pre. split; [|exact HB]. constructor; auto; [|intros; lia].
    intros p Hp. destruct (G2 p Hp) as (pv & th & Q1 & Q2 & Q3 & Q4). exists pv, th. repeat (split; [assumption|]).
    replace (p <=? 0) with false by (symmetry; apply Nat.leb_gt; lia).
    destruct Q4 as [It Ic Icl Is Ip Ipend I0 Ipos]. constructor; auto. intros j k Hj. rewrite (HB p Hp) in I0. destruct I0 as [I0|I0]; [lia|contradiction].
  - destruct G3 as (th & Q1 & Q2 & Q3). exists th. split; [exact Q1|]. split; [|exact Q2]. rewrite <- O5, denote_all_drained by exact HB. rewrite Q3. reflexivity.
Qed.

(** [run_hist] under HOLD is iterating the engine *)
Lemma hold_call fuel (s s' : inst) inp fl : bsdconv_engine fuel s inp fl = RDone s' -> i_phases s' <> [] ->
  exists r, bsdconv_call P fuel s inp fl OHold = CDone P s' r /\ delivered OHold r = [].
Proof.
  intros H Hne. unfold bsdconv_call. rewrite H. destruct (exists_last Hne) as (l & t & E). 
  destruct (last_phase_app s' l t E) as (-> & _). cbn [output_switch or_queue or_tail]. eexists. split; [|reflexivity]. f_equal.
  rewrite (set_last_app s' l t _ _ E). rewrite set_queue_same, <- E. destruct s'; reflexivity.
Qed.

Lemma stream_hold E0 E : forall l X F s B pre, l <> [] -> okst' X (inputs l) E0 E F s B pre -> eof_cond n TY KS X E0 E ->
  (E = true \/ flow_ierr X <= E0 \/ (length l = 1 /\ single_from n TY /\ exists ph0, nth_error (i_phases s) 0 = Some ph0 /\ p_queue ph0 = [])) ->
  (exists fuel0 s', (forall fuel, fuel0 <= fuel -> run_hist P fuel s (map hold (stream_calls l)) = Some (s', [])) /\
    final n TY KS X [] E0 E s' /\ i_flush s' = true) \/
  (E = true /\ forall fuel s' out, run_hist P fuel s (map hold (stream_calls l)) = Some (s', out) -> E0 < i_ierr s').
Proof.
  induction l as [|[i m] l IH]; intros X F s B pre Hne HO Heof Hmode; [contradiction|].
  destruct l as [|x l].
  - destruct (one_call X _ E0 E F s B pre i [] true HO Heof eq_refl) as [(f & s' & R1 & R2 & R3)|(HE & Hbad)].
    { reflexivity. }
    { destruct Hmode as [H|[H|(_ & Hs & ph0 & H1 & H2)]]; [left; exact H|right; left; exact H|right; right]. split; [exact Hs|]. exists ph0. split; [exact H1|]. rewrite H2. destruct i; cbn; lia. }
    2:{ right. split; [exact HE|]. intros fuel s' out. cbn [stream_calls map run_hist]. change (c_input (hold _)) with (option_map (fun d : datum => (d, @nil datum)) i). cbn [hold c_flush c_mode].
        unfold bsdconv_call. destruct (bsdconv_engine fuel s _ true) as [s1| |] eqn:Ee; try discriminate. pose proof (Hbad _ _ Ee) as Hb.
        destruct (last_phase P s1); [|discriminate]. destruct (output_switch P e OHold) as [o|]; [|discriminate]. intros H. injection H as <- <-.
        unfold set_last. destruct (last_phase P s1); exact Hb. }
    left. exists f, s'. split; [|auto]. intros fuel Hf. cbn [stream_calls map run_hist]. change (c_input (hold _)) with (option_map (fun d : datum => (d, @nil datum)) i). cbn [hold c_flush c_mode].
    assert (R1' : bsdconv_engine fuel s (option_map (fun d : datum => (d, [])) i) true = RDone s') by (unfold bsdconv_engine in *; eapply grun_mono; eassumption).
    destruct (hold_call fuel s s' _ _ R1') as (r & Hc & Hd).
    { destruct R2 as (? & ? & ? & HO' & _). intros En. pose proof (gi_len _ _ _ _ _ _ _ _ (ok_g _ _ _ _ _ _ _ _ _ _ _ _ HO')) as Hl. rewrite En in Hl. discriminate. }
    rewrite Hc, Hd. reflexivity.
  - assert (Hmode' : E = true \/ flow_ierr X <= E0) by (destruct Hmode as [H|[H|(Hl & _)]]; [auto|auto|discriminate]). clear Hmode.
    destruct (one_call X _ E0 E F s B pre i (inputs (x :: l)) false HO Heof eq_refl) as [(f & s1 & R1 & R2 & R3)|(HE & Hbad)]; [discriminate|tauto| |].
    2:{ right. split; [exact HE|]. intros fuel s' out.
        change (stream_calls ((i, m) :: x :: l)) with (mkCall (option_map (fun d => (d, [])) i) false m :: stream_calls (x :: l)). cbn [map run_hist]. cbn [hold c_input c_flush c_mode].
        unfold bsdconv_call. destruct (bsdconv_engine fuel s _ false) as [s1| |] eqn:Ee; try discriminate. pose proof (Hbad _ _ Ee) as Hb.
        destruct (last_phase P s1); [|discriminate]. destruct (output_switch P e OHold) as [o|]; [|discriminate].
        destruct (run_hist P fuel _ _) as [[s2 o2]|] eqn:Eh; [|discriminate]. intros H. injection H as <- <-. apply hist_ierr in Eh.
        unfold set_last in Eh; destruct (last_phase P s1); cbn in Eh; lia. }
    destruct R2 as (F1 & B1 & pre1 & HO1 & _ & _).
    destruct (IH X F1 s1 B1 pre1) as [(f2 & s' & K1 & K2 & K3)|(HE & Hbad)]; auto; [discriminate|tauto| |].
    2:{ right. split; [exact HE|]. intros fuel s' out.
        change (stream_calls ((i, m) :: x :: l)) with (mkCall (option_map (fun d => (d, [])) i) false m :: stream_calls (x :: l)). cbn [map run_hist]. cbn [hold c_input c_flush c_mode].
        destruct (bsdconv_call P fuel s (option_map (fun d => (d, [])) i) false OHold) as [s2 r| |] eqn:Ec; try discriminate.
        assert (s2 = s1) as ->.
        { unfold bsdconv_call in Ec. destruct (bsdconv_engine fuel s _ false) as [s3| |] eqn:Ee; try discriminate.
          assert (s3 = s1) as ->. { unfold bsdconv_engine in *. pose proof (grun_mono _ (max fuel f) _ _ _ (Nat.le_max_l _ _) Ee) as A1. pose proof (grun_mono _ (max fuel f) _ _ _ (Nat.le_max_r _ _) R1) as A2. congruence. }
          destruct (hold_call fuel s s1 _ _ Ee) as (r' & Hc & _).
          { intros En. pose proof (gi_len _ _ _ _ _ _ _ _ (ok_g _ _ _ _ _ _ _ _ _ _ _ _ HO1)) as Hlen. rewrite En in Hlen. discriminate. }
          unfold bsdconv_call in Hc. rewrite Ee in Hc. rewrite Hc in Ec. congruence. }
        destruct (run_hist P fuel s1 _) as [[s2 o2]|] eqn:Eh; [|discriminate]. intros H. injection H as <- <-. eapply Hbad. exact Eh. }
    left. exists (max f f2), s'. split; [|auto]. intros fuel Hf.
    change (stream_calls ((i, m) :: x :: l)) with (mkCall (option_map (fun d => (d, [])) i) false m :: stream_calls (x :: l)). cbn [map run_hist]. cbn [hold c_input c_flush c_mode].
    assert (R1' : bsdconv_engine fuel s (option_map (fun d : datum => (d, [])) i) false = RDone s1) by (unfold bsdconv_engine in *; eapply grun_mono; [|eassumption]; lia).
    destruct (hold_call fuel s s1 _ _ R1') as (r & Hc & Hd).
    { intros En. pose proof (gi_len _ _ _ _ _ _ _ _ (ok_g _ _ _ _ _ _ _ _ _ _ _ _ HO1)) as Hlen. rewrite En in Hlen. discriminate. }
    rewrite Hc, Hd, (K1 fuel) by lia. reflexivity.
Qed.

Lemma ginv_last_ok F m s B pre : ginv n TY KS F m s B pre -> last_ok (P:=P) s.
Proof.
  intros [G1 _ (th & Q1 & Q2 & Q3) _]. destruct (i_phases s) as [|a l0] eqn:E; [discriminate|].
  assert (Hne : a :: l0 <> []) by discriminate. destruct (exists_last Hne) as (l & t & E').
  rewrite E' in *. exists l, t. rewrite E. rewrite app_length in G1. cbn in G1. split; [lia|]. split; [reflexivity|].
  assert (Hnl : n = length l) by lia. rewrite Hnl, nth_app_last in Q1. injection Q1 as ->. exact Q2.
Qed.

Lemma concat_filter (q : list datum) : concat (filter nonempty q) = concat q.
Proof. induction q as [|[|x d] q IH]; cbn; [reflexivity|exact IH|rewrite IH; reflexivity]. Qed.

Lemma quiet_pending s : quiet s -> exists th, nth_error (i_phases s) n = Some th /\ pending P s = concat (p_queue th).
Proof.
  intros (B & pre & HG & HB). destruct (gi_sink _ _ _ _ _ _ _ _ HG) as (th & Q1 & _). exists th. split; [exact Q1|].
  unfold pending, last_phase. replace (phasen s) with n by (unfold phasen; rewrite (gi_len _ _ _ _ _ _ _ _ HG); lia). rewrite Q1. reflexivity.
Qed.

Lemma quiet_rel a s sH : Rel (P:=P) a s sH -> quiet sH -> last_ok (P:=P) s -> quiet s.
Proof.
  intros (l & t & Hl & E & E' & _) (B & pre & [G1 G2 G3 G4] & HB) (l2 & t2 & _ & E2 & Ht). rewrite E in E2. apply app_inj_tail in E2. destruct E2 as (<- & <-).
  assert (Hln : length l = n). { rewrite E', app_length in G1. cbn in G1. lia. }
  exists (fun q => if q =? S n then filter nonempty (p_queue t) else B q), pre. split.
  - constructor.
    + rewrite E, app_length. cbn. lia.
    + intros p Hp. destruct (Nat.eqb_spec p (S n)); [lia|]. destruct (G2 p Hp) as (pv & th & Q1 & Q2 & Q3 & Q4). rewrite E' in Q1, Q2.
      rewrite nth_error_app1 in Q1 by lia. destruct (Nat.eq_dec p n) as [->|Hpn].
      * rewrite <- Hln in Q2. rewrite nth_app_last in Q2. injection Q2 as <-. exists pv, t. rewrite E, nth_error_app1 by lia. split; [exact Q1|].
        split; [rewrite <- Hln; apply nth_app_last|]. split; [exact Q3|]. eapply pinv_same_ctl; [exact Q4|]. unfold same_ctl, pfx, set_queue. cbn. destruct t; reflexivity.
      * rewrite nth_error_app1 in Q2 by lia. exists pv, th. rewrite E, !nth_error_app1 by lia. auto.
    + exists t. rewrite E, <- Hln, nth_app_last. split; [reflexivity|]. split; [exact Ht|]. rewrite Nat.eqb_refl. reflexivity.
    + intros; lia.
  - intros q Hq. destruct (Nat.eqb_spec q (S n)); [lia|]. apply HB. exact Hq.
Qed.

Definition the_pipe : list psem := map (fun p => mkPsem (kind_of (TY p)) (sems (KS p))) (seq 1 n).

Lemma denote_pipe B l ie oe : (forall q, 1 <= q <= n -> B q = []) ->
  denote (dd n TY KS B) (l, ie, oe) =
    (let x := fold_left (fun x ph => apply_phase ph x) the_pipe (l, ie, oe) in (B (S n) ++ filter nonempty (fst (fst x)), snd (fst x), snd x)).
Proof.
  intros HB. unfold dd. replace (S n) with (n + 1) at 1 by lia. rewrite seq_app, map_app, denote_app. cbn [seq map].
  assert (H : forall ps x, (forall q, In q ps -> 1 <= q <= n) -> denote (map (fun p => (psem_at n TY KS p, B p)) ps) x = fold_left (fun x ph => apply_phase ph x) (map (fun p => mkPsem (kind_of (TY p)) (sems (KS p))) ps) x).
  { induction ps as [|p ps IH]; intros x Hin; [reflexivity|]. cbn [map denote fold_left]. rewrite IH by (intros; apply Hin; right; assumption). f_equal.
    assert (Hp : 1 <= p <= n) by (apply Hin; left; reflexivity). rewrite HB by exact Hp. unfold psem_at. destruct (Nat.eqb_spec p (S n)); [lia|]. destruct x as [[xd xi] xo]. reflexivity. }
  rewrite H by (intros q Hq; apply in_seq in Hq; lia). fold the_pipe.
  destruct (fold_left (fun x ph => apply_phase ph x) the_pipe (l, ie, oe)) as [[xd xi] xo]. cbn. unfold psem_at. replace (1 + n) with (S n) by lia. rewrite Nat.eqb_refl.
  cbn. rewrite trans_sink. reflexivity.
Qed.

Lemma fold_add l : forall x i o, fold_left (fun x ph => apply_phase ph x) l (add_err x i o) = add_err (fold_left (fun x ph => apply_phase ph x) l x) i o.
Proof.
  induction l as [|ph l IH]; intros x i o; [reflexivity|]. cbn [fold_left]. rewrite <- IH. f_equal. destruct x as [[xd xi] xo]. cbn. destruct (trans _ _ _). destruct (ps_kind ph); cbn; f_equal; try lia; f_equal; lia.
Qed.

Lemma pipe_chunks l ie oe : TY 1 = FROM ->
  fold_left (fun x ph => apply_phase ph x) the_pipe (l, ie, oe) = add_err (pipeline the_pipe (concat l)) ie oe.
Proof.
  intros HT. unfold pipeline. rewrite <- fold_add. unfold the_pipe. destruct n as [|m]; [lia|]. cbn [seq map fold_left]. f_equal.
  unfold apply_phase. cbn [add_err ps_kind ps_cs]. rewrite HT. cbn [kind_of inj concat]. rewrite app_nil_r. destruct (trans _ _ _). reflexivity.
Qed.

Lemma engine_flush_irrel fuel (s : inst) inp fl : bsdconv_engine fuel s inp fl = bsdconv_engine fuel (mkInst (i_phases s) false (i_ierr s) (i_oerr s)) inp fl.
Proof. destruct s as [phs f0 ie oe]. unfold bsdconv_engine, enqueue. cbn [i_phases i_ierr i_oerr]. destruct inp as [[d c]|]; destruct phs; reflexivity. Qed.

(** The main theorem: a stream converted in any number of calls with any lossless output modes. *)
Theorem stream_correct s l :
  quiet s -> TY 1 = FROM -> l <> [] -> Forall (fun x => lossless (snd x)) l ->
  let R := pipeline the_pipe (concat (inputs l)) in
  (flow_ierr R = 0 \/ (length l = 1 /\ single_from n TY /\ exists ph0, nth_error (i_phases s) 0 = Some ph0 /\ p_queue ph0 = [])) ->
  (forall p j k, 1 <= p <= n -> nth_error (KS p) j = Some k ->
     eof_clean k \/ (flow_ierr R = 0 /\ TY p = FROM /\ j = length (KS p) - 1 /\ no_sub (k_v k))) ->
  exists fuel0 s' out, (forall fuel, fuel0 <= fuel -> run_hist P fuel s (stream_calls l) = Some (s', out)) /\
    out ++ pending P s' = pending P s ++ out_bytes R /\
    i_ierr s' = i_ierr s + flow_ierr R /\ i_oerr s' = i_oerr s + flow_oerr R /\
    quiet s'.
Proof.
  intros HQ HT Hne Hll R Hmode Heof. pose proof HQ as (B & pre & HG & HB).
  set (X := denote (dd n TY KS B) (inputs l, i_ierr s, i_oerr s)).
  assert (EX : X = (B (S n) ++ filter nonempty (flow_data R), flow_ierr R + i_ierr s, flow_oerr R + i_oerr s)).
  { unfold X. rewrite denote_pipe by exact HB. cbv zeta. rewrite pipe_chunks by exact HT. fold R. destruct R as [[rd ri] ro]. reflexivity. }
  assert (HO : okst' X (inputs l) (i_ierr s) false 0 (mkInst (i_phases s) false (i_ierr s) (i_oerr s)) B pre).
  { constructor; auto; try lia; try (cbn; congruence).
    - apply ginv_flush, HG.
    - destruct Hmode as [H|(_ & Hs & ph0 & H1 & H2)]; [right; left; rewrite EX; cbn; lia|right; right]. split; [exact Hs|]. exists ph0. rewrite H2. cbn. auto. }
  assert (Heof' : eof_cond n TY KS X (i_ierr s) false).
  { intros p j k Hp Hk. destruct (Heof p j k Hp Hk) as [H|(H1 & H2)]; [left; exact H|right]. split; [right; rewrite EX; cbn; lia|exact H2]. }
  destruct (stream_hold (i_ierr s) false l X 0 _ B pre Hne HO Heof') as [(f & sH & R1 & R2 & R3)|(HE & _)]; [| |discriminate].
  { destruct Hmode as [H|H]; [right; left; rewrite EX; cbn; lia|right; right; exact H]. }
  destruct (final_flush _ _ _ _ R2 R3) as (HQ' & th & T1 & T2 & T3).
  assert (HLk : last_ok (P:=P) s) by (eapply ginv_last_ok; exact HG).
  assert (Hll' : Forall (fun c => lossless (c_mode c)) (stream_calls l)).
  { clear -Hll. induction l as [|[i m] [|x l] IH]; [constructor|repeat constructor; inversion Hll; assumption|]. inversion Hll; subst. constructor; [assumption|apply IH; assumption]. }
  assert (Hflush : forall fuel, run_hist P fuel s (map hold (stream_calls l)) = run_hist P fuel (mkInst (i_phases s) false (i_ierr s) (i_oerr s)) (map hold (stream_calls l))).
  { intros fuel. destruct l as [|[i m] l0]; [contradiction|]. destruct l0; cbn [stream_calls map run_hist]; unfold bsdconv_call; rewrite engine_flush_irrel; reflexivity. }
  assert (R1' : forall fuel, f <= fuel -> run_hist P fuel s (map hold (stream_calls l)) = Some (sH, [])) by (intros fuel Hf; rewrite Hflush; apply R1; exact Hf).
  pose proof (hist_rel f (stream_calls l) [] s s (rel_refl s HLk) HLk Hll') as HR. rewrite (R1' f) in HR by lia.
  destruct (run_hist P f s (stream_calls l)) as [[s' out]|] eqn:Er; [|contradiction]. destruct HR as (_ & a & HRa & Ha). cbn in Ha.
  exists f, s', out. split.
  { intros fuel Hf. pose proof (hist_rel fuel (stream_calls l) [] s s (rel_refl s HLk) HLk Hll') as HR2. rewrite (R1' fuel) in HR2 by lia.
    assert (Hmono : run_hist P fuel s (stream_calls l) = Some (s', out)); [|exact Hmono].
    clear -Er Hf. revert s s' out Er. induction (stream_calls l) as [|c h IH]; intros s s' out; [auto|]. cbn [run_hist]. unfold bsdconv_call.
    destruct (bsdconv_engine f s (c_input c) (c_flush c)) as [s1| |] eqn:Ee; try discriminate.
    assert (Ee' : bsdconv_engine fuel s (c_input c) (c_flush c) = RDone s1) by (unfold bsdconv_engine in *; eapply grun_mono; eassumption). rewrite Ee'.
    destruct (last_phase P s1); [|discriminate]. destruct (output_switch P e (c_mode c)); [|discriminate].
    destruct (run_hist P f _ h) as [[s2 o2]|] eqn:Eh; [|discriminate]. intros E. injection E as <- <-. rewrite (IH _ _ _ Eh). reflexivity. }
  split.
  { rewrite <- Ha, <- (pending_rel a s' sH HRa). destruct (quiet_pending sH HQ') as (th' & T4 & ->). assert (th' = th) by congruence. subst th'.
    destruct (quiet_pending s HQ) as (ths & T5 & ->). destruct (gi_sink _ _ _ _ _ _ _ _ HG) as (ths' & T6 & _ & T7). assert (ths' = ths) by congruence. subst ths'.
    rewrite <- (concat_filter (p_queue th)), <- (concat_filter (p_queue ths)), <- T7. rewrite EX in T2.
    assert (ET : filter nonempty (p_queue th) = B (S n) ++ filter nonempty (flow_data R)) by congruence. rewrite ET, concat_app, (concat_filter (flow_data R)). reflexivity. }
  destruct HRa as (l1 & t1 & L1 & L2 & L3 & L4 & L5 & L6).
  split; [rewrite L5; rewrite EX in T2; injection T2 as T2a T2b T2c; lia|]. split; [rewrite L6; rewrite EX in T2; injection T2 as T2a T2b T2c; lia|].
  apply (quiet_rel a s' sH); [exists l1, t1; auto 10|exact HQ'|].
  assert (HLall : forall h s s' out, last_ok (P:=P) s -> Forall (fun c => lossless (c_mode c)) h -> run_hist P f s h = Some (s', out) -> last_ok (P:=P) s').
  { clear. induction h as [|c h IH]; intros s s' out HL HF; cbn [run_hist]; [intros E; injection E as <- <-; exact HL|]. inversion HF; subst.
    pose proof (call_rel [] s s f c (rel_refl s HL) HL H1) as HC. destruct (bsdconv_call P f s (c_input c) (c_flush c) (c_mode c)) as [s1 r| |]; try discriminate.
    destruct (bsdconv_call P f s (c_input c) (c_flush c) OHold); try contradiction. destruct HC as (HL1 & _).
    destruct (run_hist P f s1 h) as [[s2 o]|] eqn:Eh; [|discriminate]. intros E. injection E as <- <-. eapply IH; eassumption. }
  eapply HLall; eassumption.
Qed.
(** Error detection: when the specified result of a stream contains input errors, every completed
    conversion of it, however split into calls, reports at least one. *)
Theorem stream_detect s l :
  quiet s -> TY 1 = FROM -> l <> [] -> Forall (fun x => lossless (snd x)) l ->
  let R := pipeline the_pipe (concat (inputs l)) in
  1 <= flow_ierr R ->
  (forall p j k, 1 <= p <= n -> nth_error (KS p) j = Some k -> eof_clean k \/ (TY p = FROM /\ j = length (KS p) - 1 /\ no_sub (k_v k))) ->
  forall fuel s' out, run_hist P fuel s (stream_calls l) = Some (s', out) -> i_ierr s < i_ierr s'.
Proof.
  intros HQ HT Hne Hll R Herr Heof fuel s' out Hrun. pose proof HQ as (B & pre & HG & HB).
  set (X := denote (dd n TY KS B) (inputs l, i_ierr s, i_oerr s)).
  assert (EX : X = (B (S n) ++ filter nonempty (flow_data R), flow_ierr R + i_ierr s, flow_oerr R + i_oerr s)).
  { unfold X. rewrite denote_pipe by exact HB. cbv zeta. rewrite pipe_chunks by exact HT. fold R. destruct R as [[rd ri] ro]. reflexivity. }
  assert (HO : okst' X (inputs l) (i_ierr s) true 0 (mkInst (i_phases s) false (i_ierr s) (i_oerr s)) B pre).
  { constructor; auto; try lia; try (cbn; congruence); [apply ginv_flush, HG|left; reflexivity]. }
  assert (Heof' : eof_cond n TY KS X (i_ierr s) true).
  { intros p j k Hp Hk. destruct (Heof p j k Hp Hk) as [H|H]; [left; exact H|right]. split; [left; reflexivity|exact H]. }
  assert (HLk : last_ok (P:=P) s) by (eapply ginv_last_ok; exact HG).
  assert (Hll' : Forall (fun c => lossless (c_mode c)) (stream_calls l)).
  { clear -Hll. induction l as [|[i m] [|x l] IH]; [constructor|repeat constructor; inversion Hll; assumption|]. inversion Hll; subst. constructor; [assumption|apply IH; assumption]. }
  assert (Hflush : forall fuel, run_hist P fuel s (map hold (stream_calls l)) = run_hist P fuel (mkInst (i_phases s) false (i_ierr s) (i_oerr s)) (map hold (stream_calls l))).
  { intros f. destruct l as [|[i m] l0]; [contradiction|]. destruct l0; cbn [stream_calls map run_hist]; unfold bsdconv_call; rewrite engine_flush_irrel; reflexivity. }
  pose proof (hist_rel fuel (stream_calls l) [] s s (rel_refl s HLk) HLk Hll') as HR. rewrite Hrun in HR.
  destruct (run_hist P fuel s (map hold (stream_calls l))) as [[sH oH]|] eqn:Eh; [|contradiction]. destruct HR as (_ & a & HRa & _).
  destruct HRa as (l1 & t1 & L1 & L2 & L3 & L4 & L5 & L6). rewrite L5. rewrite Hflush in Eh.
  destruct (stream_hold (i_ierr s) true l X 0 _ B pre Hne HO Heof') as [(f & sF & R1 & R2 & R3)|(_ & Hbad)]; [left; reflexivity| |].
  - assert (sF = sH) as ->.
    { pose proof (R1 (max f fuel) (Nat.le_max_l _ _)) as A1.
      assert (Hmono : forall h (s s' : inst) out, run_hist P fuel s h = Some (s', out) -> run_hist P (max f fuel) s h = Some (s', out)).
      { clear. assert (Hf : fuel <= max f fuel) by lia. revert Hf. generalize (max f fuel). intros g Hf. induction h as [|c h IH]; intros s s' out; [auto|]. cbn [run_hist]. unfold bsdconv_call.
        destruct (bsdconv_engine fuel s (c_input c) (c_flush c)) as [s1| |] eqn:Ee; try discriminate.
        assert (Ee' : bsdconv_engine g s (c_input c) (c_flush c) = RDone s1) by (unfold bsdconv_engine in *; eapply grun_mono; eassumption). rewrite Ee'.
        destruct (last_phase P s1); [|discriminate]. destruct (output_switch P e (c_mode c)); [|discriminate].
        destruct (run_hist P fuel _ h) as [[s2 o2]|] eqn:Eh; [|discriminate]. intros E. injection E as <- <-. rewrite (IH _ _ _ Eh). reflexivity. }
      apply Hmono in Eh. congruence. }
    destruct (final_flush _ _ _ _ R2 R3) as (_ & th & _ & T2 & _). rewrite EX in T2. injection T2 as T2a T2b T2c. lia.
  - exact (Hbad _ _ _ Eh).
Qed.
End E.

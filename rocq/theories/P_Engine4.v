(** Local progress of one phase: reading data (INTER and TO), and the summary for all kinds. *)
From Verif Require Import Base Types M_Engine S_Engine P_Trans P_Engine1 P_Engine2 P_Engine3.

Section E.
Context {P : Type}.
Notation ecodec := (ecodec P). Notation ephase := (ephase P). Notation inst := (inst P).

Arguments p_type {P}. Arguments p_codecs {P}. Arguments p_index {P}. Arguments p_curr {P}. Arguments p_i {P}.
Arguments p_bak {P}. Arguments p_headlen {P}. Arguments p_match_data {P}. Arguments p_state {P}. Arguments p_offset {P}.
Arguments p_fmatch {P}. Arguments p_fpending {P}. Arguments p_floop {P}. Arguments p_queue {P}. Arguments p_tail {P}.
Arguments e_tab {P}. Arguments e_conv {P}. Arguments e_flush {P}. Arguments e_init {P}. Arguments e_priv {P}.
Arguments cb_priv {P}. Arguments cb_i {P}. Arguments cb_status {P}. Arguments cb_out {P}.
Arguments local_step {P}. Arguments from_step {P}. Arguments data_step {P}. Arguments LRes {P}. Arguments LUB {P}.
Arguments set_priv {P}. Arguments this_codec {P}. Arguments reset {P}. Arguments listfree {P}. Arguments app_tail {P}.
Arguments feed {P}. Arguments bytes_loop {P}. Arguments codecn {P}. Arguments is_to {P}.
Arguments k_v {P}. Arguments k_clean {P}. Arguments k_St {P}.
Arguments read_state : simpl never. Arguments Nat.ltb : simpl never. Arguments Nat.sub : simpl never.

Definition bl_th (th : ephase) s' off' lb' i' : ephase :=
  set_i P (set_state P (set_offset P (set_flags P th (p_fmatch th) (p_fpending th) lb') off') s') i'.

Lemma bytes_loop_bl c : forall bs (th : ephase),
  match bl (e_tab c) (p_state th) (p_offset th) (p_floop th) bs with
  | None => bytes_loop c th bs = None
  | Some (s', off', lb', dead) => exists i', bytes_loop c th bs = Some (bl_th th s' off' lb' i', dead) /\ (dead = false -> i' = p_i th + length bs)
  end.
Proof.
  induction bs as [|b bs IH]; intros th.
  - cbn. exists (p_i th). split; [destruct th; reflexivity|lia].
  - cbn [bl bytes_loop]. unfold feed1, feed. destruct (get_offset (p_state th) b) as [next|]; [|reflexivity].
    destruct (read_state (e_tab c) _) as [s1|]; [|reflexivity].
    set (off := match next with O => if p_floop th then p_offset th else 0 | S _ => next end).
    set (th1 := set_state P (set_offset P th off) s1).
    change (t_status (p_state th1)) with (t_status s1).
    assert (Hgen : forall lb, match bl (e_tab c) s1 off lb bs with
       | None => bytes_loop c (set_i P (set_flags P th1 (p_fmatch th1) (p_fpending th1) lb) (S (p_i th1))) bs = None
       | Some (s', off', lb', dead) => exists i', bytes_loop c (set_i P (set_flags P th1 (p_fmatch th1) (p_fpending th1) lb) (S (p_i th1))) bs = Some (bl_th th s' off' lb' i', dead) /\ (dead = false -> i' = p_i th + length (b :: bs))
       end).
    { intros lb. specialize (IH (set_i P (set_flags P th1 (p_fmatch th1) (p_fpending th1) lb) (S (p_i th1)))).
      cbn in IH. destruct (bl (e_tab c) s1 off lb bs) as [[[[s' off'] lb'] dead]|]; [|exact IH].
      destruct IH as (i' & Hi & Hd). exists i'. split; [exact Hi|]. intros E. rewrite (Hd E). cbn. lia. }
    assert (Hid : set_i P th1 (S (p_i th1)) = set_i P (set_flags P th1 (p_fmatch th1) (p_fpending th1) (p_floop th)) (S (p_i th1))) by (destruct th; reflexivity).
    destruct (t_status s1); try (rewrite Hid; apply Hgen); try apply (Hgen true).
    exists (p_i th). split; [destruct th; reflexivity|discriminate].
Qed.

Lemma firstn_S_nth {A} : forall n (l : list A) x, nth_error l n = Some x -> firstn (S n) l = firstn n l ++ [x].
Proof. induction n as [|n IH]; intros [|y l] x H; cbn in *; try discriminate; [congruence|]. f_equal. apply IH. exact H. Qed.

Lemma status_dec_dead (x : status) : {x = DEADEND} + {x <> DEADEND}.
Proof. destruct x; auto; right; discriminate. Qed.

Lemma ls_start (pv th : ephase) pc pv1 th1 pc1 : local_step pv th pc = LRes pv1 th1 0 0 (Stay pc1) -> lsteps pv th pc pv1 th1 0 0 (Stay pc1).
Proof. apply ls_one. Qed.

Lemma data_local (pv th : ephase) pc : p_type th = INTER \/ p_type th = TO -> local_step pv th pc = data_step pv th pc.
Proof. intros [E|E]; unfold local_step; rewrite E; reflexivity. Qed.

Lemma data_outer fin (pv th : ephase) ks B pre d :
  p_type th = INTER \/ p_type th = TO -> p_tail th = length (p_queue th) -> pinv fin false pv th ks B pre -> 
  nth_error (p_queue pv) (p_curr th) = Some d ->
  achieves fin pv th ks B LOuter.
Proof.
  intros Hty Htl HI Hd.
  pose proof HI as HI0. destruct HI as [It Ic Icl (c & k & best & Hc & Hk & HSt & Hrd & Hbest & Hbp) Ip Ipend I0 Ipos].
  assert (HnF : p_type th <> FROM) by (destruct Hty as [E|E]; rewrite E; discriminate).
  assert (Ipos' : p_curr th <= length (p_queue pv) /\ pre = filter nonempty (firstn (p_curr th) (p_queue pv)) /\ B = filter nonempty (p_queue pv)).
  { destruct Hty as [E|E]; rewrite E in Ipos; exact Ipos. } clear Ipos. destruct Ipos' as (Hcur & Hpre & HB).
  assert (Hpos3 : forall (X : Prop) Y, match p_type th with FROM => Y | _ => X end = X) by (intros; destruct Hty as [E|E]; rewrite E; reflexivity).
  assert (Hbp3 : forall nb, match p_type th with
      | FROM => exists m n dm, p_bak th = S m /\ p_curr th = S n /\ m <= n /\ nth_error (p_queue pv) m = Some dm /\
          p_headlen th <= length dm /\ skipn nb B = byt (skipn (p_headlen th) dm ++ concat (skipn (S m) (p_queue pv)))
      | _ => exists m, p_bak th = S m /\ m < length (p_queue pv) /\
          nb = length (filter nonempty (firstn m (p_queue pv))) /\ filter nonempty (firstn m (p_queue pv)) = firstn nb B
      end = exists m, p_bak th = S m /\ m < length (p_queue pv) /\
          nb = length (filter nonempty (firstn m (p_queue pv))) /\ filter nonempty (firstn m (p_queue pv)) = firstn nb B) by (intros; apply Hpos3).
  assert (Hok : exists to, data_ok to c k /\ to = is_to th).
  { pose proof (Forall2_nth _ _ _ _ _ _ Ic Hc Hk) as Hok. unfold is_to. destruct Hty as [E|E]; rewrite E in *; eexists; split; try exact Hok; reflexivity. }
  destruct Hok as (to & Hok & Hto).
  assert (Hcl : p_curr th < length (p_queue pv)) by (apply nth_error_Some; congruence).
  set (n := p_curr th) in *.
  set (th2 := set_i P (set_state P (set_curr P th (S n)) (with_status (p_state th) NOMATCH)) 0).
  assert (Hstep0 : local_step pv th LOuter = match bytes_loop c th2 d with
            | None => LUB
            | Some (th3, true) => LRes pv th3 0 0 (Stay LDead)
            | Some (th3, false) => LRes pv th3 0 0 (Stay LX)
            end).
  { rewrite data_local by assumption. cbn [data_step]. fold n. rewrite (proj2 (Nat.ltb_lt _ _) Hcl).
    unfold curr_node, this_codec. cbn [p_curr p_codecs p_index set_i set_state set_curr p_state]. rewrite Hd, Hc. reflexivity. }
  assert (Hunr : unread pv th = wt d + list_sum (map wt (skipn (S n) (p_queue pv)))).
  { unfold unread. fold n. destruct Hty as [E|E]; rewrite E; rewrite (skipn_nth _ _ _ Hd); reflexivity. }
  assert (HSt2 : k_St k pre (p_state th2) (p_offset th2) (p_floop th2) (e_priv c)) by (apply (do_shape _ _ _ Hok); exact HSt).
  destruct (list_eq_dec N.eq_dec d []) as [->|Hdne].
  - (* zero-length datum *)
    cbn [bytes_loop] in Hstep0.
    assert (Hstep1 : local_step pv th2 LX = LRes pv th2 0 0 (if is_to th then Stay LOuter else GNext)).
    { rewrite data_local by assumption. cbn. unfold is_to. change (p_type th2) with (p_type th). destruct Hty as [E|E]; rewrite E; reflexivity. }
    exists pv, th2, 0, 0, (if is_to th then Stay LOuter else GNext).
    split; [exact (lsteps_app _ _ _ _ _ _ _ _ _ _ _ _ _ (ls_one _ _ _ _ _ _ _ _ Hstep0) (ls_one _ _ _ _ _ _ _ _ Hstep1))|].
    split; [apply same_ctl_refl|]. split; [repeat split; auto|].
    exists [], [], 0, B, pre, false.
    split; [cbn; rewrite app_nil_r; reflexivity|]. split; [reflexivity|]. split; [exact Htl|].
    split; [|split; [|split; [|split; [|split; [|destruct (is_to th); reflexivity]]]]].
    + constructor; cbn -[firstn]; auto.
      * exists c, k, best. repeat (split; [assumption|]). destruct best as [[nb dd]|]; [|exact I]. rewrite Hpos3. rewrite Hbp3 in Hbp. exact Hbp.
      * rewrite Hpos3. split; [lia|]. split; [|assumption]. rewrite (firstn_S_nth _ _ _ Hd), filter_app. cbn. rewrite app_nil_r. exact Hpre.
    + intros Y HY. cbn. destruct (trans _ _ _). reflexivity.
    + destruct Hty as [E|E]; rewrite E; reflexivity.
    + unfold pmeasure. apply lex_app_same. apply lex_here; [|reflexivity]. rewrite Hunr. unfold unread. cbn -[skipn]. destruct Hty as [E|E]; rewrite E; cbn; lia.
    + auto.
  - pose proof (do_step _ _ _ Hok pre (p_state th2) (p_offset th2) (p_floop th2) (e_priv c) d Hdne HSt2) as Hdo.
    pose proof (bytes_loop_bl c d th2) as Hbl.
    destruct (bl (e_tab c) (p_state th2) (p_offset th2) (p_floop th2) d) as [[[[s' off'] lb'] dead]|]; [|contradiction].
    destruct Hbl as (i' & Hbl & Hi'). rewrite Hbl in Hstep0.
    set (th3 := bl_th th2 s' off' lb' i') in *.
    assert (HBd : B = pre ++ d :: filter nonempty (skipn (S n) (p_queue pv))).
    { rewrite HB, Hpre. rewrite (filter_firstn_skipn nonempty n (p_queue pv)). f_equal. rewrite (skipn_nth _ _ _ Hd). cbn. destruct d; [congruence|reflexivity]. }
    assert (Hpre' : pre ++ [d] = filter nonempty (firstn (S n) (p_queue pv))).
    { rewrite (firstn_S_nth _ _ _ Hd), filter_app, <- Hpre. cbn. destruct d; [congruence|reflexivity]. }
    assert (Hpnb : forall nb dd, best = Some (nb, dd) -> 1 <= nb <= length B).
    { intros nb dd ->. pose proof (reads_best_bound _ _ _ _ _ Hrd eq_refl). rewrite HBd, app_length. lia. }
    assert (HclA : k_clean k (e_priv c) -> forall j c' k', nth_error (p_codecs th) j = Some c' -> nth_error ks j = Some k' -> k_clean k' (e_priv c')).
    { intros Hcc j c' k' E1 E2. destruct (Nat.eq_dec j (p_index th)) as [->|Hne]; [|eapply Icl; eassumption]. congruence. }
    (* dead end with nothing new *)
    assert (Hdead : forall t, p_type t = p_type th -> (p_codecs t = p_codecs th /\ k_clean k (e_priv c)) \/ (exists p', p_codecs t = list_upd (p_codecs th) (p_index th) (set_priv c p') /\ k_clean k p') ->
        p_index t = p_index th -> p_curr t = S n -> p_bak t = p_bak th -> p_headlen t = p_headlen th -> p_match_data t = p_match_data th -> p_fmatch t = p_fmatch th ->
        p_queue t = p_queue th -> p_tail t = p_tail th -> k_v k (pre ++ [d]) = VDead ->
        lsteps pv th LOuter pv t 0 0 (Stay LDead) -> achieves fin pv th ks B LOuter).
    { intros t T1 T2 T3 T4 T6 T7 T8 T11 T14 T15 HV Hls.
      assert (T2' : length (p_codecs t) = length (p_codecs th)) by (destruct T2 as [[-> _]|(p' & -> & _)]; [|rewrite list_upd_length]; reflexivity).
      apply (ach_prefix fin pv th pv t ks B LOuter LDead); auto using same_ctl_refl.
      - repeat split; congruence.
      - left. unfold pmeasure3. rewrite T11, T3, T2'. reflexivity.
      - apply dead_progress; [congruence| |intros E; congruence].
        constructor; rewrite ?T1, ?T3, ?T4, ?T6, ?T7, ?T8, ?T11; auto.
        + destruct T2 as [[-> _]|(p' & -> & _)]; [assumption|apply codecs_upd_ok; assumption].
        + destruct T2 as [[E Hcc]|(p' & -> & Hp')]; [rewrite E; apply HclA; auto|eapply clean_upd; eassumption].
        + exists k, best. split; [assumption|]. split; [|split; [|split]].
          * intros Y HY. rewrite HBd. rewrite <- app_assoc. rewrite (reads_scan _ _ _ Hrd). cbn [app scan]. rewrite HV. reflexivity.
          * intros _ _ Y HY. rewrite HBd. rewrite <- app_assoc. rewrite (reads_examined _ _ _ Hrd). cbn [app examined]. rewrite HV. rewrite <- Hpre', app_length. cbn. lia.
          * destruct best as [[nb dd]|]; [|assumption]. destruct Hbest as (A1 & A2 & A3). repeat split; auto; apply (Hpnb nb dd eq_refl).
          * destruct best as [[nb dd]|]; [|exact I]. rewrite Hpos3. rewrite Hbp3 in Hbp. exact Hbp.
        + rewrite HBd. destruct pre; discriminate.
        + rewrite Hpos3. split; [lia|]. split; [assumption|]. rewrite <- Hpre'. destruct pre; discriminate. }
    (* a complete match *)
    assert (Hcommit : forall t out ds cs1, p_type t = p_type th -> p_codecs t = cs1 -> 
        p_curr t = S n -> p_headlen t = p_headlen th ->
        p_queue t = p_queue th ++ out -> p_tail t = length (p_queue th ++ out) -> 
        Forall2 (codec_ok (p_type th)) cs1 ks -> length cs1 = length (p_codecs th) ->
        (forall j c' k', nth_error cs1 j = Some c' -> nth_error ks j = Some k' -> k_clean k' (e_priv c')) ->
        k_v k (pre ++ [d]) = VMatch (out ++ ds) ->
        lsteps pv th LOuter pv t 0 0 (Stay LX) -> local_step pv t LX = data_commit P pv t ds -> achieves fin pv th ks B LOuter).
    { intros t out ds cs1 T1 T2 T4 T7 T14 T15 Hcs1 Hlcs Hcc HV Hls Hcm.
      destruct ks as [|k0 ks']; [destruct (p_index th); discriminate|].
      destruct cs1 as [|c0 cs'] ; [inversion Hcs1|].
      assert (Hok0 : codec_ok (p_type th) c0 k0) by (inversion Hcs1; assumption).
      destruct (codec_ok_root _ _ _ Hok0) as (s0 & Hs0 & _).
      set (pv' := set_queue P pv (skipn (S n) (p_queue pv)) (p_tail pv - S n)).
      set (tha := app_tail (set_match_data P (set_flags P t false false false) []) ds).
      set (th' := set_state P (set_offset P (set_index P (set_curr P (set_bak P tha 0) 0) 0) 0) s0).
      assert (Htha : p_queue tha = p_queue t ++ ds /\ p_tail tha = length (p_queue t ++ ds)).
      { apply (app_tail_queue (set_match_data P (set_flags P t false false false) [])). cbn. congruence. }
      assert (Hta : p_type tha = p_type t /\ p_codecs tha = p_codecs t /\ p_curr tha = p_curr t /\ p_headlen tha = p_headlen t /\ p_fmatch tha = false /\ p_fpending tha = false /\ p_floop tha = false).
      { unfold tha, app_tail. destruct ds; repeat split. }
      destruct Hta as (E1 & E2 & E3 & E4 & E5 & E6 & E7).
      assert (Hstep : local_step pv t LX = LRes pv' th' 0 0 GNext).
      { rewrite Hcm. unfold data_commit. fold tha. rewrite E3, T4. cbn [listfree obind].
        unfold reset. cbn [p_codecs set_curr set_bak]. rewrite E2, T2, Hs0. reflexivity. }
      exists pv', th', 0, 0, GNext.
      split; [exact (lsteps_app _ _ _ _ _ _ _ _ _ _ _ _ _ Hls (ls_one _ _ _ _ _ _ _ _ Hstep))|].
      split; [reflexivity|]. split.
      { unfold same_static. cbn. rewrite E1, E2, E4, T1, T2, T7. auto. }
      exists (out ++ ds), (out ++ ds), 0, (filter nonempty (skipn (S n) (p_queue pv))), [], false.
      split; [cbn; rewrite (proj1 Htha), T14, app_assoc; reflexivity|]. split; [reflexivity|]. split; [cbn; rewrite (proj2 Htha), (proj1 Htha); reflexivity|].
      assert (Hfm : forall Y, alw fin Y -> first_match (sems (k0 :: ks')) (B ++ Y) = Some (length (pre ++ [d]), out ++ ds)).
      { intros Y HY. apply (first_match_hit _ (p_index th) _ (k_v k)).
        - intros j w Hj Hw. apply sems_nth in Hw. destruct Hw as (kk & Hkk & ->). eapply Ip; eassumption.
        - apply sems_nth'. exact Hk.
        - rewrite HBd. rewrite <- app_assoc. rewrite (reads_scan _ _ _ Hrd). cbn [app scan]. rewrite HV. f_equal. f_equal. rewrite app_length. cbn. lia. }
      assert (HBeq : B = (pre ++ [d]) ++ filter nonempty (skipn (S n) (p_queue pv))) by (rewrite HBd, <- app_assoc; reflexivity).
      split; [|split; [|split; [|split; [|split; [|reflexivity]]]]].
      + apply (pinv_start fin false pv' th' _ _ c0 k0); cbn -[skipn]; rewrite ?E1, ?E2, ?E5, ?E6, ?E7, ?T1, ?T2; auto.
        * rewrite skipn_length. lia.
        * intros; lia.
        * rewrite Hpos3. reflexivity.
      + intros Y HY. rewrite (trans_hit _ _ _ _ _ _ (Hfm Y HY)).
        2:{ rewrite HBeq, (app_length (pre ++ [d])). lia. }
        rewrite HBeq, skipn_app, skipn_all, Nat.sub_diag. reflexivity.
      + destruct Hty as [E|E]; rewrite E; reflexivity.
      + unfold pmeasure. apply lex_app; [|reflexivity]. apply lex_irr_eq. left. rewrite HBeq. rewrite (app_length (pre ++ [d])), (app_length pre). cbn -[skipn]. lia.
      + intros E. congruence. }
    destruct dead.
    + (* dead inside the datum *)
      destruct Hdo as (HV & Hcc). apply (Hdead th3); auto; try reflexivity. apply ls_one. exact Hstep0.
    + specialize (Hi' eq_refl). change (p_i th2) with 0 in Hi'. cbn [plus] in Hi'.
      assert (Hls3 : lsteps pv th LOuter pv th3 0 0 (Stay LX)) by (apply ls_one; exact Hstep0).
      assert (Hx : local_step pv th3 LX = data_step pv th3 LX) by (apply data_local; exact Hty).
      assert (Hcb : t_status s' = SUBROUTINE \/ t_status s' = SUBMATCH_SUBROUTINE ->
            (exists f, e_conv c = Some f /\ k_clean k (cb_priv (f (e_priv c) d (length d) (t_data s'))) /\
            match cb_status (f (e_priv c) d (length d) (t_data s')) with
            | DEADEND => cb_out (f (e_priv c) d (length d) (t_data s')) = [] /\ k_v k (pre ++ [d]) = VDead
            | NEXTPHASE => k_v k (pre ++ [d]) = VMatch (cb_out (f (e_priv c) d (length d) (t_data s')))
            | _ => False
            end) -> achieves fin pv th ks B LOuter).
      { intros HsS (f & Ef & Hcc & Hst).
        remember (f (e_priv c) d (length d) (t_data s')) as r eqn:Er.
        set (tha := app_tail (set_i P (set_codecs P th3 (list_upd (p_codecs th) (p_index th) (set_priv c (cb_priv r)))) (cb_i r)) (cb_out r)).
        set (th4 := set_state P tha (with_status (p_state tha) (cb_status r))).
        assert (Htha : p_queue tha = p_queue th ++ cb_out r /\ p_tail tha = length (p_queue th ++ cb_out r)).
        { apply (app_tail_queue (set_i P (set_codecs P th3 (list_upd (p_codecs th) (p_index th) (set_priv c (cb_priv r)))) (cb_i r))). exact Htl. }
        assert (Hta : p_type tha = p_type th /\ p_codecs tha = list_upd (p_codecs th) (p_index th) (set_priv c (cb_priv r)) /\ p_index tha = p_index th /\ p_curr tha = S n /\
             p_bak tha = p_bak th /\ p_headlen tha = p_headlen th /\ p_match_data tha = p_match_data th /\ p_fmatch tha = p_fmatch th).
        { unfold tha, app_tail. destruct (cb_out r); repeat split. }
        destruct Hta as (E1 & E2 & E3 & E4 & E5 & E6 & E7 & E8).
        assert (Hstep1 : local_step pv th3 LX = LRes pv th4 0 0 (Stay LX)).
        { rewrite Hx. cbn [data_step]. change (p_state th3) with s'.
          assert (Hcc2 : call_cb P pv th3 = Some th4).
          { unfold call_cb, this_codec, curr_node. change (p_codecs th3) with (p_codecs th). change (p_index th3) with (p_index th). change (p_curr th3) with (S n).
            rewrite Hc, Ef, Hd. change (p_i th3) with i'. change (p_state th3) with s'. rewrite Hi', <- Er. reflexivity. }
          destruct HsS as [E|E]; rewrite E, Hcc2; reflexivity. }
        assert (Hls4 : lsteps pv th LOuter pv th4 0 0 (Stay LX)).
        { exact (lsteps_app _ _ _ _ _ _ _ _ _ _ _ _ _ Hls3 (ls_one _ _ _ _ _ _ _ _ Hstep1)). }
        assert (Hx4 : local_step pv th4 LX = data_step pv th4 LX) by (apply data_local; cbn; rewrite E1; exact Hty).
        destruct (cb_status r) eqn:Ecb; try contradiction.
        - destruct Hst as (Ho & HV). rewrite Ho, app_nil_r in Htha.
          apply (Hdead th4); auto; cbn; rewrite ?E2; try tauto.
          + right. exists (cb_priv r). auto.
          + rewrite (proj2 Htha), Htl. reflexivity.
          + assert (Hstep2 : local_step pv th4 LX = LRes pv th4 0 0 (Stay LDead)).
            { rewrite Hx4. cbn. rewrite ?Ecb. reflexivity. }
            exact (lsteps_app _ _ _ _ _ _ _ _ _ _ _ _ _ Hls4 (ls_one _ _ _ _ _ _ _ _ Hstep2)).
        - apply (Hcommit th4 (cb_out r) [] (list_upd (p_codecs th) (p_index th) (set_priv c (cb_priv r)))); auto; cbn; try tauto.
          + apply codecs_upd_ok; assumption.
          + apply list_upd_length.
          + eapply clean_upd; eassumption.
          + rewrite app_nil_r. exact Hst. }
      destruct (t_status s') eqn:Est; try contradiction.
      * (* CONTINUE *)
        cbn zeta in Hdo. set (lb2 := if to then false else lb') in *.
        set (th4 := set_flags P th3 (p_fmatch th) true lb2).
        assert (Hstep1 : local_step pv th3 LX = LRes pv th4 0 0 (Stay LSep)).
        { rewrite Hx. cbn [data_step]. change (p_state th3) with s'. rewrite Est. unfold th4, lb2. rewrite Hto. reflexivity. }
        destruct (feed1 (e_tab c) s' off' lb2 256) as [[s2 off2]|] eqn:Ef; [|contradiction].
        set (th5 := set_state P (set_offset P th4 off2) s2).
        assert (Hfeed : feed c th4 256 = Some th5).
        { unfold feed. change (p_state th4) with s'. unfold feed1 in Ef. destruct (get_offset s' 256) as [nx|]; [|discriminate].
          change (p_floop th4) with lb2. change (p_offset th4) with off'. destruct (read_state (e_tab c) _) as [sx|]; [|discriminate]. injection Ef as -> ->. reflexivity. }
        assert (Hstep2 : local_step pv th4 LSep = LRes pv th5 0 0 (match t_status s2 with DEADEND => Stay LDead | _ => Stay LOuter end)).
        { rewrite data_local by exact Hty. cbn [data_step]. unfold this_codec. change (p_codecs th4) with (p_codecs th). change (p_index th4) with (p_index th). rewrite Hc, Hfeed.
          change (p_state th5) with s2. destruct (t_status s2); reflexivity. }
        assert (HlsS : forall g, local_step pv th4 LSep = LRes pv th5 0 0 g -> lsteps pv th LOuter pv th5 0 0 g).
        { intros g Hg. exact (lsteps_app _ _ _ _ _ _ _ _ _ _ _ _ _ (lsteps_app _ _ _ _ _ _ _ _ _ _ _ _ _ Hls3 (ls_one _ _ _ _ _ _ _ _ Hstep1)) (ls_one _ _ _ _ _ _ _ _ Hg)). }
        specialize (HlsS _ Hstep2).
        destruct (status_dec_dead (t_status s2)) as [Ed|Ed].
        -- rewrite Ed in *. destruct Hdo as (HV & Hcc). apply (Hdead th5); auto; reflexivity.
        -- assert (Hdo' : k_v k (pre ++ [d]) = VCont /\ k_St k (pre ++ [d]) s2 off2 lb2 (e_priv c)).
           { destruct (t_status s2); try exact Hdo. congruence. }
           assert (Hg : (match t_status s2 with DEADEND => Stay LDead | _ => Stay LOuter end) = Stay LOuter).
           { destruct (t_status s2); try reflexivity. congruence. }
           rewrite Hg in *. destruct Hdo' as (HV & HSt').
           exists pv, th5, 0, 0, (Stay LOuter). split; [exact HlsS|]. split; [apply same_ctl_refl|]. split; [repeat split; auto|].
           exists [], [], 0, B, (pre ++ [d]), false.
           split; [cbn; rewrite app_nil_r; reflexivity|]. split; [reflexivity|]. split; [exact Htl|].
           split; [|split; [|split; [|split; [|split; [|reflexivity]]]]].
           ++ constructor; cbn -[firstn]; auto.
              ** exists c, k, best. repeat (split; [first [assumption | apply rd_cont; assumption]|]). destruct best as [[nb dd]|]; [|exact I]. rewrite Hpos3. rewrite Hbp3 in Hbp. exact Hbp.
              ** destruct pre; reflexivity.
              ** rewrite Hpos3. split; [lia|]. split; assumption.
           ++ intros Y HY. cbn. destruct (trans _ _ _). reflexivity.
           ++ destruct Hty as [E|E]; rewrite E; reflexivity.
           ++ unfold pmeasure. apply lex_app_same. apply lex_here; [|reflexivity]. rewrite Hunr. unfold unread. cbn -[skipn]. destruct d; [congruence|]. destruct Hty as [E|E]; rewrite E; cbn; lia.
           ++ auto.
      * (* MATCH *)
        destruct Hdo as (HV & Hcc).
        apply (Hcommit th3 [] (t_data s') (p_codecs th)); auto; try reflexivity.
        -- change (p_queue th = p_queue th ++ []). rewrite app_nil_r. reflexivity.
        -- change (p_tail th = length (p_queue th ++ [])). rewrite app_nil_r. exact Htl.
        -- apply HclA. exact Hcc.
        -- rewrite Hx. cbn [data_step]. change (p_state th3) with s'. rewrite Est. reflexivity.
      * (* SUBMATCH *)
        destruct Hdo as (Hdn & Hdo).
        set (q1 := if S n <? length (p_queue pv) then p_queue pv else p_queue pv ++ [[]]).
        set (pv1 := set_queue P pv q1 (length q1)).
        set (th4 := set_bak P (set_match_data P (set_flags P th3 true true lb') (t_data s')) (S (S n))).
        assert (Hstep1 : local_step pv th3 LX = LRes pv1 th4 0 0 (Stay LSep)).
        { rewrite Hx. cbn [data_step]. change (p_state th3) with s'. rewrite Est. cbn [p_curr set_match_data set_flags]. change (p_curr th3) with (S n).
          change (p_floop th3) with lb'. unfold pv1, q1. destruct (Nat.ltb_spec (S n) (length (p_queue pv))) as [Hl|Hl].
          - f_equal. unfold set_queue. rewrite <- It. destruct pv; reflexivity.
          - rewrite It, firstn_all. assert (Hln : length (p_queue pv) = S n) by lia. unfold th4. rewrite app_length, Hln. cbn [length]. rewrite Nat.add_1_r. reflexivity. }
        assert (Hq1 : filter nonempty q1 = filter nonempty (p_queue pv) /\ S n < length q1 /\ firstn (S n) q1 = firstn (S n) (p_queue pv) /\
                      list_sum (map wt (skipn (S n) q1)) <= 1 + list_sum (map wt (skipn (S n) (p_queue pv)))).
        { unfold q1. destruct (Nat.ltb_spec (S n) (length (p_queue pv))) as [Hl|Hl].
          - repeat split; auto.
          - rewrite filter_app, app_nil_r. split; [reflexivity|]. split; [rewrite app_length; cbn; lia|].
            assert (Hln : length (p_queue pv) = S n) by lia.
            rewrite firstn_app, skipn_app, Hln, Nat.sub_diag, (skipn_all2 (p_queue pv)), (firstn_all2 (p_queue pv)) by lia. cbn. rewrite app_nil_r. split; [reflexivity|lia]. }
        destruct Hq1 as (Q1 & Q2 & Q3 & Q4).
        destruct (feed1 (e_tab c) s' off' lb' 256) as [[s2 off2]|] eqn:Ef; [|contradiction].
        set (th5 := set_state P (set_offset P th4 off2) s2).
        assert (Hfeed : feed c th4 256 = Some th5).
        { unfold feed. change (p_state th4) with s'. unfold feed1 in Ef. destruct (get_offset s' 256) as [nx|]; [|discriminate].
          change (p_floop th4) with lb'. change (p_offset th4) with off'. destruct (read_state (e_tab c) _) as [sx|]; [|discriminate]. injection Ef as -> ->. reflexivity. }
        assert (Hstep2 : local_step pv1 th4 LSep = LRes pv1 th5 0 0 (match t_status s2 with DEADEND => Stay LDead | _ => Stay LOuter end)).
        { rewrite data_local by exact Hty. cbn [data_step]. unfold this_codec. change (p_codecs th4) with (p_codecs th). change (p_index th4) with (p_index th). rewrite Hc, Hfeed.
          change (p_state th5) with s2. destruct (t_status s2); reflexivity. }
        assert (HlsS : forall g, local_step pv1 th4 LSep = LRes pv1 th5 0 0 g -> lsteps pv th LOuter pv1 th5 0 0 g).
        { intros g Hg. exact (lsteps_app _ _ _ _ _ _ _ _ _ _ _ _ _ (lsteps_app _ _ _ _ _ _ _ _ _ _ _ _ _ Hls3 (ls_one _ _ _ _ _ _ _ _ Hstep1)) (ls_one _ _ _ _ _ _ _ _ Hg)). }
        specialize (HlsS _ Hstep2).
        assert (Hfst : firstn (length (pre ++ [d])) B = pre ++ [d]).
        { replace B with ((pre ++ [d]) ++ filter nonempty (skipn (S n) (p_queue pv))) by (rewrite HBd, <- app_assoc; reflexivity).
          rewrite firstn_app, firstn_all, Nat.sub_diag. cbn. apply app_nil_r. }
        assert (Hlp : S (length pre) = length (pre ++ [d])) by (rewrite app_length; cbn; lia).
        assert (Hbk : exists m, S (S n) = S m /\ m < length q1 /\ S (length pre) = length (filter nonempty (firstn m q1)) /\ filter nonempty (firstn m q1) = firstn (S (length pre)) B).
        { exists (S n). rewrite Q3, <- Hpre', Hlp, Hfst. auto. }
        destruct (status_dec_dead (t_status s2)) as [Ed|Ed].
        -- rewrite Ed in *. destruct Hdo as (HV & Hcc).
           apply (ach_prefix fin pv th pv1 th5 ks B LOuter LDead); auto.
           ++ reflexivity.
           ++ repeat split; auto.
           ++ unfold pmeasure3, lexeq. cbn. destruct (p_fmatch th); [left; reflexivity|right]. apply lex_next, lex_here; [lia|reflexivity].
           ++ congruence.
           ++ apply dead_progress; [exact Htl| |intros E; exfalso; apply HnF; exact E].
              constructor; cbn -[firstn]; auto.
              ** apply HclA. exact Hcc.
              ** exists k, (Some (S (length pre), t_data s')). split; [assumption|]. split; [|split; [discriminate|split]].
                 --- intros Y HY. rewrite HBd. rewrite <- app_assoc. rewrite (reads_scan _ _ _ Hrd). cbn [app scan]. assert (HV2 : k_v k (pre ++ [d]) = VMatch (t_data s')) by exact HV. rewrite HV2. reflexivity.
                 --- repeat split; auto; try lia. rewrite HBd, app_length. cbn. lia.
                 --- rewrite Hpos3. exact Hbk.
              ** rewrite HBd. destruct pre; discriminate.
              ** rewrite Hpos3. split; [lia|]. split; [rewrite Q1; assumption|]. rewrite Q3, <- Hpre'. destruct pre; discriminate.
        -- assert (Hdo' : k_v k (pre ++ [d]) = VSub (t_data s') /\ k_St k (pre ++ [d]) s2 off2 lb' (e_priv c)).
           { destruct (t_status s2); try exact Hdo. congruence. }
           assert (Hg : (match t_status s2 with DEADEND => Stay LDead | _ => Stay LOuter end) = Stay LOuter).
           { destruct (t_status s2); try reflexivity. congruence. }
           rewrite Hg in *. destruct Hdo' as (HV & HSt').
           exists pv1, th5, 0, 0, (Stay LOuter). split; [exact HlsS|]. split; [reflexivity|]. split; [repeat split; auto|].
           exists [], [], 0, B, (pre ++ [d]), false.
           split; [cbn; rewrite app_nil_r; reflexivity|]. split; [reflexivity|]. split; [exact Htl|].
           split; [|split; [|split; [|split; [|split; [|reflexivity]]]]].
           ++ constructor; cbn -[firstn]; auto.
              ** exists c, k, (Some (S (length pre), t_data s')). repeat (split; [first [assumption | apply rd_sub with best; assumption | auto]|]). rewrite Hpos3. exact Hbk.
              ** destruct pre; reflexivity.
              ** rewrite Hpos3. split; [lia|]. split; [rewrite Q3; assumption|rewrite Q1; assumption].
           ++ intros Y HY. cbn. destruct (trans _ _ _). reflexivity.
           ++ destruct Hty as [E|E]; rewrite E; reflexivity.
           ++ unfold pmeasure. destruct (p_fmatch th) eqn:Efm.
              ** replace (pmeasure3 pv1 th5 B) with (pmeasure3 pv th B) by (unfold pmeasure3; cbn; rewrite Efm; reflexivity).
                 apply lex_app_same. apply lex_here; [|reflexivity]. rewrite Hunr. unfold unread. cbn -[skipn]. destruct d; [congruence|]. cbn [wt]. destruct Hty as [E|E]; rewrite E; lia.
              ** apply lex_app; [|reflexivity]. apply lex_irr_eq. right. split; [reflexivity|]. left. cbn. rewrite Efm. lia.
           ++ intros E. congruence.
      * (* SUBROUTINE *)
        apply Hcb; auto.
      * apply Hcb; auto.
Qed.
End E.

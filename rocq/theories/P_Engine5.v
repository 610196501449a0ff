(** Local progress, summary; stability of the phase invariant; the end of input. *)
From Verif Require Import Base Types M_Engine S_Engine P_Trans P_Engine1 P_Engine2 P_Engine3 P_Engine4.

Section E.
Context {P : Type}.
Notation ecodec := (ecodec P). Notation ephase := (ephase P). Notation inst := (inst P).

Arguments p_type {P}. Arguments p_codecs {P}. Arguments p_index {P}. Arguments p_curr {P}. Arguments p_i {P}.
Arguments p_bak {P}. Arguments p_headlen {P}. Arguments p_match_data {P}. Arguments p_state {P}. Arguments p_offset {P}.
Arguments p_fmatch {P}. Arguments p_fpending {P}. Arguments p_floop {P}. Arguments p_queue {P}. Arguments p_tail {P}.
Arguments e_tab {P}. Arguments e_conv {P}. Arguments e_flush {P}. Arguments e_init {P}. Arguments e_priv {P}.
Arguments cb_priv {P}. Arguments cb_i {P}. Arguments cb_status {P}. Arguments cb_out {P}.
Arguments local_step {P}. Arguments from_step {P}. Arguments data_step {P}. Arguments LRes {P}. Arguments LUB {P}.
Arguments set_priv {P}. Arguments this_codec {P}. Arguments reset {P}. Arguments listfree {P}. Arguments app_tail {P}.
Arguments feed {P}. Arguments bytes_loop {P}. Arguments codecn {P}. Arguments is_to {P}.
Arguments k_v {P}. Arguments k_clean {P}. Arguments k_St {P}.
Arguments read_state : simpl never. Arguments Nat.ltb : simpl never. Arguments Nat.sub : simpl never.

Lemma pinv_type fin mid (pv th : ephase) ks B pre : pinv fin mid pv th ks B pre -> p_type th = FROM \/ p_type th = INTER \/ p_type th = TO.
Proof.
  intros [_ Hc _ (c & k & best & Hcc & Hk & _) _ _ _ _]. pose proof (Forall2_nth _ _ _ _ _ _ Hc Hcc Hk) as Hok.
  destruct (p_type th); cbn in Hok; try contradiction; auto.
Qed.

Lemma pinv_mid fin (pv th : ephase) ks B pre : pinv fin false pv th ks B pre -> pinv fin true pv th ks B pre.
Proof.
  intros []. constructor; auto. destruct (p_type th); auto. destruct pi_pos as (A & A2 & A3). split; [exact A|]. split; [exact A2|].
  destruct (p_curr th); [exact A3|]. destruct A3 as (d & D1 & D2 & D3). exists d. split; [assumption|]. split; [assumption|discriminate].
Qed.

Lemma pinv_fin mid (pv th : ephase) ks B pre : pinv false mid pv th ks B pre -> forall fin, pinv fin mid pv th ks B pre.
Proof.
  intros [] fin. constructor; auto. intros j k Hj Hk Y HY. apply pi_prev with j; auto. intros E; discriminate.
Qed.

Lemma from_outer fin (pv th : ephase) ks B pre :
  p_type th = FROM -> p_tail th = length (p_queue th) -> pinv fin false pv th ks B pre -> p_curr th < length (p_queue pv) ->
  achieves fin pv th ks B LOuter.
Proof.
  intros Hty Htl HI Hlt.
  destruct HI as [It Ic Icl Is Ip Ipend I0 Ipos].
  rewrite Hty in Ipos. destruct Ipos as (Hhl & HposB & Hpos).
  set (i1 := if p_curr th =? 0 then p_headlen th else 0).
  set (th' := set_curr P (set_i P th i1) (S (p_curr th))).
  assert (Hstep : local_step pv th LOuter = LRes pv th' 0 0 (Stay LInner)).
  { unfold local_step. rewrite Hty. cbn [from_step]. rewrite (proj2 (Nat.ltb_lt _ _) Hlt). reflexivity. }
  destruct (nth_error (p_queue pv) (p_curr th)) as [d|] eqn:Hd.
  2:{ apply nth_error_None in Hd. lia. }
  exists pv, th', 0, 0, (Stay LInner). split; [apply ls_one; exact Hstep|]. split; [apply same_ctl_refl|]. split; [repeat split; auto|].
  exists [], [], 0, B, pre, true.
  split; [cbn; rewrite app_nil_r; reflexivity|]. split; [reflexivity|]. split; [exact Htl|].
  split; [|split; [|split; [|split; [|split; [|exact Hty]]]]].
  - constructor; auto.
    + destruct Is as (c & k & best & H1 & H2 & H3 & H4 & H5 & H6). exists c, k, best. repeat (split; [assumption|]).
      destruct best as [[nb dd]|]; [|exact I]. cbn [th' p_type set_curr set_i p_bak p_curr p_headlen]. rewrite Hty in *.
      destruct H6 as (m & n & dm & A1 & A2 & A3 & A4 & A5 & A6). exists m, (p_curr th), dm. repeat split; auto. lia.
    + cbn [th' p_type set_curr set_i p_curr p_i p_headlen p_fmatch]. rewrite Hty. split; [exact Hhl|]. split; [exact HposB|].
      exists d. split; [exact Hd|]. split; [|discriminate]. unfold i1.
      destruct (p_curr th) as [|n] eqn:Ecu; cbn [Nat.eqb].
      * destruct Hpos as (-> & Hf). destruct (HposB Hf) as (HB & Hle). cbn [app]. rewrite HB. destruct (p_queue pv) as [|q qs]; [discriminate|].
        cbn in Hd. injection Hd as ->. cbn [concat hd skipn] in *. rewrite skipn_app. replace (p_headlen th - length d) with 0 by lia. reflexivity.
      * destruct Hpos as (d0 & E1 & E2 & E3). rewrite E2, (E3 eq_refl). cbn [app]. rewrite (skipn_nth (S n) _ _ Hd). reflexivity.
  - intros Y HY. cbn. destruct (trans _ _ _). reflexivity.
  - rewrite Hty. reflexivity.
  - unfold pmeasure. apply lex_app_same. apply lex_here; [|reflexivity]. unfold unread. cbn [th' p_type set_curr set_i p_curr p_i]. rewrite Hty.
    rewrite (nth_error_nth _ _ _ Hd). destruct (p_curr th) as [|n] eqn:Ecu.
    + destruct (p_queue pv) as [|q qs]; [discriminate|]. cbn in Hd. injection Hd as ->. cbn. lia.
    + rewrite (skipn_nth (S n) _ _ Hd). cbn -[skipn]. unfold list_sum. lia.
  - auto.
Qed.

Lemma local_outer fin (pv th : ephase) ks B pre :
  p_tail th = length (p_queue th) -> pinv fin false pv th ks B pre -> p_curr th < length (p_queue pv) ->
  achieves fin pv th ks B LOuter.
Proof.
  intros Htl HI Hlt. destruct (pinv_type _ _ _ _ _ _ _ HI) as [E|E].
  - eapply from_outer; eassumption.
  - destruct (nth_error (p_queue pv) (p_curr th)) as [d|] eqn:Hd.
    + eapply data_outer; eassumption.
    + apply nth_error_None in Hd. lia.
Qed.

Lemma local_outer_idle fin mid (pv th : ephase) ks B pre : pinv fin mid pv th ks B pre -> length (p_queue pv) <= p_curr th ->
  local_step pv th LOuter = LRes pv th 0 0 GBreak.
Proof.
  intros HI Hle. unfold local_step. destruct (pinv_type _ _ _ _ _ _ _ HI) as [E|[E|E]]; rewrite E; cbn [from_step data_step]; 
   rewrite (proj2 (Nat.ltb_ge _ _) Hle); reflexivity.
Qed.

Lemma local_inner E fin (pv th : ephase) ks B pre : p_type th = FROM ->
  p_tail th = length (p_queue th) -> pinv fin true pv th ks B pre -> err_okE E fin pv th ks B ->
  (achieves fin pv th ks B LInner \/ (E = true /\ fails pv th LInner)) \/ (local_step pv th LInner = LRes pv th 0 0 (Stay LOuter) /\ pinv fin false pv th ks B pre).
Proof.
  intros Hty Htl HI Herr. pose proof HI as HI0. destruct HI as [It Ic Icl Is Ip Ipend I0 Ipos]. rewrite Hty in Ipos. destruct Ipos as (Hhl & HposB & Hpos).
  destruct (p_curr th) as [|n] eqn:Ecu.
  - right. split.
    + unfold local_step. rewrite Hty. cbn [from_step]. unfold curr_len. rewrite Ecu, Hhl. reflexivity.
    + destruct HI0 as [J1 J2 J3 J4 J5 J6 J7 J8]. constructor; auto. rewrite Hty, Ecu. auto.
  - destruct Hpos as (d & Hd & HB & _).
    destruct (nth_error d (p_i th)) as [b|] eqn:Hb.
    + left. eapply from_innerE; eassumption.
    + right. apply nth_error_None in Hb. split.
      * unfold local_step. rewrite Hty. cbn [from_step]. unfold curr_len. rewrite Ecu, Hd. cbn [option_map]. rewrite (proj2 (Nat.ltb_ge _ _) Hb). reflexivity.
      * destruct HI0 as [J1 J2 J3 J4 J5 J6 J7 J8]. constructor; auto. rewrite Hty, Ecu. split; [assumption|]. split; [assumption|]. exists d. split; [assumption|]. split; [assumption|].
        intros _. apply skipn_all2. exact Hb.
Qed.

(** When a phase has read everything. *)
Lemma idle_all fin (pv th : ephase) ks B pre : pinv fin false pv th ks B pre -> length (p_queue pv) <= p_curr th -> B = pre.
Proof.
  intros HI Hle. destruct (pinv_type _ _ _ _ _ _ _ HI) as [E|E].
  - destruct HI as [_ _ _ _ _ _ _ Ipos]. rewrite E in Ipos. destruct Ipos as (_ & HB & Hp). destruct (p_curr th) as [|n] eqn:Ecu.
    + destruct Hp as (-> & Hf). destruct (HB Hf) as (-> & _). destruct (p_queue pv); [|cbn in Hle; lia]. cbn. rewrite skipn_nil. reflexivity.
    + destruct Hp as (d & Hd & -> & Hn). rewrite (Hn eq_refl). rewrite (skipn_all2 (p_queue pv)) by lia. cbn. apply app_nil_r.
  - destruct HI as [_ _ _ _ _ _ _ Ipos]. assert (Ipos' : p_curr th <= length (p_queue pv) /\ pre = filter nonempty (firstn (p_curr th) (p_queue pv)) /\ B = filter nonempty (p_queue pv)).
    { destruct E as [E|E]; rewrite E in Ipos; exact Ipos. }
    destruct Ipos' as (_ & -> & ->). rewrite firstn_all2 by lia. reflexivity.
Qed.

(** ** The end of input *)
Definition eof_clean (k : codec_spec (P:=P)) : Prop := forall pre s off lb p, pre <> [] -> k_St k pre s off lb p -> k_clean k p.
Definition no_sub (v : csem) : Prop := forall w d, v w <> VSub d.

Lemma no_sub_reads v pre best : no_sub v -> reads v pre best -> best = None.
Proof. intros H. induction 1; auto. exfalso. eapply H; eassumption. Qed.

Lemma eof_dead E fin (pv th : ephase) ks B pre :
  pinv fin false pv th ks B pre -> length (p_queue pv) <= p_curr th -> p_fpending th = true ->
  (forall j k, nth_error ks j = Some k -> eof_clean k \/ (p_type th = FROM /\ j = length ks - 1 /\ no_sub (k_v k) /\ (E = true \/ snd (trans KFrom (sems ks) B) = 0))) ->
  dinv true pv th ks B \/ (E = true /\ fails pv th LDead).
Proof.
  intros HI Hle Hpend Heof. pose proof (idle_all _ _ _ _ _ _ HI Hle) as HBp. subst pre.
  pose proof (pinv_type _ _ _ _ _ _ _ HI) as Htyp.
  destruct HI as [It Ic Icl (c & k & best & Hc & Hk & HSt & Hrd & Hbest & Hbp) Ip Ipend I0 Ipos].
  assert (HBne : B <> []). { intros ->. rewrite Hpend in Ipend. discriminate. }
  assert (Hal : forall Y, alw true Y -> Y = []) by (intros Y HY; apply HY; reflexivity).
  assert (Hscan : forall Y, alw true Y -> scan (k_v k) [] (B ++ Y) None = best).
  { intros Y HY. rewrite (Hal Y HY). rewrite (reads_scan _ _ _ Hrd). reflexivity. }
  assert (Hprev : forall j k, j < p_index th -> nth_error ks j = Some k -> forall Y, alw true Y -> scan (k_v k) [] (B ++ Y) None = None).
  { intros j kj Hj Hkj Y HY. apply Ip with j; auto. rewrite (Hal Y HY). intros _; reflexivity. }
  assert (Hcl : k_clean k (e_priv c) \/ (E = true /\ fails pv th LDead)).
  { destruct (Heof _ _ Hk) as [He|(Hty & Hj & Hns & [HE|Hz])]; [left; exact (He _ _ _ _ _ HBne HSt)| |exfalso].
    { right. split; [exact HE|]. pose proof (no_sub_reads _ _ _ Hns Hrd) as ->.
      destruct (p_codecs th) as [|c0 cs'] eqn:Ecs; [destruct (p_index th); discriminate|].
      assert (Hr : exists s0, read_state (e_tab c0) 0 = Some s0). { destruct ks as [|k0 ks']; [inversion Ic|]. inversion Ic; subst. destruct (codec_ok_root _ _ _ H2) as (s0 & Hs0 & _). eauto. }
      destruct Hr as (s0 & Hs0).
      assert (Hcur : exists n, p_curr th = S n). { rewrite Hty in Ipos. destruct Ipos as (_ & _ & H3). destruct (p_curr th); [|eauto]. destruct H3 as (-> & _). congruence. }
      destruct Hcur as (n & Hcur). eapply from_fail; eauto. unfold codecn. rewrite Ecs. pose proof (Forall2_len _ _ _ Ic). rewrite Hj. lia. }
    pose proof (no_sub_reads _ _ _ Hns Hrd) as ->.
    assert (Hf : first_match (sems ks) B = None).
    { apply first_match_none. intros j w Hw. apply sems_nth in Hw. destruct Hw as (kk & Hkk & ->).
      assert (Hjl : j < length ks) by (apply nth_error_Some; congruence).
      assert (alw true []) by (intros _; reflexivity).
      destruct (Nat.eq_dec j (p_index th)) as [->|Hne].
      - assert (kk = k) by congruence. subst kk. specialize (Hscan [] H). rewrite app_nil_r in Hscan. exact Hscan.
      - assert (j < p_index th) by lia. specialize (Hprev j kk H0 Hkk [] H). rewrite app_nil_r in Hprev. exact Hprev. }
    destruct B as [|x B1]; [congruence|]. rewrite trans_fail_from in Hz by exact Hf. destruct (trans KFrom _ B1). cbn in Hz. lia. }
  destruct Hcl as [Hcl|Hcl]; [left|right; exact Hcl].
  constructor; auto.
  - intros j c' k' E1 E2. destruct (Nat.eq_dec j (p_index th)) as [->|Hne]; [congruence|eapply Icl; eassumption].
  - exists k, best. split; [assumption|]. split; [assumption|]. split; [|split].
    + intros Hty Hb Y HY. rewrite (Hal Y HY). rewrite (reads_examined _ _ _ Hrd). cbn. rewrite Hty in Ipos. destruct Ipos as (_ & Hpre & _). rewrite <- Hpre. reflexivity.
    + destruct best as [[nb dd]|]; [|assumption]. destruct Hbest as (A1 & A2 & A3). pose proof (reads_best_bound _ _ _ _ _ Hrd eq_refl). auto.
    + exact Hbp.
  - destruct Htyp as [E1|E1].
    + rewrite E1 in *. destruct Ipos as (H1 & H2 & H3). split; [assumption|]. split; [assumption|]. destruct (p_curr th) as [|n].
      * destruct H3 as (-> & _). congruence.
      * destruct H3 as (d & Hd & _). eauto.
    + destruct E1 as [E1|E1]; rewrite E1 in *; destruct Ipos as (H1 & H2 & H3); (split; [assumption|]); (split; [assumption|]); rewrite <- H2; assumption.
Qed.

(** ** Stability *)
Lemma pinv_same_ctl fin mid (pv th th' : ephase) ks B pre : pinv fin mid pv th ks B pre -> same_ctl th th' -> pinv fin mid pv th' ks B pre.
Proof. intros [] ->. constructor; cbn; assumption. Qed.

Lemma concat_firstn_hd (Q : list datum) h : h <= length (hd [] Q) -> h <= length (concat Q).
Proof. destruct Q; cbn; [auto|]. rewrite app_length. lia. Qed.

Lemma pinv_append fin mid (pv pv' th : ephase) ks B pre ds :
  pinv fin mid pv th ks B pre ->
  p_queue pv' = p_queue pv ++ ds -> p_tail pv' = length (p_queue pv') -> (p_type th = FROM -> p_headlen pv' = 0) ->
  alw fin (inj (kind_of (p_type th)) ds) ->
  pinv fin mid pv' th ks (B ++ inj (kind_of (p_type th)) ds) pre.
Proof.
  intros HI Hq Ht Hh Hal. pose proof (pinv_type _ _ _ _ _ _ _ HI) as Htyp.
  destruct HI as [It Ic Icl (c & k & best & Hc & Hk & HSt & Hrd & Hbest & Hbp) Ip Ipend I0 Ipos].
  assert (Hprele : length pre <= length B).
  { destruct Htyp as [E|E].
    - rewrite E in Ipos. destruct Ipos as (_ & _ & H). destruct (p_curr th); [destruct H as (-> & _); cbn; lia|]. destruct H as (d & _ & -> & _). rewrite app_length. lia.
    - assert (Ipos' : pre = filter nonempty (firstn (p_curr th) (p_queue pv)) /\ B = filter nonempty (p_queue pv)) by (destruct E as [E|E]; rewrite E in Ipos; tauto).
      destruct Ipos' as (-> & ->). apply filter_len_firstn_le. }
  constructor; auto.
  - exists c, k, best. repeat (split; [assumption|]). destruct best as [[nb dd]|]; [|exact I].
    pose proof (reads_best_bound _ _ _ _ _ Hrd eq_refl) as Hnb.
    destruct Htyp as [E|E].
    + rewrite E in *. destruct Hbp as (m & n & dm & A1 & A2 & A3 & A4 & A5 & A6). exists m, n, dm. rewrite Hq.
      assert (Hml : m < length (p_queue pv)) by (apply nth_error_Some; congruence).
      repeat (split; [first [assumption | rewrite nth_error_app1 by lia; assumption]|]).
      rewrite skipn_app. replace (nb - length B) with 0 by lia. rewrite ?skipn_O. rewrite A6. rewrite skipn_app. replace (S m - length (p_queue pv)) with 0 by lia. cbn [skipn].
      rewrite concat_app, !byt_app, <- !app_assoc. reflexivity.
    + assert (Hbp' : exists m, p_bak th = S m /\ m < length (p_queue pv) /\
          nb = length (filter nonempty (firstn m (p_queue pv))) /\ filter nonempty (firstn m (p_queue pv)) = firstn nb B)
       by (destruct E as [E|E]; rewrite E in Hbp; exact Hbp).
      destruct Hbp' as (m & A1 & A2 & A3 & A4).
      assert (G : exists m, p_bak th = S m /\ m < length (p_queue pv') /\
          nb = length (filter nonempty (firstn m (p_queue pv'))) /\ filter nonempty (firstn m (p_queue pv')) = firstn nb (B ++ inj (kind_of (p_type th)) ds)).
      { exists m. rewrite Hq, app_length. rewrite firstn_app. replace (m - length (p_queue pv)) with 0 by lia. cbn [firstn]. rewrite app_nil_r.
        split; [assumption|]. split; [lia|]. split; [assumption|]. rewrite A4. rewrite firstn_app. replace (nb - length B) with 0 by lia. cbn. rewrite app_nil_r. reflexivity. }
      destruct E as [E|E]; rewrite E in *; exact G.
  - intros j kj Hj Hkj Y HY. rewrite <- app_assoc. apply Ip with j; auto. intros Ef. rewrite (Hal Ef), (HY Ef). reflexivity.
  - destruct I0 as [I0|I0]; [left; exact I0|right]. destruct B; [congruence|discriminate].
  - destruct Htyp as [E|E].
    + rewrite E in *. destruct Ipos as (H1 & H2 & H3). split; [apply Hh; reflexivity|]. split.
      * intros Hf. destruct (H2 Hf) as (HB & Hle). rewrite Hq. split.
        -- rewrite HB, concat_app. rewrite skipn_app. replace (p_headlen th - length (concat (p_queue pv))) with 0 by (pose proof (concat_firstn_hd _ _ Hle); lia).
           cbn [skipn]. rewrite byt_app. reflexivity.
        -- destruct (p_queue pv); cbn in *; [lia|exact Hle].
      * destruct (p_curr th) as [|n]; [exact H3|]. destruct H3 as (d & Hd & HB & Hm). exists d. rewrite Hq.
        assert (Hnl : n < length (p_queue pv)) by (apply nth_error_Some; congruence).
        split; [rewrite nth_error_app1 by lia; assumption|]. split; [|exact Hm].
        rewrite HB. rewrite skipn_app. replace (S n - length (p_queue pv)) with 0 by lia. rewrite ?skipn_O.
        rewrite concat_app, !byt_app, <- !app_assoc. reflexivity.
    + assert (G : p_curr th <= length (p_queue pv') /\ pre = filter nonempty (firstn (p_curr th) (p_queue pv')) /\ B ++ inj (kind_of (p_type th)) ds = filter nonempty (p_queue pv')).
      { assert (Ipos' : p_curr th <= length (p_queue pv) /\ pre = filter nonempty (firstn (p_curr th) (p_queue pv)) /\ B = filter nonempty (p_queue pv))
          by (destruct E as [E|E]; rewrite E in Ipos; tauto).
        destruct Ipos' as (P1 & P2 & P3). rewrite Hq, app_length, firstn_app. replace (p_curr th - length (p_queue pv)) with 0 by lia. cbn [firstn]. rewrite app_nil_r.
        split; [lia|]. split; [assumption|]. rewrite filter_app, P3. f_equal. destruct E as [E|E]; rewrite E; reflexivity. }
      destruct E as [E|E]; rewrite E in *; exact G.
Qed.

Lemma inj_strip k a b : filter nonempty a = filter nonempty b -> inj k a = inj k b.
Proof.
  intros H. destruct k; cbn; auto. f_equal.
  assert (Hc : forall l : list datum, concat l = concat (filter nonempty l)).
  { induction l as [|x l IH]; [reflexivity|]. destruct x; cbn; rewrite IH; reflexivity. }
  rewrite (Hc a), (Hc b), H. reflexivity.
Qed.
End E.

(** Local progress of one phase: reading. *)
From Verif Require Import Base Types M_Engine S_Engine P_Trans P_Engine1 P_Engine2.

Section E.
Context {P : Type}.
Notation ecodec := (ecodec P). Notation ephase := (ephase P). Notation inst := (inst P).

Arguments p_type {P}. Arguments p_codecs {P}. Arguments p_index {P}. Arguments p_curr {P}. Arguments p_i {P}.
Arguments p_bak {P}. Arguments p_headlen {P}. Arguments p_match_data {P}. Arguments p_state {P}. Arguments p_offset {P}.
Arguments p_fmatch {P}. Arguments p_fpending {P}. Arguments p_floop {P}. Arguments p_queue {P}. Arguments p_tail {P}.
Arguments e_tab {P}. Arguments e_conv {P}. Arguments e_flush {P}. Arguments e_init {P}. Arguments e_priv {P}.
Arguments cb_priv {P}. Arguments cb_i {P}. Arguments cb_status {P}. Arguments cb_out {P}.
Arguments local_step {P}. Arguments from_step {P}. Arguments data_step {P}. Arguments LRes {P}. Arguments LUB {P}.
Arguments set_priv {P}. Arguments this_codec {P}. Arguments reset {P}. Arguments listfree {P}. Arguments app_tail {P}.
Arguments feed {P}. Arguments bytes_loop {P}. Arguments codecn {P}. Arguments is_to {P}.
Arguments k_v {P}. Arguments k_clean {P}. Arguments k_St {P}.
Arguments read_state : simpl never. Arguments Nat.ltb : simpl never. Arguments Nat.sub : simpl never.

Lemma lex_length a b : lex a b -> length a = length b.
Proof. induction 1; cbn; congruence. Qed.
Lemma lex_trans a b c : lex a b -> lex b c -> lex a c.
Proof.
  intros H. revert c. induction H as [x y l l' Hxy Hl|x l l' H IH]; intros c Hc; inversion Hc; subst.
  - apply lex_here; [lia|congruence].
  - apply lex_here; [assumption|]. repeat match goal with H : lex _ _ |- _ => apply lex_length in H end. cbn in *. lia.
  - apply lex_here; [assumption|]. repeat match goal with H : lex _ _ |- _ => apply lex_length in H end. cbn in *. lia.
  - apply lex_next. apply IH. assumption.
Qed.
Lemma lex_app a b c d : lex a b -> length c = length d -> lex (a ++ c) (b ++ d).
Proof. induction 1; intros E; cbn; [apply lex_here; [assumption|rewrite !app_length; lia]|apply lex_next; auto]. Qed.
Lemma lex_app_same a c d : lex c d -> lex (a ++ c) (a ++ d).
Proof. induction a; cbn; intros; [assumption|apply lex_next; auto]. Qed.

Definition lexeq (a b : list nat) := a = b \/ lex a b.

Lemma same_ctl_trans (a b c : ephase) : same_ctl a b -> same_ctl b c -> same_ctl a c.
Proof. unfold same_ctl. intros H1 H2. rewrite H2, H1. destruct a; reflexivity. Qed.
Lemma same_ctl_refl (a : ephase) : same_ctl a a.
Proof. destruct a; reflexivity. Qed.
Lemma same_static_trans (a b c : ephase) : same_static a b -> same_static b c -> same_static a c.
Proof. unfold same_static. intros (A1 & A2 & A3) (B1 & B2 & B3). repeat split; [congruence| |congruence].
  intros H. rewrite A2 by assumption. apply B2. congruence. Qed.

Lemma ach_prefix fin (pv th pv1 th1 : ephase) ks B pc pc1 :
  lsteps pv th pc pv1 th1 0 0 (Stay pc1) -> same_ctl pv pv1 -> same_static th th1 -> p_queue th1 = p_queue th ->
  lexeq (pmeasure3 pv1 th1 B) (pmeasure3 pv th B) -> (p_type th = FROM -> length (p_queue pv1) <= length (p_queue pv)) ->
  achieves3 fin pv1 th1 ks B pc1 -> achieves fin pv th ks B pc.
Proof.
  intros Hs Hc Hst Hq Hm Hl (pv' & th' & ie & oe & g & HS & HC & HST & out0 & out & e & B' & pre' & mid' & H1 & H2 & H3 & H4 & H5 & H6 & H7 & H8 & H9).
  assert (Hty : p_type th1 = p_type th) by (symmetry; apply Hst).
  rewrite Hty in *.
  exists pv', th', ie, oe, g. split; [exact (lsteps_app _ _ _ _ _ _ _ _ _ _ _ _ _ Hs HS)|].
  split; [eapply same_ctl_trans; eassumption|]. split; [eapply same_static_trans; eassumption|].
  exists out0, out, e, B', pre', mid'. rewrite Hq in H1. repeat (split; [assumption|]).
  split; [|split; [|exact H9]].
  - unfold pmeasure. apply lex_app; [|reflexivity]. destruct Hm as [<-|Hm]; [assumption|eapply lex_trans; eassumption].
  - intros E. specialize (H8 E). specialize (Hl E). lia.
Qed.

Definition rd_th (th : ephase) (c : ecodec) s' off' lb' p' i' out : ephase :=
  set_state P (set_offset P (app_tail (set_i P (set_flags P (set_codecs P th (list_upd (p_codecs th) (p_index th) (set_priv c p'))) (p_fmatch th) (p_fpending th) lb') i') out) off') s'.

Lemma list_upd_same {A} (l : list A) n x : nth_error l n = Some x -> list_upd l n x = l.
Proof. revert n. induction l; intros [|n] H; cbn in *; try congruence. f_equal. auto. Qed.
Lemma list_upd_length {A} (l : list A) n x : length (list_upd l n x) = length l.
Proof. revert n. induction l; intros [|n]; cbn; congruence. Qed.
Lemma list_upd_nth {A} (l : list A) n x y : nth_error l n = Some y -> nth_error (list_upd l n x) n = Some x.
Proof. revert n. induction l; intros [|n] H; cbn in *; try congruence. auto. Qed.
Lemma list_upd_nth_ne {A} (l : list A) n m x : n <> m -> nth_error (list_upd l n x) m = nth_error l m.
Proof. revert n m. induction l; intros [|n] [|m] H; cbn in *; try congruence; auto. Qed.

Lemma set_priv_id (c : ecodec) : set_priv c (e_priv c) = c.
Proof. destruct c; reflexivity. Qed.
Lemma set_priv_twice (c : ecodec) a b : set_priv (set_priv c a) b = set_priv c b.
Proof. reflexivity. Qed.

Lemma from_read (pv th : ephase) c n d b s' off' lb' p' i' out :
  p_type th = FROM -> p_curr th = S n -> nth_error (p_queue pv) n = Some d -> nth_error d (p_i th) = Some b ->
  nth_error (p_codecs th) (p_index th) = Some c ->
  fread c (p_state th) (p_offset th) (p_floop th) (e_priv c) d (p_i th) b = Some (s', off', lb', p', i', out) ->
  lsteps pv th LInner pv (rd_th th c s' off' lb' p' i' out) 0 0 (Stay LX).
Proof.
  intros Hty Hcu Hd Hb Hc Hf. unfold fread in Hf. unfold feed1 in Hf.
  destruct (get_offset (p_state th) b) as [next|] eqn:Eg; [|discriminate].
  set (off := match next with O => if p_floop th then p_offset th else 0 | S _ => next end) in *.
  destruct (read_state (e_tab c) off) as [s1|] eqn:Er; [|discriminate].
  set (th1 := set_state P (set_offset P th off) s1).
  assert (Hlt : (p_i th <? length d) = true). { apply Nat.ltb_lt. apply nth_error_Some. congruence. }
  assert (H1 : local_step pv th LInner = LRes pv th1 0 0 (Stay LX)).
  { unfold local_step. rewrite Hty. cbn [from_step]. unfold curr_len, curr_node. rewrite Hcu, Hd. cbn [option_map].
    unfold this_codec. rewrite Hlt, Hc, Hb. unfold feed. rewrite Eg. fold off. rewrite Er. reflexivity. }
  assert (Hcase : (t_status s1 = SUBROUTINE \/ t_status s1 = SUBMATCH_SUBROUTINE) \/
      rd_th th c s' off' lb' p' i' out = th1).
  { assert (HD : (t_status s1 = SUBROUTINE \/ t_status s1 = SUBMATCH_SUBROUTINE) \/ Some (s1, off, p_floop th, e_priv c, p_i th, @nil datum) = Some (s', off', lb', p', i', out)).
    { destruct (t_status s1); auto. }
    destruct HD as [HD|HD]; [left; exact HD|right]. injection HD as <- <- <- <- <- <-.
    unfold rd_th, th1. rewrite set_priv_id, list_upd_same by assumption. destruct th; reflexivity. }
  destruct Hcase as [Hcase|Hcase].
  - assert (Hf' : exists f, e_conv c = Some f /\ Some (with_status s1 (cb_status (f (e_priv c) d (p_i th) (t_data s1))), off, true, cb_priv (f (e_priv c) d (p_i th) (t_data s1)),
       cb_i (f (e_priv c) d (p_i th) (t_data s1)), cb_out (f (e_priv c) d (p_i th) (t_data s1))) = Some (s', off', lb', p', i', out)).
    { destruct Hcase as [E|E]; rewrite E in Hf; (destruct (e_conv c) as [f|]; [|discriminate]); exists f; auto. }
    destruct Hf' as (f & Ef & HE). injection HE as <- <- <- <- <- <-.
    change (lsteps pv th LInner pv (rd_th th c (with_status s1 (cb_status (f (e_priv c) d (p_i th) (t_data s1)))) off true (cb_priv (f (e_priv c) d (p_i th) (t_data s1))) (cb_i (f (e_priv c) d (p_i th) (t_data s1))) (cb_out (f (e_priv c) d (p_i th) (t_data s1)))) (0 + 0) (0 + 0) (Stay LX)).
    eapply ls_more; [exact H1|]. apply ls_one.
    assert (HX : local_step pv th1 LX = match call_cb P pv th1 with None => LUB | Some t1 => LRes pv (set_flags P t1 (p_fmatch t1) (p_fpending t1) true) 0 0 (Stay LX) end).
    { unfold local_step, th1. cbn [p_type set_state set_offset]. rewrite Hty. cbn [from_step p_state set_state]. destruct Hcase as [E|E]; rewrite E; reflexivity. }
    rewrite HX. unfold call_cb, this_codec, curr_node. cbn [p_codecs p_index p_curr th1 set_state set_offset]. rewrite Hc, Ef, Hcu, Hd.
    unfold rd_th, th1. f_equal. destruct th; cbn in *. destruct (f (e_priv c) d p_i (t_data s1)) as [? ? ? [|? ?]]; reflexivity.
  - rewrite Hcase. apply ls_one. exact H1.
Qed.

Lemma rd_th_proj (th : ephase) c s' off' lb' p' i' out : 
  let t := rd_th th c s' off' lb' p' i' out in
  p_type t = p_type th /\ p_codecs t = list_upd (p_codecs th) (p_index th) (set_priv c p') /\ p_index t = p_index th /\ p_curr t = p_curr th /\
  p_i t = i' /\ p_bak t = p_bak th /\ p_headlen t = p_headlen th /\ p_match_data t = p_match_data th /\ p_state t = s' /\ p_offset t = off' /\
  p_fmatch t = p_fmatch th /\ p_fpending t = p_fpending th /\ p_floop t = lb' /\
  (p_tail th = length (p_queue th) -> p_queue t = p_queue th ++ out /\ p_tail t = length (p_queue th ++ out)).
Proof.
  cbn zeta. unfold rd_th.
  repeat match goal with |- _ /\ _ => split end; try (destruct out; reflexivity).
  intros H. apply (app_tail_queue (set_i P (set_flags P (set_codecs P th _) (p_fmatch th) (p_fpending th) lb') i')). exact H.
Qed.

Lemma codecs_upd_ok t (cs : list ecodec) ks n c p : Forall2 (codec_ok t) cs ks -> nth_error cs n = Some c -> Forall2 (codec_ok t) (list_upd cs n (set_priv c p)) ks.
Proof.
  intros H. revert n. induction H; intros [|n] E; cbn in *; try discriminate; constructor; auto.
  injection E as ->. apply codec_ok_priv. assumption.
Qed.

Lemma clean_upd (cs : list ecodec) ks n c k p :
  (forall j c k, j <> n -> nth_error cs j = Some c -> nth_error ks j = Some k -> k_clean k (e_priv c)) ->
  nth_error cs n = Some c -> nth_error ks n = Some k -> k_clean k p ->
  forall j c' k', nth_error (list_upd cs n (set_priv c p)) j = Some c' -> nth_error ks j = Some k' -> k_clean k' (e_priv c').
Proof.
  intros H Ec Ek Hp j c' k' E1 E2. destruct (Nat.eq_dec j n) as [->|Hne].
  - rewrite (list_upd_nth _ _ _ _ Ec) in E1. injection E1 as <-. rewrite Ek in E2. injection E2 as <-. exact Hp.
  - rewrite list_upd_nth_ne in E1 by auto. eapply H; eassumption.
Qed.

Lemma fails_prefix (pv th pv1 th1 : ephase) pc pc1 a b : lsteps pv th pc pv1 th1 a b (Stay pc1) -> fails pv1 th1 pc1 -> fails pv th pc.
Proof. intros H (pv' & th' & ie & oe & g & H1 & H2). exists pv', th', (a + ie), (b + oe), g. split; [eapply lsteps_app; eassumption|lia]. Qed.

Lemma from_innerE E fin (pv th : ephase) ks B pre n d b :
  p_type th = FROM -> p_tail th = length (p_queue th) -> pinv fin true pv th ks B pre -> err_okE E fin pv th ks B ->
  p_curr th = S n -> nth_error (p_queue pv) n = Some d -> nth_error d (p_i th) = Some b ->
  achieves fin pv th ks B LInner \/ (E = true /\ fails pv th LInner).
Proof.
  intros Hty Htl HI Herr Hcu Hd Hb.
  destruct HI as [It Ic Icl (c & k & best & Hc & Hk & HSt & Hrd & Hbest & Hbp) Ip Ipend I0 Ipos].
  rewrite Hty in Ipos, Hbp. destruct Ipos as (Hhl & HposB & Hpos). rewrite Hcu in Hpos. destruct Hpos as (d' & Hd' & HB & _).
  assert (d' = d) by congruence. subst d'.
  pose proof (Forall2_nth _ _ _ _ _ _ Ic Hc Hk) as Hok. rewrite Hty in Hok. cbn in Hok.
  destruct (fo_step _ _ Hok _ _ _ _ _ _ _ _ HSt Hb) as (s' & off' & lb' & p' & i' & out & Hf & R & HR & Hcase).
  pose proof (from_read pv th c n d b s' off' lb' p' i' out Hty Hcu Hd Hb Hc Hf) as Hsteps.
  destruct (rd_th_proj th c s' off' lb' p' i' out) as (T1 & T2 & T3 & T4 & T5 & T6 & T7 & T8 & T9 & T10 & T11 & T12 & T13 & T14).
  set (th1 := rd_th th c s' off' lb' p' i' out) in *. clearbody th1. specialize (T14 Htl). destruct T14 as (T14 & T15).
  assert (Hst : same_static th th1). { repeat split; [auto|congruence|]. rewrite T2, list_upd_length. reflexivity. }
  assert (HcodX : Forall2 (codec_ok (p_type th1)) (p_codecs th1) ks). { rewrite T1, T2. apply codecs_upd_ok; assumption. }
  assert (Hilt : p_i th < length d) by (apply nth_error_Some; congruence).
  assert (Hbsk : skipn (p_i th) d = b :: skipn (S (p_i th)) d) by (apply skipn_nth; exact Hb).
  rewrite byt_app in HB.
  assert (Hreads : reads (k_v k) (pre ++ R) best) by (apply reads_conts; assumption).
  assert (HBlen : length pre <= length B) by (rewrite HB, app_length; lia).
  assert (Hnth1 : nth_error (p_codecs th1) (p_index th1) = Some (set_priv c p')). { rewrite T2, T3. eapply list_upd_nth; eassumption. }
  destruct (t_status s') eqn:Est.
  - (* CONTINUE *)
    destruct Hcase as (-> & HRne & Hii & HRb & HSt').
    rewrite app_nil_r in T14, T15.
    set (th' := set_i P (set_flags P th1 (p_fmatch th1) true (p_floop th1)) (S (p_i th1))).
    assert (Hstep : local_step pv th1 LX = LRes pv th' 0 0 (Stay LInner)).
    { unfold local_step. rewrite T1, Hty. cbn [from_step]. rewrite T9, Est. reflexivity. }
    assert (HSii : S i' <= length d \/ length d <= S i') by lia.
    left. exists pv, th', 0, 0, (Stay LInner).
    split; [exact (lsteps_app _ _ _ _ _ _ _ _ _ _ _ _ _ Hsteps (ls_one _ _ _ _ _ _ _ _ Hstep))|].
    split; [apply same_ctl_refl|]. split; [exact Hst|].
    exists [], [], 0, B, (pre ++ R), true.
    split; [cbn; rewrite app_nil_r; exact T14|]. split; [reflexivity|]. split; [cbn; congruence|].
    split; [|split; [|split; [|split; [|split; [|exact Hty]]]]].
    + constructor; cbn.
      * exact It.
      * exact HcodX.
      * rewrite T2, T3. intros j cj kj Hj E1 E2. rewrite list_upd_nth_ne in E1 by auto. eapply Icl; eassumption.
      * exists (set_priv c p'), k, best. rewrite T1, T3, T4, T6, T7, T8, T9, T10, T11, T13, Hty. repeat (split; [first [assumption | congruence]|]). exact Hbp.
      * rewrite T3. exact Ip.
      * destruct pre; destruct R; try reflexivity. congruence.
      * rewrite T3. exact I0.
      * rewrite T1, Hty, T4, T5, T7, T11, Hcu. split; [assumption|]. split; [assumption|]. exists d. split; [assumption|].
        split; [|discriminate]. rewrite HB, HRb, byt_app, <- !app_assoc. reflexivity.
    + intros Y HY. cbn. destruct (trans _ _ _). reflexivity.
    + rewrite Hty. reflexivity.
    + unfold pmeasure. replace (pmeasure3 pv th' B) with (pmeasure3 pv th B).
      2:{ unfold pmeasure3. cbn. rewrite T11, T3, T2, list_upd_length. reflexivity. }
      apply lex_app_same. apply lex_here; [|reflexivity]. unfold unread. cbn [p_type th' set_i set_flags p_curr p_i]. rewrite T1, Hty, T4, Hcu, T5.
      rewrite (nth_error_nth _ _ _ Hd). lia.
    + auto.
  - (* DEADEND *)
    destruct Hcase as (-> & Hcl & y & R2 & HRb & HV).
    rewrite app_nil_r in T14, T15.
    assert (Hstep : local_step pv th1 LX = LRes pv th1 0 0 (Stay LDead)).
    { unfold local_step. rewrite T1, Hty. cbn [from_step]. rewrite T9, Est. reflexivity. }
    assert (HLS : lsteps pv th LInner pv th1 (0 + 0) (0 + 0) (Stay LDead)) by exact (lsteps_app _ _ _ _ _ _ _ _ _ _ _ _ _ Hsteps (ls_one _ _ _ _ _ _ _ _ Hstep)).
    assert (HDP : achieves3 fin pv th1 ks B LDead \/ (E = true /\ fails pv th1 LDead)).
    2:{ destruct HDP as [HDP|(HE & HDP)]; [left|right; split; [exact HE|exact (fails_prefix _ _ _ _ _ _ _ _ HLS HDP)]].
    apply (ach_prefix fin pv th pv th1 ks B LInner LDead).
    + exact HLS.
    + apply same_ctl_refl.
    + exact Hst.
    + exact T14.
    + left. unfold pmeasure3. rewrite T11, T3, T2, list_upd_length. reflexivity.
    + auto.
    + exact HDP. }
    apply dead_progressE; [congruence| |].
      * constructor; rewrite ?T1, ?T3, ?T4, ?T6, ?T7, ?T8, ?T11; auto.
        -- rewrite T2. apply codecs_upd_ok; assumption.
        -- rewrite T2. eapply clean_upd; eassumption.
        -- exists k, best. split; [assumption|]. split; [|split; [congruence|split]].
           ++ intros Y HY. rewrite HB, HRb. rewrite <- !app_assoc. rewrite app_assoc.
              rewrite (reads_scan _ _ _ Hreads). cbn [app scan]. rewrite <- app_assoc, HV. reflexivity.
           ++ destruct best as [[nb dd]|]; [|assumption]. destruct Hbest as (A1 & A2 & A3). repeat split; auto;
              pose proof (reads_best_bound _ _ _ _ _ Hrd eq_refl); lia.
           ++ rewrite Hty. exact Hbp.
        -- rewrite HB, HRb. destruct pre; destruct R; discriminate.
        -- rewrite Hty. split; [assumption|]. split; [assumption|]. eauto.
      * destruct Herr as [HE|Herr]; [left; exact HE|right]. intros _. apply Herr. exact Hty.
  - (* MATCH *)
    destruct Hcase as (Hcl & Hle & y & HRb & HV).
    destruct ks as [|k0 ks']; [destruct (p_index th); discriminate|].
    destruct (p_codecs th1) as [|c0 cs'] eqn:Ecs; [inversion HcodX|].
    assert (Hok0 : codec_ok (p_type th1) c0 k0) by (inversion HcodX; assumption).
    destruct (codec_ok_root _ _ _ Hok0) as (s0 & Hs0 & _).
    set (pv' := set_queue P pv (skipn n (p_queue pv)) (p_tail pv - n)).
    set (tha := app_tail (set_match_data P (set_flags P th1 false false false) []) (t_data s')).
    set (th' := set_state P (set_offset P (set_index P (set_headlen P (set_curr P (set_bak P tha 0) 0) (S i')) 0) 0) s0).
    assert (Htha : p_queue tha = p_queue th1 ++ t_data s' /\ p_tail tha = length (p_queue th1 ++ t_data s')).
    { apply (app_tail_queue (set_match_data P (set_flags P th1 false false false) [])). cbn. congruence. }
    assert (Hta : p_type tha = p_type th1 /\ p_codecs tha = p_codecs th1 /\ p_curr tha = p_curr th1 /\ p_i tha = p_i th1 /\ p_fmatch tha = false /\ p_fpending tha = false /\ p_floop tha = false).
    { unfold tha, app_tail. destruct (t_data s'); repeat split. }
    destruct Hta as (E1 & E2 & E3 & E4 & E5 & E6 & E7).
    assert (Hstep : local_step pv th1 LX = LRes pv' th' 0 0 GNext).
    { unfold local_step. rewrite T1, Hty. cbn [from_step]. rewrite T9, Est. unfold from_commit. fold tha. rewrite E3, T4, Hcu. cbn [listfree obind].
      unfold reset. cbn [p_codecs set_headlen set_curr set_bak]. rewrite E2, Ecs, Hs0. cbn [obind ub_or]. unfold th', pv'. rewrite E4, T5. reflexivity. }
    left. exists pv', th', 0, 0, GNext.
    split; [exact (lsteps_app _ _ _ _ _ _ _ _ _ _ _ _ _ Hsteps (ls_one _ _ _ _ _ _ _ _ Hstep))|].
    split; [reflexivity|]. split.
    { eapply same_static_trans; [exact Hst|]. unfold same_static. cbn. rewrite E1, E2. split; [reflexivity|]. split; [rewrite T1; congruence|rewrite Ecs; reflexivity]. }
    exists (out ++ t_data s'), (out ++ t_data s'), 0, (byt (skipn (S i') d) ++ byt (concat (skipn (S n) (p_queue pv)))), [], false.
    split; [cbn; rewrite (proj1 Htha), T14, app_assoc; reflexivity|]. split; [reflexivity|]. split; [cbn; rewrite (proj2 Htha), (proj1 Htha); reflexivity|].
    assert (HBeq : B = (pre ++ R ++ [y]) ++ byt (skipn (S i') d) ++ byt (concat (skipn (S n) (p_queue pv)))).
    { rewrite HB, HRb, <- !app_assoc. reflexivity. }
    assert (Hfm : forall Y, alw fin Y -> first_match (sems (k0 :: ks')) (B ++ Y) = Some (length (pre ++ R ++ [y]), out ++ t_data s')).
    { intros Y HY. apply (first_match_hit _ (p_index th) _ (k_v k)).
      - intros j w Hj Hw. apply sems_nth in Hw. destruct Hw as (kk & Hkk & ->). eapply Ip; eassumption.
      - apply sems_nth'. exact Hk.
      - rewrite HBeq. rewrite <- !app_assoc. rewrite (app_assoc pre R). rewrite (reads_scan _ _ _ Hreads). cbn [app scan].
        rewrite <- app_assoc, HV. f_equal. f_equal. rewrite !app_length. cbn. lia. }
    split; [|split; [|split; [|split; [|split; [|reflexivity]]]]].
    + apply (pinv_start fin false pv' th' _ _ c0 k0); cbn -[skipn]; rewrite ?E1, ?E2, ?E5, ?E6, ?E7, ?Ecs; auto.
      * rewrite skipn_length. lia.
      * intros j c1 k1. pose proof (clean_upd _ _ _ _ _ p' Icl Hc Hk Hcl j c1 k1) as HH. rewrite <- T2 in HH. exact HH.
      * intros; lia.
      * rewrite T1, Hty. split; [assumption|]. rewrite (skipn_nth _ _ _ Hd). cbn [concat hd]. split; [|exact Hle].
        rewrite skipn_app. replace (S i' - length d) with 0 by lia. cbn [skipn]. rewrite byt_app. reflexivity.
    + intros Y HY. rewrite (trans_hit _ _ _ _ _ _ (Hfm Y HY)).
      2:{ rewrite HBeq, (app_length (pre ++ R ++ [y])). lia. }
      rewrite HBeq, skipn_app, skipn_all, Nat.sub_diag. reflexivity.
    + rewrite Hty. reflexivity.
    + unfold pmeasure. apply lex_app; [|reflexivity]. apply lex_irr_eq. left. rewrite HBeq. rewrite (app_length (pre ++ R ++ [y])), (app_length pre), (app_length R). cbn. lia.
    + intros _. cbn. rewrite skipn_length. lia.
  - (* SUBMATCH *)
    destruct Hcase as (-> & -> & -> & Hdne & HV & HSt').
    rewrite app_nil_r in T14, T15.
    set (th' := set_i P (set_headlen P (set_bak P (set_match_data P (set_flags P th1 true true (p_floop th1)) (t_data s')) (S n)) (S (p_i th))) (S (p_i th))).
    assert (Hstep : local_step pv th1 LX = LRes pv th' 0 0 (Stay LInner)).
    { unfold local_step. rewrite T1, Hty. cbn [from_step]. rewrite T9, Est. unfold th'. rewrite <- Hcu, <- T4. cbn. rewrite <- T9, T5. destruct th1; reflexivity. }
    assert (HBeq : B = (pre ++ [[b]]) ++ byt (skipn (S (p_i th)) d) ++ byt (concat (skipn (S n) (p_queue pv)))).
    { rewrite HB, Hbsk. cbn [byt map]. rewrite <- !app_assoc. reflexivity. }
    left. exists pv, th', 0, 0, (Stay LInner).
    split; [exact (lsteps_app _ _ _ _ _ _ _ _ _ _ _ _ _ Hsteps (ls_one _ _ _ _ _ _ _ _ Hstep))|].
    split; [apply same_ctl_refl|]. split.
    { eapply same_static_trans; [exact Hst|]. unfold same_static. cbn. rewrite T1. split; [reflexivity|]. split; [congruence|reflexivity]. }
    exists [], [], 0, B, (pre ++ [[b]]), true.
    split; [cbn; rewrite app_nil_r; exact T14|]. split; [reflexivity|]. split; [cbn; congruence|].
    split; [|split; [|split; [|split; [|split; [|exact Hty]]]]].
    + constructor; cbn.
      * exact It.
      * exact HcodX.
      * rewrite T2, T3. intros j cj kj Hj E1 E2. rewrite list_upd_nth_ne in E1 by auto. eapply Icl; eassumption.
      * exists (set_priv c p'), k, (Some (S (length pre), t_data s')). rewrite T1, T3, T4, T9, T10, T13, Hty.
        split; [rewrite <- T3; assumption|]. split; [assumption|]. split; [assumption|]. split; [apply rd_sub with best; assumption|].
        split; [auto|]. exists n, n, d. repeat split; auto; try lia.
        rewrite HBeq. replace (S (length pre)) with (length (pre ++ [[b]])) by (rewrite app_length; cbn; lia).
        rewrite skipn_app, skipn_all, Nat.sub_diag. cbn [skipn app]. rewrite byt_app. reflexivity.
      * rewrite T3. exact Ip.
      * destruct pre; reflexivity.
      * rewrite T3. exact I0.
      * rewrite T1, Hty, T4, Hcu. split; [assumption|]. split; [discriminate|]. exists d. split; [assumption|].
        split; [|discriminate]. rewrite HBeq, byt_app. reflexivity.
    + intros Y HY. cbn. destruct (trans _ _ _). reflexivity.
    + rewrite Hty. reflexivity.
    + unfold pmeasure. destruct (p_fmatch th) eqn:Efm.
      * replace (pmeasure3 pv th' B) with (pmeasure3 pv th B).
        2:{ unfold pmeasure3. cbn. rewrite Efm, T3, T2, list_upd_length. reflexivity. }
        apply lex_app_same. apply lex_here; [|reflexivity]. unfold unread. cbn [p_type th' set_i set_headlen set_bak set_match_data set_flags p_curr p_i]. rewrite T1, Hty, T4, Hcu.
        rewrite (nth_error_nth _ _ _ Hd). lia.
      * apply lex_app; [|reflexivity]. apply lex_irr_eq. right. split; [reflexivity|]. left. cbn. rewrite Efm. lia.
    + auto.
  - destruct Hcase.
  - destruct Hcase.
  - (* NEXTPHASE *)
    destruct Hcase as (Hcl & Hle & y & HRb & HV).
    destruct ks as [|k0 ks']; [destruct (p_index th); discriminate|].
    destruct (p_codecs th1) as [|c0 cs'] eqn:Ecs; [inversion HcodX|].
    assert (Hok0 : codec_ok (p_type th1) c0 k0) by (inversion HcodX; assumption).
    destruct (codec_ok_root _ _ _ Hok0) as (s0 & Hs0 & _).
    set (pv' := set_queue P pv (skipn n (p_queue pv)) (p_tail pv - n)).
    set (tha := set_match_data P (set_flags P th1 false false false) []).
    set (th' := set_state P (set_offset P (set_index P (set_headlen P (set_curr P (set_bak P tha 0) 0) (S i')) 0) 0) s0).
    assert (Hstep : local_step pv th1 LX = LRes pv' th' 0 0 GNext).
    { unfold local_step. rewrite T1, Hty. cbn [from_step]. rewrite T9, Est. unfold from_commit. cbn [app_tail]. fold tha. cbn [tha p_curr set_match_data set_flags p_i]. rewrite T4, Hcu. cbn [listfree obind].
      unfold reset. cbn [p_codecs set_headlen set_curr set_bak tha set_match_data set_flags]. rewrite Ecs, Hs0. cbn [obind ub_or]. unfold th', pv', tha. rewrite T5. reflexivity. }
    left. exists pv', th', 0, 0, GNext.
    split; [exact (lsteps_app _ _ _ _ _ _ _ _ _ _ _ _ _ Hsteps (ls_one _ _ _ _ _ _ _ _ Hstep))|].
    split; [reflexivity|]. split.
    { eapply same_static_trans; [exact Hst|]. unfold same_static. cbn. split; [reflexivity|]. split; [rewrite T1; congruence|reflexivity]. }
    exists out, out, 0, (byt (skipn (S i') d) ++ byt (concat (skipn (S n) (p_queue pv)))), [], false.
    split; [exact T14|]. split; [reflexivity|]. split; [cbn; congruence|].
    assert (HBeq : B = (pre ++ R ++ [y]) ++ byt (skipn (S i') d) ++ byt (concat (skipn (S n) (p_queue pv)))).
    { rewrite HB, HRb, <- !app_assoc. reflexivity. }
    assert (Hfm : forall Y, alw fin Y -> first_match (sems (k0 :: ks')) (B ++ Y) = Some (length (pre ++ R ++ [y]), out)).
    { intros Y HY. apply (first_match_hit _ (p_index th) _ (k_v k)).
      - intros j w Hj Hw. apply sems_nth in Hw. destruct Hw as (kk & Hkk & ->). eapply Ip; eassumption.
      - apply sems_nth'. exact Hk.
      - rewrite HBeq. rewrite <- !app_assoc. rewrite (app_assoc pre R). rewrite (reads_scan _ _ _ Hreads). cbn [app scan].
        rewrite <- app_assoc, HV. f_equal. f_equal. rewrite !app_length. cbn. lia. }
    split; [|split; [|split; [|split; [|split; [|reflexivity]]]]].
    + apply (pinv_start fin false pv' th' _ _ c0 k0); cbn -[skipn]; rewrite ?Ecs; auto.
      * rewrite skipn_length. lia.
      * intros j c1 k1. pose proof (clean_upd _ _ _ _ _ p' Icl Hc Hk Hcl j c1 k1) as HH. rewrite <- T2 in HH. exact HH.
      * intros; lia.
      * rewrite T1, Hty. split; [assumption|]. rewrite (skipn_nth _ _ _ Hd). cbn [concat hd]. split; [|exact Hle].
        rewrite skipn_app. replace (S i' - length d) with 0 by lia. cbn [skipn]. rewrite byt_app. reflexivity.
    + intros Y HY. rewrite (trans_hit _ _ _ _ _ _ (Hfm Y HY)).
      2:{ rewrite HBeq, (app_length (pre ++ R ++ [y])). lia. }
      rewrite HBeq, skipn_app, skipn_all, Nat.sub_diag. reflexivity.
    + rewrite Hty. reflexivity.
    + unfold pmeasure. apply lex_app; [|reflexivity]. apply lex_irr_eq. left. rewrite HBeq. rewrite (app_length (pre ++ R ++ [y])), (app_length pre), (app_length R). cbn. lia.
    + intros _. cbn. rewrite skipn_length. lia.
  - destruct Hcase.
  - destruct Hcase.
Qed.
End E.

(** Proofs about the mixed EBCDIC codecs: the encoder. *)
From Verif Require Import Base Types M_Engine M_Raw M_Ebcdic S_Ebcdic.

Lemma get_offset_ws s x v : get_offset (with_status s x) v = get_offset s v.
Proof. reflexivity. Qed.

Lemma bl_spells {P} (c : ecodec P) : forall k s s', spells (e_tab P c) s k s' -> forall ty cs ix cu i ba hl md s0 off fm fp fl q tl,
  (forall v, get_offset s0 v = get_offset s v) ->
  exists off' i' fl' s1, bytes_loop P c (mkEp P ty cs ix cu i ba hl md s0 off fm fp fl q tl) k = Some (mkEp P ty cs ix cu i' ba hl md s1 off' fm fp fl' q tl, false) /\
    (k <> [] -> s1 = s').
Proof.
  induction 1 as [s|s b n s1 k s' Hg Hr Hs Hsp IH]; intros ty cs ix cu i ba hl md s0 off fm fp fl q tl Hk.
  - exists off, i, fl, s0. split; [reflexivity|congruence].
  - cbn [bytes_loop]. unfold feed. cbn [p_state]. rewrite Hk, Hg, Hr.
    assert (K : forall fl' i', exists off' i'' fl'' s2,
       bytes_loop P c (mkEp P ty cs ix cu i' ba hl md s1 (S n) fm fp fl' q tl) k = Some (mkEp P ty cs ix cu i'' ba hl md s2 off' fm fp fl'' q tl, false) /\ (b :: k <> [] -> s2 = s')).
    { intros fl' i'. destruct k as [|b' k].
      - cbn. exists (S n), i', fl', s1. split; [reflexivity|]. intros _. inversion Hsp; subst. reflexivity.
      - destruct (IH ty cs ix cu i' ba hl md s1 (S n) fm fp fl' q tl (fun v => eq_refl)) as (o2 & i2 & f2 & s2 & E & Es). exists o2, i2, f2, s2. split; [exact E|]. intros _. apply Es. discriminate. }
    cbn [set_state set_offset p_state t_status]. unfold set_state, set_offset. cbn. destruct (t_status s1) eqn:Es; try congruence; apply K.
Qed.

Section Enc.
Variables (tab : table) (root : tstate) (init : option (bool -> bool)).
Hypothesis Hroot : read_state tab 0 = Some root.
Let c (st : bool) : ecodec bool := mkEc bool tab None (Some eb_to_flush) init st.
Definition enc_at (st : bool) (i ba hl : nat) (fl : bool) (ss : status) (q : list datum) : bphase := mkEp bool TO [c st] 0 0 i ba hl [] (with_status root ss) 0 st st fl q (length q).

(** What one code adds. *)
Definition shift (st : bool) (d : datum) : list datum :=
  (if (1 <? length d) && negb st then [[0x0E]]%N else if (length d =? 1) && st then [[0x0F]]%N else []) ++ [d].

Lemma app_tail_end {P} (t : ephase P) ds : p_tail P t = length (p_queue P t) -> app_tail P t ds = set_queue P t (p_queue P t ++ ds) (length (p_queue P t ++ ds)).
Proof.
  intros H. unfold app_tail. destruct ds as [|d ds].
  - rewrite app_nil_r. destruct t; cbn in *. unfold set_queue; cbn. subst. reflexivity.
  - rewrite H, firstn_all, app_length. reflexivity.
Qed.
Lemma root_ws : root = with_status root (t_status root). Proof. destruct root; reflexivity. Qed.

Lemma put_status_at ty st st' cu i ba hl md s off fm fp fl q tl : put_status (mkEp bool ty [c st] 0 cu i ba hl md s off fm fp fl q tl) st' = mkEp bool ty [c st'] 0 cu i ba hl md s off fm fp fl q tl.
Proof. reflexivity. Qed.
Lemma flags_at ty cs ix cu i ba hl md s off fm fp fl q tl a b d : set_flags bool (mkEp bool ty cs ix cu i ba hl md s off fm fp fl q tl) a b d = mkEp bool ty cs ix cu i ba hl md s off a b d q tl.
Proof. reflexivity. Qed.
Lemma app_at ty cs ix cu i ba hl md s off fm fp fl q ds : app_tail bool (mkEp bool ty cs ix cu i ba hl md s off fm fp fl q (length q)) ds = mkEp bool ty cs ix cu i ba hl md s off fm fp fl (q ++ ds) (length (q ++ ds)).
Proof. rewrite app_tail_end by reflexivity. reflexivity. Qed.
Lemma status_at ty st cu i ba hl md s off fm fp fl q tl : cur_status (mkEp bool ty [c st] 0 cu i ba hl md s off fm fp fl q tl) = Some st.
Proof. reflexivity. Qed.
Lemma reset_at ty st ix cu i ba hl md s off fm fp fl q tl : reset bool (mkEp bool ty [c st] ix cu i ba hl md s off fm fp fl q tl) = Some (mkEp bool ty [c st] 0 cu i ba hl md root 0 fm fp fl q tl).
Proof. unfold reset. cbn [p_codecs c e_tab]. rewrite Hroot. reflexivity. Qed.

(** The callback after a code that ends in state [s]. *)
Definition done_multi (pv1 : bphase) (i ba hl : nat) (fl : bool) (q : list datum) : option (bphase * bphase * nat) := Some (pv1, enc_at true i ba hl fl NOOP q, 1).
Lemma conv_multi (pv pv1 : bphase) st i ba hl s off fl q d : t_data s = [d] -> 1 <? length d = true -> listfree bool pv 2 = Some pv1 ->
  eb_to_conv pv (mkEp bool TO [c st] 0 1 i ba hl [] s off st st fl q (length q)) = done_multi pv1 i 0 0 fl (q ++ shift st d).
Proof.
  intros Hd E2 Hlf. unfold eb_to_conv. cbn [p_state]. rewrite Hd, status_at, E2. unfold shift. rewrite E2. cbn [andb p_fmatch p_floop].
  destruct st; cbn [negb].
  - replace (length d =? 1) with false by (symmetry; apply Nat.eqb_neq; apply Nat.ltb_lt in E2; lia). cbn [andb]. rewrite status_at, app_at.
    unfold set_headlen, set_match_data. cbn [p_floop p_curr p_type p_codecs p_index p_i p_bak p_headlen p_match_data p_state p_offset p_fmatch p_fpending p_queue p_tail set_flags]. rewrite Hlf. cbn [obind]. unfold set_curr, set_bak. cbn [p_floop p_curr p_type p_codecs p_index p_i p_bak p_headlen p_match_data p_state p_offset p_fmatch p_fpending p_queue p_tail]. rewrite reset_at. cbn [obind]. reflexivity.
  - rewrite put_status_at, flags_at, app_at, status_at, app_at, <- app_assoc.
    unfold set_headlen, set_match_data. cbn [p_floop p_curr p_type p_codecs p_index p_i p_bak p_headlen p_match_data p_state p_offset p_fmatch p_fpending p_queue p_tail set_flags]. rewrite Hlf. cbn [obind]. unfold set_curr, set_bak. cbn [p_floop p_curr p_type p_codecs p_index p_i p_bak p_headlen p_match_data p_state p_offset p_fmatch p_fpending p_queue p_tail]. rewrite reset_at. cbn [obind]. reflexivity.
Qed.
Lemma conv_single (pv : bphase) st i ba hl s off fl q d : t_data s = [d] -> length d = 1 ->
  exists fm fp, eb_to_conv pv (mkEp bool TO [c st] 0 1 i ba hl [] s off st st fl q (length q)) =
    Some (pv, mkEp bool TO [c false] 0 1 i ba hl [] (with_status s NEXTPHASE) off fm fp fl (q ++ shift st d) (length (q ++ shift st d)), 0).
Proof.
  intros Hd E. unfold eb_to_conv. cbn [p_state]. rewrite Hd, status_at. unfold shift. rewrite E. cbn [Nat.ltb Nat.leb Nat.eqb andb p_fmatch p_floop].
  destruct st; cbn [negb].
  - rewrite put_status_at, flags_at, app_at, status_at, app_at, <- app_assoc. eexists _, _. reflexivity.
  - rewrite status_at, app_at. eexists _, _. reflexivity.
Qed.
Lemma enter st i ba hl fl ss q (pv : bphase) key rest s : p_queue bool pv = key :: rest -> key <> [] -> spells tab root key s ->
  exists i1 off fl1, raw_step bool eb_to_conv pv (enc_at st i ba hl fl ss q) LOuter = LRes bool pv (mkEp bool TO [c st] 0 1 i1 ba hl [] s off st st fl1 q (length q)) 0 0 (Stay LX).
Proof.
  intros Hq Hk Hsp.
  pose proof (bl_spells (c st) key root s Hsp TO [c st] 0 1 0 ba hl [] (with_status (with_status root ss) NOMATCH) 0 st st fl q (length q) (get_offset_ws root NOMATCH)) as (off & i1 & fl1 & s1 & Eb & Es).
  specialize (Es Hk). subst s1. exists i1, off, fl1. unfold raw_step, local_step. unfold enc_at. cbn [p_type]. unfold data_step. cbn [p_curr]. rewrite Hq. cbn [length Nat.ltb Nat.leb].
  unfold set_curr, set_state, set_i, curr_node, this_codec. cbn [p_curr p_state p_queue p_codecs p_index nth_error p_type p_bak p_headlen p_match_data p_offset p_fmatch p_fpending p_floop p_tail].
  rewrite Hq. cbn [nth_error]. rewrite Eb. reflexivity.
Qed.
Lemma call_at (pv pv' th' : bphase) adv st i1 ba hl s off fl1 q : is_call s -> p_type bool th' = TO ->
  eb_to_conv pv (mkEp bool TO [c st] 0 1 i1 ba hl [] s off st st fl1 q (length q)) = Some (pv', th', adv) ->
  raw_step bool eb_to_conv pv (mkEp bool TO [c st] 0 1 i1 ba hl [] s off st st fl1 q (length q)) LX =
    match t_status (p_state bool th'), adv with NOOP, S _ => LRes bool pv' th' 0 0 GNext | _, _ => LRes bool pv' th' 0 0 (Stay LX) end.
Proof. intros Hc Ht E. unfold raw_step. cbn [p_state]. destruct Hc as [Hc|Hc]; rewrite Hc, E, Ht; reflexivity. Qed.
Lemma next_at (pv pv1 : bphase) st i ba hl s off fm fp fl q : listfree bool pv 2 = Some pv1 ->
  raw_step bool eb_to_conv pv (mkEp bool TO [c st] 0 1 i ba hl [] (with_status s NEXTPHASE) off fm fp fl q (length q)) LX =
    LRes bool pv1 (mkEp bool TO [c st] 0 0 i 0 hl [] root 0 false false false q (length q)) 0 0 GNext.
Proof.
  intros Hlf. unfold raw_step, local_step. cbn [p_state with_status t_status p_type data_step]. unfold data_commit. rewrite flags_at. unfold set_match_data.
  cbn [p_floop p_curr p_type p_codecs p_index p_i p_bak p_headlen p_match_data p_state p_offset p_fmatch p_fpending p_queue p_tail app_tail]. rewrite Hlf. cbn [obind ub_or].
  unfold set_curr, set_bak. cbn [p_floop p_curr p_type p_codecs p_index p_i p_bak p_headlen p_match_data p_state p_offset p_fmatch p_fpending p_queue p_tail]. rewrite reset_at. reflexivity.
Qed.
Lemma enc_one st i ba hl fl ss q (pv : bphase) key d rest : p_queue bool pv = key :: rest -> p_tail bool pv = length (p_queue bool pv) -> calls_on tab key d -> (0 < length d) ->
  exists i' ba' hl' fl' ss' pv1, p_queue bool pv1 = rest /\ p_tail bool pv1 = length rest /\
    forall pv' th' a b, phase_runs eb_to_conv pv1 (enc_at (1 <? length d) i' ba' hl' fl' ss' (q ++ shift st d)) LOuter pv' th' a b ->
      phase_runs eb_to_conv pv (enc_at st i ba hl fl ss q) LOuter pv' th' a b.
Proof.
  intros Hq Ht (root' & s & Hr & Hk & Hsp & Hc & Hd) Hl. assert (root' = root) by congruence. subst root'.
  destruct (enter st i ba hl fl ss q pv key rest s Hq Hk Hsp) as (i1 & off & fl1 & E1).
  assert (Hlf : listfree bool pv 2 = Some (set_queue bool pv rest (length rest))).
  { unfold listfree. rewrite Hq in *. cbn [skipn length] in *. rewrite Ht. f_equal. f_equal. lia. }
  remember (set_queue bool pv rest (length rest)) as pv1 eqn:Epv.
  assert (Hq1 : p_queue bool pv1 = rest /\ p_tail bool pv1 = length rest) by (subst pv1; split; reflexivity). clear Epv. destruct Hq1 as [Hq1 Ht1].
  destruct (1 <? length d) eqn:E2.
  - pose proof (conv_multi pv pv1 st i1 ba hl s off fl1 q d Hd E2 Hlf) as Ecb. unfold done_multi in Ecb.
    pose proof (call_at pv pv1 (enc_at true i1 0 0 fl1 NOOP (q ++ shift st d)) 1 st i1 ba hl s off fl1 q Hc eq_refl Ecb) as E3.
    exists i1, 0, 0, fl1, NOOP, pv1. split; [exact Hq1|]. split; [exact Ht1|]. intros pv' th' a b Hrun.
    refine (pr_stay bool eb_to_conv _ _ _ _ _ 0 0 LX _ _ a b E1 _). refine (pr_again bool eb_to_conv _ _ _ _ _ 0 0 GNext _ _ a b E3 (or_intror eq_refl) Hrun).
  - assert (El : length d = 1) by (apply Nat.ltb_ge in E2; lia).
    destruct (conv_single pv st i1 ba hl s off fl1 q d Hd El) as (fm & fp & Ecb).
    assert (E3 := call_at pv pv (mkEp bool TO [c false] 0 1 i1 ba hl [] (with_status s NEXTPHASE) off fm fp fl1 (q ++ shift st d) (length (q ++ shift st d))) 0 st i1 ba hl s off fl1 q Hc eq_refl Ecb). cbn [p_state with_status t_status] in E3.
    pose proof (next_at pv pv1 false i1 ba hl s off fm fp fl1 (q ++ shift st d) Hlf) as E4. rewrite root_ws in E4.
    exists i1, 0, hl, false, (t_status root), pv1. split; [exact Hq1|]. split; [exact Ht1|]. intros pv' th' a b Hrun.
    refine (pr_stay bool eb_to_conv _ _ _ _ _ 0 0 LX _ _ a b E1 _). refine (pr_stay bool eb_to_conv _ _ _ _ _ 0 0 LX _ _ a b E3 _).
    refine (pr_again bool eb_to_conv _ _ _ _ _ 0 0 GNext _ _ a b E4 (or_intror eq_refl) Hrun).
Qed.

Fixpoint shifts (st : bool) (ds : list datum) : list datum :=
  match ds with [] => [] | d :: r => shift st d ++ shifts (1 <? length d) r end.
Definition st_after (st : bool) (ds : list datum) : bool := fold_left (fun _ d => 1 <? length d) ds st.
Lemma enc_call : forall keys ds, Forall2 (fun k d => calls_on tab k d /\ 0 < length d) keys ds -> forall st i ba hl fl ss q (pv : bphase),
  p_queue bool pv = keys -> p_tail bool pv = length keys ->
  exists i' ba' hl' fl' ss' pv', p_queue bool pv' = [] /\ p_tail bool pv' = 0 /\
    phase_runs eb_to_conv pv (enc_at st i ba hl fl ss q) LOuter pv' (enc_at (st_after st ds) i' ba' hl' fl' ss' (q ++ shifts st ds)) 0 0.
Proof.
  induction 1 as [|k d keys ds [Hk Hl] HF IH]; intros st i ba hl fl ss q pv Hq Ht.
  - exists i, ba, hl, fl, ss, pv. cbn [length] in Ht. split; [assumption|]. split; [assumption|]. cbn [shifts st_after fold_left]. rewrite app_nil_r. apply pr_idle.
    unfold raw_step, local_step, data_step. cbn [enc_at p_type p_curr]. rewrite Hq. reflexivity.
  - destruct (enc_one st i ba hl fl ss q pv k d keys Hq ltac:(rewrite Hq; exact Ht) Hk Hl) as (i1 & b1 & h1 & f1 & s1 & pv1 & Q1 & T1 & Hrun).
    destruct (IH (1 <? length d) i1 b1 h1 f1 s1 (q ++ shift st d) pv1 Q1 T1) as (i2 & b2 & h2 & f2 & s2 & pv2 & Q2 & T2 & R2).
    exists i2, b2, h2, f2, s2, pv2. split; [exact Q2|]. split; [exact T2|]. apply Hrun. cbn [shifts]. rewrite app_assoc. exact R2.
Qed.
Lemma st_after_app st a b : st_after st (a ++ b) = st_after (st_after st a) b.
Proof. unfold st_after. apply fold_left_app. Qed.
Lemma shifts_app : forall a st b, shifts st (a ++ b) = shifts st a ++ shifts (st_after st a) b.
Proof. induction a as [|d a IH]; intros st b; [reflexivity|]. cbn [app shifts]. rewrite IH, app_assoc. reflexivity. Qed.
Lemma enc_calls : forall kss dss, Forall2 (Forall2 (fun k d => calls_on tab k d /\ 0 < length d)) kss dss -> forall st i ba hl fl ss q (pv : bphase),
  p_queue bool pv = [] -> p_tail bool pv = 0 ->
  exists i' ba' hl' fl' ss' pv', p_queue bool pv' = [] /\ p_tail bool pv' = 0 /\
    calls eb_to_conv pv (enc_at st i ba hl fl ss q) kss pv' (enc_at (st_after st (concat dss)) i' ba' hl' fl' ss' (q ++ shifts st (concat dss))) 0 0.
Proof.
  induction 1 as [|ks ds kss dss HF HFF IH]; intros st i ba hl fl ss q pv Hq Ht.
  - exists i, ba, hl, fl, ss, pv. split; [assumption|]. split; [assumption|]. cbn. rewrite app_nil_r. apply cl_nil.
  - destruct (enc_call ks ds HF st i ba hl fl ss q (push pv ks)) as (i1 & b1 & h1 & f1 & s1 & pv1 & Q1 & T1 & R1).
    { unfold push. cbn [p_queue set_queue]. rewrite Hq. reflexivity. } { unfold push. cbn [p_tail set_queue]. rewrite Ht. reflexivity. }
    destruct (IH (st_after st ds) i1 b1 h1 f1 s1 (q ++ shifts st ds) pv1 Q1 T1) as (i2 & b2 & h2 & f2 & s2 & pv2 & Q2 & T2 & R2).
    exists i2, b2, h2, f2, s2, pv2. split; [exact Q2|]. split; [exact T2|]. cbn [concat]. rewrite st_after_app, shifts_app, app_assoc.
    change 0 with (0 + 0). eapply cl_cons; [exact R1|exact R2].
Qed.
(** The flush leaves the shifted state. *)
Lemma enc_flush st i ba hl fl ss q (pv : bphase) : p_queue bool pv = [] ->
  exists i' ba' hl' fl' ss', flushes eb_to_conv pv (enc_at st i ba hl fl ss q) pv (enc_at false i' ba' hl' fl' ss' (q ++ if st then [[0x0F]]%N else [])) 0 0.
Proof.
  intros Hq. destruct st.
  - exists i, ba, hl, false, (t_status root). set (q1 := q ++ [[0x0F]]%N).
    assert (E1 : raw_step bool eb_to_conv pv (enc_at true i ba hl fl ss q) LDead = LRes bool pv (enc_at false i ba hl false (t_status root) q1) 0 0 GNext).
    { unfold raw_step, local_step. cbn [enc_at p_type]. unfold data_step, data_dead. unfold enc_at at 1. cbn [set_flags p_fmatch p_match_data p_fpending p_floop enc_at].
      assert (Ef : call_flush bool (mkEp bool TO [c true] 0 0 i ba hl [] (with_status root ss) 0 true false false q (length q)) = Some (mkEp bool TO [c false] 0 0 i ba hl [] (with_status root ss) 0 true false false q1 (length q1))).
      { unfold call_flush, this_codec. cbn [p_codecs p_index nth_error c e_flush eb_to_flush e_priv list_upd]. f_equal. apply app_at. }
      unfold enc_at, set_flags. cbn [p_floop p_curr p_type p_codecs p_index p_i p_bak p_headlen p_match_data p_state p_offset p_fmatch p_fpending p_queue p_tail]. rewrite Ef. cbn [obind].
      cbn [p_floop p_curr p_type p_codecs p_index p_i p_bak p_headlen p_match_data p_state p_offset p_fmatch p_fpending p_queue p_tail]. rewrite reset_at. cbn [obind ub_or is_to p_type]. rewrite <- root_ws. reflexivity. }
    assert (E2 : raw_step bool eb_to_conv pv (enc_at false i ba hl false (t_status root) q1) LOuter = LRes bool pv (enc_at false i ba hl false (t_status root) q1) 0 0 GBreak).
    { unfold raw_step, local_step, data_step. cbn [enc_at p_type p_curr]. rewrite Hq. reflexivity. }
    refine (fl_dead bool eb_to_conv pv (enc_at true i ba hl fl ss q) pv (enc_at false i ba hl false (t_status root) q1) 0 0 pv (enc_at false i ba hl false (t_status root) q1) 0 0 eq_refl _ (fl_done bool eb_to_conv pv (enc_at false i ba hl false (t_status root) q1) eq_refl)).
    exact (pr_again bool eb_to_conv _ _ _ _ _ 0 0 GNext _ _ 0 0 E1 (or_intror eq_refl) (pr_idle bool eb_to_conv _ _ _ _ _ 0 0 E2)).
  - exists i, ba, hl, fl, ss. rewrite app_nil_r. apply fl_done. reflexivity.
Qed.
End Enc.

(** The shifts are those of the specification. *)
Lemma shifts_mixed : forall ds st, Forall (fun d => 0 < length d) ds -> mixed st ds (concat (shifts st ds ++ if st_after st ds then [[0x0F]]%N else [])).
Proof.
  induction ds as [|d ds IH]; intros st HF.
  - cbn. destruct st; cbn; constructor.
  - inversion HF as [|? ? Hl HF']; subst. specialize (IH (1 <? length d) HF'). cbn [shifts st_after fold_left]. fold (st_after (1 <? length d) ds).
    unfold shift. rewrite <- !app_assoc. destruct (Nat.ltb_spec 1 (length d)) as [L|L].
    + destruct st; cbn [andb negb].
      * replace (length d =? 1) with false by (symmetry; apply Nat.eqb_neq; lia). cbn [andb app concat]. apply mx_multi; assumption.
      * cbn [app concat]. apply mx_open; [exact L|]. apply mx_multi; assumption.
    + assert (E : length d = 1) by lia. rewrite E. destruct st; cbn [andb negb Nat.eqb app concat].
      * apply mx_close; [exact E|]. apply mx_single; assumption.
      * apply mx_single; assumption.
Qed.
Theorem enc_stream tab root init i ba kss dss : read_state tab 0 = Some root ->
  Forall2 (Forall2 (fun k d => calls_on tab k d /\ 0 < length d)) kss dss ->
  exists pv' th' bytes, streams eb_to_conv (input_phase bool) (fresh_phase bool TO (mkEc bool tab None (Some eb_to_flush) init false) root i ba) kss pv' th' 0 0 /\
    p_queue bool pv' = [] /\ concat (p_queue bool th') = bytes /\ mixed false (concat dss) bytes /\ cur_status th' = Some false.
Proof.
  intros Hr HF. destruct (enc_calls tab root init Hr kss dss HF false i ba 0 false (t_status root) [] (input_phase bool) eq_refl eq_refl) as (i1 & b1 & h1 & f1 & s1 & pv1 & Q1 & T1 & R1).
  destruct (enc_flush tab root init Hr (st_after false (concat dss)) i1 b1 h1 f1 s1 ([] ++ shifts false (concat dss)) pv1 Q1) as (i2 & b2 & h2 & f2 & s2 & R2).
  exists pv1. eexists _, _. split.
  - exists pv1. eexists _, 0, 0, 0, 0. split; [|split; [exact R2|split; reflexivity]].
    assert (Ef : fresh_phase bool TO (mkEc bool tab None (Some eb_to_flush) init false) root i ba = enc_at tab root init false i ba 0 false (t_status root) []).
    { assert (Er : with_status root (t_status root) = root) by (destruct root; reflexivity). unfold enc_at. rewrite Er. reflexivity. }
    rewrite Ef. exact R1.
  - split; [exact Q1|]. split; [reflexivity|]. split; [|reflexivity]. apply shifts_mixed.
    clear - HF. induction HF as [|a b kss dss H _ IH]; [constructor|]. cbn. apply Forall_app. split; [|exact IH].
    clear - H. induction H as [|x y a b [_ H] _ IH]; constructor; assumption.
Qed.

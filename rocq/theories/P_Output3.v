(** Histories of calls with arbitrary output modes. *)
From Verif Require Import Base Types M_Engine M_Output S_Session P_Output P_Output2.

Section E.
Context {P : Type}.
Notation ephase := (ephase P). Notation inst := (inst P).

Lemma output_switch_spec (t : ephase) mode : tail_ok t -> lossless mode ->
  exists r x, output_switch P t mode = Some r /\ p_queue P t = x ++ or_queue r /\ or_tail r = length (or_queue r) /\ delivered mode r = concat x.
Proof.
  intros Ht Hl. destruct mode as [|slack|b| |acc| |]; cbn [output_switch].
  - eexists _, []. split; [reflexivity|]. cbn. auto.
  - cbv zeta. set (q := p_queue P t). destruct (auto_copy_ok q (repeat None (slack + total q)) 0) as (m & E & Em).
    { rewrite repeat_length, total_concat. lia. }
    rewrite E. eexists _, q. split; [reflexivity|]. cbn [or_queue or_tail delivered or_len or_buf]. rewrite app_nil_r. repeat split.
    replace (slack + total q - slack) with (length (concat q)) by (rewrite total_concat; lia). rewrite Em. unfold defined_prefix. cbn [firstn app].
    rewrite firstn_app, map_length, Nat.sub_diag. cbn [firstn]. rewrite app_nil_r, firstn_all2 by (rewrite map_length; lia). apply defined_some.
  - destruct b as [[|x buf]|]; try (eexists _, []; split; [reflexivity|]; cbn; auto).
    destruct (pre_copy_ok (p_queue P t) (map Some (x :: buf)) (length (x :: buf)) 0 (p_tail P t)) as (a & b & E & H1 & H2 & H3); [apply map_length|lia|exact Ht|].
    cbv zeta. rewrite H2. eexists _, a. split; [reflexivity|]. cbn [or_queue or_tail delivered or_len or_buf]. repeat split; [exact E|].
    unfold defined_prefix. cbn [firstn plus app]. rewrite firstn_app, map_length, Nat.sub_diag. cbn [firstn]. rewrite app_nil_r, firstn_all2 by (rewrite map_length; lia). apply defined_some.
  - eexists _, (p_queue P t). split; [reflexivity|]. cbn. rewrite app_nil_r. auto.
  - eexists _, (p_queue P t). split; [reflexivity|]. cbn. rewrite app_nil_r. repeat split. apply fd_write_full. intros; apply Hl.
  - contradiction.
  - eexists _, (p_queue P t). split; [reflexivity|]. cbn. rewrite app_nil_r. repeat split. destruct (p_queue P t); reflexivity.
Qed.

Lemma last_phase_app (s : inst) l t : i_phases P s = l ++ [t] -> last_phase P s = Some t /\ phasen P s = length l.
Proof.
  intros E. assert (Hn : phasen P s = length l) by (unfold phasen; rewrite E, app_length; cbn; lia).
  unfold last_phase. rewrite Hn, E. split; [apply nth_app_last|reflexivity].
Qed.

Lemma set_last_app (s : inst) l t q n : i_phases P s = l ++ [t] ->
  set_last P s q n = mkInst P (l ++ [set_queue P t q n]) (i_flush P s) (i_ierr P s) (i_oerr P s).
Proof. intros E. destruct (last_phase_app s l t E) as (E1 & E2). unfold set_last. rewrite E1, E2, E, list_upd_app_r by reflexivity. reflexivity. Qed.

Lemma set_queue_same (t : ephase) : set_queue P t (p_queue P t) (p_tail P t) = t.
Proof. destruct t; reflexivity. Qed.

Lemma call_rel a (s sH : inst) fuel c : Rel a s sH -> last_ok s -> lossless (c_mode c) ->
  match bsdconv_call P fuel s (c_input c) (c_flush c) (c_mode c), bsdconv_call P fuel sH (c_input c) (c_flush c) OHold with
  | CDone _ s1 r, CDone _ s1H rH => last_ok s1 /\ delivered OHold rH = [] /\ exists x, Rel (a ++ x) s1 s1H /\ delivered (c_mode c) r = concat x
  | CUB _, CUB _ => True
  | CFuel _, CFuel _ => True
  | _, _ => False
  end.
Proof.
  intros HR HL Hm. unfold bsdconv_call. pose proof (engine_rel a fuel s sH (c_input c) (c_flush c) HR) as HE.
  pose proof (engine_last_ok fuel s (c_input c) (c_flush c)) as HL1.
  destruct (bsdconv_engine P fuel s (c_input c) (c_flush c)) as [s1| |]; destruct (bsdconv_engine P fuel sH (c_input c) (c_flush c)) as [s1H| |]; try contradiction; auto.
  destruct HE as (l & t & Hl & E & E' & F1 & F2 & F3).
  destruct (HL1 s1 HL eq_refl) as (l2 & t2 & _ & E2 & Ht). rewrite E in E2. apply app_inj_tail in E2. destruct E2 as (<- & <-).
  destruct (last_phase_app s1 l t E) as (P1 & _). destruct (last_phase_app s1H l _ E') as (P2 & _). rewrite P1, P2.
  destruct (output_switch_spec t (c_mode c) Ht Hm) as (r & x & Hr & Hq & Htl & Hd). rewrite Hr. cbn [output_switch or_queue or_tail delivered].
  rewrite (set_last_app s1 l t _ _ E), (set_last_app s1H l (pfx a t) _ _ E'), set_queue_same.
  split; [|split; [reflexivity|]].
  - exists l, (set_queue P t (or_queue r) (or_tail r)). cbn. split; [assumption|]. split; [reflexivity|exact Htl].
  - exists x. split; [|exact Hd]. exists l, (set_queue P t (or_queue r) (or_tail r)). cbn. repeat split; auto. f_equal. f_equal.
    unfold pfx, set_queue. cbn. f_equal.
    + rewrite Hq, app_assoc. reflexivity.
    + rewrite Ht, Htl, Hq, !app_length. lia.
Qed.

Lemma hist_rel fuel : forall h a (s sH : inst), Rel a s sH -> last_ok s -> Forall (fun c => lossless (c_mode c)) h ->
  match run_hist P fuel s h, run_hist P fuel sH (map hold h) with
  | Some (s', out), Some (sH', outH) => outH = [] /\ exists a', Rel a' s' sH' /\ concat a' = concat a ++ out
  | None, None => True
  | _, _ => False
  end.
Proof.
  induction h as [|c h IH]; intros a s sH HR HL Hm.
  - cbn. split; [reflexivity|]. exists a. rewrite app_nil_r. auto.
  - inversion Hm; subst. cbn [run_hist map]. change (c_input (hold c)) with (c_input c). change (c_flush (hold c)) with (c_flush c). change (c_mode (hold c)) with OHold.
    pose proof (call_rel a s sH fuel c HR HL H1) as HC.
    destruct (bsdconv_call P fuel s (c_input c) (c_flush c) (c_mode c)) as [s1 r| |]; destruct (bsdconv_call P fuel sH (c_input c) (c_flush c) OHold) as [s1H rH| |]; try contradiction; auto.
    destruct HC as (HL1 & Hd & x & HR1 & Hx). specialize (IH _ _ _ HR1 HL1 H2).
    destruct (run_hist P fuel s1 h) as [[s' out]|]; destruct (run_hist P fuel s1H (map hold h)) as [[sH' outH]|]; try contradiction; auto.
    destruct IH as (-> & a' & HR' & Ha). rewrite Hd. split; [reflexivity|]. exists a'. split; [exact HR'|]. rewrite Ha, concat_app, Hx, <- app_assoc. reflexivity.
Qed.

Lemma pending_rel a (s sH : inst) : Rel a s sH -> pending P sH = concat a ++ pending P s.
Proof.
  intros (l & t & Hl & E & E' & _). unfold pending. destruct (last_phase_app s l t E) as (-> & _). destruct (last_phase_app sH l _ E') as (-> & _).
  cbn. apply concat_app.
Qed.

Lemma rel_refl (s : inst) : last_ok s -> Rel [] s s.
Proof.
  intros (l & t & Hl & E & Ht). exists l, t. repeat split; auto. rewrite E. f_equal. f_equal. unfold pfx. cbn. symmetry. apply set_queue_same.
Qed.
End E.

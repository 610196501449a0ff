(** Theorems about the output modes (C17, C18, C19), for instances with arbitrary codecs. *)
From Verif Require Import Base Types M_Engine M_Output S_Session P_Output P_Output2 P_Output3 P_Output4.

(** C17: whatever lossless modes a program uses from any reachable state, what it receives followed by what
    is still waiting is what would be waiting if it had only used BSDCONV_HOLD; the counters agree too; and
    the calls return (or fail) together. *)
Theorem C17_output_modes_deliver_once : forall (P : Type) (s : inst P) (h : list call) (fuel : nat),
  reachable s -> Forall (fun c => lossless (c_mode c)) h ->
  match run_hist P fuel s h, run_hist P fuel s (map hold h) with
  | Some (s', out), Some (sH, outH) =>
      outH = [] /\ out ++ pending P s' = pending P sH /\ i_ierr P s' = i_ierr P sH /\ i_oerr P s' = i_oerr P sH
  | None, None => True
  | _, _ => False
  end.
Proof.
  intros P s h fuel HR Hl. apply reachable_last_ok in HR. pose proof (hist_rel fuel h [] s s (rel_refl s HR) HR Hl) as H.
  destruct (run_hist P fuel s h) as [[s' out]|]; destruct (run_hist P fuel s (map hold h)) as [[sH outH]|]; try exact H.
  destruct H as (-> & a & HRa & Ha). cbn in Ha. split; [reflexivity|]. split; [rewrite (pending_rel a s' sH HRa), Ha; reflexivity|].
  destruct HRa as (l & t & _ & _ & _ & _ & H1 & H2). auto.
Qed.

(** C18: a preallocated buffer. [HOLD] is the same call in BSDCONV_HOLD mode. *)
Theorem C18_preallocated_is_maximal : forall (P : Type) (s : inst P) fuel inp fl (buf : list N) sH rH,
  reachable s -> buf <> [] -> bsdconv_call P fuel s inp fl OHold = CDone P sH rH ->
  exists s' r x, bsdconv_call P fuel s inp fl (OPre (Some buf)) = CDone P s' r /\
    waiting sH = x ++ waiting s' /\
    length (concat x) <= length buf /\ or_len r = Some (length (concat x)) /\
    or_buf r = map Some (concat x ++ skipn (length (concat x)) buf) /\
    match waiting s' with [] => True | d :: _ => length buf < length (concat x) + length d end.
Proof.
  intros P s fuel inp fl buf sH rH HR Hne. apply reachable_last_ok in HR. unfold bsdconv_call.
  destruct (bsdconv_engine P fuel s inp fl) as [s1| |] eqn:E; try discriminate.
  destruct (engine_last_ok _ _ _ _ _ HR E) as (l & t & Hl & Ep & Ht). destruct (last_phase_app s1 l t Ep) as (-> & _).
  cbn [output_switch]. intros EH. injection EH as <- <-. destruct buf as [|x0 buf0]; [contradiction|]. set (buf := x0 :: buf0) in *.
  destruct (pre_copy_ok (p_queue P t) (map Some buf) (length buf) 0 (p_tail P t)) as (a & b & E1 & H1 & H2 & H3); [apply map_length|lia|exact Ht|].
  rewrite H2. eexists _, _, a. split; [reflexivity|]. rewrite !(set_last_app s1 l t _ _ Ep). cbn [or_queue or_tail or_len or_buf].
  unfold waiting, last_phase, phasen. cbn [i_phases]. rewrite !app_length. cbn [length]. replace (length l + 1 - 1) with (length l) by lia. rewrite !nth_app_last. cbn [set_queue p_queue].
  split; [exact E1|]. split; [exact H1|]. split; [reflexivity|]. split; [|exact H3]. cbn [firstn app plus]. rewrite map_app. f_equal. symmetry. rewrite skipn_map; reflexivity.
Qed.

(** The size query: output.data NULL or output.len 0.  Nothing is delivered or lost; the answer is exact when
    the conversion does not end with a decoder. *)
Theorem C18_query_is_exact : forall (P : Type) (s : inst P) fuel inp fl b sH rH,
  reachable s -> b = None \/ b = Some [] -> bsdconv_call P fuel s inp fl OHold = CDone P sH rH ->
  (exists ph, last_phase P sH = Some ph /\ p_type P ph <> FROM) ->
  exists r, bsdconv_call P fuel s inp fl (OPre b) = CDone P sH r /\ or_len r = Some (length (pending P sH)).
Proof.
  intros P s fuel inp fl b sH rH HR Hb Hc Hty. pose proof (re_call _ _ _ _ _ _ _ HR Hc) as HR'.
  pose proof (reachable_heads0 _ HR') as H0. apply reachable_last_ok in HR. unfold bsdconv_call in *.
  destruct (bsdconv_engine P fuel s inp fl) as [s1| |] eqn:E; try discriminate.
  destruct (engine_last_ok _ _ _ _ _ HR E) as (l & t & Hl & Ep & Ht). destruct (last_phase_app s1 l t Ep) as (EL & _). rewrite EL in *.
  cbn [output_switch] in *. injection Hc as <- <-. cbn [or_queue or_tail] in *.
  rewrite (set_last_app s1 l t _ _ Ep), set_queue_same in *.
  assert (EL' : last_phase P (mkInst P (l ++ [t]) (i_flush P s1) (i_ierr P s1) (i_oerr P s1)) = Some t) by (apply (last_phase_app _ l t); reflexivity).
  destruct Hty as (ph & Hph & Hty). rewrite EL' in Hph. injection Hph as <-.
  assert (Hh : p_headlen P t = 0) by (apply (H0 (length l) t); [apply nth_app_last|exact Hl|exact Hty]).
  assert (HX : exists r, match b with Some (x :: buf) => match pre_copy (map Some (x :: buf)) (length (x :: buf)) 0 (p_queue P t) (p_tail P t) with None => None | Some (q', t', m, i) => Some (mkOr q' t' (Some i) m [] None) end
      | _ => Some (mkOr (p_queue P t) (p_tail P t) (Some (p_headlen P t + total (p_queue P t))) [] [] None) end = Some r /\ or_queue r = p_queue P t /\ or_tail r = p_tail P t /\ or_len r = Some (length (concat (p_queue P t)))).
  { rewrite Hh, <- total_concat. destruct Hb as [-> | ->]; eexists; (split; [reflexivity|]); auto. }
  destruct HX as (r & X1 & X2 & X3 & X4). cbv zeta. rewrite X1, X2, X3. exists r. split; [rewrite (set_last_app s1 l t _ _ Ep), set_queue_same; reflexivity|].
  unfold pending. rewrite EL'. exact X4.
Qed.

(** C19 *)
Theorem C19_automatic_buffer_is_exact : forall (P : Type) (s : inst P) fuel inp fl slack sH rH,
  reachable s -> bsdconv_call P fuel s inp fl OHold = CDone P sH rH ->
  exists s' r, bsdconv_call P fuel s inp fl (OAuto slack) = CDone P s' r /\
    or_len r = Some (length (pending P sH)) /\ waiting s' = [] /\
    or_buf r = map Some (pending P sH) ++ repeat None slack.
Proof.
  intros P s fuel inp fl slack sH rH HR. apply reachable_last_ok in HR. unfold bsdconv_call.
  destruct (bsdconv_engine P fuel s inp fl) as [s1| |] eqn:E; try discriminate.
  destruct (engine_last_ok _ _ _ _ _ HR E) as (l & t & Hl & Ep & Ht). destruct (last_phase_app s1 l t Ep) as (EL & _). rewrite EL.
  cbn [output_switch]. intros EH. injection EH as <- <-. cbv zeta.
  destruct (auto_copy_ok (p_queue P t) (repeat None (slack + total (p_queue P t))) 0) as (m & E1 & Em). { rewrite repeat_length, total_concat. lia. }
  rewrite E1. cbn [or_queue or_tail or_len or_buf]. eexists _, _. split; [reflexivity|].
  rewrite !(set_last_app s1 l t _ _ Ep). cbn [or_len or_buf or_queue or_tail]. unfold waiting, pending, last_phase, phasen. cbn [i_phases]. rewrite !app_length. cbn [length]. replace (length l + 1 - 1) with (length l) by lia. rewrite !nth_app_last. cbn [set_queue p_queue].
  split; [f_equal; rewrite total_concat; lia|]. split; [reflexivity|]. rewrite Em. cbn [firstn app plus]. f_equal. rewrite total_concat. rewrite Nat.add_comm, repeat_app. rewrite skipn_app, repeat_length, Nat.sub_diag. rewrite skipn_all2 by (rewrite repeat_length; lia). reflexivity.
Qed.
Print Assumptions C17_output_modes_deliver_once.
Print Assumptions C18_preallocated_is_maximal.
Print Assumptions C18_query_is_exact.
Print Assumptions C19_automatic_buffer_is_exact.

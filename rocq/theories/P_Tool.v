From Verif Require Import Base Types M_Engine M_Output M_Tool S_Tool S_Session P_Engine3.
From Coq Require Import ZifyBool ZifyN ZifyNat.

Lemma reading_loop n content reads : reading n content reads ->
  exists l, l <> [] /\ file_loop reads = Some (stream_calls l) /\ inputs l = reads /\ concat (inputs l) = content /\ Forall (fun x => snd x = OFile) l /\ Forall (fun x => fst x <> None) l.
Proof.
  induction 1 as [|b content r Hb Hn H (l & Hl & E & EI & EC & HF & HN)].
  - exists [(Some [], OFile)]. repeat split; try discriminate; repeat constructor; discriminate.
  - exists ((Some b, OFile) :: l). split; [discriminate|]. split.
    + cbn [file_loop]. destruct (Nat.eqb_spec (length b) 0) as [E0|_]; [destruct b; [contradiction|discriminate]|]. rewrite E. destruct l as [|x l]; [contradiction|]. destruct x. reflexivity.
    + split; [cbn; f_equal; exact EI|]. split; [cbn; f_equal; exact EC|]. split; constructor; try assumption; [reflexivity|discriminate].
Qed.

Section P.
Context {P : Type}.
Lemma used_hist fuel (s0 : inst P) : forall h s s' out, used s0 s -> run_hist P fuel s h = Some (s', out) -> used s0 s'.
Proof.
  induction h as [|c h IH]; intros s s' out HU H; cbn in H; [injection H as <- <-; assumption|].
  destruct (bsdconv_call P fuel s (c_input c) (c_flush c) (c_mode c)) as [s1 r| |] eqn:E; try discriminate.
  destruct (run_hist P fuel s1 h) as [[s2 o2]|] eqn:E2; [|discriminate]. injection H as <- <-. eapply IH; [|exact E2]. eapply us_call; eassumption.
Qed.
Lemma file_pending fuel : forall h (s s' : inst P) out, h <> [] -> Forall (fun c => c_mode c = OFile) h -> run_hist P fuel s h = Some (s', out) -> pending P s' = [].
Proof.
  induction h as [|c h IH]; intros s s' out Hne HF H; [contradiction|]. inversion HF; subst. cbn in H.
  destruct (bsdconv_call P fuel s (c_input c) (c_flush c) (c_mode c)) as [s1 r| |] eqn:E; try discriminate.
  destruct (run_hist P fuel s1 h) as [[s2 o2]|] eqn:E2; [|discriminate]. injection H as <- <-.
  destruct h as [|c' h].
  - cbn in E2. injection E2 as <- _. unfold bsdconv_call in E. rewrite H2 in E. destruct (bsdconv_engine _ _ _ _ _) as [s2| |]; try discriminate.
    destruct (last_phase P s2) as [ph|] eqn:EL; [|discriminate]. cbn in E. injection E as <- _. unfold pending, set_last. rewrite EL. unfold last_phase, phasen in *. cbn [i_phases].
    rewrite list_upd_length. erewrite list_upd_nth by exact EL. reflexivity.
  - eapply IH; [discriminate|assumption|exact E2].
Qed.
End P.

(** ** In place *)
Lemma name_eqb_eq a : forall b, name_eqb a b = true <-> a = b.
Proof. induction a as [|x a IH]; intros [|y b]; cbn; try (split; congruence). rewrite andb_true_iff, N.eqb_eq. fold name_eqb. rewrite IH. split; [intros (-> & ->); reflexivity|intros E; injection E as -> ->; auto]. Qed.
Lemma set_same d n c : set_file d n c n = c.
Proof. unfold set_file. rewrite (proj2 (name_eqb_eq n n) eq_refl). reflexivity. Qed.
Lemma set_other d n c m : m <> n -> set_file d n c m = d m.
Proof. intros H. unfold set_file. destruct (name_eqb m n) eqn:E; [apply name_eqb_eq in E; contradiction|reflexivity]. Qed.

Section Place.
Variables (d : disk) (target tmp : name) (orig full : list N).
Hypothesis Hne : tmp <> target.
Hypothesis Ht : d target = Some orig.
(** While writing: [done] handed to fwrite so far. *)
Definition writing (done : list N) (w : world) : Prop :=
  exists c, w_disk w tmp = Some c /\ c ++ w_buf w = done /\ forall n, n <> tmp -> w_disk w n = d n.
Lemma spill_writing done w k : writing done w -> writing done (do_op (Spill tmp k) w).
Proof.
  intros (c & H1 & H2 & H3). exists (c ++ firstn k (w_buf w)). cbn. unfold append. rewrite H1. rewrite set_same. split; [reflexivity|].
  split; [rewrite <- app_assoc, firstn_skipn; assumption|]. intros n Hn. rewrite set_other by assumption. apply H3, Hn.
Qed.
Lemma fwrite_writing done w b : writing done w -> writing (done ++ b) (do_op (Fwrite b) w).
Proof. intros (c & H1 & H2 & H3). exists c. cbn. split; [assumption|]. split; [rewrite app_assoc, H2; reflexivity|assumption]. Qed.
Lemma spills_prefix done : forall ks w, writing done w -> forall p, writing done (run_ops (firstn p (map (Spill tmp) ks)) w).
Proof.
  induction ks as [|k ks IH]; intros w Hw p; [rewrite firstn_nil; exact Hw|]. destruct p as [|p]; [exact Hw|]. cbn [map firstn]. cbn [run_ops fold_left].
  apply IH. apply spill_writing. exact Hw.
Qed.
Lemma spills_all done ks w : writing done w -> writing done (run_ops (map (Spill tmp) ks) w).
Proof. intros Hw. rewrite <- (firstn_all (map (Spill tmp) ks)). apply spills_prefix. exact Hw. Qed.
Lemma run_ops_app l m w : run_ops (l ++ m) w = run_ops m (run_ops l w).
Proof. unfold run_ops. apply fold_left_app. Qed.
Lemma write_prefix sp : forall writes k done w, writing done w -> forall p, exists b, writing b (run_ops (firstn p (write_ops tmp writes sp k)) w).
Proof.
  induction writes as [|b writes IH]; intros k done w Hw p; [cbn; rewrite firstn_nil; exists done; exact Hw|].
  destruct p as [|p]; [exists done; exact Hw|]. cbn [write_ops firstn run_ops fold_left]. rewrite firstn_app. fold (run_ops (firstn p (map (Spill tmp) (sp k)) ++ firstn (p - length (map (Spill tmp) (sp k))) (write_ops tmp writes sp (S k))) (do_op (Fwrite b) w)).
  rewrite run_ops_app. apply fwrite_writing with (b := b) in Hw. eapply IH. apply spills_prefix. exact Hw.
Qed.
Lemma write_all sp : forall writes k done w, writing done w -> writing (done ++ concat writes) (run_ops (write_ops tmp writes sp k) w).
Proof.
  induction writes as [|b writes IH]; intros k done w Hw; [cbn; rewrite app_nil_r; exact Hw|].
  cbn [write_ops]. change (Fwrite b :: map (Spill tmp) (sp k) ++ write_ops tmp writes sp (S k)) with ([Fwrite b] ++ map (Spill tmp) (sp k) ++ write_ops tmp writes sp (S k)).
  rewrite !run_ops_app. cbn [concat]. rewrite app_assoc. apply IH. apply spills_all. apply fwrite_writing. exact Hw.
Qed.
Lemma mk_writing : writing [] (do_op (Mkstemp tmp) (mkWorld d [])).
Proof. exists []. cbn. rewrite set_same. split; [reflexivity|]. split; [reflexivity|]. intros n Hn. apply set_other, Hn. Qed.

Definition safe (w : world) : Prop := w_disk w target = Some orig \/ w_disk w target = Some full \/ w_disk w tmp = Some full.
Lemma inplace_states sp writes : concat writes = full -> forall l m, inplace_ops target tmp writes sp = l ++ m ->
  let w := run_ops l (mkWorld d []) in
  safe w /\ (forall n, n <> tmp -> n <> target -> w_disk w n = d n) /\
  (m = [] -> w_disk w target = Some full /\ w_disk w tmp = None).
Proof.
  intros HC l m E. cbv zeta. destruct l as [|o l].
  { cbn. split; [left; exact Ht|]. split; [reflexivity|]. intros ->. discriminate. }
  unfold inplace_ops in E. cbn [app] in E. injection E as <- E. cbn [run_ops fold_left]. fold (run_ops l (do_op (Mkstemp tmp) (mkWorld d []))).
  set (w0 := do_op (Mkstemp tmp) (mkWorld d [])) in *. pose proof mk_writing as H0. fold w0 in H0. clearbody w0.
  assert (HL : l = firstn (length l) (write_ops tmp writes sp 0 ++ [Fclose tmp; Unlink target; Rename tmp target])) by (rewrite E, firstn_app, Nat.sub_diag, firstn_all, firstn_O, app_nil_r; reflexivity).
  destruct (Nat.le_gt_cases (length l) (length (write_ops tmp writes sp 0))) as [Hle|Hgt].
  - rewrite HL. rewrite firstn_app. replace (length l - length (write_ops tmp writes sp 0)) with 0 by lia. rewrite firstn_O, app_nil_r.
    destruct (write_prefix sp writes 0 [] w0 H0 (length l)) as (b & c & H1 & H2 & H3). split; [left; rewrite H3 by congruence; exact Ht|].
    split; [intros n Hn _; apply H3, Hn|]. intros ->. rewrite app_nil_r in E. exfalso. assert (length l = length (write_ops tmp writes sp 0) + 3) by (rewrite <- E, app_length; reflexivity). lia.
  - destruct (write_all sp writes 0 [] w0 H0) as (c & H1 & H2 & H3). cbn [app] in H2. rewrite HC in H2. set (w1 := run_ops (write_ops tmp writes sp 0) w0) in *.
    assert (HS : exists k, l = write_ops tmp writes sp 0 ++ firstn (S k) [Fclose tmp; Unlink target; Rename tmp target] /\ (m = [] -> k >= 2)).
    { exists (length l - length (write_ops tmp writes sp 0) - 1). replace (S _) with (length l - length (write_ops tmp writes sp 0)) by lia. split.
      - rewrite HL at 1. rewrite firstn_app, firstn_all2 by lia. reflexivity.
      - intros ->. rewrite app_nil_r in E. assert (length l = length (write_ops tmp writes sp 0) + 3) by (rewrite <- E, app_length; reflexivity). lia. }
    destruct HS as (k & -> & Hk). rewrite run_ops_app. fold w1. cbn [firstn run_ops fold_left].
    set (w2 := do_op (Fclose tmp) w1). assert (W2 : w_disk w2 tmp = Some full /\ w_disk w2 target = Some orig /\ forall n, n <> tmp -> w_disk w2 n = d n).
    { subst w2. cbn. unfold append. rewrite H1, set_same, H2. split; [reflexivity|]. split; [rewrite set_other, H3 by congruence; exact Ht|]. intros n Hn. rewrite set_other by assumption. apply H3, Hn. }
    destruct W2 as (W2 & W2' & W2o). clearbody w2. destruct k as [|k]; [|destruct k as [|k]]; cbn [firstn fold_left].
    + split; [right; right; exact W2|]. split; [intros n Hn _; apply W2o, Hn|]. intros Hm. specialize (Hk Hm). lia.
    + split; [right; right; cbn; rewrite set_other by assumption; exact W2|]. split; [intros n Hn Hn'; cbn; rewrite set_other by assumption; apply W2o, Hn|]. intros Hm. specialize (Hk Hm). lia.
    + rewrite firstn_nil. cbn [fold_left do_op w_disk w_buf]. rewrite set_other by assumption. rewrite W2. cbn [w_disk w_buf]. split; [right; left; apply set_same|].
      split; [intros n Hn Hn'; rewrite !set_other by assumption; apply W2o, Hn|]. intros _. split; [apply set_same|]. rewrite set_other by assumption. apply set_same.
Qed.
End Place.

Section Init.
Context {P : Type}.
Lemma init_phase_def (a b : ephase P) : map (init_codec P) (p_codecs P a) = map (init_codec P) (p_codecs P b) -> init_phase P false a <> None -> init_phase P false b <> None.
Proof.
  intros E. unfold init_phase, reset. cbv zeta. cbn [set_codecs set_curr set_match_data set_headlen set_queue set_offset set_flags p_codecs]. rewrite E.
  destruct (map (init_codec P) (p_codecs P b)) as [|c l]; [congruence|]. destruct (read_state (e_tab P c) 0); congruence.
Qed.
Lemma init_def (s0 s a : inst P) : same_setup s0 s -> i_phases P s <> [] -> bsdconv_init P s0 = Some a -> exists b, bsdconv_init P s = Some b.
Proof.
  unfold same_setup, bsdconv_init. intros HS HN H. destruct (i_phases P s0) as [|p0 r0]; [discriminate|]. destruct (i_phases P s) as [|p1 r1]; [contradiction|]. clear HN. cbn [tl] in HS.
  change (init_phase P true p1) with (Some (set_match_data P (set_headlen P (set_queue P (set_offset P (set_flags P p1 false false false) 0) [] 0) 0) [])).
  cbn [obind]. destruct (init_phase P true p0); [|discriminate]. cbn [obind] in H.
  assert (HF : fold_right (fun t acc => obind acc (fun l => obind (init_phase P false t) (fun t' => Some (t' :: l)))) (Some []) r0 <> None ->
               fold_right (fun t acc => obind acc (fun l => obind (init_phase P false t) (fun t' => Some (t' :: l)))) (Some []) r1 <> None).
  { clear -HS. induction HS as [|x y l l' (_ & HC) HS IH]; [auto|]. cbn [fold_right]. destruct (fold_right _ _ l) as [u|]; [|intros K; exfalso; apply K; reflexivity]. destruct (fold_right _ _ l') as [v|]; [|intros _; exfalso; apply IH; congruence].
    cbn [obind]. pose proof (init_phase_def x y HC) as Hd. destruct (init_phase P false x); [|intros K; exfalso; apply K; reflexivity]. destruct (init_phase P false y); [discriminate|]. intros _. exfalso. apply Hd; congruence. }
  destruct (fold_right _ _ r0); [|discriminate]. destruct (fold_right _ _ r1); [eexists; reflexivity|]. exfalso. apply HF; congruence.
Qed.
Lemma init_errs (s s' : inst P) : bsdconv_init P s = Some s' -> i_ierr P s' = i_ierr P s /\ i_oerr P s' = i_oerr P s.
Proof. unfold bsdconv_init. destruct (i_phases P s); [discriminate|]. destruct (init_phase P true _); [|discriminate]. cbn [obind]. destruct (fold_right _ _ _); [|discriminate]. cbn [obind]. intros H. injection H as <-. auto. Qed.
End Init.

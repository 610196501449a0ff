(** Phases that end with COUNT, as phases of P_Flow4. *)
From Verif Require Import Base Types M_Engine M_Output M_Create M_Callback M_UTF8 M_UTF16 M_Modules M_Fallback M_Star M_Inter M_Stars M_Stage M_Count S_Session S_Unicode S_Rest S_Source S_Dict S_Table S_Convert S_Fallback S_Flow S_Transcode S_Stage S_Count S_Engine P_Trans P_Engine1 P_Engine2 P_Engine3 P_Engine4 P_Engine5 P_Engine6 P_Dict P_Convert P_Callback P_Session P_Session2 P_Session3 P_CbSession P_Ascii P_Charset P_Unicode P_Pair P_Shape P_Create P_UDA P_Escape2 P_Fallback P_Flow P_Flow2 P_Flow3 P_Flow4 P_Flow5 P_Flow6 P_Weak P_Stage P_Count P_Count2.
From Coq Require Import ZifyBool ZifyN ZifyNat.

Definition er (d : datum) : datum := match d with x :: r => if ((x =? 998) || (x =? 999))%N then r else d | [] => [] end.
Definition tag (d : datum) : nat := match d with x :: _ => if (x =? 999)%N then 1 else 0 | [] => 0 end.
Definition cadd (p : priv) (n : nat) : priv := match p with PNum k => PNum (k + N.of_nat n) | _ => p end.
Definition mark (f : option (datum -> bool)) (d : datum) : datum := (if accepts f d then 999%N else 998%N) :: d.
Lemma cadd_0 p : cadd p 0 = p. Proof. destruct p; cbn; try reflexivity. rewrite N.add_0_r. reflexivity. Qed.
Lemma cadd_add p a b : cadd (cadd p a) b = cadd p (a + b). Proof. destruct p; cbn; try reflexivity. f_equal. lia. Qed.
Notation cfix := (fixd er tag).
Lemma nil_cfix : cfix []. Proof. split; reflexivity. Qed.
Lemma le_cfix d : le256 d -> cfix d.
Proof.
  destruct d as [|x d]; intros H; [apply nil_cfix|]. inversion H; subst. unfold fixd, er, tag. destruct (N.eqb_spec x 998); [lia|]. destruct (N.eqb_spec x 999); [lia|]. auto.
Qed.
Lemma wl_cfix d : wl d -> cfix d.
Proof. destruct d as [|x d]; intros H; [apply nil_cfix|]. cbn in H. unfold fixd, er, tag. destruct (N.eqb_spec x 998); [lia|]. destruct (N.eqb_spec x 999); [lia|]. auto. Qed.
Lemma er_mark f d : er (mark f d) = d. Proof. unfold mark. destruct (accepts f d); reflexivity. Qed.
Lemma tag_mark f d : tag (mark f d) = if accepts f d then 1 else 0. Proof. unfold mark. destruct (accepts f d); reflexivity. Qed.

Section One.
Variables (ess : list (list sentry)) (f : option (datum -> bool)) (n0 : N).
Definition TCOUNT : star N := mkStar (fun n d => (if accepts f d then n + 1 else n, NEXTPHASE, [mark f d])%N) no_flush.
Definition tcount : ecodec priv := star_codec PNum get_num TCOUNT false None n0.
Definition isnum (p : priv) : Prop := exists n, p = PNum n.
Definition tcount_spec : codec_spec (P:=priv) := mkKs (star_sem (fun d => Some [mark f d])) isnum (fun pre s off lb p => pre = [] /\ kids_all 1 s /\ lb = false /\ isnum p).
Lemma tcount_ok to : data_ok to tcount tcount_spec.
Proof.
  constructor.
  - exists star_root. split; [reflexivity|]. intros off p Hp. split; [reflexivity|]. split; [unfold kids_all; cbn; auto 10|]. split; [reflexivity|exact Hp].
  - intros pre s off lb p x (H1 & H2 & H3 & H4). split; [exact H1|]. split; [exact H2|]. split; [exact H3|exact H4].
  - intros pre s off lb p d Hd (-> & Hk & -> & (n & ->)). destruct d as [|x d]; [contradiction|]. cbn [app k_v tcount_spec star_sem k_clean]. cbn [bl].
    destruct (N.ltb_spec x 257) as [Hx|Hx].
    + rewrite (feed1_all _ _ _ _ _ 0 sub1 Hk) by auto. cbn [sub1 t_status]. rewrite (bl_stay _ _ sub1) by (try reflexivity; split; reflexivity).
      assert (Ed : (match d with [] => sub1 | _ => sub1 end) = sub1) by (destruct d; reflexivity). change (mkTs SUBROUTINE [] 65535 0 []) with sub1. rewrite Ed. cbn [sub1 t_status].
      eexists. split; [reflexivity|]. cbn. split; [eexists; reflexivity|reflexivity].
    + destruct Hk as (K1 & K2 & K3). unfold feed1, get_offset. rewrite K1, K2. replace ((0 <=? x)%N && (x <? 257)%N) with false by lia. cbn [read_state star_table nth_error t_status tcount star_codec e_tab]. split; [reflexivity|exists n; reflexivity].
Qed.
Lemma tcount_eof : eof_clean tcount_spec. Proof. intros pre s off lb p _ (_ & _ & _ & H). exact H. Qed.
Definition jc := length ess.
Definition cks : list (codec_spec (P:=priv)) := map (fun es => data_spec (file_dict es) (compiled es)) ess ++ [tcount_spec].
Lemma cks_eof j k : nth_error cks j = Some k -> eof_clean k.
Proof.
  intros H. apply nth_error_In in H. apply in_app_or in H as [H|[<-|[]]]; [|exact tcount_eof]. apply in_map_iff in H as (es & <- & _). intros pre s off lb p _ _. exact I.
Qed.

Definition cspec := count_spec er tag jc cadd cks.
Definition crel (ps : list priv) : Den (P:=priv) := cden er tag cadd cks (nth jc ps PNil) [].
Definition count_fph : fphase (P:=priv) := FGen INTER (map (fun es => tab_codec (compiled es)) ess ++ [count_mod f n0]) cspec crel.

Hypothesis Hne : ess <> [].
Hypothesis HE : Forall (Forall entry_ok) ess.
Hypothesis HS : forall es w o, In es ess -> lookup (file_dict es) w = Some o -> has_longer (file_dict es) w = true -> o <> [].

(** The codecs of the real phase and of the marking one, both with the private states [ps]. *)
Fixpoint with_privs (cs : list (ecodec priv)) (ps : list priv) : list (ecodec priv) :=
  match cs, ps with c :: cs, p :: ps => set_priv c p :: with_privs cs ps | _, _ => [] end.
Definition realc := map (fun es => tab_codec (compiled es)) ess ++ [count_mod f n0].
Definition markc := map (fun es => tab_codec (compiled es)) ess ++ [tcount].
Lemma with_len cs ps : length cs = length ps -> length (with_privs cs ps) = length cs.
Proof. revert ps. induction cs as [|c cs IH]; intros [|p ps] H; cbn in *; try discriminate; auto. Qed.
Lemma with_nth cs : forall ps j c p, nth_error cs j = Some c -> nth_error ps j = Some p -> nth_error (with_privs cs ps) j = Some (set_priv c p).
Proof. induction cs as [|c cs IH]; intros [|p ps] [|j] c' p' H1 H2; try discriminate; cbn in *; [congruence|]. apply IH; assumption. Qed.
Lemma with_privs_of cs : forall ps, length cs = length ps -> map e_priv (with_privs cs ps) = ps.
Proof. induction cs as [|c cs IH]; intros [|p ps] H; cbn in *; try discriminate; [reflexivity|]. f_equal. apply IH. lia. Qed.
Lemma realc_nth j c : nth_error realc j = Some c -> (exists es, In es ess /\ c = tab_codec (compiled es) /\ nth_error markc j = Some c /\ j < jc) \/ (j = jc /\ c = count_mod f n0 /\ nth_error markc j = Some tcount).
Proof using.
  clear. unfold realc, markc, jc. intros H. destruct (Nat.lt_ge_cases j (length ess)) as [L|L].
  - left. rewrite nth_error_app1 in * by (rewrite map_length; exact L). rewrite nth_error_map in H. destruct (nth_error ess j) as [es|] eqn:E; [|discriminate]. injection H as <-. exists es. split; [eapply nth_error_In; exact E|]. split; [reflexivity|]. split; [|exact L].
    rewrite nth_error_map, E. reflexivity.
  - right. rewrite nth_error_app2 in * by (rewrite map_length; exact L). rewrite map_length in *. destruct (j - length ess) as [|m] eqn:Em; [|destruct m; discriminate]. injection H as <-. split; [lia|]. auto.
Qed.
Lemma real_sim ps : length ps = S jc -> csims er tag jc cadd (with_privs markc ps) (with_privs realc ps).
Proof using.
  clear. intros Hl. assert (L1 : length realc = S jc) by (unfold realc, jc; rewrite app_length, map_length; cbn; lia). assert (L2 : length markc = S jc) by (unfold markc, jc; rewrite app_length, map_length; cbn; lia).
  split; [rewrite !with_len by lia; lia|]. intros j a b Ha Hb.
  assert (Hj : j < S jc) by (rewrite <- L2, <- (with_len markc ps) by lia; apply nth_error_Some; congruence).
  destruct (nth_error ps j) as [p|] eqn:Ep; [|apply nth_error_None in Ep; lia]. destruct (nth_error realc j) as [c|] eqn:Ec; [|apply nth_error_None in Ec; lia].
  rewrite (with_nth _ _ _ _ _ Ec Ep) in Hb. injection Hb as <-. destruct (realc_nth j c Ec) as [(es & He & -> & Hm & _)|(-> & -> & Hm)]; rewrite (with_nth _ _ _ _ _ Hm Ep) in Ha; injection Ha as <-.
  - constructor; try reflexivity; [split; reflexivity| |left; split; reflexivity]. cbn [set_priv e_tab tab_codec]. eapply Forall_impl; [|apply compiled_data]. intros st H. eapply Forall_impl; [|exact H]. apply le_cfix.
  - constructor; try reflexivity; [split; reflexivity| |].
    + constructor; [constructor|]. constructor; [constructor|constructor].
    + right. split; [reflexivity|]. eexists _, _. split; [reflexivity|]. split; [reflexivity|]. intros q d i sd. destruct q; try (cbn; auto 10; fail). cbn -[er tag mark accepts tags]. split; [reflexivity|]. split; [reflexivity|]. split; [reflexivity|].
      rewrite er_mark. split; [reflexivity|]. unfold tags. cbn [map list_sum fold_right]. rewrite tag_mark. destruct (accepts f d); cbn; f_equal; lia.
Qed.
Lemma mark_ok : Forall2 (codec_ok INTER) markc cks.
Proof using HE HS.
  unfold markc, cks. apply Forall2_app; [|constructor; [apply tcount_ok|constructor]]. clear Hne. induction ess as [|es l IH]; cbn; constructor.
  - inversion HE; subst. apply tab_data_ok; [apply compiled_ok; assumption|]. intros w o. apply HS. left. reflexivity.
  - apply IH; [inversion HE; assumption|]. intros es' w o Hin. apply HS. right. exact Hin.
Qed.

Lemma num_evolves q : evolves (count_mod f n0) q -> isnum q.
Proof using.
  clear. intros H. assert (HG : good_star (COUNT f) None n0 (fun _ => True)).
  { constructor; try (intros; exact I); try (intros; discriminate); auto.
    - intros s d _ Hd. cbn. constructor; [exact Hd|constructor].
    - intros s _. cbn. split; [exact I|constructor]. }
  destruct (star_init PNum get_num (COUNT f) false None n0 (fun _ => True) (fun x => eq_refl) (fun _ x => eq_refl) HG q H) as (s & _ & E). exists s. exact E.
Qed.
Lemma init_real cs : shc realc cs -> exists ps, map init_codec cs = with_privs realc ps /\ length ps = S jc /\ exists n, nth_error ps jc = Some (PNum n).
Proof using.
  clear Hne HE HS. unfold realc, jc. intros H. assert (HA : forall l cs, shc l cs -> exists ps, map init_codec cs = with_privs l ps /\ length ps = length l /\ forall j c, nth_error l j = Some c -> exists q, evolves c q /\ nth_error ps j = Some (e_priv (init_codec (set_priv c q)))).
  { clear. induction 1 as [|a b l cs Hb _ (ps & I1 & I2 & I3)]; [exists []; split; [reflexivity|]; split; [reflexivity|]; intros [|j] c Hc; discriminate|].
    destruct (init_codec_sc _ _ Hb) as (q & Hq & Eq). exists (e_priv (init_codec (set_priv a q)) :: ps). split; [cbn [map with_privs]; rewrite Eq, init_codec_set, I1; reflexivity|]. split; [cbn; congruence|].
    intros [|j] c Hc; [injection Hc as <-; exists q; auto|]. apply I3. exact Hc. }
  destruct (HA _ _ H) as (ps & I1 & I2 & I3). exists ps. split; [exact I1|]. split; [rewrite I2, app_length, map_length; cbn; lia|].
  destruct (I3 (length ess) (count_mod f n0)) as (q & Hq & Eq); [rewrite nth_error_app2 by (rewrite map_length; lia); rewrite map_length, Nat.sub_diag; reflexivity|].
  destruct (num_evolves q Hq) as (n & ->). exists n. exact Eq.
Qed.
Lemma count_fph_ok : f_ok count_fph.
Proof using Hne HE HS.
  cbn [f_ok count_fph]. split; [reflexivity|]. split; [apply count_ok; [exact cadd_0|exact cadd_add|exact nil_cfix|exact cks_eof]|]. 
  assert (Hroot : exists a r, ess = a :: r) by (destruct ess; [contradiction|eauto]). destruct Hroot as (e0 & er0 & Ee).
  assert (Hrs : exists st0, read_state (compiled e0) 0 = Some st0 /\ Forall cfix (t_data st0)).
  { assert (HI : timpl (compiled e0) (file_dict e0)) by (apply compiled_ok; rewrite Ee in HE; inversion HE; assumption). destruct (codec_ok_root INTER _ _ (tab_data_ok false _ _ HI (fun w o => HS e0 w o ltac:(rewrite Ee; left; reflexivity)))) as (st0 & H0 & _).
    exists st0. split; [exact H0|]. unfold read_state in H0. apply nth_error_In in H0. pose proof (compiled_data e0) as HD. rewrite Forall_forall in HD. eapply Forall_impl; [|apply HD; exact H0]. apply le_cfix. }
  destruct Hrs as (st0 & Hst0 & Hfx).
  split. { exists (tab_codec (compiled e0)), (map (fun es => tab_codec (compiled es)) er0 ++ [count_mod f n0]). split; [rewrite Ee; reflexivity|]. cbn [e_tab tab_codec]. rewrite Hst0. discriminate. }
  intros pv th0 th Hty Hsh Hi Q1 Q2 Q3. change (map (fun es => tab_codec (compiled es)) ess ++ [count_mod f n0]) with realc in Hsh. destruct (init_real _ Hsh) as (ps & Eps & Lps & n & En).
  unfold init_phase, reset in Hi. cbv zeta in Hi. cbn [M_Engine.set_codecs M_Engine.set_curr M_Engine.set_match_data M_Engine.set_headlen M_Engine.set_queue M_Engine.set_offset M_Engine.set_flags p_codecs] in Hi.
  rewrite Eps in Hi. assert (Ehd : exists r, with_privs realc ps = set_priv (tab_codec (compiled e0)) (hd PNil ps) :: r).
  { unfold realc. rewrite Ee. destruct ps as [|p ps]; [discriminate|]. cbn. eauto. }
  destruct Ehd as (r & Er). rewrite Er in Hi. change (e_tab (set_priv (tab_codec (compiled e0)) (hd PNil ps))) with (compiled e0) in Hi. rewrite Hst0 in Hi. cbn in Hi. injection Hi as <-. rewrite <- Er. cbn [p_codecs].
  match goal with |- context [crel (map e_priv ?x)] => change x with (with_privs realc ps) end. rewrite with_privs_of by (unfold realc, jc in *; rewrite app_length, map_length; cbn; lia). 
  assert (Lm : length markc = length ps) by (unfold markc, jc in *; rewrite app_length, map_length; cbn; lia).
  eexists. cbn [cspec count_spec s_inv]. unfold cinv.
  exists (mkEp priv (p_type priv th0) (with_privs markc ps) 0 0 (p_i priv th0) (p_bak priv th0) 0 [] st0 0 false false false [] 0), (with_privs realc ps), (set_priv tcount (PNum n)).
  split; [exact Hty|]. split; [reflexivity|]. split; [reflexivity|]. split.
  { constructor; cbn; [reflexivity|apply real_sim; exact Lps|constructor|exact Hfx]. }
  assert (Hjm : nth_error markc jc = Some tcount) by (unfold markc, jc; rewrite nth_error_app2 by (rewrite map_length; lia); rewrite map_length, Nat.sub_diag; reflexivity).
  split; [cbn; apply with_nth; assumption|]. exists [], []. split; [|split; [reflexivity|]].
  2:{ intros Y o e z HY. cbn [set_priv e_priv]. unfold crel in HY. rewrite (nth_error_nth ps jc PNil En) in HY. exact HY. }
  assert (HF : Forall2 (codec_ok INTER) (with_privs markc ps) cks).
  { clear - HE HS Lm. pose proof mark_ok as HM. revert ps Lm. induction HM as [|a k l ks Ha _ IH]; intros [|p ps] Lm; try discriminate; cbn; constructor; [apply (codec_ok_priv INTER); exact Ha|]. apply IH. cbn in Lm. lia. }
  apply pinv_start with (set_priv (tab_codec (compiled e0)) (hd PNil ps)) (data_spec (file_dict e0) (compiled e0)); cbn [p_type p_codecs p_index p_state p_floop p_fmatch p_fpending p_curr p_headlen].
  + rewrite Q1. exact Q2.
  + rewrite Hty. exact HF.
  + intros j a k Ha Hk. unfold cks in Hk. destruct (Nat.lt_ge_cases j (length ess)) as [L|L].
    * rewrite nth_error_app1 in Hk by (rewrite map_length; exact L). rewrite nth_error_map in Hk. destruct (nth_error ess j); [|discriminate]. injection Hk as <-. exact I.
    * rewrite nth_error_app2 in Hk by (rewrite map_length; exact L). rewrite map_length in Hk. destruct (j - length ess) as [|m] eqn:Em; [|destruct m; discriminate]. injection Hk as <-.
      assert (j = jc) by (unfold jc; lia). subst j. rewrite (with_nth _ _ _ _ _ Hjm En) in Ha. injection Ha as <-. exists n. reflexivity.
  + unfold markc. rewrite Ee. destruct ps as [|p ps']; [discriminate|]. reflexivity.
  + unfold cks. rewrite Ee. reflexivity.
  + exact Hst0.
  + reflexivity.
  + reflexivity.
  + reflexivity.
  + reflexivity.
  + intros j k Hj. lia.
  + auto.
  + rewrite Hty, Q1. reflexivity.
Qed.

(** The marked run of the phase. *)
Lemma passed_trans ds mid k : passed (map file_dict ess) f ds mid k -> Forall (sym_ok INTER) ds -> Forall low ds ->
  vis er (fst (trans KInter (sems cks) ds)) = some_data mid /\ N.of_nat (tags tag (fst (trans KInter (sems cks) ds))) = k.
Proof using HE HS.
  intros H. assert (Esm : sems cks = map (sem_of INTER) (map file_dict ess) ++ [star_sem (fun d => Some [mark f d])]).
  { unfold sems, cks. rewrite map_app, !map_map. reflexivity. }
  rewrite Esm. induction H as [|ds n o out k Hc H IH|x ds out k Hu H IH]; intros HF HL.
  - split; reflexivity.
  - pose proof (first_match_app _ [star_sem (fun d => Some [mark f d])] _ _ (chosen_first _ _ _ _ _ (or_intror (or_introl eq_refl)) HF Hc)) as EM. rewrite (trans_match _ _ _ _ _ EM). cbn [fst].
    destruct (IH (Forall_skipn _ _ _ HF) (Forall_skipn _ _ _ HL)) as (I1 & I2). destruct (trans KInter _ (skipn n ds)) as [o1 e1]. cbn [fst] in *. 
    pose proof (chosen_bytes _ _ _ _ _ HE Hc) as HB. assert (HX : Forall cfix o) by (eapply Forall_impl; [|apply bytes_wl; exact HB]; apply wl_cfix).
    rewrite vis_app, tags_app, (fixd_tags _ _ _ HX), I1. split; [|exact I2]. unfold vis. rewrite (fixd_map _ _ _ HX). unfold some_data. rewrite filter_app. reflexivity.
  - inversion HL as [|? ? HX HL']; subst. inversion HF as [|? ? HXs HF']; subst. 
    assert (EM : first_match (map (sem_of INTER) (map file_dict ess) ++ [star_sem (fun d => Some [mark f d])]) (x :: ds) = Some (1, [mark f x])).
    { rewrite first_none by (apply unmatched_first; [right; left; reflexivity|exact HF|exact Hu]). destruct x as [|b x]; [contradiction|]. cbn in HX. cbn [first_match scan app star_sem]. destruct (N.ltb_spec b 257); [reflexivity|lia]. }
    rewrite (trans_match _ _ _ _ _ EM). change (skipn 1 (x :: ds)) with ds. destruct (IH HF' HL') as (I1 & I2). destruct (trans KInter _ ds) as [o1 e1]. cbn [fst] in *.
    rewrite vis_app, tags_app, I1. split.
    + unfold vis. cbn [map filter]. rewrite er_mark. destruct x as [|b x]; [contradiction|]. reflexivity.
    + unfold tags at 1. cbn [map list_sum fold_right]. rewrite tag_mark. unfold wanted. unfold accepts. destruct f as [g|]; [destruct (g x)|]; cbn [length]; lia.
Qed.
Lemma passed_wl ds mid k : passed (map file_dict ess) f ds mid k -> Forall wl ds -> Forall wl mid.
Proof using HE HS.
  induction 1 as [|ds n o out k Hc H IH|x ds out k Hu H IH]; intros HF; [constructor| |inversion HF; subst; constructor; auto].
  apply Forall_app. split; [apply bytes_wl; eapply chosen_bytes; eassumption|]. apply IH. apply Forall_skipn. exact HF.
Qed.
Lemma count_rel s p ds mid e z : Forall wl ds -> run_stage s p (SCount ess f n0) ds mid e z -> length realc = length (match nth_error (i_phases priv s) p with Some th => p_codecs priv th | None => [] end) ->
  phase_rel s p count_fph (some_data ds) (some_data mid) e z /\ Forall wl mid.
Proof using HE HS.
  intros HW (-> & n & k & (th & pre & cd & E1 & E2 & E3) & HP & ->) HL. rewrite E1 in HL. rewrite E2 in HL. pose proof (some_ne ds HW) as HN.
  assert (HLow : Forall low (some_data ds)) by (eapply Forall_impl; [|exact HN]; intros [|b d] Hd; [destruct Hd|exact Hd]).
  assert (HW2 : Forall wl (some_data ds)) by (eapply Forall_impl; [|exact HN]; intros [|b d] Hd; [exact I|exact Hd]).
  split; [|eapply passed_wl; eassumption]. cbn [phase_rel count_fph]. rewrite E1, E2.
  assert (Hpre : length pre = jc) by (unfold realc, jc in *; rewrite !app_length, map_length in HL; cbn in HL; lia).
  unfold crel. assert (En : nth jc (map e_priv (pre ++ [cd])) PNil = PNum n).
  { rewrite map_app, app_nth2 by (rewrite map_length; lia). rewrite map_length, Hpre, Nat.sub_diag. exact E3. }
  rewrite En. unfold cden. cbn [app].
  assert (EI : filter nonempty (some_data ds) = some_data ds) by apply filter_idem. rewrite EI.
  assert (HSy : Forall (sym_ok INTER) (some_data ds)) by (exact (seen_ok INTER ds)).
  destruct (passed_trans _ _ _ HP HSy HLow) as (T1 & T2). split; [eapply Forall_impl; [|exact HW2]; apply wl_cfix|]. split; [reflexivity|]. split; [symmetry; exact T1|]. cbn [cadd]. rewrite T2. reflexivity.
Qed.
Lemma count_fin th q : s_fin (f_spec count_fph) th (Some q) -> exists pre cd, p_codecs priv th = pre ++ [cd] /\ e_priv cd = q.
Proof using.
  clear. intros (HL & c & Hc & Hq). cbn in Hc. injection Hq as ->. assert (Lk : length cks = S jc) by (unfold cks, jc; rewrite app_length, map_length; cbn; lia). rewrite Lk in HL.
  destruct (exists_last (l := p_codecs priv th)) as (pre & cd & E); [destruct (p_codecs priv th); discriminate|]. exists pre, cd. split; [exact E|]. rewrite E in *. rewrite app_length in HL. cbn in HL.
  rewrite nth_error_app2 in Hc by lia. replace (jc - length pre) with 0 in Hc by lia. injection Hc as ->. reflexivity.
Qed.
End One.

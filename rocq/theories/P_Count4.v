(** Conversions with phases that end with COUNT, whole streams. *)
From Verif Require Import Base Types M_Engine M_Output M_Create M_Callback M_UTF8 M_UTF16 M_Modules M_Fallback M_Star M_Inter M_Stars M_Stage M_Bonus M_Count S_Session S_Unicode S_Rest S_Source S_Dict S_Table S_Convert S_Fallback S_Flow S_Transcode S_Stage S_Bonus S_Count S_Engine P_Trans P_Engine1 P_Engine2 P_Engine3 P_Engine4 P_Engine5 P_Engine6 P_Dict P_Convert P_Callback P_Session P_Session2 P_Session3 P_CbSession P_Ascii P_Charset P_Unicode P_Pair P_Shape P_Create P_UDA P_Escape2 P_Fallback P_Flow P_Flow2 P_Flow3 P_Flow4 P_Flow5 P_Flow6 P_Weak P_Stage P_Count P_Count2 P_Count3 P_Bonus.
From Coq Require Import ZifyBool ZifyN ZifyNat.

Lemma shc_len {P} (a b : list (ecodec P)) : shc a b -> length b = length a.
Proof. induction 1; cbn; congruence. Qed.
Lemma fresh_th (c : list (fphase (P:=priv))) s p x : fresh (f_inst c) s -> nth_error c p = Some x ->
  exists th0 th, shc (f_codecs x) (p_codecs priv th0) /\ init_phase priv false th0 = Some th /\ nth_error (i_phases priv s) (S p) = Some th /\ p_codecs priv th = map init_codec (p_codecs priv th0).
Proof.
  intros HF Ex. destruct HF as (s0 & HU & Hinit). apply used_shl in HU.
  unfold bsdconv_init in Hinit. destruct (i_phases priv s0) as [|ph0 rest] eqn:E0; [discriminate|].
  destruct (init_phase priv true ph0) as [p0|] eqn:Ep0; [|discriminate]. cbn [obind] in Hinit. destruct (fold_right _ _ rest) as [r|] eqn:Er; cbn [obind] in Hinit; [|discriminate].
  apply init_rest_spec in Er. assert (Es : i_phases priv s = p0 :: r) by (injection Hinit as <-; reflexivity).
  assert (Ef : nth_error (i_phases priv (f_inst c)) (S p) = Some (new_phase priv (f_type x) (f_codecs x))). { cbn [f_inst i_phases new_instance nth_error]. rewrite !map_map, nth_error_map, Ex. reflexivity. }
  destruct (Forall2_nth_l _ _ _ HU _ _ Ef) as (th0 & E1 & (HT & HC)). cbn in E1. destruct (Forall2_nth_l _ _ _ Er _ _ E1) as (th & Eth & X4).
  cbn [p_codecs new_phase] in HC. exists th0, th. split; [exact HC|]. split; [exact X4|]. split; [rewrite Es; exact Eth|].
  unfold init_phase, reset in X4. cbv zeta in X4. cbn [M_Engine.set_codecs M_Engine.set_curr M_Engine.set_match_data M_Engine.set_headlen M_Engine.set_queue M_Engine.set_offset M_Engine.set_flags p_codecs] in X4.
  match type of X4 with context [read_state (e_tab ?a) 0] => idtac | _ => idtac end.
  set (mc := map init_codec (p_codecs priv th0)) in *. clearbody mc. destruct mc as [|a l]; [discriminate|]. destruct (read_state (e_tab a) 0); [|discriminate]. cbn in X4. injection X4 as <-. reflexivity.
Qed.

(** ** The phases *)
Record sreal (t8 : u8) (t16 : u16) (k : stage) (f : fphase (P:=priv)) : Prop := {
  q_ok : f_ok f; q_ty : f_type f = stage_type k; q_cod : f_codecs f = stage_codecs t8 t16 k; q_cout : stage_gives k = true -> f_cout f = true;
  q_step : forall (s : inst priv) p ds mid e zo, length (f_codecs f) = length (match nth_error (i_phases priv s) p with Some th => p_codecs priv th | None => [] end) ->
    (forall cd, f_codecs f = [cd] -> exists q, evolves cd q /\ module_state s p (e_priv (init_codec (set_priv cd q)))) -> (stage_type k = FROM -> Forall byte_data ds) -> Forall wl ds ->
    run_stage s p k ds mid e zo -> phase_rel s p f (some_data ds) (some_data mid) e zo /\ Forall wl mid;
  q_fin : forall th q, s_fin (f_spec f) th (Some q) -> exists pre cd, p_codecs priv th = pre ++ [cd] /\ e_priv cd = q
}.
Lemma stage_real t8 t16 k pg : strict_utf8 t8 -> stage_ok k -> stages_placed pg [k] -> exists f, sreal t8 t16 k f /\ (f_star f = true -> pg = true).
Proof.
  intros Hs Hk Hp. destruct k as [k|ess f n|es n].
  - destruct Hp as (Hp & _). destruct (link_real t8 t16 k pg Hs Hk Hp) as (x & [R1 R2 R3 R4 R5 R6] & Hx). exists x. split; [|exact Hx]. constructor; [exact R1|exact R2|exact R3|exact R4| |].
    + intros s p ds mid e zo _. apply R5.
    + intros th q Hq. destruct (R6 th q Hq) as (cd & E1 & E2). exists [], cd. auto.
  - destruct Hk as (H1 & H2 & H3). exists (count_fph ess f n). split; [|discriminate]. constructor.
    + apply count_fph_ok; assumption.
    + reflexivity.
    + reflexivity.
    + discriminate.
    + intros s p ds mid e zo HL _ _ HW HR. eapply count_rel; eassumption.
    + intros th q Hq. eapply count_fin. exact Hq.
  - destruct Hk as (H1 & H2). exists (bonus_fph es n). split; [|discriminate]. constructor.
    + apply bonus_fph_ok; assumption.
    + reflexivity.
    + reflexivity.
    + discriminate.
    + intros s p ds mid e zo HL _ _ HW HR. eapply bonus_rel; try eassumption.
    + intros th q Hq. eapply bonus_fin. exact Hq.
Qed.
Lemma stages_fun s c : forall p ds out oe zs, run_stages s p c ds out oe zs -> exists (D : nat -> list datum) (E : nat -> nat) (Z : nat -> option priv),
  D 0 = ds /\ D (length c) = out /\ (forall i k, nth_error c i = Some k -> run_stage s (p + i) k (D i) (D (S i)) (E i) (Z i)) /\
  oe = list_sum (map E (seq 0 (length c))) /\ forall q v, In (q, v) zs -> exists i, q = p + i /\ Z i = Some v /\ i < length c.
Proof.
  induction c as [|k c IH]; intros p ds out oe zs H.
  - inversion H; subst. exists (fun _ => out), (fun _ => 0), (fun _ => None). repeat split; [intros i k Hk; destruct i; discriminate|intros q v []].
  - inversion H as [|? ? ? ? mid ? e zo oe' zs' H1 H2]; subst. destruct (IH _ _ _ _ _ H2) as (D & E & Z & K1 & K2 & K3 & K4 & K5).
    exists (fun i => match i with 0 => ds | S i => D i end), (fun i => match i with 0 => e | S i => E i end), (fun i => match i with 0 => zo | S i => Z i end).
    split; [reflexivity|]. split; [exact K2|]. split; [|split].
    + intros [|i] k' Hk; [injection Hk as <-; rewrite Nat.add_0_r, K1; exact H1|]. replace (p + S i) with (S p + i) by lia. apply K3. exact Hk.
    + cbn [length seq map]. rewrite <- seq_shift, map_map. change (list_sum (e :: ?l)) with (e + list_sum l). rewrite K4. reflexivity.
    + intros q v Hin. apply in_app_or in Hin as [Hin|Hin].
      * destruct zo as [w|]; [|destruct Hin]. destruct Hin as [Hin|[]]. injection Hin as <- <-. exists 0. cbn. split; [lia|]. split; [reflexivity|lia].
      * destruct (K5 q v Hin) as (i & -> & Hi & Hl). exists (S i). cbn. split; [lia|]. split; [exact Hi|lia].
Qed.

Section Stages.
Variables (t8 : u8) (t16 : u16) (c : list stage).
Hypothesis Hs : strict_utf8 t8.
Hypothesis Hc : stages_ok c.
Lemma stages_real_gen : forall l pg, Forall stage_ok l -> stages_placed pg l -> exists fs, Forall2 (sreal t8 t16) l fs /\ match fs with [] => True | f :: _ => f_star f = true -> pg = true end /\
  forall i x y, nth_error fs i = Some x -> nth_error fs (S i) = Some y -> f_star y = true -> f_cout x = true.
Proof.
  clear Hc. induction l as [|k r IH]; intros pg HF HP.
  - exists []. split; [constructor|]. split; [exact I|]. intros [|i] x y Hx; discriminate.
  - inversion HF as [|? ? Hk Hr]; subst. destruct HP as (HP1 & HP2). destruct (stage_real t8 t16 k pg Hs Hk (conj HP1 I)) as (f & Hf & Hst). destruct (IH _ Hr HP2) as (fs & F1 & F2 & F3).
    exists (f :: fs). split; [constructor; assumption|]. split; [exact Hst|]. intros [|i] x y Hx Hy.
    + injection Hx as <-. destruct fs as [|f1 fs]; [discriminate|]. injection Hy as <-. intros H. apply (q_cout _ _ _ _ Hf). apply F2. exact H.
    + apply (F3 i x y Hx Hy).
Qed.
Lemma stages_real : exists fs, Forall2 (sreal t8 t16) c fs /\ (exists x r, fs = x :: r /\ f_star x = false) /\ forall i x y, nth_error fs i = Some x -> nth_error fs (S i) = Some y -> f_star y = true -> f_cout x = true.
Proof.
  destruct Hc as ((k & r & Ec & _) & HF & HP). destruct (stages_real_gen c false HF HP) as (fs & F1 & F2 & F3). exists fs. split; [exact F1|]. split; [|exact F3].
  rewrite Ec in F1. inversion F1 as [|? f ? fs' Hf Hr]; subst. exists f, fs'. split; [reflexivity|]. destruct (f_star f); [specialize (F2 eq_refl); discriminate|reflexivity].
Qed.
Lemma sreal_inst fs : Forall2 (sreal t8 t16) c fs -> f_inst fs = staged t8 t16 c.
Proof. clear Hc. intros H. unfold f_inst, staged. f_equal. induction H as [|k f r fs Hf _ IH]; [reflexivity|]. cbn [map]. rewrite (q_ty _ _ _ _ Hf), (q_cod _ _ _ _ Hf), IH. reflexivity. Qed.
Lemma sreal_nth fs i f : Forall2 (sreal t8 t16) c fs -> nth_error fs i = Some f -> exists k, nth_error c i = Some k /\ sreal t8 t16 k f.
Proof. clear Hc. intros H. revert i. induction H as [|k f0 r fs Hf _ IH]; intros [|i] Hi; try discriminate; [injection Hi as <-; exists k; auto|]. apply IH. exact Hi. Qed.
Lemma sreal_len fs : Forall2 (sreal t8 t16) c fs -> length fs = length c.
Proof. clear Hc. induction 1; cbn; congruence. Qed.
Lemma sfrom_first i k : nth_error c i = Some k -> stage_type k = FROM -> i = 0.
Proof. destruct Hc as ((k0 & r & E & _ & HF) & _). rewrite E. destruct i as [|i]; [auto|]. cbn. intros Hi Ht. rewrite Forall_forall in HF. apply nth_error_In in Hi. specialize (HF k Hi). contradiction. Qed.
Lemma shead_concat s k r ds ds' out oe zs : c = k :: r -> concat ds = concat ds' -> run_stages s 1 c ds out oe zs -> run_stages s 1 c ds' out oe zs.
Proof.
  intros Ec Ed HR. destruct Hc as ((k0 & r0 & E & Ht & _) & _). assert (k0 = k) by congruence. subst k0. rewrite Ec in *. inversion HR; subst. econstructor; [|eassumption].
  destruct k as [[[[t ess] fb]|cs|cs|T inj prj m fl ini s0]|ess f n|es n]; cbn in Ht; try discriminate.
  - subst t. match goal with H : run_stage _ _ _ _ _ _ _ |- _ => destruct H as (-> & HB) end. split; [reflexivity|]. inversion HB as [|t' Ds r' d' mid' out' e' ie' oe' Hp Hr E1 E2|t' Ds d r' d' mid' out' ie' oe' Hp Hr]; subst.
    + match goal with H : e' + _ = 0 |- _ => assert (e' = 0) by lia end. subst e'. inversion Hr; subst. apply (fb_plain FROM _ [] ds' mid mid 0 0 0); [|constructor]. unfold seen_by in *. rewrite <- Ed. exact Hp.
    + inversion Hr; subst. apply (fb_subst FROM _ d [] ds' mid mid 0 0); [|constructor]. unfold seen_by in *. rewrite <- Ed. exact Hp.
  - match goal with H : run_stage _ _ _ _ _ _ _ |- _ => destruct H as (-> & -> & cps & H1 & H2 & ->) end. split; [reflexivity|]. split; [reflexivity|]. exists cps. rewrite <- Ed. auto.
Qed.
Theorem stages_stream s l out oe zs : fresh (staged t8 t16 c) s -> l <> [] -> Forall (fun x => lossless (snd x)) l -> byte_data (concat (inputs l)) ->
  run_stages s 1 c [concat (inputs l)] out oe zs ->
  exists s' got, runs_to s (stream_calls l) s' got /\ got ++ pending priv s' = concat out /\ i_ierr priv s' = i_ierr priv s /\ i_oerr priv s' = i_oerr priv s + oe /\
    forall p q, In (p, q) zs -> last_state s' p q.
Proof.
  intros HF Hl1 Hl2 HB HR. destruct stages_real as (fs & Hfs & Hfirst & Hclean). rewrite <- (sreal_inst fs Hfs) in HF.
  assert (Hc1 : exists k r, c = k :: r) by (destruct Hc as ((k & r & E & _) & _); eauto). destruct Hc1 as (k0 & r0 & Ec).
  apply (shead_concat s k0 r0 _ (inputs l) out oe zs Ec) in HR; [|cbn; rewrite app_nil_r; reflexivity].
  destruct (stages_fun s c _ _ _ _ _ HR) as (D & E & Z & K1 & K2 & K3 & K4 & K5).
  assert (HBi : Forall byte_data (inputs l)).
  { clear - HB. induction (inputs l) as [|d ds IH]; [constructor|]. cbn in HB. apply Forall_app in HB as (A & B). constructor; auto. }
  assert (HW : forall i f, nth_error fs i = Some f -> Forall wl (D i) -> phase_rel s (S i) f (some_data (D i)) (some_data (D (S i))) (E i) (Z i) /\ Forall wl (D (S i))).
  { intros i f Hi HWi. destruct (sreal_nth fs i f Hfs Hi) as (k & Ek & Hf). apply (q_step _ _ _ _ Hf).
    - destruct (fresh_th fs s i f HF Hi) as (th0 & th & T1 & _ & T3 & T4). rewrite T3, T4, map_length. symmetry. apply shc_len. exact T1.
    - intros cd Ecd. apply (fresh_one fs s i f cd HF Hi Ecd).
    - intros Ht. pose proof (sfrom_first i k Ek Ht). subst i. rewrite K1. exact HBi.
    - exact HWi.
    - apply (K3 i k Ek). }
  assert (HWall : forall i, i <= length fs -> Forall wl (D i)).
  { induction i as [|i IH]; intros Hi; [rewrite K1; apply bytes_wl; exact HBi|]. destruct (nth_error fs i) as [f|] eqn:Ef; [|apply nth_error_None in Ef; lia]. apply (HW i f Ef). apply IH. lia. }
  destruct HF as (s0 & HU & Hinit).
  assert (Hall : forall x, In x fs -> exists k, sreal t8 t16 k x) by (intros x Hx; apply In_nth_error in Hx as (i & Hi); destruct (sreal_nth fs i x Hfs Hi) as (k & _ & H); eauto).
  destruct (flow_fresh_gen fs) with (l := l) (s0 := s0) (s := s) (I := fun p => some_data (D (p - 1))) (e := fun p => E (p - 1)) (z := fun p => Z (p - 1)) as (s' & got & R1 & R2 & R3 & R4 & R5).
  - intros x Hx. destruct (Hall x Hx) as (k & H). apply H.
  - exact Hfirst.
  - intros i x Hx Ht. destruct (sreal_nth fs (S i) x Hfs Hx) as (k & Ek & Hf). rewrite (q_ty _ _ _ _ Hf) in Ht. pose proof (sfrom_first _ _ Ek Ht). discriminate.
  - exact Hclean.
  - exact Hl1.
  - exact Hl2.
  - exact HU.
  - exact Hinit.
  - cbn [Nat.sub]. rewrite K1. reflexivity.
  - intros p x Hp Hx. destruct p as [|p]; [lia|]. replace (S p - 1) with p in * by lia. replace (S (S p) - 1) with (S p) by lia. apply (HW p x Hx). apply HWall. assert (p < length fs) by (apply nth_error_Some; congruence). lia.
  - exists s', got. split; [exact R1|]. split; [|split; [exact R3|split]].
    + rewrite R2. unfold fn. replace (S (length fs) - 1) with (length fs) by lia. rewrite (sreal_len fs Hfs), K2. apply concat_ne.
    + rewrite R4, K4. unfold fn. rewrite (sreal_len fs Hfs). f_equal. f_equal. rewrite <- seq_shift, map_map. apply map_ext. intros i. f_equal. lia.
    + intros p q Hin. destruct (K5 p q Hin) as (i & -> & Hz & Hi). destruct (nth_error fs i) as [f|] eqn:Ef; [|apply nth_error_None in Ef; rewrite (sreal_len fs Hfs) in Ef; lia].
      destruct (sreal_nth fs i f Hfs Ef) as (k & _ & Hf). destruct (R5 (1 + i) f ltac:(lia)) as (th & T1 & T2); [replace (1 + i - 1) with i by lia; exact Ef|]. replace (1 + i - 1) with i in T2 by lia. rewrite Hz in T2.
      destruct (q_fin _ _ _ _ Hf th q T2) as (pre & cd & C1 & C2). exists th, pre, cd. auto.
Qed.
Theorem stages_fresh : exists s, fresh (staged t8 t16 c) s /\ bsdconv_init priv (staged t8 t16 c) = Some s.
Proof.
  destruct stages_real as (fs & Hfs & Hfirst & Hclean). destruct (f_init_some fs) as (s & Hi).
  - intros x Hx. apply In_nth_error in Hx as (i & Hi). destruct (sreal_nth fs i x Hfs Hi) as (k & _ & H). apply H.
  - rewrite (sreal_inst fs Hfs) in Hi. exists s. split; [|exact Hi]. eexists. split; [constructor|exact Hi].
Qed.
(** Every instance has a counter there; in a new one it is as created. *)
Theorem stages_count s p ess f n : fresh (staged t8 t16 c) s -> nth_error c p = Some (SCount ess f n) -> exists k, last_state s (S p) (PNum k).
Proof.
  intros HF Hp. destruct stages_real as (fs & Hfs & _). rewrite <- (sreal_inst fs Hfs) in HF. destruct (nth_error fs p) as [x|] eqn:Ef.
  2:{ apply nth_error_None in Ef. rewrite (sreal_len fs Hfs) in Ef. assert (p < length c) by (apply nth_error_Some; congruence). lia. }
  destruct (sreal_nth fs p x Hfs Ef) as (k & Ek & Hf). rewrite Hp in Ek. injection Ek as <-. destruct (fresh_th fs s p x HF Ef) as (th0 & th & T1 & _ & T3 & T4).
  rewrite (q_cod _ _ _ _ Hf) in T1. destruct (init_real ess f n _ T1) as (ps & Eps & Lps & m & Em). exists m. rewrite Eps in T4. unfold realc in T4.
  assert (HX : forall l ps (cd : ecodec priv), length ps = S (length l) -> exists pre q, with_privs (l ++ [cd]) ps = pre ++ [set_priv cd q] /\ nth_error ps (length l) = Some q).
  { clear. induction l as [|a l IH]; intros [|q ps] cd Hl; try discriminate.
    - destruct ps; [|discriminate]. exists [], q. split; reflexivity.
    - cbn in Hl. destruct (IH ps cd ltac:(lia)) as (pre & q' & I1 & I2). exists (set_priv a q :: pre), q'. cbn [app with_privs]. rewrite I1. split; [reflexivity|exact I2]. }
  destruct (HX (map (fun es => tab_codec (compiled es)) ess) ps (count_mod f n)) as (pre & q & X1 & X2); [rewrite map_length; exact Lps|]. rewrite map_length in X2. unfold jc in Em. assert (q = PNum m) by congruence. subst q.
  exists th, pre, (set_priv (count_mod f n) (PNum m)). split; [exact T3|]. split; [rewrite T4; exact X1|reflexivity].
Qed.
Theorem stages_count_new s p ess f n : bsdconv_init priv (staged t8 t16 c) = Some s -> nth_error c p = Some (SCount ess f n) -> last_state s (S p) (PNum n).
Proof.
  intros Hinit Hp. unfold bsdconv_init in Hinit. cbn [staged i_phases new_instance] in Hinit.
  destruct (init_phase priv true _) as [p0|] eqn:Ep0 in Hinit; [|discriminate]. cbn [obind] in Hinit. destruct (fold_right _ _ _) as [r|] eqn:Er in Hinit; cbn [obind] in Hinit; [|discriminate].
  apply init_rest_spec in Er. assert (Es : i_phases priv s = p0 :: r) by (injection Hinit as <-; reflexivity).
  assert (Ef : nth_error (map (fun x => new_phase priv (fst x) (snd x)) (map (fun k => (stage_type k, stage_codecs t8 t16 k)) c)) p = Some (new_phase priv INTER (stage_codecs t8 t16 (SCount ess f n)))) by (rewrite map_map, nth_error_map, Hp; reflexivity).
  destruct (Forall2_nth_l _ _ _ Er _ _ Ef) as (th & Eth & X4).
  unfold init_phase, reset in X4. cbv zeta in X4. cbn [M_Engine.set_codecs M_Engine.set_curr M_Engine.set_match_data M_Engine.set_headlen M_Engine.set_queue M_Engine.set_offset M_Engine.set_flags p_codecs new_phase stage_codecs] in X4.
  rewrite map_app in X4. cbn [map] in X4. set (pre := map init_codec (map (fun es => tab_codec (compiled es)) ess)) in *.
  assert (Ec : p_codecs priv th = pre ++ [init_codec (count_mod f n)]).
  { destruct pre as [|a l]; cbn [app] in X4; match type of X4 with context [read_state ?t 0] => destruct (read_state t 0) end; try discriminate; injection X4 as <-; reflexivity. }
  exists th, pre, (init_codec (count_mod f n)). split; [rewrite Es; exact Eth|]. split; [exact Ec|reflexivity].
Qed.
(** The counter of a bonus module. *)
Theorem stages_bonus s p es n : fresh (staged t8 t16 c) s -> nth_error c p = Some (SBonus es n) -> exists k, last_state s (S p) (PNum k).
Proof.
  intros HF Hp. destruct stages_real as (fs & Hfs & _). rewrite <- (sreal_inst fs Hfs) in HF. destruct (nth_error fs p) as [x|] eqn:Ef.
  2:{ apply nth_error_None in Ef. rewrite (sreal_len fs Hfs) in Ef. assert (p < length c) by (apply nth_error_Some; congruence). lia. }
  destruct (sreal_nth fs p x Hfs Ef) as (k & Ek & Hf). rewrite Hp in Ek. injection Ek as <-. destruct (fresh_th fs s p x HF Ef) as (th0 & th & T1 & _ & T3 & T4).
  rewrite (q_cod _ _ _ _ Hf) in T1. cbn [stage_codecs] in T1. inversion T1 as [|? c0 ? l Hb Hl E1 E2]; subst. inversion Hl; subst. destruct (init_codec_sc _ _ Hb) as (q & Hq & Eq).
  destruct (bonus_evolves es n q Hq) as (m & ->). rewrite <- E2 in T4. cbn [map] in T4. rewrite Eq in T4. exists m, th, [], (init_codec (set_priv (bonus_mod es n) (PNum m))). split; [exact T3|]. split; [exact T4|reflexivity].
Qed.
Theorem stages_bonus_new s p es n : bsdconv_init priv (staged t8 t16 c) = Some s -> nth_error c p = Some (SBonus es n) -> last_state s (S p) (PNum n).
Proof.
  intros Hinit Hp. unfold bsdconv_init in Hinit. cbn [staged i_phases new_instance] in Hinit.
  destruct (init_phase priv true _) as [p0|] eqn:Ep0 in Hinit; [|discriminate]. cbn [obind] in Hinit. destruct (fold_right _ _ _) as [r|] eqn:Er in Hinit; cbn [obind] in Hinit; [|discriminate].
  apply init_rest_spec in Er. assert (Es : i_phases priv s = p0 :: r) by (injection Hinit as <-; reflexivity).
  assert (Ef : nth_error (map (fun x => new_phase priv (fst x) (snd x)) (map (fun k => (stage_type k, stage_codecs t8 t16 k)) c)) p = Some (new_phase priv INTER [bonus_mod es n])) by (rewrite map_map, nth_error_map, Hp; reflexivity).
  destruct (Forall2_nth_l _ _ _ Er _ _ Ef) as (th & Eth & X4).
  unfold init_phase, reset in X4. cbv zeta in X4. cbn [M_Engine.set_codecs M_Engine.set_curr M_Engine.set_match_data M_Engine.set_headlen M_Engine.set_queue M_Engine.set_offset M_Engine.set_flags p_codecs new_phase map] in X4.
  match type of X4 with context [read_state ?t 0] => destruct (read_state t 0) end; [|discriminate]. cbn in X4. injection X4 as <-.
  eexists _, [], (init_codec (bonus_mod es n)). split; [rewrite Es; exact Eth|]. split; reflexivity.
Qed.
End Stages.

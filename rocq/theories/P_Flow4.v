(** Conversions with stateful intermediate modules, from a fresh or re-initialised instance. *)
From Verif Require Import Base Types M_Engine M_Output M_Create M_Callback S_Session S_Engine P_Trans P_Engine1 P_Engine2 P_Engine3 P_Engine4 P_Engine5 P_Engine6 P_Output P_Output2 P_Output3 P_Session P_Session2 P_Shape P_Create P_Callback P_Flow P_Flow2 P_Flow3.

Section E.
Context {P : Type}.
Notation ecodec := (ecodec P). Notation ephase := (ephase P). Notation inst := (inst P).
Arguments p_type {P}. Arguments p_codecs {P}. Arguments p_index {P}. Arguments p_curr {P}. Arguments p_i {P}.
Arguments p_bak {P}. Arguments p_headlen {P}. Arguments p_match_data {P}. Arguments p_state {P}. Arguments p_offset {P}.
Arguments p_fmatch {P}. Arguments p_fpending {P}. Arguments p_floop {P}. Arguments p_queue {P}. Arguments p_tail {P}.
Arguments e_tab {P}. Arguments e_conv {P}. Arguments e_flush {P}. Arguments e_init {P}. Arguments e_priv {P}.
Arguments cb_priv {P}. Arguments cb_i {P}. Arguments cb_status {P}. Arguments cb_out {P}. Arguments set_priv {P}. Arguments init_codec {P}.
Arguments i_phases {P}. Arguments i_ierr {P}. Arguments i_oerr {P}. Arguments mkInst {P}. Arguments bsdconv_init {P}. Arguments init_phase {P}.
Arguments k_clean {P}.

Inductive fphase :=
| FTab (ty : ptype) (l : list (ecodec * codec_spec (P:=P))) (cout : bool)
| FStar (c : ecodec) (f : P -> datum -> nat -> list datum -> cbres P) (J : P -> Prop)
| FGen (ty : ptype) (cs : list ecodec) (sp : pspec (P:=P)) (rel : list P -> Den (P:=P)).   (* [rel]: given the private states *)
Definition f_type (x : fphase) : ptype := match x with FTab ty _ _ => ty | FStar _ _ _ => INTER | FGen ty _ _ _ => ty end.
Definition f_codecs (x : fphase) : list ecodec := match x with FTab _ l _ => map fst l | FStar c _ _ => [c] | FGen _ cs _ _ => cs end.
Definition f_cout (x : fphase) : bool := match x with FTab _ _ b => b | FStar _ _ _ => true | FGen _ _ sp _ => s_cout sp end.
Definition f_star (x : fphase) : bool := match x with FTab _ _ _ => false | FStar _ _ _ => true | FGen _ _ sp _ => s_cin sp end.

(** Each phase on its own; [fo_*]: also after any use of the codec. *)
Definition f_ok (x : fphase) : Prop :=
  match x with
  | FTab ty l cout => l <> [] /\ (ty = FROM \/ ty = INTER \/ ty = TO) /\ (cout = true -> ty = FROM /\ Forall (fun y => codec_ne (fst y)) l) /\
      (forall y, In y l -> codec_ok ty (fst y) (snd y)) /\
      (forall y q, In y l -> evolves (fst y) q -> k_clean (snd y) (e_priv (init_codec (set_priv (fst y) q)))) /\
      (forall j y, nth_error l j = Some y -> eof_clean (snd y) \/ (ty = FROM /\ j = length l - 1 /\ no_sub (k_v (snd y))))
  | FStar c f J => e_tab c = star_table /\ e_conv c = Some f /\
      (forall σ d, J σ -> ne d -> J (cb_priv (cv f σ d)) /\ Forall ne (cb_out (cv f σ d))) /\
      (forall σ, J σ -> J (fst (flushed c σ)) /\ Forall ne (snd (flushed c σ))) /\
      (forall q, evolves c q -> J (e_priv (init_codec (set_priv c q))))
  | FGen ty cs sp rel => s_type sp = ty /\ pspec_ok sp /\ (exists a r, cs = a :: r /\ read_state (e_tab a) 0 <> None) /\
      (forall pv th0 th, p_type th0 = ty -> shc cs (p_codecs th0) -> init_phase false th0 = Some th -> p_queue pv = [] -> p_tail pv = 0 -> p_headlen pv = 0 ->
        exists m, s_inv sp false false pv th (rel (map e_priv (p_codecs th))) m)
  end.

Variable c : list fphase.
Hypothesis c_ok : forall x, In x c -> f_ok x.
Hypothesis c_first : exists x r, c = x :: r /\ f_star x = false.
Hypothesis c_rest : forall i x, nth_error c (S i) = Some x -> f_type x <> FROM.
Hypothesis c_clean : forall i x y, nth_error c i = Some x -> nth_error c (S i) = Some y -> f_star y = true -> f_cout x = true.
Definition f_inst : inst := new_instance P (map (fun x => (f_type x, f_codecs x)) c).
Definition fn := length c.
Lemma fn_pos : 1 <= fn. Proof. unfold fn. destruct c_first as (l & r & -> & _). cbn. lia. Qed.

Definition f_spec (x : fphase) : pspec (P:=P) := match x with FTab ty l cout => table_spec ty (map snd l) cout | FStar cd f J => star_pspec cd f J | FGen _ _ sp _ => sp end.
Definition SPf (p : nat) : pspec (P:=P) := match nth_error c (p - 1) with Some x => f_spec x | None => table_spec TO [] false end.

(** The private state of the only codec of a phase. *)
Definition priv_at (s : inst) (p : nat) (σ : P) : Prop := exists th cd, nth_error (i_phases s) p = Some th /\ p_codecs th = [cd] /\ e_priv cd = σ.
Definition phase_rel (s : inst) (p : nat) (x : fphase) : Den (P:=P) :=
  match x with
  | FTab ty l _ => tden ty (map snd l) []
  | FStar cd f J => fun Y o e z => exists σ, priv_at s p σ /\ rden cd f σ [] [] Y o e z
  | FGen _ _ _ rel => match nth_error (i_phases s) p with Some th => rel (map e_priv (p_codecs th)) | None => fun _ _ _ _ => False end
  end.

Lemma f_phase p th : 1 <= p -> nth_error (i_phases f_inst) p = Some th -> exists x, nth_error c (p - 1) = Some x /\ p_type th = f_type x /\ p_codecs th = f_codecs x.
Proof.
  intros Hp H. destruct p as [|p]; [lia|]. cbn in H. rewrite map_map, nth_error_map in H. replace (S p - 1) with p by lia. destruct (nth_error c p) as [x|]; [|discriminate]. cbn in H. injection H as <-. exists x. auto.
Qed.
Lemma f_spec_ok x : f_ok x -> pspec_ok (f_spec x).
Proof.
  destruct x as [ty l cout|cd f J|ty cs sp rel]; cbn [f_ok f_spec].
  - intros (H1 & H2 & H3 & H4 & H5 & H6). apply table_ok.
    + intros Hc. apply H3. exact Hc.
    + intros j k Hk. rewrite nth_error_map in Hk. destruct (nth_error l j) as [y|] eqn:Ey; [|discriminate]. injection Hk as <-. rewrite map_length. apply (H6 j y Ey).
  - intros (H1 & H2 & H3 & H4 & H5). apply star_pspec_ok; assumption.
  - intros (_ & H & _). exact H.
Qed.

Lemma init_codec_sc (a b : ecodec) : sc a b -> exists q, evolves a q /\ init_codec b = init_codec (set_priv a q).
Proof. intros (q & Hq & ->). exists q. auto. Qed.
Lemma init_codec_tab (a : ecodec) q : e_tab (init_codec (set_priv a q)) = e_tab a. Proof. unfold init_codec. cbn. destruct (e_init a); reflexivity. Qed.
Lemma init_codec_set (a : ecodec) q : init_codec (set_priv a q) = set_priv a (e_priv (init_codec (set_priv a q))).
Proof. unfold init_codec. cbn. destruct (e_init a); reflexivity. Qed.
Lemma codec_ne_set (a : ecodec) q : codec_ne a -> codec_ne (set_priv a q). Proof. intros [A B C]. constructor; assumption. Qed.
Lemma set_set (a : ecodec) q r : set_priv (set_priv a q) r = set_priv a r. Proof. reflexivity. Qed.

Lemma shc_one (a : ecodec) cs : shc [a] cs -> exists b, cs = [b] /\ sc a b.
Proof. intros H. inversion H as [|? b ? cs' Hb Hsh' E1 E2]. subst. inversion Hsh'. subst. exists b. auto. Qed.
Lemma new_type t cs : p_type (new_phase P t cs) = t. Proof. reflexivity. Qed.

(** One phase right after bsdconv_init. *)
Lemma f_start x (pv th0 th : ephase) : f_ok x -> p_type th0 = f_type x -> shc (f_codecs x) (p_codecs th0) -> init_phase false th0 = Some th -> p_queue pv = [] -> p_tail pv = 0 -> p_headlen pv = 0 ->
  p_queue th = [] /\ p_tail th = 0 /\ p_headlen th = 0 /\
  exists m, forall D, match x with
    | FTab ty l _ => D = tden ty (map snd l) []
    | FStar cd f J => exists σ, p_codecs th = [set_priv cd σ] /\ D = rden cd f σ [] []
    | FGen _ _ _ rel => D = rel (map e_priv (p_codecs th))
    end -> s_inv (f_spec x) false false pv th D m.
Proof.
  intros Hok Hty Hsh Hi Q1 Q2 Q3. pose proof Hi as Hi0.
  unfold init_phase in Hi. cbv zeta in Hi. unfold reset in Hi. cbn [set_codecs set_curr set_match_data set_headlen set_queue set_offset set_flags p_codecs] in Hi.
  destruct (map init_codec (p_codecs th0)) as [|c1 cs1] eqn:Em; [discriminate|]. destruct (read_state (e_tab c1) 0) as [st0|] eqn:Er; [|discriminate].
  cbn in Hi. injection Hi as <-.
  split; [reflexivity|]. split; [reflexivity|]. split; [reflexivity|].
  destruct x as [ty l cout|cd f J|ty cs sp rel]; cbn [f_ok f_type f_codecs f_spec] in *.
  3:{ destruct Hok as (_ & _ & _ & Hst). destruct (Hst pv th0 _ Hty Hsh Hi0 Q1 Q2 Q3) as (m & HM). exists m. intros D ->. exact HM. }
  - destruct Hok as (H1 & H2 & H3 & H4 & H5 & H6). eexists. intros D ->. cbn [table_spec s_inv]. unfold tinv. cbn [p_type]. split; [exact Hty|]. 
    assert (HF : Forall2 (codec_ok ty) (c1 :: cs1) (map snd l) /\ Forall2 (fun a k => k_clean k (e_priv a)) (c1 :: cs1) (map snd l) /\ (Forall (fun y => codec_ne (fst y)) l -> Forall codec_ne (c1 :: cs1))).
    { rewrite <- Em. clear Em Er H1 H3 H6. revert Hsh. generalize (p_codecs th0). assert (Hinc : incl l l) by apply incl_refl. revert Hinc. generalize l at 1 3 4 5 6. 
      induction l0 as [|y l0 IH]; intros Hinc cs Hsh; cbn [map] in Hsh; inversion Hsh as [|? b ? cs' Hb Hsh']; subst; cbn [map]; [split; [constructor|split; constructor]|].
      destruct (IH (fun z Hz => Hinc z (or_intror Hz)) _ Hsh') as (I1 & I2 & I3). destruct (init_codec_sc _ _ Hb) as (q & Hq & Eq).
      assert (Hy : In y l) by (apply Hinc; left; reflexivity). split; [|split].
      - constructor; [|exact I1]. rewrite Eq, init_codec_set. apply codec_ok_priv. apply H4. exact Hy.
      - constructor; [|exact I2]. rewrite Eq. apply H5; assumption.
      - intros HN. inversion HN; subst. constructor; [|apply I3; assumption]. rewrite Eq, init_codec_set. apply codec_ne_set. assumption. }
    destruct HF as (F1 & F2 & F3). split.
    { intros Hc. destruct (H3 Hc) as (_ & HN). specialize (F3 HN). constructor; cbn; [exact F3|constructor|]. inversion F3; subst. eapply tab_ne; eassumption. }
    exists [], []. split; [|split; [reflexivity|auto]].
    destruct l as [|y l]; [contradiction|]. cbn [map] in *. apply pinv_start with c1 (snd y); cbn [p_type p_codecs p_index p_state p_floop p_fmatch p_fpending p_curr p_headlen nth_error].
    + rewrite Q1. exact Q2.
    + match goal with |- Forall2 (codec_ok ?t) _ _ => change t with (p_type th0) end. rewrite Hty. exact F1.
    + intros j a k Ha Hk. destruct (Forall2_nth_l _ _ _ F2 _ _ Ha) as (k2 & Ek2 & Hcl). assert (k2 = k) by congruence. subst. exact Hcl.
    + reflexivity.
    + reflexivity.
    + exact Er.
    + reflexivity.
    + reflexivity.
    + reflexivity.
    + reflexivity.
    + intros j k Hj; cbn in Hj; lia.
    + auto.
    + match goal with |- match ?t with _ => _ end => change t with (p_type th0) end. rewrite Hty, Q1. destruct H2 as [->|[->| ->]]; auto.
  - destruct Hok as (H1 & H2 & H3 & H4 & H5). destruct (shc_one _ _ Hsh) as (b & Eb & Hb). destruct (init_codec_sc _ _ Hb) as (q & Hq & Eq).
    rewrite Eb in Em. cbn [map] in Em. injection Em as <- <-. rewrite Eq, init_codec_tab, H1 in Er. cbn in Er. injection Er as <-.
    eexists. intros D (σ & Hσ & ->). cbn [p_codecs] in Hσ. rewrite Eq in *. set (σ0 := e_priv (init_codec (set_priv cd q))) in *.
    assert (Es : init_codec (set_priv cd q) = set_priv cd σ0) by (apply init_codec_set). rewrite Es in *. assert (σ = σ0) by (injection Hσ as Hσ; symmetry; exact Hσ). subst σ.
    cbn [star_pspec s_inv]. unfold sinv. exists σ0, 0, (p_i th0), (p_bak th0), 0, [], star_root, 0, false, false, false, [], 0.
    split; [unfold st_at; rewrite <- Hty; reflexivity|]. split; [apply H5; exact Hq|]. split; [rewrite Q1; exact Q2|]. split; [apply srt_root|]. split; [reflexivity|].
    rewrite Q1. apply (m_run cd f false [] _ σ0 [] []); [reflexivity|reflexivity|constructor|intros Y o e z HZ; exact HZ].
Qed.

(** The private state of a star phase right after bsdconv_init. *)
Theorem fresh_priv (s0 s : inst) p cd f J : used f_inst s0 -> bsdconv_init s0 = Some s -> 1 <= p -> nth_error c (p - 1) = Some (FStar cd f J) ->
  exists q, evolves cd q /\ priv_at s p (e_priv (init_codec (set_priv cd q))).
Proof using Type.
  clear c_rest c_clean c_ok c_first.
  intros HU Hinit Hp Ex. apply used_shl in HU. destruct p as [|p]; [lia|]. replace (S p - 1) with p in Ex by lia.
  unfold bsdconv_init in Hinit. destruct (i_phases s0) as [|ph0 rest] eqn:E0; [discriminate|].
  destruct (init_phase true ph0) as [p0|] eqn:Ep0; [|discriminate]. cbn [obind] in Hinit. destruct (fold_right _ _ rest) as [r|] eqn:Er; cbn [obind] in Hinit; [|discriminate].
  apply init_rest_spec in Er. assert (Es : i_phases s = p0 :: r) by (injection Hinit as <-; reflexivity).
  assert (Ef : nth_error (i_phases f_inst) (S p) = Some (new_phase P INTER [cd])). { cbn. rewrite !map_map, nth_error_map, Ex. reflexivity. }
  destruct (Forall2_nth_l _ _ _ HU _ _ Ef) as (th0 & E1 & (HT & HC)). cbn in E1. destruct (Forall2_nth_l _ _ _ Er _ _ E1) as (th & Eth & X4).
  destruct (shc_one _ _ HC) as (b & Eb & Hb). destruct (init_codec_sc _ _ Hb) as (q & Hq & Eq). exists q. split; [exact Hq|].
  unfold init_phase, reset in X4. cbv zeta in X4. cbn in X4. rewrite Eb in X4. cbn [map] in X4. match type of X4 with context [match ?r with Some _ => _ | None => None end] => destruct r; [|discriminate] end. injection X4 as <-.
  eexists _, (init_codec b). split; [rewrite Es; cbn; exact Eth|]. split; [reflexivity|]. rewrite Eq. reflexivity.
Qed.

(** The instance is [f_inst] after any use, then bsdconv_init. *)
Theorem flow_fresh_gen l (s0 s : inst) I e z : l <> [] -> Forall (fun x => lossless (snd x)) l -> used f_inst s0 -> bsdconv_init s0 = Some s ->
  I 1 = filter nonempty (inputs l) -> (forall p x, 1 <= p -> nth_error c (p - 1) = Some x -> phase_rel s p x (I p) (I (S p)) (e p) (z p)) ->
  exists s' out, runs_to s (stream_calls l) s' out /\ out ++ pending P s' = concat (I (S fn)) /\ i_ierr s' = i_ierr s /\ i_oerr s' = i_oerr s + list_sum (map e (seq 1 fn)) /\
    forall p x, 1 <= p -> nth_error c (p - 1) = Some x -> exists th, nth_error (i_phases s') p = Some th /\ s_fin (f_spec x) th (z p).
Proof.
  intros Hne Hll HU Hinit HI1 HIr. apply used_shl in HU. pose proof fn_pos as Hpos.
  assert (Hl0 : length (i_phases s0) = S fn).
  { transitivity (length (i_phases f_inst)); [|cbn; rewrite !map_length; reflexivity]. symmetry. clear -HU. induction HU; cbn; congruence. }
  unfold bsdconv_init in Hinit. destruct (i_phases s0) as [|ph0 rest] eqn:E0; [discriminate|].
  destruct (init_phase true ph0) as [p0|] eqn:Ep0; [|discriminate]. cbn [obind] in Hinit. destruct (fold_right _ _ rest) as [r|] eqn:Er; cbn [obind] in Hinit; [|discriminate].
  apply init_rest_spec in Er. cbn in Hl0. injection Hl0 as Hl0.
  assert (Hlr : length r = fn) by (rewrite <- Hl0; clear -Er; induction Er; cbn; congruence).
  assert (Es : i_phases s = p0 :: r) by (injection Hinit as <-; reflexivity).
  assert (HP0 : p_queue p0 = [] /\ p_tail p0 = 0 /\ p_headlen p0 = 0) by (unfold init_phase in Ep0; injection Ep0 as <-; auto).
  assert (Hcx : forall p, 1 <= p <= fn -> exists x, nth_error c (p - 1) = Some x /\ f_ok x).
  { intros p Hp. destruct (nth_error c (p - 1)) as [x|] eqn:Ex; [|apply nth_error_None in Ex; unfold fn in Hp; lia]. exists x. split; [reflexivity|]. apply c_ok. eapply nth_error_In. exact Ex. }
  assert (Hph : forall p, 1 <= p <= fn -> exists x th0 th, nth_error c (p - 1) = Some x /\ f_ok x /\ nth_error (i_phases s) p = Some th /\ init_phase false th0 = Some th /\ p_type th0 = f_type x /\ shc (f_codecs x) (p_codecs th0)).
  { intros p Hp. destruct (Hcx p Hp) as (x & Ex & Hok). destruct p as [|p]; [lia|]. replace (S p - 1) with p in * by lia.
    destruct (nth_error rest p) as [th0|] eqn:Et; [|apply nth_error_None in Et; lia]. destruct (Forall2_nth_l _ _ _ Er _ _ Et) as (th & Eth & Hin).
    destruct (nth_error (i_phases f_inst) (S p)) as [tf|] eqn:Ef.
    2:{ apply nth_error_None in Ef. cbn in Ef. rewrite !map_length in Ef. unfold fn in Hp. lia. }
    destruct (Forall2_nth_l _ _ _ HU _ _ Ef) as (th0' & E1 & (HT & HC)). cbn in E1. assert (th0' = th0) by congruence. subst th0'.
    destruct (f_phase (S p) tf ltac:(lia) Ef) as (x' & X1 & X2 & X3). replace (S p - 1) with p in X1 by lia. assert (x' = x) by congruence. subst x'.
    exists x, th0, th. rewrite Es. cbn. rewrite <- X2, <- X3. auto 10. }
  assert (Hall : forall p, p <= fn -> exists th, nth_error (i_phases s) p = Some th /\ p_queue th = [] /\ p_tail th = 0 /\ p_headlen th = 0).
  { induction p as [|p IH]; intros Hp; [exists p0; rewrite Es; auto|]. destruct (IH ltac:(lia)) as (pv & _ & Q1 & Q2 & Q3). destruct (Hph (S p) ltac:(lia)) as (x & th0 & th & X1 & X2 & X3 & X4 & X5 & X6).
    destruct (f_start x pv th0 th X2 X5 X6 X4 Q1 Q2 Q3) as (R1 & R2 & R3 & _). exists th. auto. }
  set (D := fun p => match nth_error c (p - 1) with Some x => phase_rel s p x | None => fun _ _ _ _ => False end).
  assert (HD : forall p, 1 <= p <= fn -> exists m, inv_at SPf s false false p (D p) m).
  { intros p Hp. destruct (Hall (p - 1) ltac:(lia)) as (pv & Epv & Q1 & Q2 & Q3). destruct (Hph p Hp) as (x & th0 & th & X1 & X2 & X3 & X4 & X5 & X6).
    destruct (f_start x pv th0 th X2 X5 X6 X4 Q1 Q2 Q3) as (R1 & R2 & R3 & m & HM). exists m, pv, th. split; [exact Epv|]. split; [exact X3|]. unfold SPf, D. rewrite X1.
    destruct x as [ty lx cout|cd f J|ty cs sp rel]; cbn [phase_rel]; [apply HM; reflexivity| |rewrite X3; apply HM; reflexivity].
    (* the private state is the one in the phase *)
    assert (Hσ : exists σ, p_codecs th = [set_priv cd σ]).
    { unfold init_phase, reset in X4. cbv zeta in X4. cbn [set_codecs set_curr p_codecs f_codecs] in X4, X6. cbn in X4. destruct (shc_one _ _ X6) as (b & Eb & Hb). destruct (init_codec_sc _ _ Hb) as (q & Hq & Eq).
      rewrite Eb in X4. cbn [map] in X4. match type of X4 with context [match ?r with Some _ => _ | None => None end] => destruct r; [|discriminate] end. injection X4 as <-. cbn. rewrite Eq, init_codec_set. eauto. }
    destruct Hσ as (σ & Hσ). specialize (HM (rden cd f σ [] []) (ex_intro _ σ (conj Hσ eq_refl))). cbn [f_spec star_pspec s_inv] in *. unfold sinv in *.
    destruct HM as (σ1 & cu & i & ba & hl & md & st & off & fm & fp & fl & q & tl & E1 & E2 & E3 & E4 & E5 & E6).
    exists σ1, cu, i, ba, hl, md, st, off, fm, fp, fl, q, tl. repeat (split; [assumption|]).
    assert (Hincl : forall B, incl_den (rden cd f σ [] []) B -> incl_den (fun Y o e z => exists σ, priv_at s p σ /\ rden cd f σ [] [] Y o e z) B).
    { intros B HB Y o e1 z1 (σ2 & (th2 & cd2 & P1 & P2 & P3) & HR). apply HB. assert (th2 = th) by congruence. subst th2. rewrite Hσ in P2. injection P2 as <-. cbn in P3. subst σ2. exact HR. }
    inversion E6; subst.
    - eapply m_run; eauto.
    - eapply m_sub; eauto.
    - eapply m_done; eauto. }
  assert (HM : exists m, forall p, 1 <= p <= fn -> inv_at SPf s false false p (D p) (m p)).
  { clear - HD. assert (Hk : forall k, exists m, forall p, 1 <= p <= fn -> p <= k -> inv_at SPf s false false p (D p) (m p)).
    { induction k as [|k (m & Hm)]; [exists (fun _ => []); intros; lia|]. destruct (Nat.le_gt_cases (S k) fn) as [L|L].
      - destruct (HD (S k) ltac:(lia)) as (mk & Hmk). exists (fun q => if q =? S k then mk else m q). intros p Hp Hpk. destruct (Nat.eqb_spec p (S k)) as [->|Hne]; [exact Hmk|]. apply Hm; lia.
      - exists m. intros p Hp Hpk. apply Hm; lia. }
    destruct (Hk fn) as (m & Hm). exists m. intros p Hp. apply Hm; lia. }
  destruct HM as (m & HM).
  assert (HSP : forall p, 1 <= p <= fn -> exists x, nth_error c (p - 1) = Some x /\ SPf p = f_spec x /\ f_ok x).
  { intros p Hp. destruct (Hcx p Hp) as (x & Ex & Hok). exists x. unfold SPf. rewrite Ex. auto. }
  destruct (Hall fn ltac:(lia)) as (thn & En & Qn1 & Qn2 & _).
  destruct (flow_stream fn SPf Hpos) with (fz := z) (XO := I (S fn)) (Xe := i_oerr s + list_sum (map e (seq 1 fn))) (E0 := i_ierr s) (l := l) (s := s) (D := D) (m := m) (I := I) (e := e) as (s' & out & R1 & R2 & R3 & R4 & R5).
  - intros p Hp. destruct (HSP p Hp) as (x & _ & -> & Hok). apply f_spec_ok. exact Hok.
  - intros p Hp Hf. destruct (HSP p Hp) as (x & Ex & Esp & _). rewrite Esp in Hf. destruct p as [|[|p]]; [lia|reflexivity|]. exfalso. apply (c_rest p x); [replace (S (S p) - 1) with (S p) in Ex by lia; exact Ex|]. destruct x; try exact Hf. cbn [f_spec] in Hf. cbn [f_type]. destruct (c_ok _ (nth_error_In _ _ Ex)) as (Hst & _). congruence.
  - intros p Hp Hc. destruct (HSP p ltac:(lia)) as (x & Ex & -> & _). destruct (HSP (S p) ltac:(lia)) as (y & Ey & Esp & _). rewrite Esp in Hc.
    assert (Hst : f_star y = true) by (destruct y; [discriminate|reflexivity|exact Hc]). assert (Hco : f_cout x = true) by (apply (c_clean (p - 1) x y Ex); [replace (S (p - 1)) with (S p - 1) by lia; exact Ey|exact Hst]).
    destruct x; exact Hco.
  - destruct c_first as (x0 & r0 & E & Hx0). unfold SPf. rewrite E. cbn [Nat.sub nth_error]. destruct x0; [reflexivity|discriminate|exact Hx0].
  - exact Hne.
  - exact Hll.
  - constructor.
    + constructor.
      * cbn. rewrite Es. cbn. lia.
      * intros p Hp. replace (p <=? 0) with false by (symmetry; apply Nat.leb_gt; lia). replace (p =? 0) with false by (symmetry; apply Nat.eqb_neq; lia). apply HM. exact Hp.
      * exists thn. split; [exact En|]. rewrite Qn1, Qn2. reflexivity.
      * intros p Hp. lia.
      * auto.
    + constructor.
      * exact HI1.
      * intros p Hp. unfold D. destruct (Hcx p Hp) as (x & Ex & _). rewrite Ex. apply HIr; [lia|exact Ex].
      * intros p Hp. lia.
      * exists thn. split; [exact En|]. rewrite Qn1. reflexivity.
      * reflexivity.
      * reflexivity.
    + lia.
    + discriminate.
    + auto.
  - exists s', out. split; [exact R1|]. split; [exact R2|]. split; [exact R4|]. split; [exact R3|].
    intros p x Hp Hc. assert (Hp' : 1 <= p <= fn) by (split; [lia|]; assert (p - 1 < length c) by (apply nth_error_Some; congruence); unfold fn; lia).
    destruct (R5 p Hp') as (th & T1 & T2). unfold SPf in T2. rewrite Hc in T2. eauto.
Qed.
Theorem flow_fresh l (s0 s : inst) I e z : l <> [] -> Forall (fun x => lossless (snd x)) l -> used f_inst s0 -> bsdconv_init s0 = Some s ->
  I 1 = filter nonempty (inputs l) -> (forall p x, 1 <= p -> nth_error c (p - 1) = Some x -> phase_rel s p x (I p) (I (S p)) (e p) (z p)) ->
  exists s' out, runs_to s (stream_calls l) s' out /\ out ++ pending P s' = concat (I (S fn)) /\ i_ierr s' = i_ierr s /\ i_oerr s' = i_oerr s + list_sum (map e (seq 1 fn)) /\
    forall p cd f J, 1 <= p -> nth_error c (p - 1) = Some (FStar cd f J) -> exists σ, z p = Some σ /\ priv_at s' p σ.
Proof.
  intros A1 A2 A3 A4 A5 A6. destruct (flow_fresh_gen l s0 s I e z A1 A2 A3 A4 A5 A6) as (s' & out & R1 & R2 & R3 & R4 & R5).
  exists s', out. repeat (split; [assumption|]). intros p cd f J Hp Hc. destruct (R5 p _ Hp Hc) as (th & T1 & T2). destruct T2 as (σ & Z1 & Z2). exists σ. split; [exact Z1|]. exists th, (set_priv cd σ). auto.
Qed.
(** There is always such an instance. *)
Lemma f_init_some : exists s, bsdconv_init f_inst = Some s.
Proof.
  unfold bsdconv_init. cbn [i_phases f_inst new_instance]. destruct (init_phase true _) as [p0|] eqn:E0; [|discriminate E0]. cbn [obind].
  destruct (init_rest_some (map (fun x => new_phase P (fst x) (snd x)) (map (fun x => (f_type x, f_codecs x)) c))) as (r & Hr); [|].
  - rewrite map_map. apply Forall_forall. intros th Hin. apply in_map_iff in Hin as (x & <- & Hx). pose proof (c_ok x Hx) as Hok. cbn [fst snd].
    unfold init_phase. cbv zeta. unfold reset. cbn -[read_state]. destruct x as [ty l cout|cd f J|ty cs sp rel]; cbn [f_ok f_codecs] in *.
    3:{ destruct Hok as (_ & _ & (a & r & -> & Hrs) & _). cbn -[read_state]. assert (E : e_tab (init_codec a) = e_tab a) by (unfold init_codec; destruct (e_init a); reflexivity). rewrite E. destruct (read_state (e_tab a) 0); [eauto|contradiction]. }
    + destruct Hok as (H1 & _ & _ & H4 & _). destruct l as [|y l]; [contradiction|]. cbn -[read_state]. destruct (codec_ok_root _ _ _ (H4 y (or_introl eq_refl))) as (s0 & Hs0 & _).
      assert (E : e_tab (init_codec (fst y)) = e_tab (fst y)) by (unfold init_codec; destruct (e_init (fst y)); reflexivity). rewrite E, Hs0. eauto.
    + destruct Hok as (H1 & _). cbn -[read_state]. assert (E : e_tab (init_codec cd) = e_tab cd) by (unfold init_codec; destruct (e_init cd); reflexivity). rewrite E, H1. cbn. eauto.
  - match goal with |- context [fold_right ?g ?a ?b] => match type of Hr with fold_right _ _ ?b' = _ => change (fold_right g a b) with (fold_right (fun t acc => obind acc (fun l => obind (init_phase false t) (fun t' => Some (t' :: l)))) (Some []) b') end end. rewrite Hr. cbn [obind]. eauto.
Qed.
End E.

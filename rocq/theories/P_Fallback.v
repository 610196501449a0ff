(** Conversions with fallback codecs. *)
From Verif Require Import Base Types M_Engine M_Output M_Mktable M_Create M_Callback M_Modules M_Hex M_Fallback S_Session S_Rest S_Engine S_Dict S_Source S_Table S_Convert S_Fallback
  P_Trans P_Engine1 P_Engine5 P_Dict P_Convert P_Session P_Session2 P_Session3 P_CbSession P_Callback P_Ascii P_Unicode P_Escape2 P_Pair P_EngineEx.
Import S_Engine.

(** ** The codec *)
Lemma any_from_ok d : from_ok (any_codec d) (star_spec (fun _ => Some d)).
Proof.
  constructor.
  - exists star_root. split; [reflexivity|]. intros off p _. split; [reflexivity|]. unfold kids_all. cbn. auto 10.
  - intros pre s off lb p dd i b (-> & Hk & ->) Hb. unfold fread. cbn [e_tab any_codec].
    destruct (N.ltb_spec b 257) as [Hx|Hx].
    + rewrite (feed1_all _ _ _ _ _ 0 sub1 Hk) by auto. cbn [sub1 t_status e_conv any_codec]. eexists _, _, _, _, _, _. split; [reflexivity|]. exists []. split; [constructor|].
      unfold any_cb, datum_cb. cbn [with_status t_status cb_status cb_priv cb_i cb_out]. split; [exact I|]. assert (i < length dd) by (apply nth_error_Some; congruence). split; [lia|].
      exists [b]. cbn [app]. rewrite (skipn_nth_cons _ _ _ Hb). split; [reflexivity|]. cbn. destruct (N.ltb_spec b 257); [reflexivity|lia].
    + destruct Hk as (K1 & K2 & K3). unfold feed1, get_offset. rewrite K1, K2. replace ((0 <=? b)%N && (b <? 257)%N) with false by lia. cbn [read_state star_table nth_error t_status].
      eexists _, _, _, _, _, _. split; [reflexivity|]. exists []. split; [constructor|]. cbn [t_status]. split; [reflexivity|]. split; [exact I|]. exists [b], (byt (skipn (S i) dd)). split; [cbn [app]; rewrite (skipn_nth_cons _ _ _ Hb); reflexivity|]. cbn. destruct (N.ltb_spec b 257); [lia|reflexivity].
Qed.
Lemma any_ok t d : (t = FROM \/ t = INTER \/ t = TO) -> codec_ok t (any_codec d) (star_spec (fun _ => Some d)).
Proof. intros [->|[-> | ->]]; [apply any_from_ok|apply star_ok; reflexivity|apply star_ok; reflexivity]. Qed.

(** ** One phase *)
Definition fb_sems (t : ptype) (Ds : list dict) (fb : option (list datum)) : list csem :=
  map (sem_of t) Ds ++ match fb with Some d => [star_sem (fun _ => Some d)] | None => [] end.
Definition low (x : datum) : Prop := match x with [] => False | b :: _ => (b < 257)%N end.

Lemma chosen_first t Ds ds n o : (t = FROM \/ t = INTER \/ t = TO) -> Forall (sym_ok t) ds -> chosen t Ds ds n o -> first_match (map (sem_of t) Ds) ds = Some (n, o).
Proof.
  intros Ht HF Hc. pose proof (first_match_dict t Ht Ds ds HF) as HM. destruct (first_match _ ds) as [[n' o']|].
  - destruct (chosen_det _ _ _ _ _ _ _ Hc HM) as (-> & ->). reflexivity.
  - exfalso. eapply chosen_matched; eassumption.
Qed.
Lemma unmatched_first t Ds ds : (t = FROM \/ t = INTER \/ t = TO) -> Forall (sym_ok t) ds -> unmatched t Ds ds -> first_match (map (sem_of t) Ds) ds = None.
Proof.
  intros Ht HF Hu. pose proof (first_match_dict t Ht Ds ds HF) as HM. destruct (first_match _ ds) as [[n' o']|]; [|reflexivity]. exfalso. eapply chosen_matched; eassumption.
Qed.
Lemma first_none cs1 cs2 ds : first_match cs1 ds = None -> first_match (cs1 ++ cs2) ds = first_match cs2 ds.
Proof. induction cs1 as [|v cs1 IH]; cbn; [reflexivity|]. destruct (scan v [] ds None); [discriminate|exact IH]. Qed.
Lemma Forall_skipn {A} (Q : A -> Prop) n l : Forall Q l -> Forall Q (skipn n l).
Proof. rewrite <- (firstn_skipn n l) at 1. intros H. apply Forall_app in H. apply H. Qed.

Lemma subst_trans t Ds d ds out : (t = FROM \/ t = INTER \/ t = TO) -> substitutes t Ds d ds out -> Forall (sym_ok t) ds -> Forall low ds ->
  trans (kind_of_type t) (fb_sems t Ds (Some d)) ds = (out, 0).
Proof.
  intros Ht H. induction H as [|ds n o out Hc H IH|x ds out Hu H IH]; intros HF HL.
  - reflexivity.
  - pose proof (first_match_app _ [star_sem (fun _ => Some d)] _ _ (chosen_first _ _ _ _ _ Ht HF Hc)) as EM. rewrite (trans_match _ _ _ _ _ EM).
    change (map (sem_of t) Ds ++ [star_sem (fun _ : datum => Some d)]) with (fb_sems t Ds (Some d)). rewrite IH by (apply Forall_skipn; assumption). reflexivity.
  - assert (EM : first_match (fb_sems t Ds (Some d)) (x :: ds) = Some (1, d)).
    { unfold fb_sems. rewrite first_none by (apply unmatched_first; assumption). inversion HL as [|? ? HX]; subst. destruct x as [|b x]; [contradiction|]. cbn in HX. cbn [first_match scan app star_sem]. destruct (N.ltb_spec b 257); [reflexivity|lia]. }
    rewrite (trans_match _ _ _ _ _ EM). cbn [skipn]. inversion HF; inversion HL; subst. rewrite IH by assumption. reflexivity.
Qed.
Lemma subst_total t Ds d : (t = FROM \/ t = INTER \/ t = TO) -> forall n ds, length ds <= n -> Forall (sym_ok t) ds -> exists out, substitutes t Ds d ds out.
Proof.
  intros Ht. induction n as [|n IH]; intros ds Hn HF.
  - destruct ds; [exists []; constructor|cbn in Hn; lia].
  - destruct ds as [|x r]; [exists []; constructor|]. pose proof (first_match_dict t Ht Ds (x :: r) HF) as HM. destruct (first_match _ (x :: r)) as [[k o]|] eqn:EM.
    + pose proof (first_match_bound _ _ _ _ EM) as Hk. destruct (IH (skipn k (x :: r))) as (out & Ho); [rewrite skipn_length; cbn [length] in *; lia|apply Forall_skipn; exact HF|]. exists (o ++ out). eapply sb_match; eassumption.
    + destruct (IH r) as (out & Ho); [cbn in Hn; lia|inversion HF; assumption|]. exists (d ++ out). apply sb_other; assumption.
Qed.
Lemma subst_det t Ds d ds out : substitutes t Ds d ds out -> forall out', substitutes t Ds d ds out' -> out = out'.
Proof.
  induction 1 as [|ds n o out Hc H IH|x ds out Hu H IH]; intros out' H'; inversion H' as [|ds2 n2 o2 out2 Hc2 H2|x2 ds2 out2 Hu2 H2]; subst; try (exfalso; eapply chosen_matched; eassumption).
  - reflexivity.
  - destruct Hc2 as (j & D & _ & _ & ((H0 & H0') & _) & _). cbn in H0'. lia.
  - destruct Hc as (j & D & _ & _ & ((H0 & H0') & _) & _). cbn in H0'. lia.
  - destruct (chosen_det _ _ _ _ _ _ _ Hc Hc2) as (-> & ->). rewrite (IH _ H2). reflexivity.
  - rewrite (IH _ H2). reflexivity.
Qed.

(** ** Data stay bytes *)
Lemma file_bytes es w o : Forall entry_ok es -> lookup (file_dict es) w = Some o -> Forall byte_data o.
Proof.
  intros HE HL. apply P_Dict.lookup_in in HL. unfold file_dict in HL. apply in_flat_map in HL as (e & He & Hk). apply in_map_iff in Hk as (x & E & _). injection E as _ <-.
  rewrite Forall_forall in HE. exact (eo_data _ (HE _ He)).
Qed.
Lemma chosen_bytes t ess ds n o : Forall (Forall entry_ok) ess -> chosen t (map file_dict ess) ds n o -> Forall byte_data o.
Proof.
  intros HE (j & D & H1 & _ & (_ & H3) & _). rewrite nth_error_map in H1. destruct (nth_error ess j) as [es|] eqn:E; [|discriminate]. injection H1 as <-. eapply file_bytes; [|exact H3].
  rewrite Forall_forall in HE. apply HE. eapply nth_error_In. exact E.
Qed.
Lemma subst_bytes t ess d ds out : Forall (Forall entry_ok) ess -> Forall byte_data d -> substitutes t (map file_dict ess) d ds out -> Forall byte_data out.
Proof.
  intros HE HD. induction 1 as [|ds n o out Hc H IH|x ds out Hu H IH]; [constructor| |]; apply Forall_app; split; auto. eapply chosen_bytes; eassumption.
Qed.
Lemma run_bytes t ess ds out e : Forall (Forall entry_ok) ess -> run_phase t (map file_dict ess) ds out e -> Forall byte_data ds -> Forall byte_data out.
Proof.
  intros HE. induction 1 as [|ds n o out e Hc H IH|x ds out e Ht Hu H IH|x ds out e Ht Hu H IH|ds k out e Ht Hne Hu Hd H IH]; intros HF.
  - constructor.
  - apply Forall_app. split; [eapply chosen_bytes; eassumption|]. apply IH. apply Forall_skipn. exact HF.
  - inversion HF; auto.
  - inversion HF; subst. constructor; auto.
  - apply IH. apply Forall_skipn. exact HF.
Qed.
Lemma seen_bytes t ds : Forall byte_data ds -> Forall byte_data (seen_by t ds) /\ Forall low (seen_by t ds).
Proof.
  intros H. assert (HC : Forall (fun b => (b < 256)%N) (concat ds)) by (induction H; cbn; [constructor|apply Forall_app; auto]).
  assert (HF : Forall byte_data (filter (fun d => match d with [] => false | _ => true end) ds) /\ Forall low (filter (fun d => match d with [] => false | _ => true end) ds)).
  { clear HC. induction H as [|d ds Hd _ (I1 & I2)]; cbn; [auto|]. destruct d as [|b d]; [auto|]. split; constructor; auto. cbn. inversion Hd; subst. lia. }
  destruct t; cbn; try exact HF. clear HF H. induction HC as [|b bs Hb _ (I1 & I2)]; cbn; [auto|]. split; constructor; auto. - constructor; auto. - cbn. lia.
Qed.

(** ** Whole conversions *)
Definition fb_side (t : ptype) (ess : list (list sentry)) (fb : option (list datum)) : list (ecodec priv * kspec) :=
  map (fun es => (tab_codec (compiled es), match t with FROM => from_spec (file_dict es) (compiled es) | _ => data_spec (file_dict es) (compiled es) end)) ess ++
  match fb with Some d => [(any_codec d, star_spec (fun _ => Some d))] | None => [] end.
Definition fb_conv (c : list fb_source) : list (ptype * list (ecodec priv * kspec)) := map (fun x => (fst (fst x), fb_side (fst (fst x)) (snd (fst x)) (snd x))) c.
Lemma fb_inst_is c : cb_inst (fb_conv c) = fb_inst c.
Proof.
  unfold cb_inst, fb_inst, fb_conv. f_equal. rewrite map_map. apply map_ext. intros [[t ess] fb]. cbn [fst snd]. f_equal. unfold fb_side, fb_codecs. cbn [fst snd]. rewrite map_app, map_map. f_equal. destruct fb; reflexivity.
Qed.
Definition fb_psem (x : fb_phase) : psem := mkPsem (kind_of_type (fst (fst x))) (fb_sems (fst (fst x)) (snd (fst x)) (snd x)).
Lemma fb_pipe_is c : (forall t ess fb, In (t, ess, fb) c -> t = FROM \/ t = INTER \/ t = TO) -> cb_pipe (fb_conv c) = map fb_psem (fb_meaning c).
Proof.
  intros Ht. unfold cb_pipe, fb_conv, fb_meaning. rewrite !map_map. apply map_ext_in. intros [[t ess] fb] Hin. specialize (Ht _ _ _ Hin). cbn [fst snd fb_psem]. unfold fb_psem. cbn [fst snd]. f_equal.
  unfold fb_side, fb_sems. rewrite map_app, !map_map. f_equal; [|destruct fb; reflexivity]. apply map_ext. intros es. destruct Ht as [->|[-> | ->]]; reflexivity.
Qed.
Lemma fb_in c t l : In (t, l) (fb_conv c) -> exists ess fb, In (t, ess, fb) c /\ l = fb_side t ess fb.
Proof. intros H. apply in_map_iff in H as ([[t' ess] fb] & E & Hin). cbn in E. injection E as <- <-. eauto. Qed.
Lemma fb_side_in t ess fb x : In x (fb_side t ess fb) ->
  (exists es, In es ess /\ x = (tab_codec (compiled es), match t with FROM => from_spec (file_dict es) (compiled es) | _ => data_spec (file_dict es) (compiled es) end)) \/
  (exists d, fb = Some d /\ x = (any_codec d, star_spec (fun _ => Some d))).
Proof.
  intros H. apply in_app_or in H as [H|H]; [left|right].
  - apply in_map_iff in H as (es & <- & H). eauto.
  - destruct fb as [d|]; [|destruct H]. destruct H as [<-|[]]. eauto.
Qed.
Lemma fb_eof t ess fb x : In x (fb_side t ess fb) -> eof_clean (snd x).
Proof. intros H. apply fb_side_in in H as [(es & _ & ->)|(d & _ & ->)]; [destruct t; first [apply from_eof|apply data_eof]|apply star_eof]. Qed.
Lemma fb_conv_ok c : fb_ok c -> cb_ok (fb_conv c).
Proof.
  intros Hc. constructor.
  - destruct (fo_first _ Hc) as (es & fb & r & ->). cbn. eauto.
  - intros t l Hin. destruct (fb_in _ _ _ Hin) as (ess & fb & H & ->). destruct (fo_types _ Hc _ _ _ H) as (H1 & H2). split; [exact H1|]. unfold fb_side. destruct ess as [|e ess]; [|discriminate]. destruct fb; [discriminate|]. destruct H2; congruence.
  - intros i l l' H1 H2. unfold fb_conv in *. rewrite !nth_error_map in H1, H2. destruct (nth_error c i) as [[[t ess] fb]|] eqn:E1; [|discriminate]. destruct (nth_error c (S i)) as [[[t' ess'] fb']|] eqn:E2; [|discriminate]. cbn in H1, H2. injection H1 as -> _. injection H2 as -> _. exact (fo_adj _ Hc _ _ _ _ _ E1 E2).
  - intros t l x Hin Hx. destruct (fb_in _ _ _ Hin) as (ess & fb & H & ->). destruct (fo_types _ Hc _ _ _ H) as (Ht & _).
    apply fb_side_in in Hx as [(es & He & ->)|(d & -> & ->)]; cbn [fst snd].
    + pose proof (fo_entries _ Hc _ _ _ H) as HE. rewrite Forall_forall in HE. pose proof (compiled_ok es (HE _ He)) as HT.
      assert (HS : sub_nonempty (file_dict es)) by (intros w o; apply (fo_sub _ Hc _ _ _ _ _ _ H He)).
      destruct Ht as [->|[-> | ->]]; (split; [first [apply tab_from_ok|apply tab_data_ok]; assumption|exact I]).
    + split; [apply any_ok; exact Ht|exact I].
  - intros t l j x Hin Hx. left. destruct (fb_in _ _ _ Hin) as (ess & fb & H & ->). eapply fb_eof. eapply nth_error_In. exact Hx.
Qed.
Lemma fb_restores c : restores (fb_conv c).
Proof.
  intros t l x q Hin Hx _. destruct (fb_in _ _ _ Hin) as (ess & fb & H & ->). apply fb_side_in in Hx as [(es & He & ->)|(d & -> & ->)]; [destruct t|]; exact I.
Qed.

Section Wf.
Variable c0 : list fb_source.
Hypothesis Hc0 : fb_ok c0.
Lemma run_fb_pipe : forall c, incl c c0 -> forall ds out ie oe, run_fb (fb_meaning c) ds out ie oe -> Forall byte_data ds -> forall i0 o0,
  fold_left (fun x ph => apply_phase ph x) (map fb_psem (fb_meaning c)) (ds, i0, o0) = (out, i0 + ie, o0 + oe).
Proof.
  induction c as [|[[t ess] fb] c IH]; intros Hi ds out ie oe H HB i0 o0.
  - inversion H; subst. cbn. rewrite !Nat.add_0_r. reflexivity.
  - assert (Hin : In (t, ess, fb) c0) by (apply Hi; left; reflexivity). destruct (fo_types _ Hc0 _ _ _ Hin) as (Ht & Hne). pose proof (fo_entries _ Hc0 _ _ _ Hin) as HE.
    assert (Hi' : incl c c0) by (intros y Hy; apply Hi; right; exact Hy). destruct (seen_bytes t ds HB) as (B1 & B2). pose proof (seen_ok t ds) as B3.
    assert (Hinj : inj (kind_of_type t) ds = seen_by t ds) by (destruct Ht as [->|[-> | ->]]; reflexivity).
    cbn [fb_meaning map fst snd] in H |- *. change (map (fun x => (fst (fst x), map file_dict (snd (fst x)), snd x)) c) with (fb_meaning c) in *. cbn [fold_left].
    unfold apply_phase at 2. cbn [fb_psem ps_kind ps_cs fst snd]. rewrite Hinj.
    inversion H as [|t' Ds r ds' mid out' e ie' oe' Hp Hr|t' Ds d r ds' mid out' ie' oe' Hp Hr]; subst.
    + assert (HDs : map file_dict ess <> []) by (destruct Hne as [Hne|Hne]; [destruct ess; [contradiction|discriminate]|congruence]).
      pose proof (trans_run t Ht _ HDs _ _ (le_n _) B3) as HR. unfold fb_sems. rewrite app_nil_r. destruct (trans (kind_of_type t) (map (sem_of t) (map file_dict ess)) (seen_by t ds)) as [o e1]. cbn [fst snd] in HR. destruct (run_phase_det _ _ _ _ _ Hp _ _ HR) as (<- & <-).
      pose proof (run_bytes _ _ _ _ _ HE Hp B1) as HB'.
      destruct Ht as [->|[-> | ->]]; cbn [kind_of_type]; rewrite (IH Hi' _ _ _ _ Hr HB'); repeat apply (f_equal2 pair); try reflexivity; lia.
    + rewrite (subst_trans _ _ _ _ _ Ht Hp B3 B2). pose proof (subst_bytes _ _ _ _ _ HE (fo_data _ Hc0 _ _ _ Hin) Hp) as HB'.
      destruct Ht as [->|[-> | ->]]; cbn [kind_of_type]; rewrite (IH Hi' _ _ _ _ Hr HB'); repeat apply (f_equal2 pair); try reflexivity; lia.
Qed.
Lemma run_fb_total : forall c, incl c c0 -> forall ds, exists out ie oe, run_fb (fb_meaning c) ds out ie oe /\ (covered FROM (fb_meaning c) -> ie = 0) /\ (covered TO (fb_meaning c) -> oe = 0).
Proof.
  induction c as [|[[t ess] fb] c IH]; intros Hi ds; [exists ds, 0, 0; repeat split; constructor|].
  assert (Hin : In (t, ess, fb) c0) by (apply Hi; left; reflexivity). destruct (fo_types _ Hc0 _ _ _ Hin) as (Ht & Hne).
  assert (Hi' : incl c c0) by (intros y Hy; apply Hi; right; exact Hy). cbn [fb_meaning map fst snd]. change (map (fun x => (fst (fst x), map file_dict (snd (fst x)), snd x)) c) with (fb_meaning c).
  assert (Hcov : forall t0 x, covered t0 (x :: fb_meaning c) -> covered t0 (fb_meaning c)) by (intros t0 x HC Ds f Hf; apply (HC Ds f); right; exact Hf).
  destruct fb as [d|].
  - destruct (subst_total t (map file_dict ess) d Ht _ _ (le_n _) (seen_ok t ds)) as (mid & Hm). destruct (IH Hi' mid) as (out & ie & oe & H1 & H2 & H3). exists out, ie, oe. split; [eapply fb_subst; eassumption|]. split; intros HC; [apply H2|apply H3]; eapply Hcov; exact HC.
  - assert (HDs : map file_dict ess <> []) by (destruct Hne as [Hne|Hne]; [destruct ess; [contradiction|discriminate]|congruence]).
    pose proof (trans_run t Ht _ HDs _ _ (le_n _) (seen_ok t ds)) as HR. destruct (IH Hi' (fst (trans (kind_of_type t) (map (sem_of t) (map file_dict ess)) (seen_by t ds)))) as (out & ie & oe & H1 & H2 & H3).
    eexists out, _, _. split; [eapply fb_plain; eassumption|]. split; intros HC.
    + rewrite H2 by (eapply Hcov; exact HC). destruct t; try reflexivity. exfalso. exact (HC (map file_dict ess) None (or_introl eq_refl) eq_refl).
    + rewrite H3 by (eapply Hcov; exact HC). destruct t; try reflexivity. exfalso. exact (HC (map file_dict ess) None (or_introl eq_refl) eq_refl).
Qed.
End Wf.
Lemma run_fb_det c ds out ie oe : run_fb c ds out ie oe -> forall out' ie' oe', run_fb c ds out' ie' oe' -> out = out' /\ ie = ie' /\ oe = oe'.
Proof.
  induction 1 as [|t Ds r ds mid out e ie oe Hp H IH|t Ds d r ds mid out ie oe Hp H IH]; intros out' ie' oe' H'; inversion H'; subst; [auto| |].
  - match goal with X : run_phase _ _ _ ?m ?e0, Y : run_fb _ ?m _ _ _ |- _ => destruct (run_phase_det _ _ _ _ _ Hp _ _ X) as (<- & <-); destruct (IH _ _ _ Y) as (-> & -> & ->) end. auto.
  - match goal with X : substitutes _ _ _ _ ?m, Y : run_fb _ ?m _ _ _ |- _ => rewrite <- (subst_det _ _ _ _ _ Hp _ X) in Y; destruct (IH _ _ _ Y) as (-> & -> & ->) end. auto.
Qed.

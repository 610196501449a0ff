(** Conversions with phases of all kinds, as an instance of P_Flow4. *)
From Verif Require Import Base Types M_Engine M_Output M_Create M_Callback M_UTF8 M_UTF16 M_Modules M_Fallback M_Star M_Stars M_Stage S_Session S_Unicode S_Rest S_Source S_Dict S_Convert S_Fallback S_Flow S_Transcode S_Stage S_Engine P_Trans P_Engine1 P_Engine2 P_Engine3 P_Engine4 P_Engine5 P_Engine6 P_Dict P_Convert P_Callback P_Session P_Session2 P_Session3 P_CbSession P_Ascii P_Charset P_Unicode P_Pair P_Shape P_Create P_UDA P_Escape2 P_Fallback P_Flow P_Flow2 P_Flow3 P_Flow4 P_Flow5 P_Flow6 P_Weak.
From Coq Require Import ZifyBool ZifyN ZifyNat.

(** ** A module behind any phase *)
Section Mod.
Context {S : Type} (inj : S -> priv) (prj : priv -> option S) (m : star S) (fl : bool) (ini : option (S -> S)) (s0 : S) (JS : S -> Prop).
Hypothesis HC : steady_module inj prj m fl ini s0 JS.
Notation c := (star_codec inj prj m fl ini s0).
Lemma cm_good : good_star m ini s0 JS.
Proof. constructor; apply HC. Qed.
Hypothesis HCS : forall x d, JS x -> byte_first d -> snd (fst (st_conv m x d)) = NEXTPHASE \/ snd (fst (st_conv m x d)) = SUBMATCH.
Definition wrel (ps : list priv) : Den (P:=priv) := match ps with [σ] => wden c (conv_of c) σ false [] | _ => fun _ _ _ _ => False end.
Definition mod_fph : fphase (P:=priv) := FGen INTER [c] (weak_pspec c (conv_of c) (JP inj JS)) wrel.
Lemma mod_J : (forall σ d, JP inj JS σ -> ne d -> JP inj JS (cb_priv (cv (conv_of c) σ d)) /\ Forall ne (cb_out (cv (conv_of c) σ d))) /\
  (forall σ, JP inj JS σ -> JP inj JS (fst (flushed c σ)) /\ Forall ne (snd (flushed c σ))) /\
  (forall σ d, JP inj JS σ -> ne d -> cb_status (cv (conv_of c) σ d) = NEXTPHASE \/ cb_status (cv (conv_of c) σ d) = SUBMATCH).
Proof.
  split; [|split].
  - intros σ d (s & -> & Hs) Hd. rewrite (cv_star inj prj m fl ini s0 (sm_prj _ _ _ _ _ _ _ HC)). cbn. split; [eexists; split; [reflexivity|apply HC; exact Hs]|apply HC; assumption].
  - intros σ (s & -> & Hs). rewrite (flushed_star inj prj m fl ini s0 (sm_prj _ _ _ _ _ _ _ HC) (sm_fl _ _ _ _ _ _ _ HC)). cbn. destruct (sm_flush _ _ _ _ _ _ _ HC s Hs). split; [eexists; split; [reflexivity|assumption]|assumption].
  - intros σ d (s & -> & Hs) Hd. rewrite (cv_star inj prj m fl ini s0 (sm_prj _ _ _ _ _ _ _ HC)). cbn. apply HCS; assumption.
Qed.
Lemma mod_fph_ok : f_ok mod_fph.
Proof.
  destruct mod_J as (J1 & J2 & J3). cbn [f_ok mod_fph]. split; [reflexivity|]. split; [apply weak_ok; [reflexivity|reflexivity|exact J1|exact J2|exact J3]|]. split.
  { exists c, []. split; [reflexivity|]. cbn. discriminate. }
  intros pv th0 th Hty Hsh Hi Q1 Q2 Q3.
  unfold init_phase, reset in Hi. cbv zeta in Hi. cbn [M_Engine.set_codecs M_Engine.set_curr M_Engine.set_match_data M_Engine.set_headlen M_Engine.set_queue M_Engine.set_offset M_Engine.set_flags p_codecs] in Hi.
  destruct (shc_one _ _ Hsh) as (b & Eb & Hb). destruct (init_codec_sc _ _ Hb) as (q & Hq & Eq). rewrite Eb in Hi. cbn [map] in Hi. rewrite Eq, init_codec_tab in Hi.
  rewrite init_codec_set in Hi. destruct (star_init inj prj m fl ini s0 JS (sm_prj _ _ _ _ _ _ _ HC) (sm_fl _ _ _ _ _ _ _ HC) cm_good q Hq) as (x & Hx & Ex). rewrite Ex in Hi.
  change (read_state (e_tab c) 0) with (Some star_root) in Hi. cbn in Hi. injection Hi as <-. cbn [map p_codecs].
  set (x1 := match ini with Some g => g x | None => x end). eexists. cbn [weak_pspec s_inv]. unfold winv.
  exists (inj x1), 0, (p_i priv th0), (p_bak priv th0), 0, [], star_root, 0, false, false, false, [], 0. split; [unfold st_at; rewrite <- Hty; reflexivity|].
  split. { exists x1. split; [reflexivity|]. unfold x1. destruct ini eqn:E; [eapply (sm_init _ _ _ _ _ _ _ HC); [reflexivity|exact Hx]|exact Hx]. }
  split; [rewrite Q1; exact Q2|]. split; [apply srt_root|]. split; [reflexivity|]. rewrite Q1. apply w_run; [lia|]. intros Y o e z HZ. exact HZ.
Qed.
Lemma mod_rel (s : inst priv) p x x' ds mid : module_state s p (inj x) -> JS x -> Forall ne ds -> star_stream m x ds = Some (x', mid) -> phase_rel s p mod_fph ds mid 0 (Some (inj x')).
Proof.
  intros (th & cd & E1 & E2 & E3) HJ HN HS. cbn [phase_rel mod_fph]. rewrite E1, E2. cbn [map wrel]. rewrite E3. split; [reflexivity|]. exists (inj x'). split; [reflexivity|]. cbn [app].
  apply (star_strm inj prj m fl ini s0 (sm_prj _ _ _ _ _ _ _ HC) (sm_fl _ _ _ _ _ _ _ HC)) in HS. destruct mod_J as (J1 & J2 & J3).
  apply (proj1 (sd_wsd c (conv_of c) (JP inj JS) J1 J2 J3)) with (H := []); [exact HS|exists x; auto|exact HN|reflexivity].
Qed.
Definition str_fph : fphase (P:=priv) := FStar c (conv_of c) (JP inj JS).
Lemma str_fph_ok : f_ok str_fph.
Proof using HC. destruct (star_fst_ok inj prj m fl ini s0 JS (sm_prj _ _ _ _ _ _ _ HC) (sm_fl _ _ _ _ _ _ _ HC) cm_good) as (_ & H). exact H. Qed.
Lemma str_rel (s : inst priv) p x x' ds mid : module_state s p (inj x) -> star_stream m x ds = Some (x', mid) -> phase_rel s p str_fph ds mid 0 (Some (inj x')).
Proof using HC.
  intros (th & cd & E1 & E2 & E3) HS. apply (star_strm inj prj m fl ini s0 (sm_prj _ _ _ _ _ _ _ HC) (sm_fl _ _ _ _ _ _ _ HC)) in HS.
  cbn [phase_rel str_fph]. exists (inj x). split; [exists th, cd; auto|]. split; [reflexivity|]. exists (inj x'). split; [reflexivity|exact HS].
Qed.
Lemma stream_ne x x' ds mid : JS x -> Forall ne ds -> star_stream m x ds = Some (x', mid) -> Forall ne mid.
Proof using HC.
  assert (HF : forall ds x p, JS x -> Forall ne ds -> match star_feed m x p ds with Some (x1, _, o) => JS x1 /\ Forall ne o | None => True end).
  { clear x ds. induction ds as [|d ds IH]; intros x p HJ HN; cbn [star_feed]; [auto|]. inversion HN; subst. unfold star_one.
    pose proof (sm_conv _ _ _ _ _ _ _ HC x d HJ) as K1. pose proof (sm_out _ _ _ _ _ _ _ HC x d HJ ltac:(assumption)) as K2.
    destruct (st_conv m x d) as [[x1 st] o1]; cbn in K1, K2.
    destruct st; try exact I.
    - destruct p; [exact I|]. specialize (IH x1 false K1 ltac:(assumption)). destruct (star_feed m x1 false ds) as [[[x2 p2] o2]|]; [|exact I]. split; [apply IH|]. apply Forall_app. split; [apply Forall_app; auto|apply IH].
    - specialize (IH x1 true K1 ltac:(assumption)). destruct (star_feed m x1 true ds) as [[[x2 p2] o2]|]; [|exact I]. split; [apply IH|]. apply Forall_app. split; [exact K2|apply IH].
    - specialize (IH x1 false K1 ltac:(assumption)). destruct (star_feed m x1 false ds) as [[[x2 p2] o2]|]; [|exact I]. split; [apply IH|]. apply Forall_app. split; [exact K2|apply IH]. }
  intros HJ HN HS. unfold star_stream in HS. specialize (HF ds x false HJ HN). destruct (star_feed m x false ds) as [[[x1 p1] o1]|]; [|discriminate]. destruct HF as (F1 & F2).
  destruct p1; [|injection HS as _ <-; exact F2]. pose proof (sm_flush _ _ _ _ _ _ _ HC x1 F1) as (_ & F3). destruct (st_flush m x1) as [x2 f]. injection HS as _ <-. apply Forall_app. auto.
Qed.
End Mod.

(** ** Data of table phases *)
Definition wl (d : datum) : Prop := match d with [] => True | b :: _ => (b < 257)%N end.
Lemma bytes_wl ds : Forall byte_data ds -> Forall wl ds.
Proof. intros H. eapply Forall_impl; [|exact H]. intros [|b d] Hd; [exact I|]. inversion Hd; subst. cbn. lia. Qed.
Lemma run_wl t ess ds out e : Forall (Forall entry_ok) ess -> run_phase t (map file_dict ess) ds out e -> Forall wl ds -> Forall wl out.
Proof.
  intros HE. induction 1 as [|ds n o out e Hc H IH|x ds out e Ht Hu H IH|x ds out e Ht Hu H IH|ds k out e Ht Hne Hu Hd H IH]; intros HF.
  - constructor.
  - apply Forall_app. split; [apply bytes_wl; eapply chosen_bytes; eassumption|]. apply IH. apply Forall_skipn. exact HF.
  - inversion HF; auto.
  - inversion HF; subst. constructor; auto.
  - apply IH. apply Forall_skipn. exact HF.
Qed.
Lemma some_ne ds : Forall wl ds -> Forall ne (some_data ds).
Proof. induction 1 as [|[|b d] ds Hd _ IH]; cbn; [constructor|exact IH|constructor; [exact Hd|exact IH]]. Qed.
Lemma wl_seen t ds : (t = FROM -> Forall byte_data ds) -> Forall wl ds -> Forall wl (seen_by t ds) /\ Forall low (seen_by t ds).
Proof.
  intros H1 H2. destruct t; cbn; try (pose proof (some_ne ds H2) as H3; split; [|exact H3]; eapply Forall_impl; [|exact H3]; intros [|b d] Hd; [destruct Hd|exact Hd]).
  destruct (seen_bytes FROM ds (H1 eq_refl)) as (A & B). split; [apply bytes_wl; exact A|exact B].
Qed.
Lemma filter_idem {A} (g : A -> bool) l : filter g (filter g l) = filter g l.
Proof. induction l as [|x l IH]; cbn; [reflexivity|]. destruct (g x) eqn:E; cbn; [rewrite E, IH; reflexivity|exact IH]. Qed.
Definition files_fph (t : ptype) ess fb : fphase (P:=priv) := FTab t (fb_side t ess fb) false.
Lemma files_fph_ok t ess fb : link_ok (LFiles (t, ess, fb)) -> f_ok (files_fph t ess fb).
Proof.
  intros (Ht & Hne & HE & HS & Hd). cbn [f_ok files_fph]. split.
  { unfold fb_side. destruct ess as [|e ess]; [|discriminate]. destruct fb; [discriminate|]. destruct Hne; congruence. }
  split; [exact Ht|]. split; [discriminate|]. split.
  { intros x Hx. apply fb_side_in in Hx as [(es & He & ->)|(d & -> & ->)]; cbn [fst snd]; [|apply any_ok; exact Ht].
    rewrite Forall_forall in HE. pose proof (compiled_ok es (HE _ He)) as HT. assert (HSn : sub_nonempty (file_dict es)) by (intros w o; apply HS; exact He).
    destruct Ht as [->|[-> | ->]]; first [apply tab_from_ok|apply tab_data_ok]; assumption. }
  split.
  { intros x q Hx _. apply fb_side_in in Hx as [(es & He & ->)|(d & -> & ->)]; [destruct t|]; exact I. }
  intros j y Hy. left. eapply fb_eof. eapply nth_error_In. exact Hy.
Qed.
Lemma files_rel s p t ess fb ds mid e : link_ok (LFiles (t, ess, fb)) -> (t = FROM -> Forall byte_data ds) -> Forall wl ds -> run_fb [(t, map file_dict ess, fb)] ds mid 0 e ->
  phase_rel s p (files_fph t ess fb) (some_data ds) (some_data mid) e None /\ Forall wl mid.
Proof.
  intros (Ht & Hne & HE & HS & Hd) HB HW HR. destruct (wl_seen t ds HB HW) as (B1 & B2). pose proof (seen_ok t ds) as B3.
  assert (Hinj : S_Engine.inj (kind_of t) (some_data ds) = seen_by t ds).
  { destruct Ht as [->|[-> | ->]]; cbn; [f_equal; apply concat_ne|apply filter_idem|apply filter_idem]. }
  assert (Hk : kind_of t = kind_of_type t) by reflexivity.
  assert (Hsm : sems (map snd (fb_side t ess fb)) = fb_sems t (map file_dict ess) fb).
  { unfold sems, fb_side, fb_sems. rewrite !map_map, map_app, !map_map. f_equal; [|destruct fb; reflexivity]. apply map_ext. intros es. destruct Ht as [->|[-> | ->]]; reflexivity. }
  cbn [phase_rel files_fph]. unfold tden. rewrite Hsm, app_nil_l, Hinj.
  inversion HR as [|t' Ds r ds' mid' out' e' ie' oe' Hp Hr E1 E2|t' Ds d r ds' mid' out' ie' oe' Hp Hr]; subst.
  - inversion Hr; subst.
    assert (HDs : map file_dict ess <> []) by (destruct Hne as [Hne|Hne]; [destruct ess; [contradiction|discriminate]|congruence]).
    pose proof (trans_run t Ht _ HDs _ _ (le_n _) B3) as HT. unfold fb_sems. rewrite app_nil_r.
    destruct (trans (kind_of_type t) (map (sem_of t) (map file_dict ess)) (seen_by t ds)) as [o e1] eqn:Et. cbn [fst snd] in HT. destruct (run_phase_det _ _ _ _ _ Hp _ _ HT) as (-> & ->).
    split; [|eapply run_wl; eassumption]. split; [reflexivity|]. exists o, e1. split; [exact Et|]. split; [reflexivity|]. destruct Ht as [->|[-> | ->]]; cbn; f_equal; lia.
  - inversion Hr; subst. split; [|apply bytes_wl; eapply subst_bytes; [exact HE|apply Hd; reflexivity|exact Hp]]. split; [reflexivity|]. exists mid, 0. split; [apply (subst_trans _ _ _ _ _ Ht Hp B3 B2)|]. split; [reflexivity|]. destruct Ht as [->|[-> | ->]]; reflexivity.
Qed.

Lemma links_fun s c : forall p ds out oe zs, run_links s p c ds out oe zs -> exists (D : nat -> list datum) (E : nat -> nat) (Z : nat -> option priv),
  D 0 = ds /\ D (length c) = out /\ (forall i k, nth_error c i = Some k -> run_link s (p + i) k (D i) (D (S i)) (E i) (Z i)) /\
  oe = list_sum (map E (seq 0 (length c))) /\ forall q v, In (q, v) zs -> exists i, q = p + i /\ Z i = Some v /\ i < length c.
Proof.
  induction c as [|k c IH]; intros p ds out oe zs H.
  - inversion H; subst. exists (fun _ => out), (fun _ => 0), (fun _ => None). repeat split; [intros i k Hk; destruct i; discriminate|intros q v []].
  - inversion H as [|? ? ? ? mid ? e zo oe' zs' H1 H2]; subst. destruct (IH _ _ _ _ _ H2) as (D & E & Z & K1 & K2 & K3 & K4 & K5).
    exists (fun i => match i with 0 => ds | S i => D i end), (fun i => match i with 0 => e | S i => E i end), (fun i => match i with 0 => zo | S i => Z i end).
    split; [reflexivity|]. split; [exact K2|]. split; [|split].
    + intros [|i] k' Hk; [injection Hk as <-; rewrite Nat.add_0_r, K1; exact H1|]. replace (p + S i) with (S p + i) by lia. apply K3. exact Hk.
    + cbn [length seq map]. rewrite <- seq_shift, map_map. change (list_sum (e :: ?l)) with (e + list_sum l). rewrite K4. reflexivity.
    + intros q v Hin. apply in_app_or in Hin as [Hin|Hin].
      * destruct zo as [w|]; [|destruct Hin]. destruct Hin as [Hin|[]]. injection Hin as <- <-. exists 0. cbn. split; [lia|]. split; [reflexivity|lia].
      * destruct (K5 q v Hin) as (i & -> & Hi & Hl). exists (S i). cbn. split; [lia|]. split; [exact Hi|lia].
Qed.

(** ** The phases *)
Record realises (t8 : u8) (t16 : u16) (k : link) (f : fphase (P:=priv)) : Prop := {
  r_ok : f_ok f; r_ty : f_type f = link_type k; r_cod : f_codecs f = link_codecs t8 t16 k; r_cout : gives_data k = true -> f_cout f = true;
  r_step : forall (s : inst priv) p ds mid e zo, (forall cd, f_codecs f = [cd] -> exists q, evolves cd q /\ module_state s p (e_priv (init_codec (set_priv cd q)))) -> (link_type k = FROM -> Forall byte_data ds) -> Forall wl ds ->
    run_link s p k ds mid e zo -> phase_rel s p f (some_data ds) (some_data mid) e zo /\ Forall wl mid;
  r_fin : forall th q, s_fin (f_spec f) th (Some q) -> exists cd, p_codecs priv th = [cd] /\ e_priv cd = q
}.
Lemma some_filter ds : some_data ds = filter nonempty ds. Proof. reflexivity. Qed.
Lemma udatum_wl cps : Forall wl (map udatum cps). Proof. apply Forall_forall. intros d Hd. apply in_map_iff in Hd as (c & <- & _). cbn. lia. Qed.
Lemma udatum_some cps : some_data (map udatum cps) = map udatum cps. Proof. induction cps as [|c cps IH]; cbn; [reflexivity|]. f_equal. exact IH. Qed.
Lemma encoded_wl cs cps : Forall (writes cs) cps -> Forall wl (map (encoded cs) cps).
Proof.
  intros H. apply Forall_forall. intros d Hd. apply in_map_iff in Hd as (c & <- & Hc). rewrite Forall_forall in H. specialize (H c Hc).
  destruct cs; cbn [encoded writes] in *.
  - unfold utf8. repeat match goal with |- context [if ?b then _ else _] => destruct b eqn:?E end; cbn [wl]; try lia.
  - unfold utf16be, utf16_units. destruct (c <? 0x10000)%N eqn:E; cbn [flat_map app wl].
    + assert (c / 0x100 < 0x100)%N by (apply N.div_lt_upper_bound; lia). lia.
    + assert ((c - 0x10000) / 0x400 < 0x400)%N by (apply N.div_lt_upper_bound; lia). assert ((0xD800 + (c - 0x10000) / 0x400) / 0x100 < 0x100)%N by (apply N.div_lt_upper_bound; lia). lia.
  - unfold utf16le, utf16_units. destruct (c <? 0x10000)%N eqn:E; cbn [flat_map app wl]; match goal with |- (?a mod ?b < _)%N => pose proof (N.mod_lt a b ltac:(lia)) end; lia.
  - unfold utf32be. cbn [wl]. assert (c / 0x1000000 < 0x100)%N by (apply N.div_lt_upper_bound; lia). lia.
  - unfold utf32le, utf32be. cbn [rev app wl]. pose proof (N.mod_lt c 0x100 ltac:(lia)). lia.
Qed.
Lemma mod_start {S} (inj : S -> priv) prj m fl ini (s0 : S) JS (HC : steady_module inj prj m fl ini s0 JS) (s : inst priv) p x q : evolves (star_codec inj prj m fl ini s0) q ->
  module_state s p (e_priv (init_codec (set_priv (star_codec inj prj m fl ini s0) q))) -> module_state s p (inj x) -> JS x.
Proof.
  intros Hq HM H1. destruct (star_init inj prj m fl ini s0 JS (sm_prj _ _ _ _ _ _ _ HC) (sm_fl _ _ _ _ _ _ _ HC) (cm_good inj prj m fl ini s0 JS HC) q Hq) as (y & Hy & Ey). rewrite Ey in HM.
  assert (Hxy : x = match ini with Some g => g y | None => y end).
  { pose proof (module_state_fun _ _ _ _ H1 HM) as E. apply (f_equal prj) in E. rewrite !(sm_prj _ _ _ _ _ _ _ HC) in E. injection E as E. exact E. }
  rewrite Hxy; destruct ini eqn:Ei; [eapply (sm_init _ _ _ _ _ _ _ HC); [reflexivity|exact Hy]|exact Hy].
Qed.
Lemma link_real t8 t16 k pg : strict_utf8 t8 -> link_ok k -> placed pg [k] -> exists f, realises t8 t16 k f /\ (f_star f = true -> pg = true).
Proof.
  intros Hs Hk Hp. destruct k as [[[t ess] fb]|cs|cs|T inj prj m fl ini s0].
  - exists (files_fph t ess fb). split; [|discriminate]. constructor.
    + apply files_fph_ok. exact Hk.
    + reflexivity.
    + cbn [files_fph f_codecs link_codecs]. unfold fb_side, fb_codecs. cbn [fst snd]. rewrite map_app, map_map. f_equal. destruct fb; reflexivity.
    + discriminate.
    + intros s p ds mid e zo _ HB HW (-> & HR). apply files_rel; assumption.
    + intros th q H. cbn in H. discriminate.
  - exists (dec_fph cs t8 t16). split; [|discriminate]. constructor.
    + apply dec_fph_ok. exact Hs.
    + reflexivity.
    + apply dec_side_codecs.
    + reflexivity.
    + intros s p ds mid e zo _ _ _ (-> & -> & cps & H1 & H2 & ->). split; [|apply udatum_wl]. rewrite udatum_some. exact (dec_fph_rel s cs t8 t16 cps ds H2 H1).
    + intros th q H. cbn in H. discriminate.
  - exists (enc_fph cs). split; [|discriminate]. constructor.
    + apply (enc_fph_ok cs t8 t16 Hs).
    + reflexivity.
    + apply enc_side_codecs.
    + discriminate.
    + intros s p ds mid e zo _ _ _ (-> & -> & cps & H1 & H2 & ->). split; [|apply encoded_wl; assumption]. rewrite H1. apply enc_fph_rel. assumption.
    + intros th q H. cbn in H. discriminate.
  - destruct Hp as ([Hp|(JS & HC & HCS)] & _).
    + destruct Hk as (JS & HC). exists (str_fph inj prj m fl ini s0 JS). split; [|intros _; exact Hp]. constructor.
      * apply str_fph_ok. exact HC.
      * reflexivity.
      * reflexivity.
      * reflexivity.
      * intros s p ds mid e zo Hini _ HW (-> & x & x' & H1 & H2 & ->). destruct (Hini _ eq_refl) as (q & Hq & HM). pose proof (mod_start inj prj m fl ini s0 JS HC s p x q Hq HM H1) as HJ.
        pose proof (some_ne ds HW) as HN. pose proof (stream_ne inj prj m fl ini s0 JS HC x x' _ _ HJ HN H2) as HM2. split.
        -- rewrite (some_filter mid), (filter_ne mid HM2). apply (str_rel inj prj m fl ini s0 JS HC s p x x'); assumption.
        -- eapply Forall_impl; [|exact HM2]. intros [|b d] Hd; [destruct Hd|exact Hd].
      * intros th q (σ & E1 & E2). injection E1 as ->. exists (set_priv (star_codec inj prj m fl ini s0) σ). auto.
    + exists (mod_fph inj prj m fl ini s0 JS). split; [|discriminate]. constructor.
      * apply mod_fph_ok; assumption.
      * reflexivity.
      * reflexivity.
      * reflexivity.
      * intros s p ds mid e zo Hini _ HW (-> & x & x' & H1 & H2 & ->). destruct (Hini _ eq_refl) as (q & Hq & HM). pose proof (mod_start inj prj m fl ini s0 JS HC s p x q Hq HM H1) as HJ.
        pose proof (some_ne ds HW) as HN. pose proof (stream_ne inj prj m fl ini s0 JS HC x x' _ _ HJ HN H2) as HM2. split.
        -- rewrite (some_filter mid), (filter_ne mid HM2). apply (mod_rel inj prj m fl ini s0 JS HC HCS s p x x'); assumption.
        -- eapply Forall_impl; [|exact HM2]. intros [|b d] Hd; [destruct Hd|exact Hd].
      * intros th q (σ & E1 & E2). injection E1 as ->. exists (set_priv (star_codec inj prj m fl ini s0) σ). auto.
Qed.

Lemma fresh_one (c : list (fphase (P:=priv))) s p x cd : fresh (f_inst c) s -> nth_error c p = Some x -> f_codecs x = [cd] ->
  exists q, evolves cd q /\ module_state s (S p) (e_priv (init_codec (set_priv cd q))).
Proof.
  intros HF Ex Ecd. destruct HF as (s0 & HU & Hinit). apply used_shl in HU.
  unfold bsdconv_init in Hinit. destruct (i_phases priv s0) as [|ph0 rest] eqn:E0; [discriminate|].
  destruct (init_phase priv true ph0) as [p0|] eqn:Ep0; [|discriminate]. cbn [obind] in Hinit. destruct (fold_right _ _ rest) as [r|] eqn:Er; cbn [obind] in Hinit; [|discriminate].
  apply init_rest_spec in Er. assert (Es : i_phases priv s = p0 :: r) by (injection Hinit as <-; reflexivity).
  assert (Ef : nth_error (i_phases priv (f_inst c)) (S p) = Some (new_phase priv (f_type x) (f_codecs x))). { cbn [f_inst i_phases new_instance nth_error]. rewrite !map_map, nth_error_map, Ex. reflexivity. }
  destruct (Forall2_nth_l _ _ _ HU _ _ Ef) as (th0 & E1 & (HT & HC)). cbn in E1. destruct (Forall2_nth_l _ _ _ Er _ _ E1) as (th & Eth & X4).
  cbn [p_codecs new_phase] in HC. rewrite Ecd in HC. destruct (shc_one _ _ HC) as (b & Eb & Hb). destruct (init_codec_sc _ _ Hb) as (q & Hq & Eq). exists q. split; [exact Hq|].
  unfold init_phase, reset in X4. cbv zeta in X4. cbn in X4. rewrite Eb in X4. cbn [map] in X4. match type of X4 with context [match ?r with Some _ => _ | None => None end] => destruct r; [|discriminate] end. injection X4 as <-.
  eexists _, (init_codec b). split; [rewrite Es; cbn; exact Eth|]. split; [reflexivity|]. rewrite Eq. reflexivity.
Qed.

Section Links.
Variables (t8 : u8) (t16 : u16) (c : list link).
Hypothesis Hs : strict_utf8 t8.
Hypothesis Hc : links_ok c.
Lemma links_real_gen : forall l pg, Forall link_ok l -> placed pg l -> exists fs, Forall2 (realises t8 t16) l fs /\ match fs with [] => True | f :: _ => f_star f = true -> pg = true end /\
  forall i x y, nth_error fs i = Some x -> nth_error fs (S i) = Some y -> f_star y = true -> f_cout x = true.
Proof.
  clear Hc. induction l as [|k r IH]; intros pg HF HP.
  - exists []. split; [constructor|]. split; [exact I|]. intros [|i] x y Hx; discriminate.
  - inversion HF as [|? ? Hk Hr]; subst. destruct HP as (HP1 & HP2). destruct (link_real t8 t16 k pg Hs Hk (conj HP1 I)) as (f & Hf & Hst). destruct (IH _ Hr HP2) as (fs & F1 & F2 & F3).
    exists (f :: fs). split; [constructor; assumption|]. split; [exact Hst|]. intros [|i] x y Hx Hy.
    + injection Hx as <-. destruct fs as [|f1 fs]; [discriminate|]. injection Hy as <-. intros H. apply (r_cout _ _ _ _ Hf). apply F2. exact H.
    + apply (F3 i x y Hx Hy).
Qed.
Lemma links_real : exists fs, Forall2 (realises t8 t16) c fs /\ (exists x r, fs = x :: r /\ f_star x = false) /\ forall i x y, nth_error fs i = Some x -> nth_error fs (S i) = Some y -> f_star y = true -> f_cout x = true.
Proof.
  destruct Hc as ((k & r & Ec & _) & HF & HP). destruct (links_real_gen c false HF HP) as (fs & F1 & F2 & F3). exists fs. split; [exact F1|]. split; [|exact F3].
  rewrite Ec in F1. inversion F1 as [|? f ? fs' Hf Hr]; subst. exists f, fs'. split; [reflexivity|]. destruct (f_star f); [specialize (F2 eq_refl); discriminate|reflexivity].
Qed.
Lemma real_inst fs : Forall2 (realises t8 t16) c fs -> f_inst fs = linked t8 t16 c.
Proof. clear Hc. intros H. unfold f_inst, linked. f_equal. induction H as [|k f r fs Hf _ IH]; [reflexivity|]. cbn [map]. rewrite (r_ty _ _ _ _ Hf), (r_cod _ _ _ _ Hf), IH. reflexivity. Qed.
Lemma real_nth fs i f : Forall2 (realises t8 t16) c fs -> nth_error fs i = Some f -> exists k, nth_error c i = Some k /\ realises t8 t16 k f.
Proof. clear Hc. intros H. revert i. induction H as [|k f0 r fs Hf _ IH]; intros [|i] Hi; try discriminate; [injection Hi as <-; exists k; auto|]. apply IH. exact Hi. Qed.
Lemma real_len fs : Forall2 (realises t8 t16) c fs -> length fs = length c.
Proof. clear Hc. induction 1; cbn; congruence. Qed.
Lemma from_first i k : nth_error c i = Some k -> link_type k = FROM -> i = 0.
Proof. destruct Hc as ((k0 & r & E & _ & HF) & _). rewrite E. destruct i as [|i]; [auto|]. cbn. intros Hi Ht. rewrite Forall_forall in HF. apply nth_error_In in Hi. specialize (HF k Hi). contradiction. Qed.
Lemma head_concat s k r ds ds' out oe zs : c = k :: r -> concat ds = concat ds' -> run_links s 1 c ds out oe zs -> run_links s 1 c ds' out oe zs.
Proof.
  intros Ec Ed HR. destruct Hc as ((k0 & r0 & E & Ht & _) & _). assert (k0 = k) by congruence. subst k0. rewrite Ec in *. inversion HR; subst. econstructor; [|eassumption].
  destruct k as [[[t ess] fb]|cs|cs|T inj prj m fl ini s0]; cbn in Ht; try discriminate.
  - subst t. match goal with H : run_link _ _ _ _ _ _ _ |- _ => destruct H as (-> & HB) end. split; [reflexivity|]. inversion HB as [|t' Ds r' d' mid' out' e' ie' oe' Hp Hr E1 E2|t' Ds d r' d' mid' out' ie' oe' Hp Hr]; subst.
    + match goal with H : e' + _ = 0 |- _ => assert (e' = 0) by lia end. subst e'. inversion Hr; subst. apply (fb_plain FROM _ [] ds' mid mid 0 0 0); [|constructor]. unfold seen_by in *. rewrite <- Ed. exact Hp.
    + inversion Hr; subst. apply (fb_subst FROM _ d [] ds' mid mid 0 0); [|constructor]. unfold seen_by in *. rewrite <- Ed. exact Hp.
  - match goal with H : run_link _ _ _ _ _ _ _ |- _ => destruct H as (-> & -> & cps & H1 & H2 & ->) end. split; [reflexivity|]. split; [reflexivity|]. exists cps. rewrite <- Ed. auto.
Qed.
Theorem links_stream s l out oe zs : fresh (linked t8 t16 c) s -> l <> [] -> Forall (fun x => lossless (snd x)) l -> byte_data (concat (inputs l)) ->
  run_links s 1 c [concat (inputs l)] out oe zs ->
  exists s' got, runs_to s (stream_calls l) s' got /\ got ++ pending priv s' = concat out /\ i_ierr priv s' = i_ierr priv s /\ i_oerr priv s' = i_oerr priv s + oe /\
    forall p q, In (p, q) zs -> module_state s' p q.
Proof.
  intros HF Hl1 Hl2 HB HR. destruct links_real as (fs & Hfs & Hfirst & Hclean). rewrite <- (real_inst fs Hfs) in HF.
  assert (Hc1 : exists k r, c = k :: r) by (destruct Hc as ((k & r & E & _) & _); eauto). destruct Hc1 as (k0 & r0 & Ec).
  apply (head_concat s k0 r0 _ (inputs l) out oe zs Ec) in HR; [|cbn; rewrite app_nil_r; reflexivity].
  destruct (links_fun s c _ _ _ _ _ HR) as (D & E & Z & K1 & K2 & K3 & K4 & K5).
  assert (HBi : Forall byte_data (inputs l)).
  { clear - HB. induction (inputs l) as [|d ds IH]; [constructor|]. cbn in HB. apply Forall_app in HB as (A & B). constructor; auto. }
  assert (HW : forall i f, nth_error fs i = Some f -> Forall wl (D i) -> phase_rel s (S i) f (some_data (D i)) (some_data (D (S i))) (E i) (Z i) /\ Forall wl (D (S i))).
  { intros i f Hi HWi. destruct (real_nth fs i f Hfs Hi) as (k & Ek & Hf). apply (r_step _ _ _ _ Hf).
    - intros cd Ecd. apply (fresh_one fs s i f cd HF Hi Ecd).
    - intros Ht. pose proof (from_first i k Ek Ht). subst i. rewrite K1. exact HBi.
    - exact HWi.
    - apply (K3 i k Ek). }
  assert (HWall : forall i, i <= length fs -> Forall wl (D i)).
  { induction i as [|i IH]; intros Hi; [rewrite K1; apply bytes_wl; exact HBi|]. destruct (nth_error fs i) as [f|] eqn:Ef; [|apply nth_error_None in Ef; lia]. apply (HW i f Ef). apply IH. lia. }
  destruct HF as (s0 & HU & Hinit).
  assert (Hall : forall x, In x fs -> exists k, realises t8 t16 k x) by (intros x Hx; apply In_nth_error in Hx as (i & Hi); destruct (real_nth fs i x Hfs Hi) as (k & _ & H); eauto).
  destruct (flow_fresh_gen fs) with (l := l) (s0 := s0) (s := s) (I := fun p => some_data (D (p - 1))) (e := fun p => E (p - 1)) (z := fun p => Z (p - 1)) as (s' & got & R1 & R2 & R3 & R4 & R5).
  - intros x Hx. destruct (Hall x Hx) as (k & H). apply H.
  - exact Hfirst.
  - intros i x Hx Ht. destruct (real_nth fs (S i) x Hfs Hx) as (k & Ek & Hf). rewrite (r_ty _ _ _ _ Hf) in Ht. pose proof (from_first _ _ Ek Ht). discriminate.
  - exact Hclean.
  - exact Hl1.
  - exact Hl2.
  - exact HU.
  - exact Hinit.
  - cbn [Nat.sub]. rewrite K1. reflexivity.
  - intros p x Hp Hx. destruct p as [|p]; [lia|]. replace (S p - 1) with p in * by lia. replace (S (S p) - 1) with (S p) by lia. apply (HW p x Hx). apply HWall. assert (p < length fs) by (apply nth_error_Some; congruence). lia.
  - exists s', got. split; [exact R1|]. split; [|split; [exact R3|split]].
    + rewrite R2. unfold fn. replace (S (length fs) - 1) with (length fs) by lia. rewrite (real_len fs Hfs), K2. apply concat_ne.
    + rewrite R4, K4. unfold fn. rewrite (real_len fs Hfs). f_equal. f_equal. rewrite <- seq_shift, map_map. apply map_ext. intros i. f_equal. lia.
    + intros p q Hin. destruct (K5 p q Hin) as (i & -> & Hz & Hi). destruct (nth_error fs i) as [f|] eqn:Ef; [|apply nth_error_None in Ef; rewrite (real_len fs Hfs) in Ef; lia].
      destruct (real_nth fs i f Hfs Ef) as (k & _ & Hf). destruct (R5 (1 + i) f ltac:(lia)) as (th & T1 & T2); [replace (1 + i - 1) with i by lia; exact Ef|]. replace (1 + i - 1) with i in T2 by lia. rewrite Hz in T2.
      destruct (r_fin _ _ _ _ Hf th q T2) as (cd & C1 & C2). exists th, cd. auto.
Qed.
Theorem links_fresh : exists s, fresh (linked t8 t16 c) s /\ bsdconv_init priv (linked t8 t16 c) = Some s.
Proof.
  destruct links_real as (fs & Hfs & Hfirst & Hclean). destruct (f_init_some fs) as (s & Hi).
  - intros x Hx. apply In_nth_error in Hx as (i & Hi). destruct (real_nth fs i x Hfs Hi) as (k & _ & H). apply H.
  - rewrite (real_inst fs Hfs) in Hi. exists s. split; [|exact Hi]. eexists. split; [constructor|exact Hi].
Qed.
Theorem links_state s p T inj prj m fl ini x0 JS : fresh (linked t8 t16 c) s -> nth_error c p = Some (LMod T inj prj m fl ini x0) -> steady_module inj prj m fl ini x0 JS ->
  exists x, initial ini JS x /\ module_state s (S p) (inj x).
Proof.
  intros HF Hp HC. destruct links_real as (fs & Hfs & Hfirst & Hclean). rewrite <- (real_inst fs Hfs) in HF. destruct (nth_error fs p) as [f|] eqn:Ef.
  2:{ apply nth_error_None in Ef. rewrite (real_len fs Hfs) in Ef. assert (p < length c) by (apply nth_error_Some; congruence). lia. }
  destruct (real_nth fs p f Hfs Ef) as (k & Ek & Hf). rewrite Hp in Ek. injection Ek as <-.
  destruct (fresh_one fs s p f _ HF Ef (r_cod _ _ _ _ Hf)) as (q & Hq & HM). destruct (star_init inj prj m fl ini x0 JS (sm_prj _ _ _ _ _ _ _ HC) (sm_fl _ _ _ _ _ _ _ HC) (cm_good inj prj m fl ini x0 JS HC) q Hq) as (y & Hy & Ey).
  exists (match ini with Some g => g y | None => y end). split; [exists y; auto|]. cbn [link_codecs] in HM. rewrite Ey in HM. exact HM.
Qed.
End Links.

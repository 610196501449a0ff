(** A phase with one stateful module of the form "*<TAB>?" that only ever answers NEXTPHASE or SUBMATCH, behind any phase:
    the data of the phase before may include empty nodes (the ones a table phase adds at its SUBMATCH). *)
From Verif Require Import Base Types M_Engine M_Callback S_Engine P_Trans P_Engine1 P_Engine2 P_Engine3 P_Engine4 P_Callback P_Ebcdic P_Flow P_Flow3.
Local Arguments nth_error : simpl never. Local Arguments skipn : simpl never. Local Arguments Nat.ltb : simpl never.

Section E.
Context {P : Type}.
Notation ecodec := (ecodec P). Notation ephase := (ephase P).
Arguments p_type {P}. Arguments p_codecs {P}. Arguments p_index {P}. Arguments p_curr {P}. Arguments p_i {P}.
Arguments p_bak {P}. Arguments p_headlen {P}. Arguments p_match_data {P}. Arguments p_state {P}. Arguments p_offset {P}.
Arguments p_fmatch {P}. Arguments p_fpending {P}. Arguments p_floop {P}. Arguments p_queue {P}. Arguments p_tail {P}.
Arguments e_tab {P}. Arguments e_conv {P}. Arguments e_flush {P}. Arguments e_init {P}. Arguments e_priv {P}.
Arguments cb_priv {P}. Arguments cb_i {P}. Arguments cb_status {P}. Arguments cb_out {P}.
Arguments local_step {P}. Arguments data_step {P}. Arguments LRes {P}. Arguments LUB {P}. Arguments mkEp {P}. Arguments set_priv {P}.

Variable c : ecodec.
Variable f : P -> datum -> nat -> list datum -> cbres P.
Hypothesis Htab : e_tab c = star_table.
Hypothesis Hconv : e_conv c = Some f.
Notation cv := (cv f).
Notation flushed := (flushed c).
Notation st_at := (st_at c).
Variable J : P -> Prop.
Definition isub (s : status) : bool := match s with SUBMATCH => true | _ => false end.
Hypothesis J_conv : forall σ d, J σ -> ne d -> J (cb_priv (cv σ d)) /\ Forall ne (cb_out (cv σ d)).
Hypothesis J_flush : forall σ, J σ -> J (fst (flushed σ)) /\ Forall ne (snd (flushed σ)).
Hypothesis J_stat : forall σ d, J σ -> ne d -> cb_status (cv σ d) = NEXTPHASE \/ cb_status (cv σ d) = SUBMATCH.

(** [wsd σ b Y o σf]: reading [Y] and then the end of the stream gives [o] and ends in [σf]; [b]: a SUBMATCH is pending. *)
Inductive wsd : P -> bool -> list datum -> list datum -> P -> Prop :=
| wsd_end σ : wsd σ false [] [] σ
| wsd_eof σ : wsd σ true [] (snd (flushed σ)) (fst (flushed σ))
| wsd_step σ b d Y o σf : ne d -> wsd (cb_priv (cv σ d)) (isub (cb_status (cv σ d))) Y o σf -> wsd σ b (d :: Y) (cb_out (cv σ d) ++ o) σf.

Definition wden (σ : P) (b : bool) (rest : list datum) : Den (P:=P) := fun Y o e z => e = 0 /\ exists σf, z = Some σf /\ wsd σ b (rest ++ Y) o σf.
Inductive wmode (fin : bool) (q : list datum) (D : Den (P:=P)) : P -> nat -> list datum -> bool -> bool -> bool -> Prop :=
| w_run σ cu md fl : cu <= length q -> incl_den D (wden σ false (filter nonempty (skipn cu q))) -> wmode fin q D σ cu md false false fl
| w_sub σ cu : cu <= length q -> incl_den D (wden σ true (filter nonempty (skipn cu q))) -> wmode fin q D σ cu [] true true true
| w_done σ md fl : fin = true -> incl_den D (eden σ) -> wmode fin q D σ (length q) md false false fl.
Definition winv (fin mid : bool) (pv th : ephase) (D : Den (P:=P)) (m : list nat) : Prop :=
  exists σ cu i ba hl md s off fm fp fl q tl, th = st_at σ cu i ba hl md s off fm fp fl q tl /\ J σ /\ p_tail pv = length (p_queue pv) /\ srt s off fl /\
    m = smeas (p_queue pv) cu fp /\ wmode fin (p_queue pv) D σ cu md fm fp fl.
Definition weak_pspec : pspec (P:=P) := mkPs INTER false true winv (sfin c).

Lemma wach_mk fin (pv th : ephase) (D : Den (P:=P)) m pc (pv' : ephase) σ' cu' i' ba' hl' md' s' off' fm' fp' fl' q' tl' g out0 D' :
  lsteps pv th pc pv' (st_at σ' cu' i' ba' hl' md' s' off' fm' fp' fl' q' tl') 0 0 g -> same_ctl pv pv' ->
  p_type th = INTER -> p_headlen th = hl' -> length (p_codecs th) = 1 ->
  q' = p_queue th ++ out0 -> tl' = length q' -> Forall ne out0 -> J σ' -> p_tail pv' = length (p_queue pv') -> srt s' off' fl' ->
  wmode fin (p_queue pv') D' σ' cu' md' fm' fp' fl' ->
  (forall Y o e z, alw fin Y -> D Y o e z -> exists o', D' Y o' e z /\ o = out0 ++ o') -> lex (smeas (p_queue pv') cu' fp') m -> g = Stay LOuter \/ g = GBegin \/ g = GNext ->
  ach weak_pspec fin pv th D m pc.
Proof.
  intros Hls Hctl E1 E2 E3 Hq Htl Hne HJ Ht Hs Hm HD Hlex Hg.
  exists pv', (st_at σ' cu' i' ba' hl' md' s' off' fm' fp' fl' q' tl'), 0, g. split; [exact Hls|]. split; [exact Hctl|]. split; [split; [exact E1|split; [intros _; exact E2|exact E3]]|].
  exists out0, D', (smeas (p_queue pv') cu' fp'), false. split; [exact Hq|]. split; [exact Htl|]. split; [intros _; exact Hne|]. split.
  { exists σ', cu', i', ba', hl', md', s', off', fm', fp', fl', q', tl'. auto 10. }
  split. { intros Y o e z HY HDY. destruct (HD Y o e z HY HDY) as (o' & A & B). exists o', e. rewrite filter_ne by exact Hne. auto. }
  split; [exact Hlex|]. destruct Hg as [->|[->| ->]]; reflexivity.
Qed.
Lemma wsd_case σ b d Y o σf : wsd σ b (d :: Y) o σf -> ne d /\ exists o', o = cb_out (cv σ d) ++ o' /\ wsd (cb_priv (cv σ d)) (isub (cb_status (cv σ d))) Y o' σf.
Proof. intros HS. inversion HS; subst. eauto. Qed.

Lemma weak_read fin (pv : ephase) (D : Den (P:=P)) σ cu b d i ba hl md s off fm fp fl q : J σ -> p_tail pv = length (p_queue pv) -> srt s off fl -> nth_error (p_queue pv) cu = Some d -> nonempty d = true ->
  incl_den D (wden σ b (filter nonempty (skipn cu (p_queue pv)))) -> live fin D ->
  ach weak_pspec fin pv (st_at σ cu i ba hl md s off fm fp fl q (length q)) D (smeas (p_queue pv) cu fp) LOuter.
Proof.
  intros HJ Ht Hs Hn Hd0 HD (Y0 & o0 & e0 & z0 & HY0 & HD0).
  pose proof (skipn_cons _ _ _ Hn) as Esk0.
  assert (Ef : filter nonempty (skipn cu (p_queue pv)) = d :: filter nonempty (skipn (S cu) (p_queue pv))) by (rewrite Esk0; cbn; rewrite Hd0; reflexivity).
  rewrite Ef in HD.
  assert (Hd : ne d) by (destruct (HD _ _ _ _ HD0) as (_ & sf & _ & HS); apply (wsd_case _ _ _ _ _ _ HS)).
  assert (Hlt : cu < length (p_queue pv)) by (apply nth_error_Some; congruence).
  destruct (J_conv σ d HJ Hd) as (HJ' & Hout). pose proof (J_stat σ d HJ Hd) as Hst.
  pose proof (step_read c Htab pv σ cu i ba hl md s off fm fp fl q (length q) d Hn Hd Hs) as S1.
  pose proof (step_cb c f Hconv pv σ cu ba hl md fm fp true q (length q) d Hn eq_refl) as S2.
  set (r := cv σ d) in *.
  assert (HC : forall Y o e z, D Y o e z -> e = 0 /\ exists σf o', z = Some σf /\ o = cb_out r ++ o' /\ wsd (cb_priv r) (isub (cb_status r)) (filter nonempty (skipn (S cu) (p_queue pv)) ++ Y) o' σf).
  { intros Y o e z HDY. destruct (HD _ _ _ _ HDY) as (-> & σf & -> & HS). destruct (wsd_case _ _ _ _ _ _ HS) as (_ & o' & -> & HM). split; [reflexivity|]. exists σf, o'. auto. }
  destruct Hst as [Est|Est].
  - (* NEXTPHASE *)
    rewrite Est in S2, HC. cbn [isub] in HC.
    pose proof (step_next c Htab pv (cb_priv r) cu (cb_i r) ba hl md (with_status sub1 NEXTPHASE) 1 fm fp true (q ++ cb_out r) (length (q ++ cb_out r)) eq_refl) as S3.
    eapply (wach_mk fin pv _ D _ LOuter) with (out0 := cb_out r) (D' := wden (cb_priv r) false (filter nonempty (skipn (S cu) (p_queue pv)))).
    + eapply ls_cons; [exact S1|]. eapply ls_cons; [exact S2|]. apply ls_one. exact S3.
    + apply same_ctl_queue.
    + reflexivity.
    + reflexivity.
    + reflexivity.
    + reflexivity.
    + reflexivity.
    + exact Hout.
    + exact HJ'.
    + cbn. rewrite Ht, skipn_length. lia.
    + apply srt_root.
    + cbn [set_queue p_queue]. apply w_run; [lia|]. change (skipn 0 ?l) with l. intros Y o e z HZ. exact HZ.
    + intros Y o e z _ HDY. destruct (HC _ _ _ _ HDY) as (-> & σf & o' & -> & -> & HS). exists o'. split; [|reflexivity]. split; [reflexivity|]. exists σf. auto.
    + cbn [set_queue p_queue]. apply lex_here; [|reflexivity]. apply (skipn_filter_lt f J J_conv _ _ _ Hn Hd).
    + auto.
  - (* SUBMATCH *)
    rewrite Est in S2, HC. cbn [isub] in HC.
    destruct (step_sub c f J J_conv J_flush pv (cb_priv r) (S cu) (cb_i r) ba hl md (with_status sub1 SUBMATCH) 1 fm fp true (q ++ cb_out r) (length (q ++ cb_out r)) eq_refl eq_refl Ht) as (ba' & pv' & S3 & C1 & C2 & C3).
    pose proof (step_sep c Htab pv' (cb_priv r) (S cu) (cb_i r) ba' hl [] (with_status sub1 SUBMATCH) true true (q ++ cb_out r) (length (q ++ cb_out r)) (conj eq_refl eq_refl)) as S4.
    match type of C3 with _ = _ ++ ?x => set (zz := x) in * end.
    assert (Hfz : filter nonempty zz = []) by (unfold zz; destruct (_ <? _); reflexivity).
    assert (Esk : filter nonempty (skipn (S cu) (p_queue pv')) = filter nonempty (skipn (S cu) (p_queue pv))).
    { rewrite C3, skipn_app, filter_app. replace (S cu - length (p_queue pv)) with 0 by lia. change (skipn 0 zz) with zz. rewrite Hfz, app_nil_r. reflexivity. }
    eapply (wach_mk fin pv _ D _ LOuter) with (out0 := cb_out r) (D' := wden (cb_priv r) true (filter nonempty (skipn (S cu) (p_queue pv)))).
    + eapply ls_cons; [exact S1|]. eapply ls_cons; [exact S2|]. eapply ls_cons; [exact S3|]. apply ls_one. exact S4.
    + exact C1.
    + reflexivity.
    + reflexivity.
    + reflexivity.
    + reflexivity.
    + reflexivity.
    + exact Hout.
    + exact HJ'.
    + exact C2.
    + apply srt_sub1.
    + apply w_sub; [rewrite C3, app_length; lia|]. rewrite Esk. intros Y o e z HZ. exact HZ.
    + intros Y o e z _ HDY. destruct (HC _ _ _ _ HDY) as (-> & σf & o' & -> & -> & HS). exists o'. split; [|reflexivity]. split; [reflexivity|]. exists σf. auto.
    + unfold smeas. rewrite Esk, C3, !filter_app, Hfz, !app_nil_r. apply lex_next, lex_here; [|reflexivity]. rewrite (filter_next _ _ _ Hn Hd). lia.
    + auto.
Qed.
Lemma weak_nil fin (pv : ephase) (D : Den (P:=P)) σ cu i ba hl md s off fm fp fl q : J σ -> p_tail pv = length (p_queue pv) -> srt s off fl -> nth_error (p_queue pv) cu = Some [] ->
  wmode fin (p_queue pv) D σ (S cu) md fm fp fl ->
  ach weak_pspec fin pv (st_at σ cu i ba hl md s off fm fp fl q (length q)) D (smeas (p_queue pv) cu fp) LOuter.
Proof.
  intros HJ Ht Hs Hn Hm.
  pose proof (step_nil c pv σ cu i ba hl md s off fm fp fl q (length q) Hn) as S1.
  eapply (wach_mk fin pv _ D _ LOuter) with (out0 := []) (D' := D).
  + exact S1.
  + apply same_ctl_refl.
  + reflexivity.
  + reflexivity.
  + reflexivity.
  + cbn. rewrite app_nil_r. reflexivity.
  + reflexivity.
  + constructor.
  + exact HJ.
  + exact Ht.
  + apply srt_ws. exact Hs.
  + exact Hm.
  + intros Y o e z _ HDY. exists o. auto.
  + unfold smeas. apply lex_next. rewrite (skipn_cons _ _ _ Hn). cbn [filter nonempty]. apply lex_next, lex_here; [cbn; lia|reflexivity].
  + auto.
Qed.
Lemma wsd_end_inv σ o σf : wsd σ false [] o σf -> o = [] /\ σf = σ.
Proof. intros HS. inversion HS; subst. auto. Qed.
Lemma wsd_eof_inv σ o σf : wsd σ true [] o σf -> o = snd (flushed σ) /\ σf = fst (flushed σ).
Proof. intros HS. inversion HS; subst. auto. Qed.

Lemma weak_ok : pspec_ok weak_pspec.
Proof.
  constructor; cbn [weak_pspec s_type s_cin s_cout s_inv s_fin].
  - intros fin mid pv th D m (σ & cu & i & ba & hl & md & s & off & fm & fp & fl & q & tl & -> & HJ & Ht & Hs & -> & Hm). split; [reflexivity|]. split; [exact Ht|reflexivity].
  - intros fin pv th D m (σ & cu & i & ba & hl & md & s & off & fm & fp & fl & q & tl & -> & HJ & Ht & Hs & -> & Hm) Htl HL Hlt. cbn [P_Flow3.st_at p_tail p_queue p_curr] in Htl, Hlt. subst tl.
    destruct (nth_error (p_queue pv) cu) as [d|] eqn:Hn; [|apply nth_error_None in Hn; lia].
    destruct (nonempty d) eqn:Hd.
    + inversion Hm as [? ? ? ? Hcu HD|? ? Hcu HD|? ? ? Hf HD]; subst; [| |lia]; eapply weak_read; eassumption.
    + destruct d; [|discriminate]. apply weak_nil; try assumption.
      assert (Ef : filter nonempty (skipn (S cu) (p_queue pv)) = filter nonempty (skipn cu (p_queue pv))) by (rewrite (skipn_cons _ _ _ Hn); reflexivity).
      inversion Hm as [? ? ? ? Hcu HD|? ? Hcu HD|? ? ? Hf HD]; subst; [| |lia]; constructor; try lia; rewrite Ef; assumption.
  - discriminate.
  - intros fin mid pv th D m (σ & cu & i & ba & hl & md & s & off & fm & fp & fl & q & tl & -> & HJ & Ht & Hs & -> & Hm) Hle. cbn [P_Flow3.st_at p_curr] in Hle.
    rewrite data_local by (left; reflexivity). cbn [data_step]. change (p_curr (st_at σ cu i ba hl md s off fm fp fl q tl)) with cu. rewrite (proj2 (Nat.ltb_ge _ _) Hle). reflexivity.
  - intros fin pv th D m (σ & cu & i & ba & hl & md & s & off & fm & fp & fl & q & tl & -> & HJ & Ht & Hs & -> & Hm) Htl Hle Hp (o0 & e0 & z0 & HD0). cbn [P_Flow3.st_at p_tail p_queue p_curr p_fpending] in Htl, Hle, Hp. subst tl fp.
    inversion Hm as [|? ? Hcu HD|]; subst.
    assert (cu = length (p_queue pv)) as -> by lia. rewrite skipn_all in HD. cbn [filter] in HD.
    pose proof (step_flush c Htab pv σ (length (p_queue pv)) i ba hl s off true true q _ eq_refl) as S1. destruct (J_flush σ HJ) as (HJ' & Hout).
    eapply (wach_mk true pv _ D _ LDead) with (out0 := snd (flushed σ)) (D' := eden (fst (flushed σ))).
    * apply ls_one. exact S1.
    * apply same_ctl_refl.
    * reflexivity.
    * reflexivity.
    * reflexivity.
    * reflexivity.
    * reflexivity.
    * exact Hout.
    * exact HJ'.
    * exact Ht.
    * apply srt_root.
    * apply w_done; [reflexivity|intros Y o e z HZ; exact HZ].
    * intros Y o e z HY HDY. rewrite (HY eq_refl) in *. destruct (HD _ _ _ _ HDY) as (-> & σf & -> & HS). destruct (wsd_eof_inv _ _ _ HS) as (-> & ->). exists []. split; [unfold eden; auto|rewrite app_nil_r; reflexivity].
    * unfold smeas. apply lex_next, lex_next, lex_next, lex_here; [cbn; lia|reflexivity].
    * auto.
  - intros fin pv th D m o e z (σ & cu & i & ba & hl & md & s & off & fm & fp & fl & q & tl & -> & HJ & Ht & Hs & -> & Hm) Hle Hp HD0. cbn [P_Flow3.st_at p_curr p_fpending] in Hle, Hp. subst fp.
    inversion Hm as [? ? ? ? Hcu HD| |? ? ? Hf HD]; subst.
    + assert (cu = length (p_queue pv)) as -> by lia. rewrite skipn_all in HD. cbn [filter] in HD.
      destruct (HD _ _ _ _ HD0) as (-> & σf & -> & HS). destruct (wsd_end_inv _ _ _ HS) as (-> & ->). split; [reflexivity|]. split; [reflexivity|]. exists σ. auto.
    + destruct (HD _ _ _ _ HD0) as (-> & -> & ->). split; [reflexivity|]. split; [reflexivity|]. exists σ. auto.
  - intros mid pv pv' th D m ds (σ & cu & i & ba & hl & md & s & off & fm & fp & fl & q & tl & -> & HJ & Ht & Hs & -> & Hm) Hq' Ht' _ _.
    eexists. exists σ, cu, i, ba, hl, md, s, off, fm, fp, fl, q, tl. split; [reflexivity|]. split; [exact HJ|]. split; [exact Ht'|]. split; [exact Hs|]. split; [reflexivity|].
    assert (Ef : cu <= length (p_queue pv) -> filter nonempty (skipn cu (p_queue pv')) = filter nonempty (skipn cu (p_queue pv)) ++ filter nonempty ds).
    { intros Hcu. rewrite Hq', skipn_app, filter_app. replace (cu - length (p_queue pv)) with 0 by lia. reflexivity. }
    inversion Hm as [? ? ? ? Hcu HD|? ? Hcu HD|]; subst; [| |discriminate]; (constructor; [rewrite Hq', app_length; lia|]); rewrite (Ef Hcu);
      intros Y o e z HDY; unfold fed in HDY; destruct (HD _ _ _ _ HDY) as (-> & σf & -> & HS); (split; [reflexivity|]); exists σf; rewrite <- app_assoc; auto.
  - intros fin mid pv th th' D m (σ & cu & i & ba & hl & md & s & off & fm & fp & fl & q & tl & -> & HJ & Ht & Hs & -> & Hm) Hc. rewrite Hc.
    exists σ, cu, i, ba, hl, md, s, off, fm, fp, fl, (p_queue th'), (p_tail th'). split; [reflexivity|auto 10].
  - auto.
  - intros mid pv th D m (σ & cu & i & ba & hl & md & s & off & fm & fp & fl & q & tl & -> & HJ & Ht & Hs & -> & Hm).
    exists σ, cu, i, ba, hl, md, s, off, fm, fp, fl, q, tl. split; [reflexivity|]. repeat (split; [assumption|]). split; [reflexivity|].
    inversion Hm as [? ? ? ? Hcu HD|? ? Hcu HD|]; subst; [| |discriminate]; constructor; assumption.
  - intros th th' z (σ & -> & E) Hc. exists σ. split; [reflexivity|]. rewrite Hc. exact E.
Qed.

(** What P_Flow3 says of such a module is the same. *)
Lemma sd_wsd : (forall σ H Y o σf, sd c f σ H Y o σf -> J σ -> Forall ne Y -> H = [] -> wsd σ false Y o σf) /\ (forall σ Y o σf, ssub c f σ Y o σf -> J σ -> Forall ne Y -> wsd σ true Y o σf).
Proof.
  assert (Hall : forall n, (forall σ H Y o σf, sd c f σ H Y o σf -> length Y <= n -> J σ -> Forall ne Y -> H = [] -> wsd σ false Y o σf) /\ (forall σ Y o σf, ssub c f σ Y o σf -> length Y <= n -> J σ -> Forall ne Y -> wsd σ true Y o σf)).
  { induction n as [|n (IH1 & IH2)]; split.
    - intros σ H [|d Y] o σf HS Hl HJ HN ->; [|cbn in Hl; lia]. inversion HS; subst. constructor.
    - intros σ [|d Y] o σf HS Hl HJ HN; [|cbn in Hl; lia]. inversion HS; subst. constructor.
    - intros σ H [|d Y] o σf HS Hl HJ HN ->; [inversion HS; subst; constructor|]. cbn in Hl. inversion HN; subst.
      destruct (J_conv σ d HJ ltac:(assumption)) as (HJ' & _). destruct (sd_case _ _ _ _ _ _ _ _ HS) as (o' & -> & HM). constructor; [assumption|].
      destruct (J_stat σ d HJ ltac:(assumption)) as [E|E]; rewrite E in *; cbn [isub]; [eapply IH1; eauto|eapply IH2; eauto]; lia.
    - intros σ [|d Y] o σf HS Hl HJ HN; [inversion HS; subst; constructor|]. cbn in Hl. inversion HN; subst.
      destruct (J_conv σ d HJ ltac:(assumption)) as (HJ' & _). destruct (ssub_case _ _ _ _ _ _ _ HS) as (o' & -> & HM). constructor; [assumption|].
      destruct (J_stat σ d HJ ltac:(assumption)) as [E|E]; rewrite E in *; cbn [isub]; [eapply IH1; eauto|eapply IH2; eauto]; lia. }
  split; intros; [eapply (proj1 (Hall (length Y)))|eapply (proj2 (Hall (length Y)))]; eauto.
Qed.
End E.

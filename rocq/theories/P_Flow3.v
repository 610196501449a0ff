(** A phase with one stateful module of the form "*<TAB>?" as an instance of P_Flow. *)
From Verif Require Import Base Types M_Engine M_Callback S_Engine P_Trans P_Engine1 P_Engine2 P_Engine3 P_Engine4 P_Callback P_Ebcdic P_Flow.
Local Arguments nth_error : simpl never. Local Arguments skipn : simpl never. Local Arguments Nat.ltb : simpl never.

Section E.
Context {P : Type}.
Notation ecodec := (ecodec P). Notation ephase := (ephase P).
Arguments p_type {P}. Arguments p_codecs {P}. Arguments p_index {P}. Arguments p_curr {P}. Arguments p_i {P}.
Arguments p_bak {P}. Arguments p_headlen {P}. Arguments p_match_data {P}. Arguments p_state {P}. Arguments p_offset {P}.
Arguments p_fmatch {P}. Arguments p_fpending {P}. Arguments p_floop {P}. Arguments p_queue {P}. Arguments p_tail {P}.
Arguments e_tab {P}. Arguments e_conv {P}. Arguments e_flush {P}. Arguments e_init {P}. Arguments e_priv {P}.
Arguments cb_priv {P}. Arguments cb_i {P}. Arguments cb_status {P}. Arguments cb_out {P}.
Arguments local_step {P}. Arguments data_step {P}. Arguments LRes {P}. Arguments LUB {P}. Arguments mkEp {P}. Arguments set_priv {P}.

Variable c : ecodec.
Variable f : P -> datum -> nat -> list datum -> cbres P.
Hypothesis Htab : e_tab c = star_table.
Hypothesis Hconv : e_conv c = Some f.
Definition cv (σ : P) (d : datum) := f σ d (length d) [].
Definition flushed (σ : P) : P * list datum := match e_flush c with Some g => g σ | None => (σ, []) end.
(** the states that occur *)
Variable J : P -> Prop.
Hypothesis J_conv : forall σ d, J σ -> ne d -> J (cb_priv (cv σ d)) /\ Forall ne (cb_out (cv σ d)).
Hypothesis J_flush : forall σ, J σ -> J (fst (flushed σ)) /\ Forall ne (snd (flushed σ)).

(** [sd σ H Y o σf]: with the data [H] held back, reading [Y] and then the end of the stream gives [o] and ends in [σf];
    [ssub]: the same while SUBMATCH is pending. *)
Inductive sd : P -> list datum -> list datum -> list datum -> P -> Prop :=
| sd_end σ : sd σ [] [] [] σ
| sd_next σ H d Y o σf : cb_status (cv σ d) = NEXTPHASE -> sd (cb_priv (cv σ d)) [] Y o σf -> sd σ H (d :: Y) (cb_out (cv σ d) ++ o) σf
| sd_cont σ H d Y o σf : cb_status (cv σ d) = CONTINUE -> sd (cb_priv (cv σ d)) (H ++ [d]) Y o σf -> sd σ H (d :: Y) (cb_out (cv σ d) ++ o) σf
| sd_dead σ H d Y h T o σf : cb_status (cv σ d) = DEADEND -> H ++ [d] = h :: T -> sd (cb_priv (cv σ d)) [] (T ++ Y) o σf -> sd σ H (d :: Y) (cb_out (cv σ d) ++ h :: o) σf
| sd_sub σ H d Y o σf : cb_status (cv σ d) = SUBMATCH -> ssub (cb_priv (cv σ d)) Y o σf -> sd σ H (d :: Y) (cb_out (cv σ d) ++ o) σf
| sd_eof σ h T o σf : sd σ [] T o σf -> sd σ (h :: T) [] (h :: o) σf
with ssub : P -> list datum -> list datum -> P -> Prop :=
| ssub_eof σ : ssub σ [] (snd (flushed σ)) (fst (flushed σ))
| ssub_next σ d Y o σf : cb_status (cv σ d) = NEXTPHASE -> sd (cb_priv (cv σ d)) [] Y o σf -> ssub σ (d :: Y) (cb_out (cv σ d) ++ o) σf
| ssub_sub σ d Y o σf : cb_status (cv σ d) = SUBMATCH -> ssub (cb_priv (cv σ d)) Y o σf -> ssub σ (d :: Y) (cb_out (cv σ d) ++ o) σf.

(** ** The local steps *)
Definition srt (s : tstate) (off : nat) (lb : bool) : Prop := (kids_all 1 s /\ lb = false) \/ (kids_none s /\ lb = true /\ off = 1).
Lemma srt_bl s off lb (d : datum) : srt s off lb -> ne d -> bl star_table s off lb d = Some (sub1, 1, true, false).
Proof.
  intros Hs Hd. destruct d as [|x d]; [contradiction|]. cbn in Hd. destruct Hs as [(Hk & ->)|(Hk & -> & ->)].
  - cbn [bl]. rewrite (feed1_all star_table s off false x 0 sub1 Hk Hd eq_refl). cbn [sub1 t_status]. rewrite (bl_stay star_table 1 sub1 eq_refl eq_refl); [|split; reflexivity|split; reflexivity].
    destruct d; reflexivity.
  - rewrite (bl_stay star_table 1 sub1 eq_refl eq_refl); [reflexivity|split; reflexivity|exact Hk].
Qed.

Definition st_at σ cu i ba hl md s off fm fp fl q tl : ephase := mkEp INTER [set_priv c σ] 0 cu i ba hl md s off fm fp fl q tl.

Lemma step_read (pv : ephase) σ cu i ba hl md s off fm fp fl q tl d : nth_error (p_queue pv) cu = Some d -> ne d -> srt s off fl ->
  local_step pv (st_at σ cu i ba hl md s off fm fp fl q tl) LOuter = LRes pv (st_at σ (S cu) (length d) ba hl md sub1 1 fm fp true q tl) 0 0 (Stay LX).
Proof.
  intros Hd Hne Hs. rewrite data_local by (left; reflexivity). cbn [data_step st_at p_curr].
  assert (Hlt : cu < length (p_queue pv)) by (apply nth_error_Some; congruence). rewrite (proj2 (Nat.ltb_lt _ _) Hlt).
  cbv zeta. set (th2 := set_i P _ _).
  assert (E1 : curr_node P pv th2 = Some d) by (cbn; exact Hd). rewrite E1.
  assert (E2 : this_codec P th2 = Some (set_priv c σ)) by reflexivity. rewrite E2.
  pose proof (bytes_loop_bl (set_priv c σ) d th2) as Hb. change (e_tab (set_priv c σ)) with (e_tab c) in Hb. change (p_state th2) with (with_status s NOMATCH) in Hb. change (p_offset th2) with off in Hb. change (p_floop th2) with fl in Hb. rewrite Htab in Hb.
  assert (Hs' : srt (with_status s NOMATCH) off fl) by exact Hs.
  rewrite (srt_bl _ _ _ _ Hs' Hne) in Hb. destruct Hb as (i' & -> & Hi). rewrite (Hi eq_refl). reflexivity.
Qed.

Lemma step_nil (pv : ephase) σ cu i ba hl md s off fm fp fl q tl : nth_error (p_queue pv) cu = Some [] ->
  lsteps pv (st_at σ cu i ba hl md s off fm fp fl q tl) LOuter pv (st_at σ (S cu) 0 ba hl md (with_status s NOMATCH) off fm fp fl q tl) 0 0 GNext.
Proof.
  intros Hd. apply (ls_more pv _ LOuter pv (st_at σ (S cu) 0 ba hl md (with_status s NOMATCH) off fm fp fl q tl) 0 0 LX pv _ 0 0 GNext).
  - rewrite data_local by (left; reflexivity). cbn [data_step st_at p_curr].
    assert (Hlt : cu < length (p_queue pv)) by (apply nth_error_Some; congruence). rewrite (proj2 (Nat.ltb_lt _ _) Hlt).
    set (th2 := set_i _ _ _). assert (E1 : curr_node P pv th2 = Some []) by (cbn; exact Hd). rewrite E1.
    assert (E2 : this_codec P th2 = Some (set_priv c σ)) by reflexivity. rewrite E2. reflexivity.
  - apply ls_one. rewrite data_local by (left; reflexivity). reflexivity.
Qed.

Lemma step_cb (pv : ephase) σ cu ba hl md fm fp fl q tl d : nth_error (p_queue pv) cu = Some d -> tl = length q ->
  local_step pv (st_at σ (S cu) (length d) ba hl md sub1 1 fm fp fl q tl) LX =
  LRes pv (st_at (cb_priv (cv σ d)) (S cu) (cb_i (cv σ d)) ba hl md (with_status sub1 (cb_status (cv σ d))) 1 fm fp fl (q ++ cb_out (cv σ d)) (length (q ++ cb_out (cv σ d)))) 0 0 (Stay LX).
Proof.
  intros Hd ->. rewrite data_local by (left; reflexivity). set (th := st_at _ _ _ _ _ _ _ _ _ _ _ _ _). cbn [data_step]. change (t_status (p_state th)) with SUBROUTINE. cbn iota. unfold call_cb. assert (E1 : curr_node P pv th = Some d) by (cbn; exact Hd).
  assert (E2 : this_codec P th = Some (set_priv c σ)) by reflexivity. rewrite E2, E1. cbn [set_priv e_conv e_priv]. rewrite Hconv.
  rewrite app_tail_end by reflexivity. reflexivity.
Qed.
Lemma Hroot : read_state (e_tab c) 0 = Some star_root. Proof. rewrite Htab. reflexivity. Qed.
Lemma Hsub1 : read_state (e_tab c) 1 = Some sub1. Proof. rewrite Htab. reflexivity. Qed.
Lemma reset_st σ cu i ba hl md s off fm fp fl q tl : reset P (st_at σ cu i ba hl md s off fm fp fl q tl) = Some (st_at σ cu i ba hl md star_root 0 fm fp fl q tl).
Proof. unfold reset. cbn [p_codecs st_at set_priv e_tab]. rewrite Hroot. reflexivity. Qed.

Lemma step_next (pv : ephase) σ cu i ba hl md s off fm fp fl q tl : t_status s = NEXTPHASE ->
  local_step pv (st_at σ (S cu) i ba hl md s off fm fp fl q tl) LX =
  LRes (set_queue P pv (skipn (S cu) (p_queue pv)) (p_tail pv - (S cu))) (st_at σ 0 i 0 hl [] star_root 0 false false false q tl) 0 0 GNext.
Proof.
  intros Hs. rewrite data_local by (left; reflexivity). cbn [data_step st_at p_state]. rewrite Hs. unfold data_commit. cbn [app_tail]. cbn [listfree obind p_curr set_match_data set_flags].
  change (set_curr P (set_bak P _ 0) 0) with (st_at σ 0 i 0 hl [] s off false false false q tl). rewrite reset_st. reflexivity.
Qed.
Lemma step_dead (pv : ephase) σ cu i ba hl md s off fp fl q tl h T : p_queue pv = h :: T -> tl = length q ->
  local_step pv (st_at σ cu i ba hl md s off false fp fl q tl) LDead =
  LRes (set_queue P pv T (p_tail pv - 1)) (st_at σ 0 i 0 hl md star_root 0 false false false (q ++ [h]) (length (q ++ [h]))) 0 0 GNext.
Proof.
  intros Hq ->. rewrite data_local by (left; reflexivity). cbn [data_step data_dead]. unfold data_dead. cbn [st_at set_flags p_fmatch p_index codecn p_codecs length p_type is_to].
  change (0 <? _) with false. cbn iota. rewrite Hq. change (set_curr P (set_bak P _ 0) 0) with (st_at σ 0 i 0 hl md s off false false false q (length q)). rewrite app_tail_end by reflexivity.
  change (set_queue P (st_at σ 0 i 0 hl md s off false false false q (length q)) (p_queue (st_at σ 0 i 0 hl md s off false false false q (length q)) ++ [h]) (length (p_queue (st_at σ 0 i 0 hl md s off false false false q (length q)) ++ [h])))
    with (st_at σ 0 i 0 hl md s off false false false (q ++ [h]) (length (q ++ [h]))). rewrite reset_st. reflexivity.
Qed.
Lemma step_to_dead (pv : ephase) σ cu i ba hl md s off fm fp fl q tl : t_status s = DEADEND ->
  local_step pv (st_at σ cu i ba hl md s off fm fp fl q tl) LX = LRes pv (st_at σ cu i ba hl md s off fm fp fl q tl) 0 0 (Stay LDead).
Proof. intros Hs. rewrite data_local by (left; reflexivity). cbn [data_step st_at p_state]. rewrite Hs. reflexivity. Qed.
Lemma step_sep (pv : ephase) σ cu i ba hl md s fm fp q tl : kids_none s ->
  local_step pv (st_at σ cu i ba hl md s 1 fm fp true q tl) LSep = LRes pv (st_at σ cu i ba hl md sub1 1 fm fp true q tl) 0 0 (Stay LOuter).
Proof.
  intros Hk. rewrite data_local by (left; reflexivity). cbn [data_step]. set (th := st_at _ _ _ _ _ _ _ _ _ _ _ _ _).
  assert (E2 : this_codec P th = Some (set_priv c σ)) by reflexivity. rewrite E2. unfold feed. cbn [th st_at p_state p_floop p_offset]. rewrite get_offset_none by apply Hk. cbn [set_priv e_tab]. rewrite Hsub1. reflexivity.
Qed.
Lemma step_cont (pv : ephase) σ cu i ba hl md s off fm fp fl q tl : t_status s = CONTINUE ->
  local_step pv (st_at σ cu i ba hl md s off fm fp fl q tl) LX = LRes pv (st_at σ cu i ba hl md s off fm true fl q tl) 0 0 (Stay LSep).
Proof. intros Hs. rewrite data_local by (left; reflexivity). cbn [data_step st_at p_state]. rewrite Hs. reflexivity. Qed.
Lemma step_sub (pv : ephase) σ cu i ba hl md s off fm fp fl q tl : t_status s = SUBMATCH -> t_data s = [] -> p_tail pv = length (p_queue pv) ->
  exists ba' pv', local_step pv (st_at σ cu i ba hl md s off fm fp fl q tl) LX = LRes pv' (st_at σ cu i ba' hl [] s off true true fl q tl) 0 0 (Stay LSep) /\
    same_ctl pv pv' /\ p_tail pv' = length (p_queue pv') /\ p_queue pv' = p_queue pv ++ (if cu <? length (p_queue pv) then [] else [[]]).
Proof.
  intros Hs Hd Ht. rewrite data_local by (left; reflexivity). cbn [data_step st_at p_state]. rewrite Hs. cbv zeta. change (p_curr (set_match_data P _ _)) with cu. destruct (cu <? length (p_queue pv)).
  - exists (S cu), pv. split; [rewrite Hd; reflexivity|]. split; [destruct pv; reflexivity|]. split; [assumption|]. rewrite app_nil_r. reflexivity.
  - exists (S (p_tail pv)), (set_queue P pv (firstn (p_tail pv) (p_queue pv) ++ [[]]) (S (p_tail pv))). split; [rewrite Hd; reflexivity|]. split; [destruct pv; reflexivity|]. rewrite Ht, firstn_all. split; [|reflexivity]. cbn. rewrite app_length. cbn. lia.
Qed.
Lemma step_flush (pv : ephase) σ cu i ba hl s off fp fl q tl : tl = length q ->
  local_step pv (st_at σ cu i ba hl [] s off true fp fl q tl) LDead =
  LRes pv (st_at (fst (flushed σ)) cu i ba hl [] star_root 0 false false false (q ++ snd (flushed σ)) (length (q ++ snd (flushed σ)))) 0 0 GBegin.
Proof.
  intros ->. rewrite data_local by (left; reflexivity). cbn [data_step]. unfold data_dead. cbn [st_at set_flags p_fmatch p_match_data]. unfold call_flush.
  set (th := set_flags P _ _ _ _). assert (E2 : this_codec P th = Some (set_priv c σ)) by reflexivity. rewrite E2. cbn [set_priv e_flush]. unfold flushed. destruct (e_flush c) as [g|].
  - cbn [e_priv]. destruct (g σ) as [p o] eqn:Eg. cbn [set_priv e_priv obind fst snd]. rewrite Eg. cbn [fst snd obind].
    rewrite app_tail_end by reflexivity.
    change (set_flags P (set_queue P (set_codecs P th (list_upd (p_codecs th) (p_index th) (set_priv (set_priv c σ) p))) (p_queue (set_codecs P th (list_upd (p_codecs th) (p_index th) (set_priv (set_priv c σ) p))) ++ o) (length (p_queue (set_codecs P th (list_upd (p_codecs th) (p_index th) (set_priv (set_priv c σ) p))) ++ o))) false false false)
      with (st_at p cu i ba hl [] s off false false false (q ++ o) (length (q ++ o))). rewrite reset_st. reflexivity.
  - cbn [obind fst snd]. change (set_flags P th false false false) with (st_at σ cu i ba hl [] s off false false false q (length q)). rewrite reset_st. cbn [obind]. rewrite app_nil_r. reflexivity.
Qed.

(** ** The invariant *)
Definition rden (σ : P) (H rest : list datum) : Den (P:=P) := fun Y o e z => e = 0 /\ exists σf, z = Some σf /\ sd σ H (rest ++ Y) o σf.
Definition bden (σ : P) (rest : list datum) : Den (P:=P) := fun Y o e z => e = 0 /\ exists σf, z = Some σf /\ ssub σ (rest ++ Y) o σf.
Definition eden (σ : P) : Den (P:=P) := fun Y o e z => o = [] /\ e = 0 /\ z = Some σ.
Definition incl_den (D D' : Den (P:=P)) : Prop := forall Y o e z, D Y o e z -> D' Y o e z.
Definition smeas (q : list datum) (cu : nat) (fp : bool) : list nat :=
  [length (filter nonempty q); length (filter nonempty (skipn cu q)); length (skipn cu q); if fp then 1 else 0].
Definition nonnil {A} (l : list A) : bool := match l with [] => false | _ => true end.
Inductive smode (fin : bool) (q : list datum) (D : Den (P:=P)) : P -> nat -> list datum -> bool -> bool -> bool -> Prop :=
| m_run σ H rest md fp fl : q = H ++ rest -> fp = nonnil H -> Forall ne q -> incl_den D (rden σ H rest) -> smode fin q D σ (length H) md false fp fl
| m_sub σ cu z rest : cu <= length q -> skipn cu q = z ++ rest -> (z = [] \/ z = [[]]) -> Forall ne rest -> incl_den D (bden σ rest) -> smode fin q D σ cu [] true true true
| m_done σ md fl : fin = true -> incl_den D (eden σ) -> smode fin q D σ (length q) md false false fl.
Definition sinv (fin mid : bool) (pv th : ephase) (D : Den (P:=P)) (m : list nat) : Prop :=
  exists σ cu i ba hl md s off fm fp fl q tl, th = st_at σ cu i ba hl md s off fm fp fl q tl /\ J σ /\ p_tail pv = length (p_queue pv) /\ srt s off fl /\
    m = smeas (p_queue pv) cu fp /\ smode fin (p_queue pv) D σ cu md fm fp fl.
Definition sfin (th : ephase) (z : option P) : Prop := exists σ, z = Some σ /\ p_codecs th = [set_priv c σ].
Definition star_pspec : pspec (P:=P) := mkPs INTER true true sinv sfin.

Lemma ls_cons (pv th : ephase) pc pv1 th1 pc1 pv' th' g : local_step pv th pc = LRes pv1 th1 0 0 (Stay pc1) -> lsteps pv1 th1 pc1 pv' th' 0 0 g -> lsteps pv th pc pv' th' 0 0 g.
Proof. intros H1 H2. apply (ls_more pv th pc pv1 th1 0 0 pc1 pv' th' 0 0 g H1 H2). Qed.
Lemma ne_nonempty (d : datum) : ne d -> nonempty d = true. Proof. destruct d; [contradiction|reflexivity]. Qed.
Lemma filter_ne ds : Forall ne ds -> filter nonempty ds = ds.
Proof. induction 1 as [|d ds Hd _ IH]; cbn; [reflexivity|]. rewrite (ne_nonempty _ Hd), IH. reflexivity. Qed.
Lemma srt_root off : srt star_root off false. Proof. left. split; [|reflexivity]. unfold kids_all. cbn. auto 10. Qed.
Lemma srt_sub1 : srt sub1 1 true. Proof. right. split; [split; reflexivity|auto]. Qed.
Lemma srt_ws s off lb x : srt s off lb -> srt (with_status s x) off lb. Proof. intros H. exact H. Qed.
Lemma skipn_cons {A} n (l : list A) d : nth_error l n = Some d -> skipn n l = d :: skipn (S n) l.
Proof.
  revert l. induction n as [|n IH]; intros l H; destruct l as [|x l]; unfold nth_error in H; try discriminate; [injection H as ->; reflexivity|]. fold (nth_error l n) in H.
  change (skipn (S n) (x :: l)) with (skipn n l). change (skipn (S (S n)) (x :: l)) with (skipn (S n) l). apply IH. exact H.
Qed.
Lemma skipn_filter_le {A} (g : A -> bool) n l : length (filter g (skipn n l)) <= length (filter g l).
Proof. revert l. induction n as [|n IH]; intros l; [change (skipn 0 l) with l; lia|]. destruct l as [|x l]; [change (skipn (S n) (@nil A)) with (@nil A); lia|]. change (skipn (S n) (x :: l)) with (skipn n l). specialize (IH l). cbn. destruct (g x); cbn; lia. Qed.
Lemma skipn_filter_lt n (l : list datum) d : nth_error l n = Some d -> ne d -> length (filter nonempty (skipn (S n) l)) < length (filter nonempty l).
Proof. intros E Hd. pose proof (skipn_filter_le nonempty n l). rewrite (skipn_cons _ _ _ E) in H. cbn in H. rewrite (ne_nonempty _ Hd) in H. cbn in H. lia. Qed.
Lemma filter_next n (l : list datum) d : nth_error l n = Some d -> ne d -> length (filter nonempty (skipn n l)) = S (length (filter nonempty (skipn (S n) l))).
Proof. intros E Hd. rewrite (skipn_cons _ _ _ E). cbn. rewrite (ne_nonempty _ Hd). reflexivity. Qed.

Lemma sd_case σ H d Y o σf : sd σ H (d :: Y) o σf ->
  exists o', o = cb_out (cv σ d) ++ o' /\
   match cb_status (cv σ d) with
   | NEXTPHASE => sd (cb_priv (cv σ d)) [] Y o' σf
   | CONTINUE => sd (cb_priv (cv σ d)) (H ++ [d]) Y o' σf
   | DEADEND => exists h T o2, H ++ [d] = h :: T /\ o' = h :: o2 /\ sd (cb_priv (cv σ d)) [] (T ++ Y) o2 σf
   | SUBMATCH => ssub (cb_priv (cv σ d)) Y o' σf
   | _ => False
   end.
Proof. intros HS. inversion HS; subst; eexists; (split; [reflexivity|]); match goal with E : cb_status _ = _ |- _ => rewrite E end; eauto 10. Qed.
Lemma ssub_case σ d Y o σf : ssub σ (d :: Y) o σf ->
  exists o', o = cb_out (cv σ d) ++ o' /\
   match cb_status (cv σ d) with
   | NEXTPHASE => sd (cb_priv (cv σ d)) [] Y o' σf
   | SUBMATCH => ssub (cb_priv (cv σ d)) Y o' σf
   | _ => False
   end.
Proof. intros HS. inversion HS; subst; eexists; (split; [reflexivity|]); match goal with E : cb_status _ = _ |- _ => rewrite E end; eauto 10. Qed.

(** one datum is read and handled; [H]: what is held back before it; the new invariant *)
Lemma ach_mk fin (pv th : ephase) (D : Den (P:=P)) m pc (pv' : ephase) σ' cu' i' ba' hl' md' s' off' fm' fp' fl' q' tl' g out0 D' :
  lsteps pv th pc pv' (st_at σ' cu' i' ba' hl' md' s' off' fm' fp' fl' q' tl') 0 0 g -> same_ctl pv pv' ->
  p_type th = INTER -> p_headlen th = hl' -> length (p_codecs th) = 1 ->
  q' = p_queue th ++ out0 -> tl' = length q' -> Forall ne out0 -> J σ' -> p_tail pv' = length (p_queue pv') -> srt s' off' fl' ->
  smode fin (p_queue pv') D' σ' cu' md' fm' fp' fl' ->
  (forall Y o e z, alw fin Y -> D Y o e z -> exists o', D' Y o' e z /\ o = out0 ++ o') -> lex (smeas (p_queue pv') cu' fp') m -> g = Stay LOuter \/ g = GBegin \/ g = GNext ->
  ach star_pspec fin pv th D m pc.
Proof.
  intros Hls Hctl E1 E2 E3 Hq Htl Hne HJ Ht Hs Hm HD Hlex Hg.
  exists pv', (st_at σ' cu' i' ba' hl' md' s' off' fm' fp' fl' q' tl'), 0, g. split; [exact Hls|]. split; [exact Hctl|]. split; [split; [exact E1|split; [intros _; exact E2|exact E3]]|].
  exists out0, D', (smeas (p_queue pv') cu' fp'), false. split; [exact Hq|]. split; [exact Htl|]. split; [intros _; exact Hne|]. split.
  { exists σ', cu', i', ba', hl', md', s', off', fm', fp', fl', q', tl'. auto 10. }
  split. { intros Y o e z HY HDY. destruct (HD Y o e z HY HDY) as (o' & A & B). exists o', e. rewrite filter_ne by exact Hne. auto. }
  split; [exact Hlex|]. destruct Hg as [->|[->| ->]]; reflexivity.
Qed.

Lemma same_ctl_queue (pv : ephase) q t : same_ctl pv (set_queue P pv q t). Proof. reflexivity. Qed.
Lemma same_ctl_refl (pv : ephase) : same_ctl pv pv. Proof. destruct pv. reflexivity. Qed.
Lemma lex4_1 a b x y : a < b -> length x = length y -> lex (a :: x) (b :: y). Proof. apply lex_here. Qed.

Lemma star_outer_run fin (pv : ephase) (D : Den (P:=P)) σ H d rest i ba hl md s off fl q : J σ -> p_tail pv = length (p_queue pv) -> srt s off fl -> p_queue pv = H ++ d :: rest -> Forall ne (p_queue pv) ->
  incl_den D (rden σ H (d :: rest)) -> live fin D ->
  ach star_pspec fin pv (st_at σ (length H) i ba hl md s off false (nonnil H) fl q (length q)) D (smeas (p_queue pv) (length H) (nonnil H)) LOuter.
Proof.
  intros HJ Ht Hs Hq Hne HD (Y0 & o0 & e0 & z0 & HY0 & HD0).
  assert (Hn : nth_error (p_queue pv) (length H) = Some d) by (rewrite Hq, nth_error_app2, Nat.sub_diag by lia; reflexivity).
  assert (Hd : ne d) by (rewrite Forall_forall in Hne; apply Hne; rewrite Hq; apply in_elt).
  assert (Hrest : Forall ne rest /\ Forall ne H). { rewrite Hq in Hne. apply Forall_app in Hne. destruct Hne as (A & B). inversion B; auto. }
  destruct (J_conv σ d HJ Hd) as (HJ' & Hout).
  pose proof (step_read pv σ (length H) i ba hl md s off false (nonnil H) fl q (length q) d Hn Hd Hs) as S1.
  pose proof (step_cb pv σ (length H) ba hl md false (nonnil H) true q (length q) d Hn eq_refl) as S2.
  set (r := cv σ d) in *.
  assert (HC : forall Y o e z, D Y o e z -> e = 0 /\ exists σf o', z = Some σf /\ o = cb_out r ++ o' /\
     match cb_status r with
     | NEXTPHASE => sd (cb_priv r) [] (rest ++ Y) o' σf
     | CONTINUE => sd (cb_priv r) (H ++ [d]) (rest ++ Y) o' σf
     | DEADEND => exists h T o2, H ++ [d] = h :: T /\ o' = h :: o2 /\ sd (cb_priv r) [] (T ++ rest ++ Y) o2 σf
     | SUBMATCH => ssub (cb_priv r) (rest ++ Y) o' σf
     | _ => False
     end).
  { intros Y o e z HDY. destruct (HD _ _ _ _ HDY) as (-> & σf & -> & HS). destruct (sd_case _ _ _ _ _ _ HS) as (o' & -> & HM). split; [reflexivity|]. exists σf, o'. auto. }
  assert (Hsk : skipn (S (length H)) (p_queue pv) = rest).
  { pose proof (skipn_cons _ _ _ Hn) as E. rewrite Hq in E at 1. rewrite skipn_app, skipn_all, Nat.sub_diag in E. injection E as E. symmetry. exact E. }
  destruct (HC _ _ _ _ HD0) as (_ & sf0 & ox0 & _ & _ & HM0).
  destruct (cb_status r) eqn:Est; try contradiction.
  - (* CONTINUE *)
    pose proof (step_cont pv (cb_priv r) (S (length H)) (cb_i r) ba hl md (with_status sub1 CONTINUE) 1 false (nonnil H) true (q ++ cb_out r) (length (q ++ cb_out r)) eq_refl) as S3.
    pose proof (step_sep pv (cb_priv r) (S (length H)) (cb_i r) ba hl md (with_status sub1 CONTINUE) false true (q ++ cb_out r) (length (q ++ cb_out r)) (conj eq_refl eq_refl)) as S4.
    replace (S (length H)) with (length (H ++ [d])) in S3, S4 by (rewrite app_length; cbn; lia).
    eapply (ach_mk fin pv _ D _ LOuter) with (out0 := cb_out r) (D' := rden (cb_priv r) (H ++ [d]) rest).
    + eapply ls_cons; [exact S1|]. eapply ls_cons; [exact S2|]. replace (S (length H)) with (length (H ++ [d])) by (rewrite app_length; cbn; lia). eapply ls_cons; [exact S3|]. apply ls_one. exact S4.
    + apply same_ctl_refl.
    + reflexivity.
    + reflexivity.
    + reflexivity.
    + reflexivity.
    + reflexivity.
    + exact Hout.
    + exact HJ'.
    + exact Ht.
    + apply srt_sub1.
    + apply (m_run fin _ _ (cb_priv r) (H ++ [d]) rest); [rewrite <- app_assoc; exact Hq|destruct H; reflexivity|exact Hne|intros Y o e z HZ; exact HZ].
    + intros Y o e z _ HDY. destruct (HC _ _ _ _ HDY) as (-> & σf & o' & -> & -> & HS). exists o'. split; [|reflexivity]. split; [reflexivity|]. exists σf. auto.
    + unfold smeas. apply lex_next, lex_here; [|reflexivity]. replace (length (H ++ [d])) with (S (length H)) by (rewrite app_length; cbn; lia). rewrite (filter_next _ _ _ Hn Hd). lia.
    + auto.
  - (* DEADEND *)
    clear HM0. destruct (H ++ [d]) as [|h T] eqn:EHd; [destruct H; discriminate|].
    assert (Hq2 : p_queue pv = h :: (T ++ rest)) by (rewrite Hq; change (d :: rest) with ([d] ++ rest); rewrite app_assoc, EHd; reflexivity).
    pose proof (step_to_dead pv (cb_priv r) (S (length H)) (cb_i r) ba hl md (with_status sub1 DEADEND) 1 false (nonnil H) true (q ++ cb_out r) (length (q ++ cb_out r)) eq_refl) as S3.
    pose proof (step_dead pv (cb_priv r) (S (length H)) (cb_i r) ba hl md (with_status sub1 DEADEND) 1 (nonnil H) true (q ++ cb_out r) _ h (T ++ rest) Hq2 eq_refl) as S4.
    assert (HF : Forall ne (h :: T ++ rest)) by (rewrite <- Hq2; exact Hne). pose proof (Forall_inv HF) as Hh. pose proof (Forall_inv_tail HF) as HF'.
    eapply (ach_mk fin pv _ D _ LOuter) with (out0 := cb_out r ++ [h]) (D' := rden (cb_priv r) [] (T ++ rest)).
    + eapply ls_cons; [exact S1|]. eapply ls_cons; [exact S2|]. eapply ls_cons; [exact S3|]. apply ls_one. exact S4.
    + apply same_ctl_queue.
    + reflexivity.
    + reflexivity.
    + reflexivity.
    + cbn [st_at p_queue]. rewrite app_assoc. reflexivity.
    + reflexivity.
    + apply Forall_app; auto.
    + exact HJ'.
    + cbn. rewrite Ht, Hq2. cbn. lia.
    + apply srt_root.
    + cbn [set_queue p_queue]. apply (m_run fin _ _ (cb_priv r) [] (T ++ rest)); [reflexivity|reflexivity|exact HF'|intros Y o e z HZ; exact HZ].
    + intros Y o e z _ HDY. destruct (HC _ _ _ _ HDY) as (-> & σf & o' & -> & -> & h1 & T1 & o2 & E1 & -> & HS). injection E1 as <- <-. exists o2. split; [|rewrite <- app_assoc; reflexivity].
      split; [reflexivity|]. exists σf. split; [reflexivity|]. rewrite <- app_assoc. exact HS.
    + cbn [set_queue p_queue]. rewrite Hq2. apply lex_here; [|reflexivity]. cbn. rewrite (ne_nonempty _ Hh). cbn. lia.
    + auto.
  - (* SUBMATCH *)
    destruct (step_sub pv (cb_priv r) (S (length H)) (cb_i r) ba hl md (with_status sub1 SUBMATCH) 1 false (nonnil H) true (q ++ cb_out r) (length (q ++ cb_out r)) eq_refl eq_refl Ht) as (ba' & pv' & S3 & C1 & C2 & C3).
    pose proof (step_sep pv' (cb_priv r) (S (length H)) (cb_i r) ba' hl [] (with_status sub1 SUBMATCH) true true (q ++ cb_out r) (length (q ++ cb_out r)) (conj eq_refl eq_refl)) as S4.
    assert (Hlen : S (length H) <= length (p_queue pv)) by (rewrite Hq, app_length; cbn; lia).
    match type of C3 with _ = _ ++ ?x => set (zz := x) in * end.
    assert (Esk : skipn (S (length H)) (p_queue pv') = rest ++ zz) by (rewrite C3, skipn_app, Hsk; replace (S (length H) - length (p_queue pv)) with 0 by lia; reflexivity).
    assert (Ezz : rest ++ zz = zz ++ rest /\ (zz = [] \/ zz = [[]])).
    { unfold zz. destruct (Nat.ltb_spec (S (length H)) (length (p_queue pv))) as [L|L]; [rewrite app_nil_r; auto|]. assert (rest = []) as -> by (rewrite Hq, app_length in L; cbn in L; destruct rest; [reflexivity|cbn in L; lia]). auto. }
    assert (Hfz : filter nonempty zz = []) by (destruct Ezz as (_ & [->| ->]); reflexivity).
    eapply (ach_mk fin pv _ D _ LOuter) with (out0 := cb_out r) (D' := bden (cb_priv r) rest).
    + eapply ls_cons; [exact S1|]. eapply ls_cons; [exact S2|]. eapply ls_cons; [exact S3|]. apply ls_one. exact S4.
    + exact C1.
    + reflexivity.
    + reflexivity.
    + reflexivity.
    + reflexivity.
    + reflexivity.
    + exact Hout.
    + exact HJ'.
    + exact C2.
    + apply srt_sub1.
    + apply (m_sub fin _ _ (cb_priv r) (S (length H)) zz rest); [rewrite C3, app_length; lia|rewrite Esk; apply Ezz|apply Ezz|apply Hrest|intros Y o e z HZ; exact HZ].
    + intros Y o e z _ HDY. destruct (HC _ _ _ _ HDY) as (-> & σf & o' & -> & -> & HS). exists o'. split; [|reflexivity]. split; [reflexivity|]. exists σf. auto.
    + unfold smeas. rewrite Esk, C3, !filter_app, Hfz, !app_nil_r. apply lex_next, lex_here; [|reflexivity]. rewrite (filter_next _ _ _ Hn Hd), Hsk. lia.
    + auto.
  - (* NEXTPHASE *)
    pose proof (step_next pv (cb_priv r) (length H) (cb_i r) ba hl md (with_status sub1 NEXTPHASE) 1 false (nonnil H) true (q ++ cb_out r) (length (q ++ cb_out r)) eq_refl) as S3. rewrite Hsk in S3.
    eapply (ach_mk fin pv _ D _ LOuter) with (out0 := cb_out r) (D' := rden (cb_priv r) [] rest).
    + eapply ls_cons; [exact S1|]. eapply ls_cons; [exact S2|]. apply ls_one. exact S3.
    + apply same_ctl_queue.
    + reflexivity.
    + reflexivity.
    + reflexivity.
    + reflexivity.
    + reflexivity.
    + exact Hout.
    + exact HJ'.
    + cbn. rewrite Ht, Hq, app_length. cbn. lia.
    + apply srt_root.
    + cbn [set_queue p_queue]. apply (m_run fin _ _ (cb_priv r) [] rest); [reflexivity|reflexivity|apply Hrest|intros Y o e z HZ; exact HZ].
    + intros Y o e z _ HDY. destruct (HC _ _ _ _ HDY) as (-> & σf & o' & -> & -> & HS). exists o'. split; [|reflexivity]. split; [reflexivity|]. exists σf. auto.
    + cbn [set_queue p_queue]. apply lex_here; [|reflexivity]. rewrite <- Hsk. apply (skipn_filter_lt _ _ _ Hn Hd).
    + auto.
Qed.

Lemma star_outer_sub fin (pv : ephase) (D : Den (P:=P)) σ cu d rest i ba hl s q : J σ -> p_tail pv = length (p_queue pv) -> srt s 1 true -> cu <= length (p_queue pv) -> skipn cu (p_queue pv) = d :: rest -> ne d -> Forall ne rest ->
  incl_den D (bden σ (d :: rest)) -> live fin D ->
  ach star_pspec fin pv (st_at σ cu i ba hl [] s 1 true true true q (length q)) D (smeas (p_queue pv) cu true) LOuter.
Proof.
  intros HJ Ht Hs Hcu Hsk0 Hd Hrest HD (Y0 & o0 & e0 & z0 & HY0 & HD0).
  assert (Hn : nth_error (p_queue pv) cu = Some d).
  { rewrite <- (firstn_skipn cu (p_queue pv)), Hsk0, nth_error_app2 by (rewrite firstn_length; lia). rewrite firstn_length, Nat.min_l, Nat.sub_diag by lia. reflexivity. }
  assert (Hlt : cu < length (p_queue pv)) by (apply nth_error_Some; congruence).
  destruct (J_conv σ d HJ Hd) as (HJ' & Hout).
  pose proof (step_read pv σ cu i ba hl [] s 1 true true true q (length q) d Hn Hd Hs) as S1.
  pose proof (step_cb pv σ cu ba hl [] true true true q (length q) d Hn eq_refl) as S2.
  set (r := cv σ d) in *.
  assert (HC : forall Y o e z, D Y o e z -> e = 0 /\ exists σf o', z = Some σf /\ o = cb_out r ++ o' /\
     match cb_status r with
     | NEXTPHASE => sd (cb_priv r) [] (rest ++ Y) o' σf
     | SUBMATCH => ssub (cb_priv r) (rest ++ Y) o' σf
     | _ => False
     end).
  { intros Y o e z HDY. destruct (HD _ _ _ _ HDY) as (-> & σf & -> & HS). destruct (ssub_case _ _ _ _ _ HS) as (o' & -> & HM). split; [reflexivity|]. exists σf, o'. auto. }
  assert (Hsk : skipn (S cu) (p_queue pv) = rest).
  { pose proof (skipn_cons _ _ _ Hn) as E. rewrite Hsk0 in E. injection E as E. symmetry. exact E. }
  destruct (HC _ _ _ _ HD0) as (_ & sf0 & ox0 & _ & _ & HM0).
  destruct (cb_status r) eqn:Est; try contradiction.
  - (* SUBMATCH *)
    destruct (step_sub pv (cb_priv r) (S cu) (cb_i r) ba hl [] (with_status sub1 SUBMATCH) 1 true true true (q ++ cb_out r) (length (q ++ cb_out r)) eq_refl eq_refl Ht) as (ba' & pv' & S3 & C1 & C2 & C3).
    pose proof (step_sep pv' (cb_priv r) (S cu) (cb_i r) ba' hl [] (with_status sub1 SUBMATCH) true true (q ++ cb_out r) (length (q ++ cb_out r)) (conj eq_refl eq_refl)) as S4.
    match type of C3 with _ = _ ++ ?x => set (zz := x) in * end.
    assert (Esk : skipn (S cu) (p_queue pv') = rest ++ zz) by (rewrite C3, skipn_app, Hsk; replace (S cu - length (p_queue pv)) with 0 by lia; reflexivity).
    assert (Ezz : rest ++ zz = zz ++ rest /\ (zz = [] \/ zz = [[]])).
    { unfold zz. destruct (Nat.ltb_spec (S cu) (length (p_queue pv))) as [L|L]; [rewrite app_nil_r; auto|]. assert (rest = []) as ->; [|auto].
      assert (length rest = 0) as E; [|destruct rest; [reflexivity|discriminate]]. rewrite <- Hsk, skipn_length. lia. }
    assert (Hfz : filter nonempty zz = []) by (destruct Ezz as (_ & [->| ->]); reflexivity).
    eapply (ach_mk fin pv _ D _ LOuter) with (out0 := cb_out r) (D' := bden (cb_priv r) rest).
    + eapply ls_cons; [exact S1|]. eapply ls_cons; [exact S2|]. eapply ls_cons; [exact S3|]. apply ls_one. exact S4.
    + exact C1.
    + reflexivity.
    + reflexivity.
    + reflexivity.
    + reflexivity.
    + reflexivity.
    + exact Hout.
    + exact HJ'.
    + exact C2.
    + apply srt_sub1.
    + apply (m_sub fin _ _ (cb_priv r) (S cu) zz rest); [rewrite C3, app_length; lia|rewrite Esk; apply Ezz|apply Ezz|apply Hrest|intros Y o e z HZ; exact HZ].
    + intros Y o e z _ HDY. destruct (HC _ _ _ _ HDY) as (-> & σf & o' & -> & -> & HS). exists o'. split; [|reflexivity]. split; [reflexivity|]. exists σf. auto.
    + unfold smeas. rewrite Esk, C3, !filter_app, Hfz, !app_nil_r. apply lex_next, lex_here; [|reflexivity]. rewrite (filter_next _ _ _ Hn Hd), Hsk. lia.
    + auto.
  - (* NEXTPHASE *)
    pose proof (step_next pv (cb_priv r) cu (cb_i r) ba hl [] (with_status sub1 NEXTPHASE) 1 true true true (q ++ cb_out r) (length (q ++ cb_out r)) eq_refl) as S3. rewrite Hsk in S3.
    eapply (ach_mk fin pv _ D _ LOuter) with (out0 := cb_out r) (D' := rden (cb_priv r) [] rest).
    + eapply ls_cons; [exact S1|]. eapply ls_cons; [exact S2|]. apply ls_one. exact S3.
    + apply same_ctl_queue.
    + reflexivity.
    + reflexivity.
    + reflexivity.
    + reflexivity.
    + reflexivity.
    + exact Hout.
    + exact HJ'.
    + cbn. rewrite Ht, <- Hsk, skipn_length. lia.
    + apply srt_root.
    + cbn [set_queue p_queue]. apply (m_run fin _ _ (cb_priv r) [] rest); [reflexivity|reflexivity|apply Hrest|intros Y o e z HZ; exact HZ].
    + intros Y o e z _ HDY. destruct (HC _ _ _ _ HDY) as (-> & σf & o' & -> & -> & HS). exists o'. split; [|reflexivity]. split; [reflexivity|]. exists σf. auto.
    + cbn [set_queue p_queue]. apply lex_here; [|reflexivity]. rewrite <- Hsk. apply (skipn_filter_lt _ _ _ Hn Hd).
    + auto.
Qed.

Lemma star_outer_nil fin (pv : ephase) (D : Den (P:=P)) σ cu rest i ba hl s off q : J σ -> p_tail pv = length (p_queue pv) -> srt s off true -> cu <= length (p_queue pv) -> skipn cu (p_queue pv) = [] :: rest -> Forall ne rest ->
  incl_den D (bden σ rest) ->
  ach star_pspec fin pv (st_at σ cu i ba hl [] s off true true true q (length q)) D (smeas (p_queue pv) cu true) LOuter.
Proof.
  intros HJ Ht Hs Hcu Hsk0 Hrest HD.
  assert (Hn : nth_error (p_queue pv) cu = Some []).
  { rewrite <- (firstn_skipn cu (p_queue pv)), Hsk0, nth_error_app2 by (rewrite firstn_length; lia). rewrite firstn_length, Nat.min_l, Nat.sub_diag by lia. reflexivity. }
  assert (Hlt : cu < length (p_queue pv)) by (apply nth_error_Some; congruence).
  assert (Hsk : skipn (S cu) (p_queue pv) = rest).
  { pose proof (skipn_cons _ _ _ Hn) as E. rewrite Hsk0 in E. injection E as E. symmetry. exact E. }
  pose proof (step_nil pv σ cu i ba hl [] s off true true true q (length q) Hn) as S1.
  eapply (ach_mk fin pv _ D _ LOuter) with (out0 := []) (D' := D).
  + exact S1.
  + apply same_ctl_refl.
  + reflexivity.
  + reflexivity.
  + reflexivity.
  + cbn. rewrite app_nil_r. reflexivity.
  + reflexivity.
  + constructor.
  + exact HJ.
  + exact Ht.
  + apply srt_ws. exact Hs.
  + apply (m_sub fin _ _ σ (S cu) [] rest); [lia|exact Hsk|auto|exact Hrest|exact HD].
  + intros Y o e z _ HDY. exists o. auto.
  + unfold smeas. apply lex_next. rewrite Hsk, Hsk0. cbn [filter nonempty]. apply lex_next, lex_here; [cbn; lia|reflexivity].
  + auto.
Qed.

Lemma sd_end_inv σ o σf : sd σ [] [] o σf -> o = [] /\ σf = σ.
Proof. intros HS. inversion HS; subst. auto. Qed.
Lemma sd_eof_inv σ h T o σf : sd σ (h :: T) [] o σf -> exists o', o = h :: o' /\ sd σ [] T o' σf.
Proof. intros HS. inversion HS; subst. eauto. Qed.
Lemma ssub_end_inv σ o σf : ssub σ [] o σf -> o = snd (flushed σ) /\ σf = fst (flushed σ).
Proof. intros HS. inversion HS; subst. auto. Qed.

Lemma star_pspec_ok : pspec_ok star_pspec.
Proof.
  constructor; cbn [star_pspec s_type s_cin s_cout s_inv s_fin].
  - intros fin mid pv th D m (σ & cu & i & ba & hl & md & s & off & fm & fp & fl & q & tl & -> & HJ & Ht & Hs & -> & Hm). split; [reflexivity|]. split; [exact Ht|reflexivity].
  - intros fin pv th D m (σ & cu & i & ba & hl & md & s & off & fm & fp & fl & q & tl & -> & HJ & Ht & Hs & -> & Hm) Htl HL Hlt. cbn [st_at p_tail p_queue p_curr] in Htl, Hlt. subst tl.
    inversion Hm as [? H rest ? ? ? Hq Hfp Hne HD|? ? z rest Hcu Hsk Hz Hne HD|? ? ? Hf HD]; subst.
    + destruct rest as [|d rest]; [rewrite Hq, app_nil_r in Hlt; lia|]. apply (star_outer_run fin pv D σ H d rest); assumption.
    + assert (off = 1) by (destruct Hs as [(_ & ?)|(_ & _ & ->)]; [discriminate|reflexivity]). subst off.
      destruct Hz as [->| ->].
      * destruct rest as [|d rest]; [cbn in Hsk; assert (length (skipn cu (p_queue pv)) = 0) as E by (rewrite Hsk; reflexivity); rewrite skipn_length in E; lia|].
        apply (star_outer_sub fin pv D σ cu d rest); auto; [apply (Forall_inv Hne)|apply (Forall_inv_tail Hne)].
      * apply (star_outer_nil fin pv D σ cu rest); auto.
    + lia.
  - discriminate.
  - intros fin mid pv th D m (σ & cu & i & ba & hl & md & s & off & fm & fp & fl & q & tl & -> & HJ & Ht & Hs & -> & Hm) Hle. cbn [st_at p_curr] in Hle.
    rewrite data_local by (left; reflexivity). cbn [data_step]. change (p_curr (st_at σ cu i ba hl md s off fm fp fl q tl)) with cu. rewrite (proj2 (Nat.ltb_ge _ _) Hle). reflexivity.
  - intros fin pv th D m (σ & cu & i & ba & hl & md & s & off & fm & fp & fl & q & tl & -> & HJ & Ht & Hs & -> & Hm) Htl Hle Hp (o0 & e0 & z0 & HD0). cbn [st_at p_tail p_queue p_curr p_fpending] in Htl, Hle, Hp. subst tl fp.
    inversion Hm as [? H rest ? ? ? Hq Hfp Hne HD|? ? z rest Hcu Hsk Hz Hne HD|]; subst.
    + assert (rest = []) as -> by (rewrite Hq, app_length in Hle; destruct rest; [reflexivity|cbn in Hle; lia]). rewrite app_nil_r in Hq. destruct H as [|h T]; [discriminate|].
      pose proof (step_dead pv σ (length (h :: T)) i ba hl md s off true fl q _ h T Hq eq_refl) as S1. rewrite Hq in Hne.
      eapply (ach_mk true pv _ D _ LDead) with (out0 := [h]) (D' := rden σ [] T).
      * apply ls_one. exact S1.
      * apply same_ctl_queue.
      * reflexivity.
      * reflexivity.
      * reflexivity.
      * reflexivity.
      * reflexivity.
      * constructor; [apply (Forall_inv Hne)|constructor].
      * exact HJ.
      * cbn. rewrite Ht, Hq. cbn. lia.
      * apply srt_root.
      * cbn [set_queue p_queue]. apply (m_run true _ _ σ [] T); [reflexivity|reflexivity|apply (Forall_inv_tail Hne)|intros Y o e z HZ; exact HZ].
      * intros Y o e z HY HDY. rewrite (HY eq_refl) in *. destruct (HD _ _ _ _ HDY) as (-> & σf & -> & HS). destruct (sd_eof_inv _ _ _ _ _ HS) as (o' & -> & HS'). exists o'. split; [|reflexivity]. split; [reflexivity|]. exists σf. rewrite app_nil_r. auto.
      * cbn [set_queue p_queue]. rewrite Hq. apply lex_here; [|reflexivity]. cbn. rewrite (ne_nonempty _ (Forall_inv Hne)). cbn. lia.
      * auto.
    + assert (z = [] /\ rest = []) as (-> & ->).
      { assert (length (z ++ rest) = 0) as E by (rewrite <- Hsk, skipn_length; lia). destruct z; [destruct rest; [auto|discriminate]|discriminate]. }
      assert (cu = length (p_queue pv)) as -> by lia.
      pose proof (step_flush pv σ (length (p_queue pv)) i ba hl s off true true q _ eq_refl) as S1. destruct (J_flush σ HJ) as (HJ' & Hout).
      eapply (ach_mk true pv _ D _ LDead) with (out0 := snd (flushed σ)) (D' := eden (fst (flushed σ))).
      * apply ls_one. exact S1.
      * apply same_ctl_refl.
      * reflexivity.
      * reflexivity.
      * reflexivity.
      * reflexivity.
      * reflexivity.
      * exact Hout.
      * exact HJ'.
      * exact Ht.
      * apply srt_root.
      * apply m_done; [reflexivity|intros Y o e z HZ; exact HZ].
      * intros Y o e z HY HDY. rewrite (HY eq_refl) in *. destruct (HD _ _ _ _ HDY) as (-> & σf & -> & HS). destruct (ssub_end_inv _ _ _ HS) as (-> & ->). exists []. split; [unfold eden; auto|rewrite app_nil_r; reflexivity].
      * unfold smeas. apply lex_next, lex_next, lex_next, lex_here; [cbn; lia|reflexivity].
      * auto.
  - intros fin pv th D m o e z (σ & cu & i & ba & hl & md & s & off & fm & fp & fl & q & tl & -> & HJ & Ht & Hs & -> & Hm) Hle Hp HD0. cbn [st_at p_curr p_fpending] in Hle, Hp. subst fp.
    inversion Hm as [? H rest ? ? ? Hq Hfp Hne HD|? ? ? rest Hcu Hsk Hz Hne HD|? ? ? Hf HD]; subst.
    + destruct H as [|h T]; [|discriminate]. assert (rest = []) as -> by (cbn in Hq; rewrite Hq in Hle; destruct rest; [reflexivity|cbn in Hle; lia]).
      destruct (HD _ _ _ _ HD0) as (-> & σf & -> & HS). destruct (sd_end_inv _ _ _ HS) as (-> & ->). split; [reflexivity|]. split; [reflexivity|]. exists σ. auto.
    + destruct (HD _ _ _ _ HD0) as (-> & -> & ->). split; [reflexivity|]. split; [reflexivity|]. exists σ. auto.
  - intros mid pv pv' th D m ds (σ & cu & i & ba & hl & md & s & off & fm & fp & fl & q & tl & -> & HJ & Ht & Hs & -> & Hm) Hq' Ht' _ Hne'. specialize (Hne' eq_refl).
    eexists. exists σ, cu, i, ba, hl, md, s, off, fm, fp, fl, q, tl. split; [reflexivity|]. split; [exact HJ|]. split; [exact Ht'|]. split; [exact Hs|]. split; [reflexivity|].
    inversion Hm as [? H rest ? ? ? Hq Hfp Hne HD|? ? z rest Hcu Hsk Hz Hne HD|]; subst.
    + apply (m_run false _ _ σ H (rest ++ ds)); [rewrite Hq', Hq, <- app_assoc; reflexivity|reflexivity|rewrite Hq'; apply Forall_app; auto|].
      intros Y o e z HDY. unfold fed in HDY. rewrite (filter_ne _ Hne') in HDY. destruct (HD _ _ _ _ HDY) as (-> & σf & -> & HS). split; [reflexivity|]. exists σf. rewrite <- app_assoc. auto.
    + apply (m_sub false _ _ σ cu z (rest ++ ds)); [rewrite Hq', app_length; lia|rewrite Hq', skipn_app, Hsk; replace (cu - length (p_queue pv)) with 0 by lia; rewrite <- app_assoc; reflexivity|exact Hz|apply Forall_app; auto|].
      intros Y o e z' HDY. unfold fed in HDY. rewrite (filter_ne _ Hne') in HDY. destruct (HD _ _ _ _ HDY) as (-> & σf & -> & HS). split; [reflexivity|]. exists σf. rewrite <- app_assoc. auto.
    + discriminate.
  - intros fin mid pv th th' D m (σ & cu & i & ba & hl & md & s & off & fm & fp & fl & q & tl & -> & HJ & Ht & Hs & -> & Hm) Hc. rewrite Hc.
    exists σ, cu, i, ba, hl, md, s, off, fm, fp, fl, (p_queue th'), (p_tail th'). split; [reflexivity|auto 10].
  - auto.
  - intros mid pv th D m (σ & cu & i & ba & hl & md & s & off & fm & fp & fl & q & tl & -> & HJ & Ht & Hs & -> & Hm).
    exists σ, cu, i, ba, hl, md, s, off, fm, fp, fl, q, tl. split; [reflexivity|]. repeat (split; [assumption|]). split; [reflexivity|].
    inversion Hm as [? H rest ? ? ? Hq Hfp Hne HD|? ? z rest Hcu Hsk Hz Hne HD|]; subst.
    + apply (m_run true _ _ σ H rest); auto.
    + apply (m_sub true _ _ σ cu z rest); auto.
    + discriminate.
  - intros th th' z (σ & -> & E) Hc. exists σ. split; [reflexivity|]. rewrite Hc. exact E.
Qed.
End E.

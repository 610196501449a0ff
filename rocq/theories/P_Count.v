(** A phase whose last codec is COUNT: the counter is followed by running the same phase with a COUNT that marks what it passes on. *)
From Verif Require Import Base Types M_Engine M_Output M_Callback S_Session S_Engine P_Trans P_Engine1 P_Engine2 P_Engine3 P_Engine4 P_Engine5 P_Engine6 P_Ebcdic P_Flow P_Flow2.
Local Arguments nth_error : simpl never. Local Arguments skipn : simpl never. Local Arguments Nat.ltb : simpl never. Local Arguments read_state : simpl never.

Section E.
Context {P : Type}.
Notation ecodec := (ecodec P). Notation ephase := (ephase P).
Arguments p_type {P}. Arguments p_codecs {P}. Arguments p_index {P}. Arguments p_curr {P}. Arguments p_i {P}.
Arguments p_bak {P}. Arguments p_headlen {P}. Arguments p_match_data {P}. Arguments p_state {P}. Arguments p_offset {P}.
Arguments p_fmatch {P}. Arguments p_fpending {P}. Arguments p_floop {P}. Arguments p_queue {P}. Arguments p_tail {P}.
Arguments e_tab {P}. Arguments e_conv {P}. Arguments e_flush {P}. Arguments e_init {P}. Arguments e_priv {P}.
Arguments cb_priv {P}. Arguments cb_i {P}. Arguments cb_status {P}. Arguments cb_out {P}.
Arguments local_step {P}. Arguments data_step {P}. Arguments LRes {P}. Arguments LUB {P}. Arguments mkEp {P}. Arguments set_priv {P}.
Arguments feed {P}. Arguments bytes_loop {P}. Arguments reset {P}. Arguments app_tail {P}. Arguments call_cb {P}. Arguments call_flush {P}.
Arguments set_queue {P}. Arguments set_codecs {P}. Arguments set_state {P}. Arguments set_flags {P}. Arguments set_match_data {P}. Arguments set_curr {P}. Arguments set_bak {P}. Arguments set_index {P}. Arguments set_i {P}. Arguments set_offset {P}.
Arguments this_codec {P}. Arguments curr_node {P}. Arguments data_commit {P}. Arguments data_dead {P}. Arguments data_hold {P}. Arguments listfree {P}. Arguments codecn {P}. Arguments ub_or {P}.

Variable er : datum -> datum.
(** What an output datum of the marking codec adds to the counter. *)
Variable tag : datum -> nat.
Variable jc : nat.
Variable add : P -> nat -> P.
Definition fixd (d : datum) : Prop := er d = d /\ tag d = 0.
Definition tags (l : list datum) : nat := list_sum (map tag l).
Lemma tags_app a b : tags (a ++ b) = tags a + tags b. Proof. unfold tags. rewrite map_app, list_sum_app. reflexivity. Qed.
Lemma fixd_map l : Forall fixd l -> map er l = l. Proof. induction 1 as [|x l (H & _) _ IH]; cbn; [reflexivity|]. rewrite H, IH. reflexivity. Qed.
Lemma fixd_tags l : Forall fixd l -> tags l = 0. Proof. unfold tags. induction 1 as [|x l (_ & H) _ IH]; cbn; [reflexivity|]. rewrite H. exact IH. Qed.

(** The marking codec [a] and the real one [b], number [j] of the phase. *)
Record csim (j : nat) (a b : ecodec) : Prop := {
  cs_tab : e_tab b = e_tab a;
  cs_priv : e_priv b = e_priv a;
  cs_fl : e_flush a = None /\ e_flush b = None;
  cs_data : Forall (fun st => Forall fixd (t_data st)) (e_tab a);
  cs_conv : (e_conv a = None /\ e_conv b = None) \/ (j = jc /\ exists f g, e_conv a = Some f /\ e_conv b = Some g /\
     forall p d i sd, cb_priv (g p d i sd) = cb_priv (f p d i sd) /\ cb_i (g p d i sd) = cb_i (f p d i sd) /\ cb_status (g p d i sd) = cb_status (f p d i sd) /\
       cb_out (g p d i sd) = map er (cb_out (f p d i sd)) /\ cb_priv (f p d i sd) = add p (tags (cb_out (f p d i sd))))
}.
Definition csims (l l' : list ecodec) : Prop := length l = length l' /\ forall j a b, nth_error l j = Some a -> nth_error l' j = Some b -> csim j a b.
Definition rl (cs : list ecodec) (q0 : list datum) (t : ephase) : ephase :=
  mkEp (p_type t) cs (p_index t) (p_curr t) (p_i t) (p_bak t) (p_headlen t) (p_match_data t) (p_state t) (p_offset t) (p_fmatch t) (p_fpending t) (p_floop t) (q0 ++ map er (p_queue t)) (length q0 + p_tail t).
Record okt (t : ephase) (cs : list ecodec) : Prop := {
  ok_full : p_tail t = length (p_queue t);
  ok_cs : csims (p_codecs t) cs;
  ok_md : Forall fixd (p_match_data t);
  ok_st : Forall fixd (t_data (p_state t))
}.
Lemma csims_l l l' j a : csims l l' -> nth_error l j = Some a -> exists b, nth_error l' j = Some b /\ csim j a b.
Proof.
  intros (H1 & H2) E. destruct (nth_error l' j) as [b|] eqn:Eb; [eauto|]. apply nth_error_None in Eb. assert (j < length l) by (apply nth_error_Some; congruence). lia.
Qed.
Lemma csims_none l l' j : csims l l' -> nth_error l j = None -> nth_error l' j = None.
Proof. intros (H1 & _) E. apply nth_error_None in E. apply nth_error_None. lia. Qed.
Lemma feed_rl cs q0 a b t v : e_tab b = e_tab a -> feed b (rl cs q0 t) v = option_map (rl cs q0) (feed a t v).
Proof.
  intros E. unfold feed. rewrite E. cbn [rl p_state p_floop p_offset]. destruct (get_offset (p_state t) v) as [n|]; [|reflexivity]. cbv zeta.
  destruct (read_state _ _); reflexivity.
Qed.
Lemma feed_okt cs j a b t v t' : csim j a b -> okt t cs -> feed a t v = Some t' -> okt t' cs /\ p_type t' = p_type t /\ p_codecs t' = p_codecs t /\ p_queue t' = p_queue t.
Proof.
  intros HC [O1 O2 O3 O4]. unfold feed. destruct (get_offset (p_state t) v) as [n|]; [|discriminate]. cbv zeta. destruct (read_state _ _) as [s|] eqn:E; [|discriminate]. intros H. injection H as <-.
  split; [|auto]. constructor; try assumption. cbn. unfold read_state in E. apply nth_error_In in E. pose proof (cs_data _ _ _ HC) as HD. rewrite Forall_forall in HD. apply HD. exact E.
Qed.
Lemma loop_rl cs q0 a b : e_tab b = e_tab a -> forall bs t, bytes_loop b (rl cs q0 t) bs = option_map (fun x => (rl cs q0 (fst x), snd x)) (bytes_loop a t bs).
Proof.
  intros E. induction bs as [|x bs IH]; intros t; cbn [bytes_loop]; [reflexivity|]. rewrite (feed_rl cs q0 a b t x E). destruct (feed a t x) as [t1|]; cbn [option_map]; [|reflexivity].
  change (p_state (rl cs q0 t1)) with (p_state t1). destruct (t_status (p_state t1)); try reflexivity; rewrite <- IH; reflexivity.
Qed.
Lemma loop_okt cs j a b : csim j a b -> forall bs t t' e, okt t cs -> bytes_loop a t bs = Some (t', e) -> okt t' cs /\ p_type t' = p_type t /\ p_codecs t' = p_codecs t /\ p_queue t' = p_queue t.
Proof.
  intros HC. induction bs as [|x bs IH]; intros t t' e HO H; cbn [bytes_loop] in H; [injection H as <- <-; auto|].
  destruct (feed a t x) as [t1|] eqn:E; [|discriminate]. destruct (feed_okt cs j a b t x t1 HC HO E) as (O1 & O2 & O3 & O4).
  assert (Hst : forall t2, (exists f g h i, t2 = set_i (set_flags t1 f g h) i) -> bytes_loop a t2 bs = Some (t', e) -> okt t' cs /\ p_type t' = p_type t /\ p_codecs t' = p_codecs t /\ p_queue t' = p_queue t).
  { intros t2 (f & g & h & i & ->) H2. assert (HO2 : okt (set_i (set_flags t1 f g h) i) cs) by (destruct O1; constructor; assumption). destruct (IH _ _ _ HO2 H2) as (R1 & R2 & R3 & R4). cbn in R2, R3, R4. split; [exact R1|]. split; [congruence|]. split; congruence. }
  destruct (t_status (p_state t1)); try (eapply Hst; [|exact H]; first [exists (p_fmatch t1), (p_fpending t1), true, (S (p_i t1)); reflexivity|exists (p_fmatch t1), (p_fpending t1), (p_floop t1), (S (p_i t1)); destruct t1; reflexivity]).
  injection H as <- <-. auto.
Qed.
Lemma reset_rl cs q0 t : csims (p_codecs t) cs -> reset (rl cs q0 t) = option_map (rl cs q0) (reset t).
Proof.
  intros HC. unfold reset. change (p_codecs (rl cs q0 t)) with cs. destruct (p_codecs t) as [|a l] eqn:E.
  - destruct HC as (HL & _). destruct cs; [reflexivity|discriminate].
  - destruct (csims_l _ _ 0 a HC eq_refl) as (b & Eb & HS). destruct cs as [|b' cs']; [discriminate|]. injection Eb as ->. rewrite (cs_tab _ _ _ HS). destruct (read_state (e_tab a) 0); reflexivity.
Qed.
Lemma reset_okt cs t t' : okt t cs -> reset t = Some t' -> okt t' cs /\ p_type t' = p_type t /\ p_codecs t' = p_codecs t /\ p_queue t' = p_queue t.
Proof.
  intros [O1 O2 O3 O4]. unfold reset. destruct (p_codecs t) as [|a l] eqn:E; [discriminate|]. destruct (read_state (e_tab a) 0) as [s|] eqn:Er; [|discriminate]. intros H. injection H as <-.
  split; [|cbn; auto]. constructor; cbn; try assumption; [rewrite E; exact O2|]. destruct (csims_l _ _ 0 a O2 eq_refl) as (b & _ & HS). pose proof (cs_data _ _ _ HS) as HD. rewrite Forall_forall in HD. apply HD. unfold read_state in Er. eapply nth_error_In. exact Er.
Qed.
Lemma app_rl cs q0 t ds : p_tail t = length (p_queue t) -> app_tail (rl cs q0 t) (map er ds) = rl cs q0 (app_tail t ds).
Proof.
  intros Ht. destruct ds as [|d ds]; [reflexivity|]. cbn [map app_tail]. unfold rl, set_queue. cbn [p_type p_codecs p_index p_curr p_i p_bak p_headlen p_match_data p_state p_offset p_fmatch p_fpending p_floop p_queue p_tail]. f_equal.
  - rewrite firstn_all2 by (rewrite app_length, map_length; lia). rewrite firstn_all2 by lia. rewrite map_app, app_assoc. reflexivity.
  - cbn [length]. rewrite map_length. lia.
Qed.
Lemma app_okt cs t ds : okt t cs -> okt (app_tail t ds) cs /\ p_type (app_tail t ds) = p_type t /\ p_codecs (app_tail t ds) = p_codecs t /\ p_queue (app_tail t ds) = p_queue t ++ ds.
Proof.
  intros [O1 O2 O3 O4]. rewrite app_tail_end by exact O1. split; [|cbn; auto]. constructor; try assumption. cbn. rewrite app_length. lia.
Qed.
(** The counter. *)
Hypothesis add_0 : forall p, add p 0 = p.
Hypothesis add_add : forall p a b, add (add p a) b = add p (a + b).
Definition counted (t t' : ephase) (o : list datum) : Prop := forall c, nth_error (p_codecs t) jc = Some c -> exists c', nth_error (p_codecs t') jc = Some c' /\ e_priv c' = add (e_priv c) (tags o).
Lemma counted_same t t' o : p_codecs t' = p_codecs t -> tags o = 0 -> counted t t' o.
Proof. intros E H c Hc. exists c. rewrite E, H, add_0. auto. Qed.
Lemma counted_trans t t1 t2 o o' : counted t t1 o -> counted t1 t2 o' -> counted t t2 (o ++ o').
Proof. intros H1 H2 c Hc. destruct (H1 c Hc) as (c1 & E1 & P1). destruct (H2 c1 E1) as (c2 & E2 & P2). exists c2. split; [exact E2|]. rewrite P2, P1, add_add, tags_app. reflexivity. Qed.

Lemma nth_upd_gen {A} (l : list A) n x j : nth_error (list_upd l n x) j = if (j =? n) then (match nth_error l j with Some _ => Some x | None => None end) else nth_error l j.
Proof.
  destruct (Nat.eqb_spec j n) as [->|Hne].
  - destruct (nth_error l n) as [y|] eqn:E; [eapply list_upd_nth; exact E|]. revert n E. induction l as [|z l IH]; intros [|n] E; try reflexivity; try discriminate. cbn [list_upd]. change (nth_error (z :: l) (S n)) with (nth_error l n) in E. exact (IH n E).
  - apply list_upd_nth_ne. congruence.
Qed.
Lemma upd_len {A} (l : list A) n x : length (list_upd l n x) = length l.
Proof. revert n. induction l as [|a l IH]; intros [|n]; cbn; auto. Qed.
Lemma cb_rl cs q0 pv t t' : okt t cs -> call_cb pv t = Some t' ->
  exists cs' o, call_cb pv (rl cs q0 t) = Some (rl cs' q0 t') /\ okt t' cs' /\ p_type t' = p_type t /\ p_queue t' = p_queue t ++ o /\ counted t t' o.
Proof.
  intros HO. unfold call_cb. unfold this_codec. change (p_codecs (rl cs q0 t)) with cs. change (p_index (rl cs q0 t)) with (p_index t). change (curr_node pv (rl cs q0 t)) with (curr_node pv t).
  change (p_i (rl cs q0 t)) with (p_i t). change (p_state (rl cs q0 t)) with (p_state t).
  destruct (nth_error (p_codecs t) (p_index t)) as [a|] eqn:Ea; [|discriminate]. destruct (csims_l _ _ _ _ (ok_cs _ _ HO) Ea) as (b & Eb & HS). rewrite Eb.
  destruct (cs_conv _ _ _ HS) as [(E1 & E2)|(Ej & f & g & E1 & E2 & HF)]; [rewrite E1; discriminate|]. rewrite E1, E2. destruct (curr_node pv t) as [d|]; [|discriminate].
  rewrite (cs_priv _ _ _ HS). cbv zeta. destruct (HF (e_priv a) d (p_i t) (t_data (p_state t))) as (F1 & F2 & F3 & F4 & F5). set (r := f (e_priv a) d (p_i t) (t_data (p_state t))) in *.
  intros H. injection H as <-. rewrite F1, F2, F3, F4.
  set (u := list_upd cs (p_index t) (set_priv b (cb_priv r))). exists u, (cb_out r).
  set (t2 := set_i (set_codecs t (list_upd (p_codecs t) (p_index t) (set_priv a (cb_priv r)))) (cb_i r)).
  assert (HO2 : okt t2 u).
  { destruct HO as [O1 O2 O3 O4]. constructor; try assumption. subst t2 u. cbn. split; [rewrite !upd_len; apply O2|]. intros j x y Hx Hy. rewrite nth_upd_gen in Hx, Hy.
    destruct (Nat.eqb_spec j (p_index t)) as [->|Hne]; [|exact (proj2 O2 j x y Hx Hy)]. rewrite Ea in Hx. rewrite Eb in Hy. injection Hx as <-. injection Hy as <-. destruct HS. constructor; cbn; auto. }
  destruct (app_okt u t2 (cb_out r) HO2) as (A1 & A2 & A3 & A4). split; [|split; [|split; [|split]]].
  - f_equal. change (set_i (set_codecs (rl cs q0 t) u) (cb_i r)) with (rl u q0 t2). rewrite app_rl by apply HO2. reflexivity.
  - destruct A1. constructor; assumption.
  - exact A2.
  - exact A4.
  - intros c Hc. cbn [set_state p_codecs]. rewrite A3. subst t2. cbn [set_i set_codecs p_codecs]. rewrite nth_upd_gen. rewrite <- Ej in *. rewrite Nat.eqb_refl, Ea. rewrite Ea in Hc. injection Hc as <-. eexists. split; [reflexivity|]. exact F5.
Qed.
Lemma flush_rl cs q0 t t' : okt t cs -> call_flush t = Some t' -> t' = t /\ call_flush (rl cs q0 t) = Some (rl cs q0 t).
Proof.
  intros HO. unfold call_flush, this_codec. change (p_codecs (rl cs q0 t)) with cs. change (p_index (rl cs q0 t)) with (p_index t). 
  destruct (nth_error (p_codecs t) (p_index t)) as [a|] eqn:Ea; [|discriminate]. destruct (csims_l _ _ _ _ (ok_cs _ _ HO) Ea) as (b & Eb & HS). rewrite Eb. destruct (cs_fl _ _ _ HS) as (-> & ->). intros H. injection H as <-. auto.
Qed.
Hypothesis nil_fixd : fixd [].
Definition simto (cs : list ecodec) (q0 : list datum) (pv' t t' : ephase) (r : lres P) (ie oe : nat) (g : lgoto) : Prop :=
  exists cs' o, r = LRes pv' (rl cs' q0 t') ie oe g /\ okt t' cs' /\ Forall fixd (p_queue pv') /\ p_type t' = p_type t /\ p_queue t' = p_queue t ++ o /\ counted t t' o.
Lemma simto_mk cs q0 (pv' t t' : ephase) ie oe g o : okt t' cs -> Forall fixd (p_queue pv') -> p_type t' = p_type t -> p_codecs t' = p_codecs t -> p_queue t' = p_queue t ++ o -> tags o = 0 ->
  simto cs q0 pv' t t' (LRes pv' (rl cs q0 t') ie oe g) ie oe g.
Proof. intros. exists cs, o. split; [reflexivity|]. split; [assumption|]. split; [assumption|]. split; [assumption|]. split; [assumption|]. apply counted_same; assumption. Qed.
Lemma free_fixd (pv pv' : ephase) b : listfree pv b = Some pv' -> Forall fixd (p_queue pv) -> Forall fixd (p_queue pv').
Proof.
  destruct b as [|n]; [discriminate|]. cbn. intros H HF. injection H as <-. cbn. rewrite <- (firstn_skipn n (p_queue pv)) in HF. apply Forall_app in HF. apply HF.
Qed.
Lemma app_fix cs q0 t ds : p_tail t = length (p_queue t) -> Forall fixd ds -> app_tail (rl cs q0 t) ds = rl cs q0 (app_tail t ds).
Proof. intros Ht HF. rewrite <- (app_rl cs q0 t ds Ht). rewrite fixd_map by exact HF. reflexivity. Qed.
Lemma okt_ctl cs t t' : okt t cs -> p_tail t' = p_tail t -> p_queue t' = p_queue t -> p_codecs t' = p_codecs t -> Forall fixd (p_match_data t') -> Forall fixd (t_data (p_state t')) -> okt t' cs.
Proof. intros [O1 O2 O3 O4] E1 E2 E3 H1 H2. constructor; congruence. Qed.

Lemma commit_rl cs q0 (pv t pv' t' : ephase) ds ie oe g : okt t cs -> Forall fixd (p_queue pv) -> Forall fixd ds -> data_commit pv t ds = LRes pv' t' ie oe g -> simto cs q0 pv' t t' (data_commit pv (rl cs q0 t) ds) ie oe g.
Proof.
  intros HO HQ HD. unfold data_commit. cbv zeta.
  change (set_match_data (set_flags (rl cs q0 t) false false false) []) with (rl cs q0 (set_match_data (set_flags t false false false) [])). set (t0 := set_match_data (set_flags t false false false) []).
  assert (HO0 : okt t0 cs) by (destruct HO; constructor; try assumption; constructor). rewrite app_fix by (first [apply HO0|exact HD]).
  destruct (app_okt cs t0 ds HO0) as (A1 & A2 & A3 & A4). set (t1 := app_tail t0 ds) in *. change (p_curr (rl cs q0 t1)) with (p_curr t1).
  destruct (listfree pv (S (p_curr t1))) as [pv1|] eqn:EF; cbn [obind ub_or]; [|discriminate].
  change (set_curr (set_bak (rl cs q0 t1) 0) 0) with (rl cs q0 (set_curr (set_bak t1 0) 0)). assert (HO1 : okt (set_curr (set_bak t1 0) 0) cs) by (destruct A1; constructor; assumption).
  rewrite reset_rl by apply HO1. destruct (reset (set_curr (set_bak t1 0) 0)) as [t3|] eqn:ER; cbn [obind option_map ub_or]; [|discriminate]. intros H. injection H as <- <- <- <- <-.
  destruct (reset_okt _ _ _ HO1 ER) as (R1 & R2 & R3 & R4). apply simto_mk with ds; [exact R1|eapply free_fixd; eassumption|rewrite R2; exact A2|rewrite R3; exact A3|rewrite R4; exact A4|apply fixd_tags; exact HD].
Qed.
Lemma hold_rl cs q0 (pv t pv' t' : ephase) ie oe g : okt t cs -> Forall fixd (p_queue pv) -> data_hold pv t = LRes pv' t' ie oe g -> simto cs q0 pv' t t' (data_hold pv (rl cs q0 t)) ie oe g.
Proof.
  intros HO HQ. unfold data_hold. cbv zeta. cbn [rl p_floop].
  set (t1 := set_match_data (set_flags t true true (p_floop t)) []). match goal with |- context [listfree pv (S (p_curr ?x))] => match x with t1 => fail 1 | _ => change x with (rl cs q0 t1) end end.
  change (p_curr (rl cs q0 t1)) with (p_curr t1). destruct (listfree pv (S (p_curr t1))) as [pv1|] eqn:EF; cbn [obind ub_or]; [|discriminate].
  match goal with |- context [reset ?x] => match x with set_curr (set_bak t1 0) 0 => fail 1 | _ => change x with (rl cs q0 (set_curr (set_bak t1 0) 0)) end end.
  assert (HO1 : okt (set_curr (set_bak t1 0) 0) cs) by (destruct HO; constructor; try assumption; constructor).
  rewrite reset_rl by apply HO1. destruct (reset (set_curr (set_bak t1 0) 0)) as [t3|] eqn:ER; cbn [obind option_map ub_or]; [|discriminate]. intros H. injection H as <- <- <- <- <-.
  destruct (reset_okt _ _ _ HO1 ER) as (R1 & R2 & R3 & R4). apply simto_mk with []; [destruct R1; constructor; assumption|eapply free_fixd; eassumption|exact R2|exact R3|cbn; rewrite R4, app_nil_r; reflexivity|reflexivity].
Qed.
Lemma dead_rl cs q0 (pv t pv' t' : ephase) ie oe g : p_type t = INTER -> okt t cs -> Forall fixd (p_queue pv) -> data_dead pv t = LRes pv' t' ie oe g -> simto cs q0 pv' t t' (data_dead pv (rl cs q0 t)) ie oe g.
Proof.
  intros Hty HO HQ. unfold data_dead. cbv zeta. set (t0 := set_flags t (p_fmatch t) false false).
  assert (E0 : set_flags (rl cs q0 t) (p_fmatch (rl cs q0 t)) false false = rl cs q0 t0) by reflexivity. rewrite !E0. clear E0.
  assert (HO0 : okt t0 cs) by (destruct HO; constructor; assumption).
  change (p_fmatch (rl cs q0 t0)) with (p_fmatch t0). change (p_match_data (rl cs q0 t0)) with (p_match_data t0). change (p_bak (rl cs q0 t0)) with (p_bak t0). change (p_index (rl cs q0 t0)) with (p_index t0).
  assert (Hto : is_to P t0 = false) by (unfold is_to; cbn; rewrite Hty; reflexivity). assert (Hto' : is_to P (rl cs q0 t0) = false) by (unfold is_to; cbn; rewrite Hty; reflexivity). rewrite Hto, Hto'.
  destruct (p_fmatch t0).
  - pose proof (ok_md _ _ HO0) as HM. destruct (p_match_data t0) as [|m ms] eqn:Em.
    + destruct (call_flush t0) as [t1|] eqn:EF; cbn [obind ub_or]; [|discriminate]. destruct (flush_rl cs q0 _ _ HO0 EF) as (-> & EF'). rewrite EF'. cbn [obind].
      change (set_flags (rl cs q0 t0) false false false) with (rl cs q0 (set_flags t0 false false false)). assert (HO1 : okt (set_flags t0 false false false) cs) by (destruct HO0; constructor; assumption).
      rewrite reset_rl by apply HO1. destruct (reset (set_flags t0 false false false)) as [t3|] eqn:ER; cbn [obind option_map ub_or]; [|discriminate]. intros H. injection H as <- <- <- <- <-.
      destruct (reset_okt _ _ _ HO1 ER) as (R1 & R2 & R3 & R4). apply simto_mk with []; [exact R1|exact HQ|exact R2|exact R3|rewrite R4, app_nil_r; reflexivity|reflexivity].
    + destruct (listfree pv (p_bak t0)) as [pv1|] eqn:EF; cbn [obind ub_or]; [|discriminate]. rewrite app_fix by (first [apply HO0|exact HM]).
      destruct (app_okt cs t0 (m :: ms) HO0) as (A1 & A2 & A3 & A4). set (t1 := app_tail t0 (m :: ms)) in *.
      change (set_flags (set_curr (set_bak (rl cs q0 t1) 0) 0) false false false) with (rl cs q0 (set_flags (set_curr (set_bak t1 0) 0) false false false)).
      assert (HO1 : okt (set_flags (set_curr (set_bak t1 0) 0) false false false) cs) by (destruct A1; constructor; assumption).
      rewrite reset_rl by apply HO1. destruct (reset (set_flags (set_curr (set_bak t1 0) 0) false false false)) as [t3|] eqn:ER; cbn [obind option_map ub_or]; [|discriminate]. intros H. injection H as <- <- <- <- <-.
      destruct (reset_okt _ _ _ HO1 ER) as (R1 & R2 & R3 & R4). apply simto_mk with (m :: ms); [exact R1|eapply free_fixd; eassumption|rewrite R2; exact A2|rewrite R3; exact A3|rewrite R4; exact A4|apply fixd_tags; exact HM].
  - assert (Hcn : codecn (rl cs q0 t0) = codecn t0) by (unfold codecn; cbn; rewrite (proj1 (ok_cs _ _ HO)); reflexivity). rewrite Hcn. destruct (p_index t0 <? codecn t0).
    + change (set_index (rl cs q0 t0) (S (p_index t0))) with (rl cs q0 (set_index t0 (S (p_index t0)))). set (t1 := set_index t0 (S (p_index t0))).
      unfold this_codec. change (p_codecs (rl cs q0 t1)) with cs. change (p_index (rl cs q0 t1)) with (p_index t1).
      destruct (nth_error (p_codecs t1) (p_index t1)) as [a|] eqn:Ea; cbn [obind ub_or]; [|discriminate]. destruct (csims_l _ _ _ _ (ok_cs _ _ HO) Ea) as (b & Eb & HS). rewrite Eb. cbn [obind]. rewrite (cs_tab _ _ _ HS).
      destruct (read_state (e_tab a) 0) as [st|] eqn:Er; cbn [obind ub_or]; [|discriminate]. intros H. injection H as <- <- <- <- <-.
      match goal with |- context [LRes pv ?x 0 0 _] => change x with (rl cs q0 (set_curr (set_state t1 st) 0)) end.
      apply simto_mk with []; [|exact HQ|reflexivity|reflexivity|cbn; rewrite app_nil_r; reflexivity|reflexivity].
      destruct HO0. constructor; try assumption. cbn. pose proof (cs_data _ _ _ HS) as HD. rewrite Forall_forall in HD. apply HD. unfold read_state in Er. eapply nth_error_In. exact Er.
    + destruct (p_queue pv) as [|d q] eqn:Eq; cbn [ub_or]; [discriminate|]. inversion HQ as [|? ? Hd Hq]; subst.
      change (set_curr (set_bak (rl cs q0 t0) 0) 0) with (rl cs q0 (set_curr (set_bak t0 0) 0)). assert (HO1 : okt (set_curr (set_bak t0 0) 0) cs) by (destruct HO0; constructor; assumption).
      assert (HF1 : Forall fixd [d]) by (constructor; [exact Hd|constructor]).
      rewrite app_fix by (first [apply HO1|exact HF1]).
      destruct (app_okt cs _ [d] HO1) as (A1 & A2 & A3 & A4). set (t1 := app_tail (set_curr (set_bak t0 0) 0) [d]) in *.
      rewrite reset_rl by apply A1. destruct (reset t1) as [t3|] eqn:ER; cbn [obind option_map ub_or]; [|discriminate]. intros H. injection H as <- <- <- <- <-.
      destruct (reset_okt _ _ _ A1 ER) as (R1 & R2 & R3 & R4). apply simto_mk with [d]; [exact R1|exact Hq|rewrite R2; exact A2|rewrite R3; exact A3|rewrite R4; exact A4|apply fixd_tags; exact HF1].
Qed.
Lemma step_rl cs q0 (pv t pv' t' : ephase) pc ie oe g : p_type t = INTER -> okt t cs -> Forall fixd (p_queue pv) -> local_step pv t pc = LRes pv' t' ie oe g -> simto cs q0 pv' t t' (local_step pv (rl cs q0 t) pc) ie oe g.
Proof.
  intros Hty HO HQ. unfold local_step. change (p_type (rl cs q0 t)) with (p_type t). rewrite Hty.
  assert (Hsame : forall t1, okt t1 cs -> p_type t1 = p_type t -> p_codecs t1 = p_codecs t -> p_queue t1 = p_queue t -> forall x y z w, Forall fixd (p_queue x) -> simto cs q0 x t t1 (LRes x (rl cs q0 t1) y z w) y z w).
  { intros t1 K1 K2 K3 K4 x y z w K5. apply simto_mk with []; try assumption; [rewrite K4, app_nil_r; reflexivity|reflexivity]. }
  destruct pc; cbn [data_step].
  - change (p_curr (rl cs q0 t)) with (p_curr t). destruct (p_curr t <? length (p_queue pv)); [|intros H; injection H as <- <- <- <- <-; apply Hsame; auto].
    set (t2 := set_i (set_state (set_curr t (S (p_curr t))) (with_status (p_state (set_curr t (S (p_curr t)))) NOMATCH)) 0).
    match goal with |- context [curr_node pv ?x] => match x with t2 => fail 1 | _ => change x with (rl cs q0 t2) end end.
    change (curr_node pv (rl cs q0 t2)) with (curr_node pv t2). destruct (curr_node pv t2) as [d|]; [|discriminate].
    unfold this_codec. change (p_codecs (rl cs q0 t2)) with cs. change (p_index (rl cs q0 t2)) with (p_index t2).
    destruct (nth_error (p_codecs t2) (p_index t2)) as [a|] eqn:Ea; [|discriminate]. destruct (csims_l _ _ _ _ (ok_cs _ _ HO) Ea) as (b & Eb & HS). rewrite Eb.
    assert (HO2 : okt t2 cs) by (destruct HO; constructor; assumption).
    rewrite (loop_rl cs q0 a b (cs_tab _ _ _ HS)). destruct (bytes_loop a t2 d) as [[t3 e]|] eqn:EL; cbn [option_map fst snd]; [|discriminate].
    destruct (loop_okt cs _ a b HS _ _ _ _ HO2 EL) as (L1 & L2 & L3 & L4). destruct e; intros H; injection H as <- <- <- <- <-; apply Hsame; auto.
  - discriminate.
  - change (p_state (rl cs q0 t)) with (p_state t). destruct (t_status (p_state t)).
    + intros H; injection H as <- <- <- <- <-. change (is_to P (rl cs q0 t)) with (is_to P t). 
      change (set_flags (rl cs q0 t) (p_fmatch (rl cs q0 t)) true (if is_to P t then false else p_floop (rl cs q0 t))) with (rl cs q0 (set_flags t (p_fmatch t) true (if is_to P t then false else p_floop t))). apply Hsame; auto. destruct HO; constructor; assumption.
    + intros H; injection H as <- <- <- <- <-. apply Hsame; auto.
    + apply commit_rl; auto. apply HO.
    + cbv zeta. set (t1 := set_match_data (set_flags t true true (p_floop t)) (t_data (p_state t))).
      assert (E1 : set_match_data (set_flags (rl cs q0 t) true true (p_floop (rl cs q0 t))) (t_data (p_state t)) = rl cs q0 t1) by reflexivity. rewrite !E1. clear E1.
      assert (HO1 : okt t1 cs) by (destruct HO; constructor; assumption). change (p_curr (rl cs q0 t1)) with (p_curr t1).
      destruct (p_curr t1 <? length (p_queue pv)); intros H; injection H as <- <- <- <- <-.
      * change (set_bak (rl cs q0 t1) (S (p_curr t1))) with (rl cs q0 (set_bak t1 (S (p_curr t1)))). apply Hsame; auto. destruct HO1; constructor; assumption.
      * change (set_bak (rl cs q0 t1) (S (p_tail pv))) with (rl cs q0 (set_bak t1 (S (p_tail pv)))). apply Hsame; auto; [destruct HO1; constructor; assumption|]. cbn. apply Forall_app. split; [|constructor; [exact nil_fixd|constructor]].
        rewrite <- (firstn_skipn (p_tail pv) (p_queue pv)) in HQ. apply Forall_app in HQ. apply HQ.
    + destruct (call_cb pv t) as [t1|] eqn:EC; [|discriminate]. destruct (cb_rl cs q0 pv t t1 HO EC) as (cs' & o & C1 & C2 & C3 & C4 & C5). rewrite C1. intros H; injection H as <- <- <- <- <-. exists cs', o. auto 10.
    + destruct (call_cb pv t) as [t1|] eqn:EC; [|discriminate]. destruct (cb_rl cs q0 pv t t1 HO EC) as (cs' & o & C1 & C2 & C3 & C4 & C5). rewrite C1. intros H; injection H as <- <- <- <- <-. exists cs', o. auto 10.
    + apply commit_rl; auto.
    + change (is_to P (rl cs q0 t)) with (is_to P t). destruct (is_to P t); intros H; injection H as <- <- <- <- <-; apply Hsame; auto.
    + apply hold_rl; auto.
  - apply dead_rl; assumption.
  - unfold this_codec. change (p_codecs (rl cs q0 t)) with cs. change (p_index (rl cs q0 t)) with (p_index t).
    destruct (nth_error (p_codecs t) (p_index t)) as [a|] eqn:Ea; [|discriminate]. destruct (csims_l _ _ _ _ (ok_cs _ _ HO) Ea) as (b & Eb & HS). rewrite Eb.
    rewrite (feed_rl cs q0 a b t 256%N (cs_tab _ _ _ HS)). destruct (feed a t 256%N) as [t1|] eqn:EF; cbn [option_map]; [|discriminate]. destruct (feed_okt cs _ a b t _ t1 HS HO EF) as (F1 & F2 & F3 & F4).
    change (p_state (rl cs q0 t1)) with (p_state t1). destruct (t_status (p_state t1)); intros H; injection H as <- <- <- <- <-; apply Hsame; auto.
Qed.
Lemma steps_rl (pv t : ephase) pc pv' t' ie oe g : lsteps pv t pc pv' t' ie oe g -> forall cs q0, p_type t = INTER -> okt t cs -> Forall fixd (p_queue pv) ->
  exists cs' o, lsteps pv (rl cs q0 t) pc pv' (rl cs' q0 t') ie oe g /\ okt t' cs' /\ Forall fixd (p_queue pv') /\ p_queue t' = p_queue t ++ o /\ counted t t' o.
Proof.
  induction 1 as [pv t pc pv' t' ie oe g H|pv t pc pv1 t1 ie1 oe1 pc1 pv' t' ie oe g H _ IH]; intros cs q0 Hty HO HQ.
  - destruct (step_rl cs q0 _ _ _ _ _ _ _ _ Hty HO HQ H) as (cs' & o & S1 & S2 & S3 & S4 & S5 & S6). exists cs', o. split; [apply ls_one; exact S1|auto].
  - destruct (step_rl cs q0 _ _ _ _ _ _ _ _ Hty HO HQ H) as (cs1 & o1 & S1 & S2 & S3 & S4 & S5 & S6). destruct (IH cs1 q0 ltac:(congruence) S2 S3) as (cs' & o & I1 & I2 & I3 & I4 & I5).
    exists cs', (o1 ++ o). split; [eapply ls_more; eassumption|]. split; [exact I2|]. split; [exact I3|]. split; [rewrite I4, S5, app_assoc; reflexivity|]. eapply counted_trans; eassumption.
Qed.

(** ** The phase in the relational account of P_Flow *)
Variable ks : list (codec_spec (P:=P)).
Hypothesis ks_eof : forall j k, nth_error ks j = Some k -> eof_clean k.
Definition vis (l : list datum) : list datum := filter nonempty (map er l).
Lemma vis_app a b : vis (a ++ b) = vis a ++ vis b. Proof. unfold vis. rewrite map_app, filter_app. reflexivity. Qed.
Lemma vis_ne l : vis (filter nonempty l) = vis l.
Proof using nil_fixd. unfold vis. induction l as [|[|x d] l IH]; cbn; [reflexivity| |]. { rewrite (proj1 nil_fixd). cbn. exact IH. } destruct (nonempty (er (x :: d))); rewrite IH; reflexivity. Qed.
Lemma tags_ne l : tags (filter nonempty l) = tags l.
Proof using nil_fixd. unfold tags. induction l as [|[|x d] l IH]; cbn; [reflexivity| |]. { rewrite (proj2 nil_fixd). exact IH. } f_equal. exact IH. Qed.

Definition cden (σ : P) (B : list datum) : Den (P:=P) := fun Y o e f =>
  Forall fixd (B ++ filter nonempty Y) /\ e = 0 /\ o = vis (fst (trans KInter (sems ks) (B ++ filter nonempty Y))) /\ f = Some (add σ (tags (fst (trans KInter (sems ks) (B ++ filter nonempty Y))))).
Definition cinv (fin mid : bool) (pv th : ephase) (D : Den (P:=P)) (m : list nat) : Prop :=
  exists t cs c, p_type t = INTER /\ p_queue t = [] /\ th = set_queue (rl cs [] t) (p_queue th) (p_tail th) /\ okt t cs /\ nth_error (p_codecs t) jc = Some c /\
    exists B pre, pinv fin mid pv t ks B pre /\ m = pmeasure pv t B /\ forall Y o e f, D Y o e f -> cden (e_priv c) B Y o e f.
Definition count_spec : pspec (P:=P) := mkPs INTER false false cinv (fun th f => length (p_codecs th) = length ks /\ exists c, nth_error (p_codecs th) jc = Some c /\ f = Some (e_priv c)).

Lemma rl_th cs (t : ephase) q : p_queue t = [] -> p_tail t = length (p_queue t) -> set_queue (rl cs [] t) q (length q) = rl cs q t.
Proof. intros E1 E2. unfold set_queue, rl. cbn. rewrite E2, E1. cbn. rewrite app_nil_r, Nat.add_0_r. reflexivity. Qed.
Lemma queue_fixd fin mid (pv t : ephase) B pre : pinv fin mid pv t ks B pre -> p_type t = INTER -> Forall fixd B -> Forall fixd (p_queue pv).
Proof using nil_fixd.
  intros [_ _ _ _ _ _ _ Hpos] Hty HF. rewrite Hty in Hpos. destruct Hpos as (_ & _ & ->). revert HF. induction (p_queue pv) as [|[|x d] q IH]; cbn; intros H; [constructor| |].
  - constructor; [exact nil_fixd|auto].
  - inversion H; subst. constructor; auto.
Qed.
Lemma inv_B fin mid (pv t : ephase) B pre : pinv fin mid pv t ks B pre -> p_type t = INTER -> B = filter nonempty (p_queue pv).
Proof. intros [_ _ _ _ _ _ _ Hpos] Hty. rewrite Hty in Hpos. apply Hpos. Qed.
Lemma ach_count fin (pv t : ephase) cs c q tl (D : Den (P:=P)) m pc B : p_type t = INTER -> p_queue t = [] -> okt t cs -> nth_error (p_codecs t) jc = Some c -> tl = length q ->
  m = pmeasure pv t B -> (forall Y o e f, D Y o e f -> cden (e_priv c) B Y o e f) -> live fin D -> Forall fixd (p_queue pv) -> achieves fin pv t ks B pc -> ach count_spec fin pv (set_queue (rl cs [] t) q tl) D m pc.
Proof.
  intros Hty Hq0 HO Hc -> Hm HD (Y0 & o0 & e0 & f0 & Ha0 & HD0) HQ (pv' & t' & ie & oe & g & Hls & Hctl & Hst & out0 & out & e & B' & pre' & mid' & A1 & A1b & A2 & A3 & A4 & A5 & A6 & A7 & A8).
  rewrite rl_th by (first [exact Hq0|apply HO]). rewrite Hty in *. cbn [kind_of err_of] in A5. injection A5 as -> ->.
  destruct (steps_rl _ _ _ _ _ _ _ _ Hls cs q Hty HO HQ) as (cs' & o & R1 & R2 & R3 & R4 & R5). rewrite Hq0 in A1, R4. cbn [app] in A1, R4. subst m. assert (Ho : o = out0) by congruence. clear R4. subst o.
  destruct (R5 c Hc) as (c' & Hc' & Hp').
  assert (Hty' : p_type t' = INTER) by (destruct Hst as (H & _); congruence).
  exists pv', (rl cs' q t'), 0, g. split; [exact R1|]. split; [exact Hctl|]. split.
  { destruct Hst as (H1 & H2 & H3). split; [exact H1|]. split; [exact H2|]. cbn. destruct (ok_cs _ _ HO) as (L1 & _). destruct (ok_cs _ _ R2) as (L2 & _). lia. }
  exists (map er out0), (cden (e_priv c') B'), (pmeasure pv' t' B'), mid'.
  split; [cbn; rewrite Hq0, A1, app_nil_r; reflexivity|]. split; [cbn; rewrite app_length, map_length, A2; reflexivity|]. split; [discriminate|]. split; [|split; [|split]].
  - exists (set_queue t' [] 0), cs', c'. split; [exact Hty'|]. split; [reflexivity|]. split; [reflexivity|]. split; [destruct R2; constructor; auto|]. split; [exact Hc'|]. exists B', pre'.
    split; [eapply pinv_same_ctl; [exact A3|reflexivity]|]. split; [reflexivity|auto].
  - intros Y o e2 f HY HDY. destruct (HD _ _ _ _ HDY) as (D1 & -> & -> & ->). exists (vis (fst (trans KInter (sems ks) (B' ++ filter nonempty Y)))), 0.
    assert (HYf : alw fin (filter nonempty Y)) by (intros Ef; rewrite (HY Ef); reflexivity).
    pose proof (A4 _ HYf) as A4Y. cbn [kind_of] in A4Y. rewrite A4Y. cbn [fst]. split; [|split; [|reflexivity]].
    + split; [|split; [reflexivity|split; [reflexivity|]]].
      * apply Forall_app. split; [|apply Forall_app in D1; apply D1]. rewrite (inv_B _ _ _ _ _ _ A3 Hty'). apply Forall_forall. intros d Hd. apply filter_In in Hd. rewrite Forall_forall in R3. apply R3. apply Hd.
      * rewrite Hp', add_add, tags_app. do 2 f_equal. rewrite <- (tags_ne out), <- A1b, tags_ne. reflexivity.
    + rewrite vis_app. f_equal. change (vis out = vis out0). rewrite <- (vis_ne out), <- A1b, vis_ne. reflexivity.
  - exact A6.
  - exact A8.
Qed.
Theorem count_ok : pspec_ok count_spec.
Proof.
  constructor; cbn [count_spec s_type s_cin s_cout s_inv s_fin].
  - intros fin mid pv th D m (t & cs & c & Hty & Hq & Eth & HO & Hc & B & pre & HI & -> & HD). rewrite Eth. split; [exact Hty|]. split; [apply HI|reflexivity].
  - intros fin pv th D m (t & cs & c & Hty & Hq & Eth & HO & Hc & B & pre & HI & Hm & HD) Ht HL Hlt. rewrite Eth. eapply ach_count; eauto.
    + eapply queue_fixd; [exact HI|exact Hty|]. destruct HL as (Y & o & e & f & _ & HDY). destruct (HD _ _ _ _ HDY) as (F & _). apply Forall_app in F. apply F.
    + eapply local_outer; [apply HO|exact HI|]. rewrite Eth in Hlt. exact Hlt.
  - discriminate.
  - intros fin mid pv th D m (t & cs & c & Hty & Hq & Eth & HO & Hc & B & pre & HI & Hm & HD) Hle. assert (Ety : p_type th = INTER) by (rewrite Eth; exact Hty). unfold local_step. rewrite Ety. cbn [data_step]. rewrite (proj2 (Nat.ltb_ge _ _) Hle). reflexivity.
  - intros fin pv th D m (t & cs & c & Hty & Hq & Eth & HO & Hc & B & pre & HI & Hm & HD) Ht Hle Hpend (o & e & f & HD0).
    assert (Hle' : length (p_queue pv) <= p_curr t) by (rewrite Eth in Hle; exact Hle). assert (Hp' : p_fpending t = true) by (rewrite Eth in Hpend; exact Hpend).
    destruct (eof_dead false fin pv t ks B pre HI Hle' Hp') as [HDI|(Hx & _)]; [| |discriminate].
    { intros j k Hk. left. eapply ks_eof. exact Hk. }
    destruct (dead_progressE false true pv t ks B (ok_full _ _ HO) HDI) as [HA|(Hx & _)]; [|  |discriminate].
    { right. intros Hf. congruence. }
    rewrite Eth. eapply ach_count; eauto.
    + exists [], o, e, f. split; [intros _; reflexivity|exact HD0].
    + eapply queue_fixd; [exact HI|exact Hty|]. destruct (HD _ _ _ _ HD0) as (F & _). apply Forall_app in F. apply F.
    + apply ach3_ach. exact HA.
  - intros fin pv th D m o e f (t & cs & c & Hty & Hq & Eth & HO & Hc & B & pre & HI & Hm & HD) Hle Hpend HD0. destruct (HD _ _ _ _ HD0) as (_ & -> & -> & ->).
    assert (Hle' : length (p_queue pv) <= p_curr t) by (rewrite Eth in Hle; exact Hle). assert (Hp' : p_fpending t = false) by (rewrite Eth in Hpend; exact Hpend).
    assert (HB : B = []).
    { rewrite (idle_all _ _ _ _ _ _ HI Hle'). destruct HI as [_ _ _ _ _ Hpe _ _]. rewrite Hp' in Hpe. destruct pre; [reflexivity|discriminate]. }
    rewrite HB. cbn [filter app]. rewrite trans_nil. cbn. split; [reflexivity|]. split; [reflexivity|]. destruct (csims_l _ _ _ _ (ok_cs _ _ HO) Hc) as (b & Eb & HS). split.
    { rewrite Eth. change (p_codecs (set_queue (rl cs [] t) (p_queue th) (p_tail th))) with cs. destruct (ok_cs _ _ HO) as (L1 & _). rewrite <- L1. destruct HI as [_ HF2 _ _ _ _ _ _]. clear - HF2. induction HF2; cbn; congruence. }
    exists b. rewrite Eth. split; [exact Eb|]. rewrite add_0, (cs_priv _ _ _ HS). reflexivity.
  - intros mid pv pv' th D m ds (t & cs & c & Hty & Hq & Eth & HO & Hc & B & pre & HI & Hm & HD) Hq' Ht' _ _. eexists. exists t, cs, c. repeat (split; [assumption|]).
    exists (B ++ filter nonempty ds), pre. split; [|split; [reflexivity|]].
    + replace (filter nonempty ds) with (inj (kind_of (p_type t)) ds) by (rewrite Hty; reflexivity). eapply pinv_append; eauto; [intros Hf; congruence|]. intros Ef. discriminate.
    + intros Y o e f HDY. unfold fed in HDY. destruct (HD _ _ _ _ HDY) as (F1 & F2 & F3 & F4).
      assert (EY : filter nonempty (filter nonempty ds ++ Y) = filter nonempty ds ++ filter nonempty Y).
      { rewrite filter_app. f_equal. clear. induction ds as [|[|x d] ds IH]; cbn; [reflexivity|exact IH|]. f_equal. exact IH. }
      rewrite EY in *. unfold cden. rewrite <- app_assoc. auto.
  - intros fin mid pv th th' D m (t & cs & c & Hty & Hq & Eth & HO & Hc & B & pre & HI & Hm & HD) Hct. exists t, cs, c. split; [exact Hty|]. split; [exact Hq|]. split.
    { unfold same_ctl in Hct. rewrite Hct, Eth. reflexivity. }
    split; [exact HO|]. split; [exact Hc|]. exists B, pre. auto.
  - intros fin pv th D m (t & cs & c & Hty & Hq & Eth & HO & Hc & B & pre & HI & Hm & HD). exists t, cs, c. repeat (split; [assumption|]). exists B, pre. split; [apply pinv_mid; exact HI|auto].
  - intros mid pv th D m (t & cs & c & Hty & Hq & Eth & HO & Hc & B & pre & HI & Hm & HD). exists t, cs, c. repeat (split; [assumption|]). exists B, pre. split; [apply pinv_fin; exact HI|auto].
  - intros th th' f (HL & c & Hc & ->) Hct. unfold same_ctl in Hct. rewrite Hct. split; [exact HL|]. exists c. split; [exact Hc|reflexivity].
Qed.
End E.

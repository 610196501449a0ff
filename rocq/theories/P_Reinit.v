(** After bsdconv_init nothing of the past matters: the fields it does not reset (i, bak) are not read
    before they are written. *)
From Verif Require Import Base Types M_Engine M_Output S_Session P_Output P_Output2 P_Output3 P_Session2 P_Output4.

Section E.
Context {P : Type}.
Notation ephase := (ephase P). Notation inst := (inst P).

Definition md (i b : nat) (t : ephase) : ephase := set_bak P (set_i P t i) b.
(** equal up to [i] (unless [im]) and [bak] (unless a match is recorded) *)
Definition sim (im : bool) (t t' : ephase) : Prop :=
  exists i b, t' = md i b t /\ (im = true -> i = p_i P t) /\ (p_fmatch P t = true -> b = p_bak P t).
Definition im_of (g : lgoto) : bool := match g with Stay LInner | Stay LX => true | _ => false end.
Definition simres (r r' : lres P) : Prop :=
  match r, r' with
  | LRes _ pv t ie oe g, LRes _ pv' t' ie' oe' g' => ie = ie' /\ oe = oe' /\ g = g' /\ pv = pv' /\ sim (im_of g) t t'
  | LUB _, LUB _ => True
  | _, _ => False
  end.

Lemma sim_refl im t : sim im t t.
Proof. exists (p_i P t), (p_bak P t). split; [destruct t; reflexivity|auto]. Qed.
Lemma sim_weak t t' im : sim im t t' -> sim false t t'.
Proof. intros (i & b & H1 & H2 & H3). exists i, b. repeat split; auto. discriminate. Qed.

Lemma feed_md c t v i b : feed P c (md i b t) v = option_map (md i b) (feed P c t v).
Proof. unfold feed. cbn. destruct (get_offset _ _); [|reflexivity]. destruct (read_state _ _); reflexivity. Qed.
Lemma reset_md t i b : reset P (md i b t) = option_map (md i b) (reset P t).
Proof. unfold reset. change (p_codecs P (md i b t)) with (p_codecs P t). destruct (p_codecs P t) as [|c cs]; [reflexivity|]. destruct (read_state (e_tab P c) 0); reflexivity. Qed.
Lemma app_tail_md t ds i b : app_tail P (md i b t) ds = md i b (app_tail P t ds).
Proof. destruct ds; reflexivity. Qed.
Lemma listfree_md t n i b : listfree P (md i b t) n = option_map (md i b) (listfree P t n).
Proof. destruct n; reflexivity. Qed.
Lemma flush_md t i b : call_flush P (md i b t) = option_map (md i b) (call_flush P t).
Proof.
  unfold call_flush. change (this_codec P (md i b t)) with (this_codec P t). destruct (this_codec P t) as [c|]; [|reflexivity]. destruct (e_flush P c) as [f|]; [|reflexivity].
  destruct (f (e_priv P c)) as [p out]. cbn [option_map]. f_equal. rewrite <- app_tail_md. reflexivity.
Qed.
Lemma cb_md pv t i b : i = p_i P t -> call_cb P pv (md i b t) = option_map (fun t' => md (p_i P t') b t') (call_cb P pv t).
Proof.
  intros ->. unfold call_cb. change (this_codec P (md (p_i P t) b t)) with (this_codec P t). change (curr_node P pv (md (p_i P t) b t)) with (curr_node P pv t).
  destruct (this_codec P t) as [c|]; [|reflexivity]. destruct (e_conv P c) as [f|]; [|reflexivity]. destruct (curr_node P pv t) as [d|]; [|reflexivity].
  change (p_i P (md (p_i P t) b t)) with (p_i P t). change (p_state P (md (p_i P t) b t)) with (p_state P t). cbn [option_map]. f_equal. destruct (cb_out P (f (e_priv P c) d (p_i P t) (t_data (p_state P t)))); reflexivity.
Qed.

Ltac fields := cbn [md set_bak set_i set_curr set_flags set_match_data set_headlen set_state set_index set_codecs set_queue set_offset
  p_type p_codecs p_index p_curr p_i p_bak p_headlen p_match_data p_state p_offset p_fmatch p_fpending p_floop p_queue p_tail].

Lemma feed_keep c t v t' : feed P c t v = Some t' -> p_i P t' = p_i P t /\ p_bak P t' = p_bak P t /\ p_fmatch P t' = p_fmatch P t.
Proof. unfold feed. destruct (get_offset _ _); [|discriminate]. destruct (read_state _ _); [|discriminate]. intros E. injection E as <-. auto. Qed.
Lemma reset_keep t t' : reset P t = Some t' -> p_i P t' = p_i P t /\ p_bak P t' = p_bak P t /\ p_fmatch P t' = p_fmatch P t.
Proof. unfold reset. destruct (p_codecs P t); [discriminate|]. destruct (read_state _ _); [|discriminate]. intros E. injection E as <-. auto. Qed.
Lemma cb_keep pv t t' : call_cb P pv t = Some t' -> p_bak P t' = p_bak P t /\ p_fmatch P t' = p_fmatch P t.
Proof.
  unfold call_cb. destruct (this_codec P t) as [c|]; [|discriminate]. destruct (e_conv P c) as [f|]; [|discriminate]. destruct (curr_node P pv t); [|discriminate].
  intros E. injection E as <-. destruct (cb_out P _); auto.
Qed.
Lemma bl_md c b : forall bs t i, i = p_i P t ->
  bytes_loop P c (md i b t) bs = option_map (fun r => (md (p_i P (fst r)) b (fst r), snd r)) (bytes_loop P c t bs).
Proof.
  induction bs as [|x bs IH]; intros t i ->; [reflexivity|]. cbn [bytes_loop]. rewrite feed_md. destruct (feed P c t x) as [t1|] eqn:E; cbn [option_map]; [|reflexivity].
  destruct (feed_keep _ _ _ _ E) as (E1 & _). rewrite <- E1. change (p_state P (md (p_i P t1) b t1)) with (p_state P t1).
  destruct (t_status (p_state P t1)); try reflexivity;
    match goal with |- context [bytes_loop P c ?x bs] => match x with context [md] => fail 1 | _ => replace x with (md (p_i P x) b x) by reflexivity end | _ => idtac end;
    match goal with |- bytes_loop P c ?l bs = option_map _ (bytes_loop P c ?r bs) => change l with (md (p_i P r) b r); apply IH; reflexivity end.
Qed.
Lemma bl_keep c : forall bs t t' x, bytes_loop P c t bs = Some (t', x) -> p_bak P t' = p_bak P t /\ p_fmatch P t' = p_fmatch P t.
Proof.
  induction bs as [|y bs IH]; intros t t' x; cbn; [intros E; injection E as <- <-; auto|].
  destruct (feed P c t y) as [t1|] eqn:E; [|discriminate]. destruct (feed_keep _ _ _ _ E) as (_ & E1 & E2).
  destruct (t_status (p_state P t1)); try (intros H; destruct (IH _ _ _ H) as (A & B); cbn in A, B; split; congruence). intros H. injection H as <- <-. auto.
Qed.

Lemma sim_mk im t i b : (im = true -> i = p_i P t) -> (p_fmatch P t = true -> b = p_bak P t) -> sim im t (md i b t).
Proof. intros H1 H2. exists i, b. auto. Qed.
Lemma sim_false t i b : p_fmatch P t = false -> sim false t (md i b t).
Proof. intros H. apply sim_mk; congruence. Qed.

Lemma app_tail_fields t ds : p_fmatch P (app_tail P t ds) = p_fmatch P t /\ p_i P (app_tail P t ds) = p_i P t /\ p_bak P (app_tail P t ds) = p_bak P t /\ p_curr P (app_tail P t ds) = p_curr P t.
Proof. destruct ds; auto. Qed.

Lemma sim_reset im t t' : sim im t t' -> match reset P t, reset P t' with Some r, Some r' => sim im r r' | None, None => True | _, _ => False end.
Proof.
  intros (i & b & -> & H1 & H2). rewrite reset_md. destruct (reset P t) as [r|] eqn:E; cbn; [|exact I]. destruct (reset_keep _ _ E) as (E1 & E2 & E3).
  apply sim_mk; rewrite ?E1, ?E2, ?E3; auto.
Qed.
Lemma sim_app im t t' ds : sim im t t' -> sim im (app_tail P t ds) (app_tail P t' ds).
Proof. intros (i & b & -> & H1 & H2). rewrite app_tail_md. destruct (app_tail_fields t ds) as (A & B & C & D). apply sim_mk; rewrite ?A, ?B, ?C; auto. Qed.

Ltac dsim H := let i := fresh "i" in let b := fresh "b" in let H1 := fresh "Hi" in let H2 := fresh "Hb" in destruct H as (i & b & -> & H1 & H2).

Lemma from_commit_sim pv t t' ds : sim true t t' -> simres (from_commit P pv t ds) (from_commit P pv t' ds).
Proof.
  intros H. unfold from_commit. cbv zeta. set (u := set_match_data P (set_flags P t false false false) []). set (u' := set_match_data P (set_flags P t' false false false) []).
  assert (Hu : sim true u u') by (dsim H; apply (sim_mk true u i b); [exact Hi|discriminate]).
  pose proof (sim_app true u u' ds Hu) as Ha. clearbody u u'. set (a := app_tail P u ds) in *. set (a' := app_tail P u' ds) in *. clearbody a a'. dsim Ha.
  change (p_curr P (md i b a)) with (p_curr P a). destruct (listfree P pv (p_curr P a)) as [pv'|]; cbn [obind ub_or]; [|exact I].
  assert (Hr : sim true (set_headlen P (set_curr P (set_bak P a 0) 0) (S (p_i P a))) (set_headlen P (set_curr P (set_bak P (md i b a) 0) 0) (S (p_i P (md i b a))))).
  { rewrite (Hi eq_refl). apply (sim_mk true (set_headlen P (set_curr P (set_bak P a 0) 0) (S (p_i P a))) (p_i P a) 0); auto. }
  apply sim_reset in Hr. destruct (reset P _) as [r|]; destruct (reset P _) as [r'|]; try contradiction; cbn; auto. repeat split; auto. apply sim_weak with true. exact Hr.
Qed.
Lemma data_commit_sim pv t t' ds : sim false t t' -> simres (data_commit P pv t ds) (data_commit P pv t' ds).
Proof.
  intros H. unfold data_commit. cbv zeta. set (u := set_match_data P (set_flags P t false false false) []). set (u' := set_match_data P (set_flags P t' false false false) []).
  assert (Hu : sim false u u') by (dsim H; apply (sim_mk false u i b); [exact Hi|discriminate]).
  pose proof (sim_app false u u' ds Hu) as Ha. clearbody u u'. set (a := app_tail P u ds) in *. set (a' := app_tail P u' ds) in *. clearbody a a'. dsim Ha.
  change (p_curr P (md i b a)) with (p_curr P a). destruct (listfree P pv (S (p_curr P a))) as [pv'|]; cbn [obind ub_or]; [|exact I].
  assert (Hr : sim false (set_curr P (set_bak P a 0) 0) (set_curr P (set_bak P (md i b a) 0) 0)) by (apply (sim_mk false (set_curr P (set_bak P a 0) 0) i 0); auto; discriminate).
  apply sim_reset in Hr. destruct (reset P _) as [r|]; destruct (reset P _) as [r'|]; try contradiction; cbn; auto.
Qed.

Lemma data_hold_sim pv t t' : sim false t t' -> simres (data_hold P pv t) (data_hold P pv t').
Proof.
  intros H. unfold data_hold. cbv zeta. dsim H. change (p_curr P (set_match_data P (set_flags P (md i b t) true true (p_floop P (md i b t))) [])) with (p_curr P t).
  change (p_curr P (set_match_data P (set_flags P t true true (p_floop P t)) [])) with (p_curr P t). destruct (listfree P pv (S (p_curr P t))) as [pv'|]; cbn [obind ub_or]; [|exact I].
  match goal with |- context [reset P ?x] => match goal with |- context [reset P ?y] => tryif constr_eq x y then fail else assert (Hr : sim false x y) end end.
  { match goal with |- sim false ?x ?y => change y with (md i 0 x); apply sim_mk; [discriminate|reflexivity] end. }
  apply sim_reset in Hr. destruct (reset P _) as [r|]; destruct (reset P _) as [r'|]; try contradiction; cbn [obind ub_or simres]; [|exact I].
  repeat split; auto. dsim Hr. match goal with |- sim _ ?x ?y => change y with (md i0 b0 x) end. apply sim_mk; assumption.
Qed.

Lemma sim_flush t t' : sim false t t' -> match call_flush P t, call_flush P t' with Some r, Some r' => sim false (set_flags P r false false false) (set_flags P r' false false false) | None, None => True | _, _ => False end.
Proof.
  intros H. dsim H. rewrite flush_md. destruct (call_flush P t) as [r|]; cbn [option_map]; [|exact I].
  apply (sim_mk false (set_flags P r false false false) i b); discriminate.
Qed.

Lemma from_dead_sim pv t t' : sim false t t' -> simres (from_dead P pv t) (from_dead P pv t').
Proof.
  intros H. unfold from_dead. cbv zeta. 
  assert (Hu : sim false (set_flags P t (p_fmatch P t) false false) (set_flags P t' (p_fmatch P t') false false)).
  { dsim H. change (p_fmatch P (md i b t)) with (p_fmatch P t). apply (sim_mk false (set_flags P t (p_fmatch P t) false false) i b); [discriminate|exact Hb]. }
  set (u := set_flags P t _ _ _) in *. set (u' := set_flags P t' _ _ _) in *. clearbody u u'. clear H t t'.
  pose proof Hu as Hu0. dsim Hu. change (p_fmatch P (md i b u)) with (p_fmatch P u). destruct (p_fmatch P u) eqn:Ef.
  - change (p_match_data P (md i b u)) with (p_match_data P u). destruct (p_match_data P u) as [|m ms].
    + pose proof (sim_flush _ _ Hu0) as HF. destruct (call_flush P u) as [r|]; destruct (call_flush P (md i b u)) as [r'|]; try contradiction; cbn [obind ub_or]; [|exact I].
      apply sim_reset in HF. destruct (reset P _); destruct (reset P _); try contradiction; cbn; auto.
    + change (p_bak P (md i b u)) with b. rewrite (Hb eq_refl). destruct (listfree P pv (p_bak P u)) as [pv'|]; cbn [obind ub_or]; [|exact I].
      rewrite app_tail_md. set (a := app_tail P u (m :: ms)).
      assert (Hr : sim false (set_flags P (set_i P (set_curr P (set_bak P a 0) 0) (p_headlen P a)) false false false)
                             (set_flags P (set_i P (set_curr P (set_bak P (md i (p_bak P u) a) 0) 0) (p_headlen P (md i (p_bak P u) a))) false false false)) by apply sim_refl.
      clear Hr. match goal with |- simres (ub_or P (obind ?x _)) (ub_or P (obind ?y _)) => change y with x; destruct x end; cbn; auto. repeat split; auto. apply sim_refl.
  - change (p_index P (md i b u)) with (p_index P u). change (codecn P (md i b u)) with (codecn P u). destruct (p_index P u <? codecn P u).
    + change (this_codec P (set_index P (md i b u) (S (p_index P u)))) with (this_codec P (set_index P u (S (p_index P u)))).
      destruct (this_codec P _) as [c|]; cbn [obind ub_or]; [|exact I]. destruct (read_state (e_tab P c) 0) as [st|]; cbn [obind ub_or]; [|exact I].
      cbn [simres im_of]. repeat split; auto.
      match goal with |- sim true ?x ?y => change y with (md (p_i P x) b x); apply sim_mk; auto; intros Hf; cbn in Hf; congruence end.
    + pose proof (sim_reset false u _ Hu0) as HR. destruct (reset P u) as [r|] eqn:Er; destruct (reset P (md i b u)) as [r'|]; try contradiction; cbn [obind ub_or]; [|exact I].
      destruct HR as (i2 & b2 & -> & _ & H2). change (p_curr P (md i2 b2 r)) with (p_curr P r). destruct (listfree P pv (p_curr P r)) as [pv'|]; cbn [obind ub_or]; [|exact I].
      cbn [simres im_of]. repeat split; auto. apply sim_refl.
Qed.

Lemma data_dead_sim pv t t' : sim false t t' -> simres (data_dead P pv t) (data_dead P pv t').
Proof.
  intros H. unfold data_dead. cbv zeta. 
  assert (Hu : sim false (set_flags P t (p_fmatch P t) false false) (set_flags P t' (p_fmatch P t') false false)).
  { dsim H. change (p_fmatch P (md i b t)) with (p_fmatch P t). apply (sim_mk false (set_flags P t (p_fmatch P t) false false) i b); [discriminate|exact Hb]. }
  set (u := set_flags P t _ _ _) in *. set (u' := set_flags P t' _ _ _) in *. clearbody u u'. clear H t t'.
  pose proof Hu as Hu0. dsim Hu. change (p_fmatch P (md i b u)) with (p_fmatch P u). change (is_to P (md i b u)) with (is_to P u). destruct (p_fmatch P u) eqn:Ef.
  - change (p_match_data P (md i b u)) with (p_match_data P u). destruct (p_match_data P u) as [|m ms].
    + pose proof (sim_flush _ _ Hu0) as HF. destruct (call_flush P u) as [r|]; destruct (call_flush P (md i b u)) as [r'|]; try contradiction; cbn [obind ub_or]; [|exact I].
      apply sim_reset in HF. destruct (reset P _); destruct (reset P _); try contradiction; cbn; auto. destruct (is_to P u); auto.
    + change (p_bak P (md i b u)) with b. rewrite (Hb eq_refl). destruct (listfree P pv (p_bak P u)) as [pv'|]; cbn [obind ub_or]; [|exact I].
      rewrite app_tail_md. set (a := app_tail P u (m :: ms)).
      assert (Hr : sim false (set_flags P (set_curr P (set_bak P a 0) 0) false false false)
                             (set_flags P (set_curr P (set_bak P (md i (p_bak P u) a) 0) 0) false false false)).
      { apply (sim_mk false (set_flags P (set_curr P (set_bak P a 0) 0) false false false) i 0); auto; discriminate. }
      apply sim_reset in Hr. destruct (reset P _); destruct (reset P _); try contradiction; cbn; auto. destruct (is_to P u); auto.
  - change (p_index P (md i b u)) with (p_index P u). change (codecn P (md i b u)) with (codecn P u). destruct (p_index P u <? codecn P u).
    + change (this_codec P (set_index P (md i b u) (S (p_index P u)))) with (this_codec P (set_index P u (S (p_index P u)))).
      destruct (this_codec P _) as [c|]; cbn [obind ub_or]; [|exact I]. destruct (read_state (e_tab P c) 0) as [st|]; cbn [obind ub_or]; [|exact I].
      cbn [simres im_of]. repeat split; auto.
      match goal with |- sim false ?x ?y => change y with (md i b x); apply sim_mk; [discriminate|]; intros Hf; cbn in Hf; congruence end.
    + destruct (is_to P u).
      * pose proof (sim_reset false u _ Hu0) as HR. destruct (reset P u) as [r|] eqn:Er; destruct (reset P (md i b u)) as [r'|]; try contradiction; cbn [obind ub_or]; [|exact I].
        destruct HR as (i2 & b2 & -> & _ & H2). change (p_curr P (md i2 b2 r)) with (p_curr P r). destruct (listfree P pv (S (p_curr P r))) as [pv'|]; cbn [obind ub_or]; [|exact I].
        cbn [simres im_of]. repeat split; auto. apply (sim_mk false (set_curr P (set_bak P r 0) 0) i2 0); auto; discriminate.
      * destruct (p_queue P pv) as [|d q]; [exact I|].
        assert (Hr : sim false (app_tail P (set_curr P (set_bak P u 0) 0) [d]) (app_tail P (set_curr P (set_bak P (md i b u) 0) 0) [d])).
        { apply sim_app. apply (sim_mk false (set_curr P (set_bak P u 0) 0) i 0); auto; discriminate. }
        apply sim_reset in Hr. destruct (reset P _); destruct (reset P _); try contradiction; cbn; auto.
Qed.

Definition im_pc (pc : lpc) : bool := match pc with LInner | LX => true | _ => false end.

Lemma from_step_sim pv t t' pc : sim (im_pc pc) t t' -> simres (from_step P pv t pc) (from_step P pv t' pc).
Proof.
  intros H. destruct pc; cbn [from_step im_pc] in *.
  - dsim H. change (p_curr P (md i b t)) with (p_curr P t). destruct (p_curr P t <? length (p_queue P pv)).
    + change (p_headlen P (md i b t)) with (p_headlen P t). cbn [simres im_of]. repeat split; auto.
      match goal with |- sim true ?x ?y => change y with (md (p_i P x) b x); apply sim_mk; auto end.
    + cbn. repeat split; auto. apply sim_mk; auto.
  - pose proof H as H0. dsim H. rewrite (Hi eq_refl) in *. change (curr_len P pv (md (p_i P t) b t)) with (curr_len P pv t). destruct (curr_len P pv t) as [len|]; [|exact I].
    change (p_i P (md (p_i P t) b t)) with (p_i P t). destruct (p_i P t <? len).
    + change (curr_node P pv (md (p_i P t) b t)) with (curr_node P pv t). change (this_codec P (md (p_i P t) b t)) with (this_codec P t).
      destruct (curr_node P pv t) as [d|]; [|exact I]. destruct (this_codec P t) as [c|]; [|exact I]. destruct (nth_error d (p_i P t)) as [x|]; [|exact I].
      rewrite feed_md. destruct (feed P c t x) as [t1|] eqn:Ef; cbn [option_map]; [|exact I]. destruct (feed_keep _ _ _ _ Ef) as (E1 & E2 & E3).
      cbn [simres im_of]. repeat split; auto. apply sim_mk; rewrite ?E1, ?E2, ?E3; auto.
    + cbn [simres im_of]. repeat split; auto. apply sim_weak with true, H0.
  - pose proof H as H0. dsim H. rewrite (Hi eq_refl) in *. change (p_state P (md (p_i P t) b t)) with (p_state P t).
    assert (Hcb : simres (match call_cb P pv t with None => LUB P | Some th1 => LRes P pv (set_flags P th1 (p_fmatch P th1) (p_fpending P th1) true) 0 0 (Stay LX) end)
        (match call_cb P pv (md (p_i P t) b t) with None => LUB P | Some th1 => LRes P pv (set_flags P th1 (p_fmatch P th1) (p_fpending P th1) true) 0 0 (Stay LX) end)).
    { rewrite cb_md by reflexivity. destruct (call_cb P pv t) as [t1|] eqn:Ec; cbn [option_map]; [|exact I]. destruct (cb_keep _ _ _ Ec) as (E1 & E2).
      cbn [simres im_of]. repeat split; auto. match goal with |- sim true ?x ?y => change y with (md (p_i P x) b x); apply sim_mk; auto end. cbn. rewrite E1, E2. exact Hb. }
    destruct (t_status (p_state P t)); try exact Hcb; try (apply from_commit_sim; exact H0).
    + cbn [simres im_of]. repeat split; auto. match goal with |- sim true ?x ?y => change y with (md (p_i P x) b x); apply sim_mk; auto end.
    + cbn [simres im_of]. repeat split; auto. apply sim_weak with true, H0.
    + cbn [simres im_of]. repeat split; auto. match goal with |- sim true ?x ?y => change y with (md (p_i P x) (p_bak P x) x); apply sim_mk; auto end.
    + cbn [simres im_of]. repeat split; auto. match goal with |- sim true ?x ?y => change y with (md (p_i P x) b x); apply sim_mk; auto end.
    + cbn [simres im_of]. repeat split; auto. apply sim_weak with true, H0.
  - apply from_dead_sim, H.
  - exact I.
Qed.

Lemma data_step_sim pv t t' pc : sim (im_pc pc) t t' -> simres (data_step P pv t pc) (data_step P pv t' pc).
Proof.
  intros H. destruct pc; cbn [data_step im_pc] in *.
  - pose proof H as H0. dsim H. change (p_curr P (md i b t)) with (p_curr P t). destruct (p_curr P t <? length (p_queue P pv)).
    + set (u := set_i P (set_state P (set_curr P t (S (p_curr P t))) (with_status (p_state P (set_curr P t (S (p_curr P t)))) NOMATCH)) 0).
      set (u' := set_i P (set_state P (set_curr P (md i b t) (S (p_curr P t))) (with_status (p_state P (set_curr P (md i b t) (S (p_curr P t)))) NOMATCH)) 0).
      change u' with (md 0 b u). clear u'. change (curr_node P pv (md 0 b u)) with (curr_node P pv u). change (this_codec P (md 0 b u)) with (this_codec P u).
      destruct (curr_node P pv u) as [d|]; [|exact I]. destruct (this_codec P u) as [c|]; [|exact I]. rewrite (bl_md c b d u 0) by reflexivity.
      destruct (bytes_loop P c u d) as [[t3 x]|] eqn:Eb; cbn [option_map fst snd]; [|exact I]. destruct (bl_keep _ _ _ _ _ Eb) as (E1 & E2).
      destruct x; cbn [simres im_of]; repeat split; auto; apply sim_mk; auto; rewrite E1, E2; exact Hb.
    + cbn. repeat split; auto.
  - exact I.
  - pose proof H as H0. dsim H. rewrite (Hi eq_refl) in *. change (p_state P (md (p_i P t) b t)) with (p_state P t). change (is_to P (md (p_i P t) b t)) with (is_to P t).
    assert (Hcb : simres (match call_cb P pv t with None => LUB P | Some th1 => LRes P pv th1 0 0 (Stay LX) end)
        (match call_cb P pv (md (p_i P t) b t) with None => LUB P | Some th1 => LRes P pv th1 0 0 (Stay LX) end)).
    { rewrite cb_md by reflexivity. destruct (call_cb P pv t) as [t1|] eqn:Ec; cbn [option_map]; [|exact I]. destruct (cb_keep _ _ _ Ec) as (E1 & E2).
      cbn [simres im_of]. repeat split; auto. apply sim_mk; auto. rewrite E1, E2. exact Hb. }
    assert (Hw : sim false t (md (p_i P t) b t)) by (apply sim_weak with true, H0).
    destruct (t_status (p_state P t)); try exact Hcb; try (apply data_commit_sim; exact Hw).
    + cbn [simres im_of]. repeat split; auto. match goal with |- sim false ?x ?y => change y with (md (p_i P x) b x); apply sim_mk; auto end.
    + cbn. auto.
    + change (p_curr P (set_match_data P (set_flags P (md (p_i P t) b t) true true (p_floop P (md (p_i P t) b t))) (t_data (p_state P t)))) with (p_curr P t).
      change (p_curr P (set_match_data P (set_flags P t true true (p_floop P t)) (t_data (p_state P t)))) with (p_curr P t).
      destruct (p_curr P t <? length (p_queue P pv)); cbn [simres im_of]; repeat split; auto;
        match goal with |- sim false ?x ?y => change y with (md (p_i P x) (p_bak P x) x); apply sim_mk; auto end.
    + destruct (is_to P t); cbn; auto.
    + apply data_hold_sim. exact Hw.
  - apply data_dead_sim, H.
  - dsim H. change (this_codec P (md i b t)) with (this_codec P t). destruct (this_codec P t) as [c|]; [|exact I]. rewrite feed_md. destruct (feed P c t 256) as [t1|] eqn:Ef; cbn [option_map]; [|exact I].
    destruct (feed_keep _ _ _ _ Ef) as (E1 & E2 & E3). change (p_state P (md i b t1)) with (p_state P t1).
    destruct (t_status (p_state P t1)); cbn [simres im_of]; repeat split; auto; apply sim_mk; try discriminate; rewrite E2, E3; exact Hb.
Qed.

Lemma local_step_sim pv t t' pc : sim (im_pc pc) t t' -> simres (local_step P pv t pc) (local_step P pv t' pc).
Proof.
  intros H. unfold local_step. assert (E : p_type P t' = p_type P t) by (dsim H; reflexivity). rewrite E. destruct (p_type P t); try exact I; [apply from_step_sim|apply data_step_sim|apply data_step_sim]; exact H.
Qed.
End E.

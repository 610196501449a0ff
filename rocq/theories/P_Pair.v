(** Conversions made of one decoding and one encoding phase, item by item. *)
From Verif Require Import Base Types M_Engine M_Output M_Create M_Callback M_Modules S_Session S_Engine S_Rest P_Trans P_Engine1 P_Engine2 P_Engine5 P_Callback P_Session P_Session3 P_Create P_CbSession P_Ascii P_Unicode.

Section Pair.
Context {A : Type}.
Definition dcodes (cs : list csem) (sp : A -> list N) (dat : A -> datum) (dom : A -> Prop) : Prop :=
  forall a rest, dom a -> first_match cs (byt (sp a) ++ rest) = Some (length (sp a), [dat a]).
Definition ecodes (cs : list csem) (dat : A -> datum) (out : A -> list N) (dom : A -> Prop) : Prop :=
  forall a rest, dom a -> first_match cs (dat a :: rest) = Some (1%nat, [out a]).

Lemma dcode_all cs sp dat dom : dcodes cs sp dat dom -> forall xs, Forall dom xs -> trans KFrom cs (byt (flat_map sp xs)) = (map dat xs, 0%nat).
Proof.
  intros H. induction xs as [|c cps IH]; intros HF; [apply trans_nil|]. inversion HF as [|? ? Hc HF']; subst. cbn [map flat_map]. rewrite byt_app.
  rewrite (trans_match _ _ _ _ _ (H c _ Hc)).
  assert (Es : skipn (length (sp c)) (byt (sp c) ++ byt (flat_map sp cps)) = byt (flat_map sp cps)) by (rewrite <- (byt_len (sp c)), skipn_app, skipn_all, Nat.sub_diag; reflexivity).
  rewrite Es, IH by exact HF'. reflexivity.
Qed.
Lemma ecode_all cs dat out dom : ecodes cs dat out dom -> forall xs, Forall dom xs -> trans KTo cs (map dat xs) = (map out xs, 0%nat).
Proof.
  intros H. induction xs as [|c cps IH]; intros HF; [apply trans_nil|]. inversion HF as [|? ? Hc HF']; subst. cbn [map].
  rewrite (trans_match _ _ _ _ _ (H c _ Hc)). cbn [skipn]. rewrite IH by exact HF'. reflexivity.
Qed.
Lemma dat_nonempty (dat : A -> datum) (dom : A -> Prop) : (forall a, dom a -> dat a <> []) -> forall xs, Forall dom xs -> filter nonempty (map dat xs) = map dat xs.
Proof. intros H. induction 1 as [|x xs Hx _ IH]; [reflexivity|]. cbn. specialize (H x Hx). destruct (dat x); [contradiction|]. cbn. f_equal. exact IH. Qed.
Theorem pair_pipe dcs ecs sp dat out (dom : A -> Prop) : (forall a, dom a -> dat a <> []) -> dcodes dcs sp dat dom -> ecodes ecs dat out dom -> forall xs, Forall dom xs ->
  pipeline [mkPsem KFrom dcs; mkPsem KTo ecs] (flat_map sp xs) = (map out xs, 0%nat, 0%nat).
Proof.
  intros Hne Hd He xs Hx. unfold pipeline. cbn [fold_left apply_phase ps_kind ps_cs S_Engine.inj concat]. rewrite app_nil_r. change (map (fun b => [b]) (flat_map sp xs)) with (byt (flat_map sp xs)).
  rewrite (dcode_all _ _ _ _ Hd) by exact Hx. cbn [apply_phase ps_kind ps_cs S_Engine.inj].
  rewrite (dat_nonempty _ _ Hne), (ecode_all _ _ _ _ He) by exact Hx. reflexivity.
Qed.
End Pair.

Definition pconv (D E : list (ecodec priv * kspec)) : list (ptype * list (ecodec priv * kspec)) := [(FROM, D); (TO, E)].
Lemma pconv_ok D E : D <> [] -> E <> [] -> cod_good FROM D -> eof_good FROM D -> cod_good TO E -> eof_good TO E -> cb_ok (pconv D E).
Proof.
  intros ND NE D1 D2 E1 E2. constructor.
  - eexists _, _. reflexivity.
  - intros t l [H|[H|[]]]; injection H as <- <-; (split; [auto|]); assumption.
  - intros [|[|i]] l l'; cbn; try discriminate; destruct i; discriminate.
  - intros t l x [H|[H|[]]]; injection H as <- <-; intros Hx; [apply D1|apply E1]; exact Hx.
  - intros t l j x [H|[H|[]]]; injection H as <- <-; intros Hx; [apply D2|apply E2]; exact Hx.
Qed.

(** From the pipeline to what the user sees. *)
Section Seen.
Variable c : list (ptype * list (ecodec priv * kspec)).
Hypothesis Hok : cb_ok c.
Variables (again : bool) (good : list N -> Prop).
Hypothesis Hres : again = true -> restores c.
Hypothesis Hgood : forall W, good W -> exists out oe, pipeline (cb_pipe c) W = (out, 0%nat, oe).
Lemma resting_quiet s : resting again (cb_inst c) good s -> cquiet c s.
Proof.
  induction 1 as [s Hi|s0 s Ha HU Hi|s l s' got _ IH Hne Hll Hg HR].
  - destruct (cinit c Hok) as (s1 & H1 & H2 & _). congruence.
  - destruct (creinit c Hok s0 HU (Hres Ha)) as (s1 & H1 & H2 & _). congruence.
  - destruct (Hgood _ Hg) as (out & oe & HP). destruct (cstream c Hok s l out oe IH Hne Hll HP) as (s1 & got1 & H1 & _ & _ & _ & H2).
    destruct (runs_unique _ _ _ _ _ _ H1 HR) as (<- & _). exact H2.
Qed.
Theorem converts_by W out : good W -> pipeline (cb_pipe c) W = (out, 0%nat, 0%nat) -> converts again (cb_inst c) good W (concat out).
Proof.
  intros Hg HP s l HR Hne Hll Hin. pose proof HP as HP'. rewrite <- Hin in HP'.
  destruct (cstream c Hok s l out 0%nat (resting_quiet s HR) Hne Hll HP') as (s' & got & H1 & H2 & H3 & H4 & _).
  exists s', got. rewrite Nat.add_0_r in H4. repeat (split; [assumption|]). eapply re_stream; try eassumption. rewrite Hin. exact Hg.
Qed.
(** There is an instance at rest. *)
Theorem resting_exists : exists s, bsdconv_init priv (cb_inst c) = Some s /\ resting again (cb_inst c) good s /\ pending priv s = [] /\ i_ierr priv s = 0%nat /\ i_oerr priv s = 0%nat.
Proof. destruct (cinit c Hok) as (s & H1 & H2 & H3 & H4 & H5). exists s. repeat (split; [first [exact H1|apply re_first; exact H1]|]). auto. Qed.
End Seen.

Theorem pair_converts {A} D E again (sp : A -> list N) dat out (dom : A -> Prop) : D <> [] -> E <> [] -> cod_good FROM D -> eof_good FROM D -> cod_good TO E -> eof_good TO E ->
  (again = true -> restores (pconv D E)) -> (forall a, dom a -> dat a <> []) ->
  dcodes (map (fun y => k_v (snd y)) D) sp dat dom -> ecodes (map (fun y => k_v (snd y)) E) dat out dom ->
  forall xs, Forall dom xs -> converts again (cb_inst (pconv D E)) (fun W => exists xs, Forall dom xs /\ W = flat_map sp xs) (flat_map sp xs) (flat_map out xs).
Proof.
  intros ND NE D1 D2 E1 E2 HR Hne Hd He xs Hx. rewrite (flat_map_concat_map out).
  assert (HP : forall xs, Forall dom xs -> pipeline (cb_pipe (pconv D E)) (flat_map sp xs) = (map out xs, 0%nat, 0%nat)).
  { intros ys Hy. unfold cb_pipe, pconv. cbn [map fst snd kind_of]. apply (pair_pipe _ _ _ _ _ dom Hne Hd He ys Hy). }
  apply converts_by; [apply pconv_ok; assumption|exact HR| |eauto|apply HP; exact Hx].
  intros W (ys & Hy & ->). eexists _, _. apply HP. exact Hy.
Qed.

(** Tools for concrete conversions. *)
From Verif Require Import Base Types M_Engine M_Output M_Mktable M_Create S_Session S_Engine S_Dict S_Source S_Convert P_Dict P_Convert P_Session P_Session3 P_Mktable3 P_Mktable4 P_Create.

(** A checkable condition for [conv_ok]. *)
Definition is_from (t : ptype) : bool := match t with FROM => true | _ => false end.
Fixpoint no_adj (c : list (ptype * list (list sentry))) : bool :=
  match c with
  | a :: ((b :: _) as r) => negb (is_from (fst a) && is_from (fst b)) && no_adj r
  | _ => true
  end.
Definition phase_chk (x : ptype * list (list sentry)) : bool :=
  match fst x with FROM | INTER | TO => true | _ => false end && negb (length (snd x) =? 0) && forallb (forallb (fun e => negb (length (en_out e) =? 0))) (snd x).
Definition conv_chk (c : list (ptype * list (list sentry))) : bool :=
  match c with (FROM, _) :: _ => true | _ => false end && no_adj c && forallb phase_chk c.

Lemma lookup_in : forall D w o, lookup D w = Some o -> exists k, In (k, o) D.
Proof. induction D as [|[k o'] D IH]; intros w o H; cbn in H; [discriminate|]. destruct (eqb_syms k w); [injection H as <-; exists k; left; reflexivity|]. destruct (IH _ _ H) as (k' & Hk). exists k'. right. exact Hk. Qed.

Lemma conv_chk_ok c : conv_chk c = true -> conv_ok (meaning c).
Proof.
  unfold conv_chk. intros H. apply andb_prop in H as (H & HP). apply andb_prop in H as (HF & HA). rewrite forallb_forall in HP.
  assert (HIn : forall t Ds, In (t, Ds) (meaning c) -> exists ess, In (t, ess) c /\ Ds = map file_dict ess).
  { intros t Ds Hin. apply in_map_iff in Hin as ([t' ess] & E & Hin). cbn in E. injection E as <- <-. eauto. }
  constructor.
  - destruct c as [|[t ess] c]; [discriminate|]. destruct t; try discriminate. cbn. eauto.
  - intros t Ds Hin. destruct (HIn t Ds Hin) as (ess & H1 & ->). specialize (HP _ H1). unfold phase_chk in HP. cbn [fst snd] in HP. apply andb_prop in HP as (HP & _). apply andb_prop in HP as (HT & HL). split.
    + destruct t; auto; discriminate.
    + destruct ess; [discriminate|cbn; discriminate].
  - clear -HA. revert HA. induction c as [|a c IH]; intros HA i Ds Ds' H1 H2; [destruct i; discriminate|]. destruct i as [|i].
    + destruct c as [|b c]; [discriminate|]. cbn in H1, H2. injection H1 as H1 _. injection H2 as H2 _. cbn [no_adj] in HA. rewrite H1, H2 in HA. discriminate.
    + assert (HA' : no_adj c = true) by (destruct c; [reflexivity|]; cbn [no_adj] in HA; apply andb_prop in HA; apply HA). eapply (IH HA' i); eassumption.
  - intros t Ds D w o Hin HD HL _. destruct (HIn t Ds Hin) as (ess & H1 & ->). specialize (HP _ H1). unfold phase_chk in HP. cbn [fst snd] in HP. apply andb_prop in HP as (_ & HO). apply in_map_iff in HD as (es & <- & Hes). rewrite forallb_forall in HO. specialize (HO _ Hes). rewrite forallb_forall in HO.
    apply lookup_in in HL as (k & Hk). unfold file_dict in Hk. apply in_flat_map in Hk as (e & He & Hk). apply in_map_iff in Hk as (x & E & _). injection E as _ <-. specialize (HO _ He). destruct (en_out e); [discriminate|discriminate].
Qed.

(** Executable phase-by-phase semantics. *)
Definition by_phases (c : list phase_desc) (input : datum) : list datum * nat * nat := fold_left (fun x ph => apply_phase ph x) (map psem_of c) ([input], 0, 0).
Lemma by_phases_ok c input out ie oe : conv_ok c -> by_phases c input = (out, ie, oe) -> run_conv c [input] out ie oe.
Proof. intros Hc E. destruct (pipeline_run_conv c [input] 0 0 (co_types _ Hc)) as (ie' & oe' & H & E1 & E2). unfold by_phases in E. rewrite E in H, E1, E2. cbn in H, E1, E2. subst. exact H. Qed.

(** A periodic engine never returns. *)
Fixpoint steps {P} (n : nat) (s : inst P) (pc : gpc) : option (inst P * gpc) :=
  match n with O => Some (s, pc) | S n => match gstep P s pc with GNextState _ s' pc' => steps n s' pc' | _ => None end end.
Lemma grun_steps {P} n : forall s pc s' pc' f, steps (P:=P) n s pc = Some (s', pc') -> grun P (n + f) s pc = grun P f s' pc'.
Proof. induction n as [|n IH]; intros s pc s' pc' f H; cbn [steps] in H; [injection H as -> ->; reflexivity|]. cbn [plus grun]. destruct (gstep P s pc); try discriminate. apply IH. exact H. Qed.
Lemma grun_short {P} : forall n s pc x, steps (P:=P) n s pc = Some x -> forall f, f <= n -> grun P f s pc = RFuel P.
Proof. induction n as [|n IH]; intros s pc x H f Hf; [replace f with 0 by lia; reflexivity|]. cbn [steps] in H. destruct f as [|f]; [reflexivity|]. cbn [grun]. destruct (gstep P s pc); try discriminate. eapply IH; [exact H|lia]. Qed.
Lemma grun_periodic {P} n s pc : steps (P:=P) (S n) s pc = Some (s, pc) -> forall f, grun P f s pc = RFuel P.
Proof.
  intros H f. induction f as [f IH] using (well_founded_induction lt_wf). destruct (Nat.le_gt_cases f (S n)) as [Hf|Hf]; [eapply grun_short; eassumption|].
  replace f with (S n + (f - S n)) by lia. rewrite (grun_steps _ _ _ _ _ _ H). apply IH. lia.
Qed.
Lemma grun_loops {P} m n s pc s1 pc1 : steps (P:=P) m s pc = Some (s1, pc1) -> steps (P:=P) (S n) s1 pc1 = Some (s1, pc1) -> forall f, grun P f s pc = RFuel P.
Proof.
  intros H1 H2 f. destruct (Nat.le_gt_cases f m) as [Hf|Hf]; [eapply grun_short; eassumption|]. replace f with (m + (f - m)) by lia. rewrite (grun_steps _ _ _ _ _ _ H1). eapply grun_periodic. exact H2.
Qed.

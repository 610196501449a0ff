(** Safety and termination of every call on conversions made of tables: the whole engine. *)
From Verif Require Import Base Types M_Engine M_Output S_Session S_Engine S_Dict S_Table S_Convert P_Engine1 P_Engine2 P_Engine3 P_Dict P_Output P_Output2 P_Output3 P_Output4 P_Session P_Session2 P_Engine6 P_Create P_Safe.
From Coq Require Import ZifyBool ZifyN ZifyNat.

Section E.
Context {P : Type}.
Notation ecodec := (ecodec P). Notation ephase := (ephase P). Notation inst := (inst P).
Arguments Nat.ltb : simpl never. Arguments Nat.sub : simpl never. Arguments Nat.leb : simpl never.

Lemma sinv_prev Ds (ppv pv pv' : ephase) : sinv Ds ppv pv -> pv' = set_queue P pv (p_queue P pv') (p_tail P pv') -> tail_ok pv' -> sinv Ds ppv pv' /\ mm ppv pv' = mm ppv pv.
Proof.
  intros [] E HT. rewrite E in *. split; [|reflexivity]. constructor; try assumption; try exact HT.
Qed.
Lemma sinv_next Ds (th th' thn : ephase) out : sinv Ds th thn -> p_queue P th' = p_queue P th ++ out -> tail_ok th' -> (isfrom thn = true -> p_headlen P th' = p_headlen P th) -> sinv Ds th' thn.
Proof.
  intros [I1 I2 I3 I4 I5 I6 I7 I8 I9 I10 I11 I12] Eq HT HH. constructor; try assumption.
  - rewrite Eq, app_length. lia.
  - intros Hp. destruct (I8 Hp) as (A & B). split; [exact A|]. intros F1 F2 F3. specialize (B F1 F2 F3). unfold curlen in *. rewrite F3 in *. rewrite Eq. destruct (p_queue P th); [cbn in I6; lia|exact B].
  - intros F. rewrite (HH F). auto.
Qed.

Variable c : list phase_desc.
Notation n := (length c).
Hypothesis Hadj : forall i Ds Ds', nth_error c i = Some (FROM, Ds) -> nth_error c (S i) <> Some (FROM, Ds').

Definition pair_ok (s : inst) (p : nat) (t : ptype) (Ds : list dict) : Prop :=
  exists pv th, nth_error (i_phases P s) (p - 1) = Some pv /\ nth_error (i_phases P s) p = Some th /\ p_type P th = t /\ sinv Ds pv th.
Record gs (s : inst) : Prop := {
  gs_len : length (i_phases P s) = S n;
  gs_ph : forall p t Ds, 1 <= p -> nth_error c (p - 1) = Some (t, Ds) -> pair_ok s p t Ds
}.

Definition mmg (s : inst) (p : nat) : list nat :=
  match nth_error (i_phases P s) (p - 1), nth_error (i_phases P s) p with Some pv, Some th => mm pv th | _, _ => [0;0;0;0;0;0] end.
Definition gmm (s : inst) : list nat := concat (map (mmg s) (seq 1 n)).

Lemma mm_length (pv th : ephase) : length (mm pv th) = 6.
Proof. unfold mm. destruct (isfrom th); reflexivity. Qed.
Lemma mmg_length s p : length (mmg s p) = 6.
Proof. unfold mmg. destruct (nth_error _ (p - 1)); [|reflexivity]. destruct (nth_error _ p); [apply mm_length|reflexivity]. Qed.
Lemma cmmg_length s l : length (concat (map (mmg s) l)) = 6 * length l.
Proof. induction l as [|x l IH]; [reflexivity|]. cbn [map concat]. rewrite app_length, IH, mmg_length. cbn [length]. lia. Qed.
Lemma seq_split1 p : 1 <= p <= n -> seq 1 n = seq 1 (p - 1) ++ p :: seq (S p) (n - p).
Proof. intros H. replace n with ((p - 1) + S (n - p)) at 1 by lia. rewrite seq_app. cbn [seq]. replace (1 + (p - 1)) with p by lia. reflexivity. Qed.

Definition T := 2 * n + 3.
Definition orank (s : inst) (p : nat) : nat :=
  match nth_error (i_phases P s) (p - 1), nth_error (i_phases P s) p with
  | Some pv, Some th => if p_curr P th <? length (p_queue P pv) then 1 else T + 1
  | _, _ => T + 1
  end.
Definition rank (s : inst) (pc : gpc) : nat :=
  match pc with
  | PBegin p => if (1 <=? p) && (p <=? n) then S (orank s p) else T + 2
  | PLocal p LOuter => orank s p
  | PLocal p LInner => T + 6
  | PLocal p LX => T + 5
  | PLocal p LSep => T + 4
  | PLocal p LDead => 1
  | PCheck p => n + 3 + p
  | PFlush p => n + 3 - p
  | PDone => 0
  end.
Definition pcond (s : inst) (pc : gpc) : Prop :=
  match pc with
  | PBegin p => 1 <= p
  | PLocal p lp => 1 <= p <= n /\ (forall pv th, nth_error (i_phases P s) (p - 1) = Some pv -> nth_error (i_phases P s) p = Some th -> lcond lp pv th) /\
      (lp = LDead -> True)
  | PCheck p => p <= n
  | PFlush p => 1 <= p <= S n
  | PDone => True
  end.

Lemma orank_le s p : orank s p <= T + 1.
Proof. unfold orank. destruct (nth_error _ (p - 1)); [|lia]. destruct (nth_error _ p); [|lia]. destruct (_ <? _); unfold T; lia. Qed.
Lemma rank_begin s p : rank s (PBegin p) <= T + 2.
Proof. cbn [rank]. pose proof (orank_le s p). destruct ((1 <=? p) && (p <=? n)); lia. Qed.

Ltac pok := split; [|split; [|split]]; auto; try congruence.
Lemma step_local s p pv th pc pv' th' ie oe g Ds t : gs s -> 1 <= p -> nth_error c (p - 1) = Some (t, Ds) ->
  nth_error (i_phases P s) (p - 1) = Some pv -> nth_error (i_phases P s) p = Some th -> p_type P th = t ->
  sinv Ds pv' th' -> pv' = set_queue P pv (p_queue P pv') (p_tail P pv') -> (exists out, p_queue P th' = p_queue P th ++ out) ->
  p_type P th' = p_type P th -> (isfrom th = false -> p_headlen P th' = p_headlen P th) ->
  (lex (mm pv' th') (mm pv th) \/ (mm pv' th' = mm pv th /\ p_queue P th' = p_queue P th /\ okrank pc g pv th)) ->
  forall s', s' = mkInst P (list_upd (list_upd (i_phases P s) (p - 1) pv') p th') (i_flush P s) (i_ierr P s + ie) (i_oerr P s + oe) ->
  gs s' /\ (lex (gmm s') (gmm s) \/ gmm s' = gmm s /\ okrank pc g pv th) /\
  nth_error (i_phases P s') (p - 1) = Some pv' /\ nth_error (i_phases P s') p = Some th'.
Proof.
  intros HG Hp Hc N1 N2 Hty HI' Hpv (out & Hq) Hty' Hhl HM s' Es'.
  assert (Hpn : p <= n). { assert (p - 1 < n) by (apply nth_error_Some; congruence). lia. }
  assert (M1 : nth_error (i_phases P s') (p - 1) = Some pv').
  { rewrite Es'. cbn. rewrite list_upd_nth_ne by lia. erewrite list_upd_nth; [reflexivity|exact N1]. }
  assert (M2 : nth_error (i_phases P s') p = Some th').
  { rewrite Es'. cbn. erewrite list_upd_nth; [reflexivity|]. rewrite list_upd_nth_ne by lia. exact N2. }
  assert (M3 : forall q, q <> p -> q <> p - 1 -> nth_error (i_phases P s') q = nth_error (i_phases P s) q).
  { intros q H1 H2. rewrite Es'. cbn. rewrite !list_upd_nth_ne by lia. reflexivity. }
  assert (HF : forall q t' Ds', 1 <= q -> nth_error c (q - 1) = Some (t', Ds') -> pair_ok s' q t' Ds' /\ (q < p -> mmg s' q = mmg s q) /\ (p < q -> p_queue P th' = p_queue P th -> mmg s' q = mmg s q)).
  { intros q t' Ds' Hq1 Hcq. destruct (gs_ph _ HG q t' Ds' Hq1 Hcq) as (a & b & A1 & A2 & A3 & A4).
    destruct (Nat.eq_dec q p) as [->|Hne].
    - split; [|split; lia]. assert (Ds' = Ds /\ t' = t) as (-> & ->) by (split; congruence). exists pv', th'. pok.
    - destruct (Nat.eq_dec q (p - 1)) as [->|Hne2].
      + assert (b = pv) by congruence. subst b. destruct (sinv_prev _ _ _ _ A4 Hpv (s_tp _ _ _ HI')) as (B1 & B2). assert (Hx : nth_error (i_phases P s') (p - 1 - 1) = Some a) by (rewrite M3 by lia; exact A1).
        split; [|split; [intros _; unfold mmg; rewrite Hx, M1, A1, A2; exact B2|lia]]. exists a, pv'. pok. rewrite <- A3, Hpv. reflexivity.
      + destruct (Nat.eq_dec q (S p)) as [->|Hne3].
        * replace (S p - 1) with p in * by lia. assert (a = th) by congruence. subst a. assert (Hx : nth_error (i_phases P s') (S p) = Some b) by (rewrite M3 by lia; exact A2).
          split; [|split; [lia|]].
          -- exists th', b. replace (S p - 1) with p by lia. pok. eapply sinv_next; [exact A4|exact Hq|exact (s_tt _ _ _ HI')|].
             intros Hf. apply isfrom_type in Hf. apply Hhl. destruct (isfrom th) eqn:Ef; [|reflexivity]. exfalso. apply isfrom_type in Ef.
             apply (Hadj (p - 1) Ds Ds'); [congruence|]. replace (S (p - 1)) with p by lia. congruence.
          -- intros _ Hqq. unfold mmg. replace (S p - 1) with p by lia. rewrite M2, Hx, N2, A2. unfold mm, curlen. rewrite Hqq. reflexivity.
        * assert (Hx : nth_error (i_phases P s') (q - 1) = Some a) by (rewrite M3 by lia; exact A1). assert (Hy : nth_error (i_phases P s') q = Some b) by (rewrite M3 by lia; exact A2).
          assert (Hz : mmg s' q = mmg s q) by (unfold mmg; rewrite Hx, Hy, A1, A2; reflexivity).
          split; [exists a, b; auto|auto]. }
  assert (Hin : forall l, (forall q, In q l -> 1 <= q <= n /\ (q < p \/ p < q /\ p_queue P th' = p_queue P th)) -> concat (map (mmg s') l) = concat (map (mmg s) l)).
  { intros l Hl. f_equal. apply map_ext_in. intros q Hq0. destruct (Hl q Hq0) as (H1 & H2). destruct (nth_error c (q - 1)) as [[t' Ds']|] eqn:E; [|apply nth_error_None in E; lia]. destruct (HF q t' Ds' ltac:(lia) E) as (_ & X1 & X2). destruct H2 as [H2|(H2 & H3)]; auto. }
  split; [constructor|].
  - rewrite Es'. cbn. rewrite !list_upd_length. apply (gs_len _ HG).
  - intros q t' Ds' H1 H2. apply (HF q t' Ds' H1 H2).
  - split; [|auto].
    unfold gmm. rewrite (seq_split1 p) by lia. rewrite !map_app, !concat_app. rewrite (Hin (seq 1 (p - 1))) by (intros q Hq0; apply in_seq in Hq0; lia). cbn [map concat].
    assert (HM' : lex (mmg s' p) (mmg s p) \/ (mmg s' p = mmg s p /\ p_queue P th' = p_queue P th /\ okrank pc g pv th)) by (unfold mmg; rewrite M1, M2, N1, N2; exact HM).
    destruct HM' as [HM'|(HM' & Hqq & HR)].
    + left. apply lex_app_same. apply lex_app; [exact HM'|]. rewrite !cmmg_length. reflexivity.
    + right. split; [|exact HR]. rewrite HM'. rewrite (Hin (seq (S p) (n - p))); [reflexivity|]. intros q Hq0. apply in_seq in Hq0. split; [lia|right; split; [lia|exact Hqq]].
Qed.

Lemma lex_snoc l x y : x < y -> lex (l ++ [x]) (l ++ [y]).
Proof. intros H. apply lex_app_same. apply lex_here; [exact H|reflexivity]. Qed.
Lemma gmm_length s : length (gmm s) = 6 * n.
Proof. unfold gmm. rewrite cmmg_length, seq_length. reflexivity. Qed.
Lemma gmm_phases s s' : i_phases P s' = i_phases P s -> gmm s' = gmm s.
Proof. intros E. unfold gmm, mmg. rewrite E. reflexivity. Qed.

Lemma pair_at s p : gs s -> 1 <= p <= n -> exists t Ds pv th, nth_error c (p - 1) = Some (t, Ds) /\ nth_error (i_phases P s) (p - 1) = Some pv /\ nth_error (i_phases P s) p = Some th /\ p_type P th = t /\ sinv Ds pv th.
Proof.
  intros HG Hp. destruct (nth_error c (p - 1)) as [[t Ds]|] eqn:E; [|apply nth_error_None in E; lia]. destruct (gs_ph _ HG p t Ds ltac:(lia) E) as (pv & th & H). exists t, Ds, pv, th. tauto.
Qed.
Lemma phasen_gs s : gs s -> phasen P s = n.
Proof. intros H. unfold phasen. rewrite (gs_len _ H). lia. Qed.

(** One step either halts or decreases. *)
Lemma step_safe s pc : gs s -> pcond s pc ->
  (pc = PDone) \/ exists s' pc', gstep P s pc = GNextState P s' pc' /\ gs s' /\ pcond s' pc' /\ lex (gmm s' ++ [rank s' pc']) (gmm s ++ [rank s pc]).
Proof.
  intros HG Hpc. destruct pc as [p|p lp|p|p|]; cbn [pcond] in Hpc; [right..|left; reflexivity].
  - cbn [gstep]. rewrite (phasen_gs _ HG). destruct (Nat.leb_spec p n) as [Hle|Hgt].
    + replace (0 <? p) with true by lia. cbn [andb]. do 2 eexists. split; [reflexivity|]. split; [exact HG|]. split.
      * split; [lia|]. split; [|auto]. intros pv th _ _. unfold lcond. destruct (isfrom th); exact I.
      * apply lex_snoc. cbn [rank]. replace ((1 <=? p) && (p <=? n)) with true by lia. lia.
    + rewrite andb_false_r. do 2 eexists. split; [reflexivity|]. split; [exact HG|]. split; [cbn; lia|]. apply lex_snoc. cbn [rank]. replace ((1 <=? p) && (p <=? n)) with false by lia. unfold T. lia.
  - destruct Hpc as (Hp & HL & _). destruct (pair_at s p HG Hp) as (t & Ds & pv & th & Hc & N1 & N2 & Hty & HI). cbn [gstep]. rewrite N1, N2.
    destruct (local_safe Ds pv th lp HI (HL _ _ N1 N2)) as (pv' & th' & ie & oe & g & ES & HI' & HGc & Hpv & Hq & Hty' & Hhl & HM). rewrite ES.
    set (s' := mkInst P _ _ _ _).
    destruct (step_local s p pv th lp pv' th' ie oe g Ds t HG ltac:(lia) Hc N1 N2 Hty HI' Hpv Hq Hty' Hhl HM s' eq_refl) as (HG' & HM' & M1 & M2).
    assert (HR : forall pc', (okrank lp g pv th -> rank s' pc' < rank s (PLocal p lp)) -> lex (gmm s' ++ [rank s' pc']) (gmm s ++ [rank s (PLocal p lp)])).
    { intros pc' Hr. destruct HM' as [HM'|(-> & HM')]; [apply lex_app; [exact HM'|reflexivity]|apply lex_snoc; auto]. }
    pose proof (orank_le s' p) as HO.
    destruct g as [lp'| | |].
    + exists s', (PLocal p lp'). split; [reflexivity|]. split; [exact HG'|]. split.
      * split; [exact Hp|]. split; [|auto]. intros a b A1 A2. assert (a = pv') by congruence. assert (b = th') by congruence. subst. exact HGc.
      * apply HR. destruct lp, lp'; cbn [okrank rank]; try contradiction; intros _; lia.
    + exists s', (PBegin p). split; [reflexivity|]. split; [exact HG'|]. split; [cbn; lia|]. apply HR. destruct lp; cbn [okrank]; try contradiction.
    + exists s', (PBegin (S p)). split; [reflexivity|]. split; [exact HG'|]. split; [cbn; lia|]. apply HR. pose proof (rank_begin s' (S p)). destruct lp; cbn [okrank]; try contradiction. intros _. cbn [rank] in *. lia.
    + rewrite (phasen_gs _ HG). exists s', (PCheck n). split; [reflexivity|]. split; [exact HG'|]. split; [cbn; lia|]. apply HR. destruct lp; cbn [okrank]; try contradiction. intros Hge. cbn [rank]. unfold orank. rewrite N1, N2. replace (_ <? _) with false by lia. unfold T. lia.
  - cbn [gstep]. destruct p as [|p].
    + destruct (i_flush P s); do 2 eexists; (split; [reflexivity|]); (split; [exact HG|]); (split; [cbn; lia || exact I|]); apply lex_snoc; cbn [rank]; lia.
    + destruct (pair_at s (S p) HG ltac:(lia)) as (t & Ds & pv & th & Hc & N1 & N2 & Hty & HI). replace (S p - 1) with p in * by lia. rewrite N1, N2.
      destruct (p_curr P th <? length (p_queue P pv)) eqn:Elt; do 2 eexists; (split; [reflexivity|]); (split; [exact HG|]); (split; [cbn; lia|]); apply lex_snoc; cbn [rank].
      * replace ((1 <=? S p) && (S p <=? n)) with true by lia. unfold orank. replace (S p - 1) with p by lia. rewrite N1, N2, Elt. lia.
      * lia.
  - cbn [gstep]. rewrite (phasen_gs _ HG). destruct (Nat.leb_spec p n) as [Hle|Hgt].
    + destruct (pair_at s p HG ltac:(lia)) as (t & Ds & pv & th & Hc & N1 & N2 & Hty & HI). rewrite N2. destruct (p_fpending P th) eqn:Ep.
      * do 2 eexists. split; [reflexivity|]. split; [exact HG|]. split; [|apply lex_snoc; cbn [rank]; lia].
        split; [lia|]. split; [|auto]. intros a b A1 A2. assert (a = pv) by congruence. assert (b = th) by congruence. subst. destruct (s_pend _ _ _ HI Ep) as (B1 & B2). unfold lcond. destruct (isfrom th); [|right; exact B1].
        destruct (p_fmatch P th); [left; reflexivity|right]. split; [exact B1|auto].
      * do 2 eexists. split; [reflexivity|]. split; [exact HG|]. split; [cbn; lia|apply lex_snoc; cbn [rank]; lia].
    + do 2 eexists. split; [reflexivity|]. split; [exact HG|]. split; [exact I|apply lex_snoc; cbn [rank]; lia].
Qed.

Theorem run_safe : forall M, Acc lex M -> forall s pc, M = gmm s ++ [rank s pc] -> gs s -> pcond s pc -> exists fuel s', grun P fuel s pc = RDone P s' /\ gs s'.
Proof.
  intros M HA. induction HA as [M _ IH]. intros s pc -> HG Hpc. destruct (step_safe s pc HG Hpc) as [->|(s1 & pc1 & ES & HG1 & Hpc1 & Hlt)].
  - exists 1, s. cbn. auto.
  - destruct (IH _ Hlt s1 pc1 eq_refl HG1 Hpc1) as (f & s' & E & HG'). exists (S f), s'. cbn [grun]. rewrite ES. auto.
Qed.

Lemma gs_ext s s' : i_phases P s' = i_phases P s -> gs s -> gs s'.
Proof. intros E [H1 H2]. constructor; [congruence|]. intros p t Ds A B. unfold pair_ok. rewrite E. apply (H2 p t Ds A B). Qed.

Lemma enqueue_gs s inp : 1 <= n -> gs s -> (match inp with Some (_, ch) => ch = [] | None => True end) -> gs (enqueue P s inp).
Proof.
  intros Hn HG Hi. destruct inp as [[d ch]|]; [|exact HG]. subst ch. unfold enqueue. destruct (i_phases P s) as [|ph0 rest] eqn:E; [exact HG|].
  pose proof (gs_len _ HG) as HLn. rewrite E in HLn. constructor; [exact HLn|]. intros p t Ds Hp Hc.
  destruct (gs_ph _ HG p t Ds Hp Hc) as (pv & th & A1 & A2 & A3 & A4). rewrite E in *. unfold pair_ok. cbn [i_phases].
  destruct p as [|[|p]]; [lia| |].
  - cbn in A1. injection A1 as <-. exists (set_queue P ph0 (firstn (p_tail P ph0) (p_queue P ph0) ++ [d]) (S (p_tail P ph0))), th. split; [reflexivity|]. split; [exact A2|]. split; [exact A3|].
    pose proof (s_tp _ _ _ A4) as HT. eapply sinv_next; [exact A4|cbn; rewrite HT, firstn_all; reflexivity| |reflexivity]. unfold tail_ok in *. cbn. rewrite HT, firstn_all, app_length. cbn. lia.
  - replace (S (S p) - 1) with (S p) in * by lia. exists pv, th. auto.
Qed.

Lemma set_last_gs s q t : 1 <= n -> gs s -> t = length q -> gs (set_last P s q t).
Proof.
  intros Hn HG ->. unfold set_last, last_phase. rewrite (phasen_gs _ HG). destruct (pair_at s n HG ltac:(lia)) as (t & Ds & pv & th & Hc & N1 & N2 & Hty & HI). rewrite N2.
  constructor; cbn; [rewrite list_upd_length; apply (gs_len _ HG)|]. intros p t' Ds' Hp Hcp. assert (Hpn : p - 1 < n) by (apply nth_error_Some; congruence).
  destruct (gs_ph _ HG p t' Ds' Hp Hcp) as (a & b & A1 & A2 & A3 & A4). unfold pair_ok. cbn [i_phases].
  rewrite (list_upd_nth_ne _ n (p - 1)) by lia. destruct (Nat.eq_dec p n) as [->|Hne].
  - erewrite list_upd_nth by exact N2. exists a, (set_queue P th q (length q)). assert (b = th) by congruence. subst b. pok.
    apply (sinv_prev _ _ _ (set_queue P th q (length q)) A4); reflexivity.
  - rewrite list_upd_nth_ne by lia. exists a, b. auto.
Qed.

Lemma output_total (t : ephase) mode : tail_ok t -> exists r, output_switch P t mode = Some r.
Proof.
  intros Ht. destruct mode as [|slack|b| |acc| |]; cbn [output_switch]; cbv zeta; eauto.
  - destruct (auto_copy_ok (p_queue P t) (repeat None (slack + total (p_queue P t))) 0) as (m & -> & _); [rewrite repeat_length, total_concat; lia|]. eauto.
  - destruct b as [[|x buf]|]; eauto. destruct (pre_copy_ok (p_queue P t) (map Some (x :: buf)) (length (x :: buf)) 0 (p_tail P t)) as (a & b & E & H1 & H2 & H3); [apply map_length|lia|exact Ht|]. rewrite H2. eauto.
Qed.

Theorem call_safe s inp fl mode : 1 <= n -> gs s -> (match inp with Some (_, ch) => ch = [] | None => True end) ->
  exists fuel s' r, bsdconv_call P fuel s inp fl mode = CDone P s' r /\ gs s'.
Proof.
  intros Hn HG Hi. unfold bsdconv_call, bsdconv_engine. cbv zeta. set (s1 := mkInst P _ fl _ _).
  assert (HG1 : gs s1) by (apply (gs_ext (enqueue P s inp)); [reflexivity|apply enqueue_gs; assumption]).
  destruct (run_safe _ (lex_acc _ _ eq_refl) s1 (PBegin 1) eq_refl HG1 (le_n 1)) as (fuel & s2 & E & HG2). exists fuel. rewrite E.
  unfold last_phase. rewrite (phasen_gs _ HG2). destruct (pair_at s2 n HG2 ltac:(lia)) as (t & Ds & pv & th & Hc & N1 & N2 & Hty & HI). rewrite N2.
  destruct (output_total th mode (s_tt _ _ _ HI)) as (r & Er). rewrite Er. do 2 eexists. split; [reflexivity|]. apply set_last_gs; [exact Hn|exact HG2|]. exact (output_switch_tail _ _ _ (s_tt _ _ _ HI) Er).
Qed.

Theorem hist_safe : 1 <= n -> forall h s, gs s -> Forall (fun k => match c_input k with Some (_, ch) => ch = [] | None => True end) h ->
  exists fuel s' out, run_hist P fuel s h = Some (s', out) /\ gs s'.
Proof.
  intros Hn. induction h as [|k h IH]; intros s HG HF; [exists 0, s, []; auto|]. inversion HF as [|? ? Hk HF']; subst.
  destruct (call_safe s (c_input k) (c_flush k) (c_mode k) Hn HG Hk) as (f1 & s1 & r & E1 & HG1). destruct (IH s1 HG1 HF') as (f2 & s2 & out & E2 & HG2).
  exists (f1 + f2), s2, (delivered (c_mode k) r ++ out). split; [|exact HG2]. cbn [run_hist]. assert (L1 : f1 <= f1 + f2) by lia. assert (L2 : f2 <= f1 + f2) by lia. rewrite (call_mono f1 (f1 + f2) _ _ _ _ _ _ L1 E1). rewrite (hist_mono f2 (f1 + f2) L2 _ _ _ E2). reflexivity.
Qed.
End E.

Theorem init_gs {P} c (s0 s : inst P) : conv_ok c -> implements P s0 c -> bsdconv_init P s0 = Some s -> gs c s.
Proof.
  intros Hok Him Hi. unfold bsdconv_init in Hi. pose proof (im_len _ _ _ Him) as HLn. destruct (i_phases P s0) as [|ph0 rest] eqn:E0; [discriminate|].
  destruct (init_phase P true ph0) as [p0|] eqn:Ei0; cbn [obind] in Hi; [|discriminate]. destruct (fold_right _ _ rest) as [r|] eqn:Er; cbn [obind] in Hi; [|discriminate]. injection Hi as <-.
  apply init_rest_spec in Er. pose proof (Forall2_len _ _ _ Er) as HL. cbn in HLn.
  constructor; [cbn [i_phases]; change (S (length r) = S (length c)); rewrite <- HL; exact HLn|]. intros p t Ds Hp Hc. cbn [i_phases]. destruct (im_ph _ _ _ Him (p - 1) t Ds Hc) as (th0 & Hth0 & Hty & HF). rewrite E0 in Hth0. cbn in Hth0.
  destruct (Forall2_nth_l _ _ _ Er _ _ Hth0) as (th & Hth & Hini).
  assert (Hin : In (t, Ds) c) by (eapply nth_error_In; exact Hc). destruct (co_types _ Hok t Ds Hin) as (Ht & Hne).
  assert (Hpv : exists pv, nth_error (p0 :: r) (p - 1) = Some pv /\ p_queue P pv = [] /\ p_headlen P pv = 0 /\ tail_ok pv).
  { destruct (p - 1) as [|k] eqn:Ek; [exists p0; split; [reflexivity|]; unfold init_phase in Ei0; injection Ei0 as <-; repeat split|].
    destruct (nth_error r k) as [a|] eqn:Ea; [|apply nth_error_None in Ea; assert (Hk : S k < length c) by (apply nth_error_Some; congruence); assert (HLc : length rest = length c) by (injection HLn as HLn; exact HLn); assert (HLr : length rest = length r) by exact HL; clear -Ea Hk HLc HLr; lia]. exists a. split; [exact Ea|].
    clear -Er Ea. revert k Ea. induction Er as [|x y l l' H HF IH]; intros [|k] Ea; try discriminate; [|eapply IH; exact Ea]. injection Ea as <-. unfold init_phase, reset in H. destruct (p_codecs P _); [discriminate|]. destruct (read_state _ _); [|discriminate]. injection H as <-. repeat split. }
  destruct Hpv as (pv & Hpv & Q1 & Q2 & Q3). exists pv, th. split; [exact Hpv|]. split; [replace p with (S (p - 1)) by lia; exact Hth|].
  assert (HT : Forall2 tok (map (init_codec P) (p_codecs P th0)) Ds).
  { assert (HS : Forall sub_nonempty Ds) by (apply Forall_forall; intros D HD w o; eapply (co_sub _ Hok); eassumption). clear -HF HS. induction HF as [|cd D l l' H HF IH]; [constructor|]. inversion HS; subst. constructor; [|apply IH; assumption]. split; [|assumption]. unfold init_codec. destruct (e_init P cd); exact H. }
  unfold init_phase, reset in Hini. cbn [p_codecs set_codecs set_curr set_match_data set_headlen set_queue set_offset set_flags] in Hini.
  destruct (map (init_codec P) (p_codecs P th0)) as [|c0 cs] eqn:Ecs; [discriminate|]. inversion HT as [|? D0 ? ? HD0]; subst.
  destruct (noded_root _ _ HD0) as (sr & Hsr & Hnr). rewrite Hsr in Hini. injection Hini as <-. split; [reflexivity|].
  constructor; cbn; auto; try discriminate; try lia.
  - intros cx Ec. cbn in Ec. injection Ec as <-. exact Hnr.
  - reflexivity.
Qed.

From Verif Require Import Base Types M_Engine M_Mktable M_Layout.
From Coq Require Import ZifyBool ZifyN ZifyNat.

(** ** Bytes *)
Lemma rd32_le n : (n < 2 ^ 32)%N -> (n mod 256 + 256 * (n / 256 mod 256) + 65536 * (n / 65536 mod 256) + 16777216 * (n / 16777216 mod 256) = n)%N.
Proof.
  intros H. change (2 ^ 32)%N with 4294967296%N in H.
  replace (n / 65536)%N with (n / 256 / 256)%N by (rewrite N.div_div by discriminate; reflexivity).
  replace (n / 16777216)%N with (n / 256 / 256 / 256)%N by (rewrite !N.div_div by discriminate; reflexivity).
  pose proof (N.div_mod n 256 ltac:(discriminate)). pose proof (N.div_mod (n / 256) 256 ltac:(discriminate)). pose proof (N.div_mod (n / 256 / 256) 256 ltac:(discriminate)).
  assert (n / 256 / 256 / 256 < 256)%N by (rewrite !N.div_div by discriminate; apply N.div_lt_upper_bound; [discriminate|exact H]).
  rewrite (N.mod_small (n / 256 / 256 / 256) 256) by assumption. lia.
Qed.
Lemma rd16_le n : (n < 65536)%N -> (n mod 256 + 256 * (n / 256 mod 256) = n)%N.
Proof.
  intros H. pose proof (N.div_mod n 256 ltac:(discriminate)). assert (n / 256 < 256)%N by (apply N.div_lt_upper_bound; [discriminate|exact H]). rewrite (N.mod_small (n / 256) 256) by assumption. lia.
Qed.

(** ** Disjoint writes *)
Definition region := (nat * nat)%type.
Definition area (w : nat * list N) : region := (fst w, length (snd w)).
Definition apart (a b : region) : Prop := fst a + snd a <= fst b \/ fst b + snd b <= fst a.
Lemma apart_sym a b : apart a b -> apart b a. Proof. unfold apart. tauto. Qed.
Definition clean (ws : wlog) : Prop := ForallOrdPairs (fun a b => apart (area a) (area b)) ws.
Lemma FOP_snoc {A} (R : A -> A -> Prop) l x : ForallOrdPairs R l -> Forall (fun y => R y x) l -> ForallOrdPairs R (l ++ [x]).
Proof.
  induction 1 as [|a l H1 H2 IH]; intros HF; cbn; [constructor; [constructor|constructor]|]. inversion HF; subst. constructor; [|apply IH; assumption].
  apply Forall_app. split; [assumption|]. constructor; [assumption|constructor].
Qed.
Lemma clean_snoc ws o bs : clean ws -> Forall (fun w => apart (area w) (o, length bs)) ws -> clean (ws ++ [(o, bs)]).
Proof. intros H HF. apply FOP_snoc; [exact H|]. exact HF. Qed.
Lemma content_in ws o bs i : clean ws -> In (o, bs) ws -> i < length bs -> content ws (o + i) = nth i bs 0%N.
Proof.
  intros HC. unfold content. induction ws as [|w ws IH] using rev_ind; intros Hin Hi; [destruct Hin|].
  rewrite rev_app_distr. cbn [rev app find].
  assert (HC' : clean ws /\ Forall (fun y => apart (area y) (area w)) ws).
  { clear -HC. unfold clean in *. induction ws as [|a ws IH]; [split; constructor|]. cbn in HC. inversion HC as [|? ? H1 H2]; subst. destruct (IH H2) as (I1 & I2). apply Forall_app in H1 as (H1 & H3). inversion H3; subst. split; constructor; assumption. }
  destruct HC' as (HC1 & HC2). apply in_app_or in Hin as [Hin|[->|[]]].
  - rewrite Forall_forall in HC2. specialize (HC2 _ Hin). unfold apart, area in HC2. cbn [fst snd] in HC2.
    destruct (Nat.leb_spec (fst w) (o + i)); destruct (Nat.ltb_spec (o + i) (fst w + length (snd w))); cbn [andb]; try lia; apply IH; assumption.
  - cbn [fst snd]. destruct (Nat.leb_spec o (o + i)); [|lia]. destruct (Nat.ltb_spec (o + i) (o + length bs)); [|lia]. cbn [andb]. replace (o + i - o) with i by lia. reflexivity.
Qed.

(** ** Cells of a data string *)
Fixpoint rest (h : list N) : list N := match h with [] => [] | c :: h' => if (c =? 256)%N then h' else rest h' end.
Lemma rest_len h : length (rest h) <= length h - 1.
Proof. induction h as [|c h IH]; cbn; [lia|]. destruct (c =? 256)%N; lia. Qed.
Lemma cells_piece : forall n h, length h <= n -> h <> [] -> cells h = piece h :: cells (rest h).
Proof.
  induction n as [|n IH]; intros h Hn Hne; [destruct h; [contradiction|cbn in Hn; lia]|]. destruct h as [|c h]; [contradiction|]. cbn in Hn. cbn [cells piece rest].
  destruct (c =? 256)%N; [reflexivity|]. destruct h as [|c' h]; [reflexivity|]. destruct (N.eqb_spec c' 256) as [->|Hc].
  - reflexivity.
  - rewrite (IH (c' :: h)) by (cbn in *; lia || discriminate). cbn [piece rest]. destruct (N.eqb_spec c' 256); [contradiction|]. reflexivity.
Qed.

(** ** The walk, datum by datum *)
Definition cell_step (h : list N) (dq : option (list N)) (w : wst) : wst :=
  let '(w1, j) := begin_cell h dq w in if j then last_len (length (piece h)) w1 else w1.
Lemma walk_mid : forall h l j dq w, walk_data h false l j dq w = walk_data (rest h) true 0 false dq (if j then last_len (l + length (piece h)) w else w).
Proof.
  induction h as [|c h IH]; intros l j dq w.
  - cbn. rewrite Nat.add_0_r. reflexivity.
  - cbn [walk_data rest piece]. destruct (c =? 256)%N; [cbn [length]; rewrite Nat.add_0_r; reflexivity|]. rewrite IH. cbn [length]. rewrite <- plus_n_Sm. reflexivity.
Qed.
Lemma walk_step c h dq w : walk_data (c :: h) true 0 false dq w = walk_data (rest (c :: h)) true 0 false (Some (c :: h)) (cell_step (c :: h) dq w).
Proof.
  cbn [walk_data]. unfold cell_step. destruct (begin_cell (c :: h) dq w) as [w1 j]. cbn [orb rest piece]. destruct (c =? 256)%N.
  - reflexivity.
  - rewrite walk_mid. reflexivity.
Qed.

Lemma node_eqb_refl a : node_eqb a a = true. Proof. unfold node_eqb. destruct (list_eq_dec N.eq_dec a a); congruence. Qed.
Lemma node_eqb_eq a b : node_eqb a b = true <-> a = b. Proof. unfold node_eqb. destruct (list_eq_dec N.eq_dec a b); split; congruence. Qed.
Lemma nset_same {A} (f : list N -> A) h v : nset f h v h = v. Proof. unfold nset. rewrite node_eqb_refl. reflexivity. Qed.
Lemma nset_other {A} (f : list N -> A) h v x : x <> h -> nset f h v x = f x. Proof. intros H. unfold nset. destruct (node_eqb x h) eqn:E; [apply node_eqb_eq in E; contradiction|reflexivity]. Qed.
Lemma on_last_app f l c : on_last f (l ++ [c]) = l ++ [f c].
Proof. induction l as [|a l IH]; [reflexivity|]. destruct l as [|b l]; [reflexivity|]. change (a :: on_last f ((b :: l) ++ [c]) = a :: (b :: l) ++ [f c]). rewrite IH. reflexivity. Qed.

(** What holds of the cells while the states are written: [base] is the end of the states. *)
Record cinv (base : nat) (w : wst) : Prop := {
  ci_pos : 0 < base;
  ci_base : base <= w_off w;
  ci_in : forall c, In c (w_cells w) -> w_noff w (c_node c) = c_off c /\ c_node c <> [] /\ base <= c_off c /\ c_off c + 12 <= w_off w /\
            c_data c = piece (c_node c) /\ c_len c = length (piece (c_node c)) ;
  ci_has : forall h, w_noff w h <> 0 -> exists c, In c (w_cells w) /\ c_node c = h;
  ci_apart : ForallOrdPairs (fun a b => apart (c_off a, 12) (c_off b, 12)) (w_cells w)
}.
(** the cells linked, except possibly that of [x] *)
Definition linked (x : option (list N)) (w : wst) : Prop := forall c, In c (w_cells w) ->
  (rest (c_node c) = [] -> c_next c = 0) /\ (rest (c_node c) <> [] -> Some (c_node c) <> x -> c_next c = w_noff w (rest (c_node c)) /\ w_noff w (rest (c_node c)) <> 0).

Lemma on_last_new (w : wst) h o n : on_last (set_len n) (w_cells w ++ [mkCell h o (piece h) 0 0]) = w_cells w ++ [mkCell h o (piece h) n 0].
Proof. apply on_last_app. Qed.

(** The effect of one step *)
Definition linkq (dq : option (list N)) (v : nat) (l : list cell) : list cell :=
  match dq with Some q => map (fun c => if node_eqb (c_node c) q then set_next v c else c) l | None => l end.
Lemma cell_step_eq h dq w : dq <> Some h ->
  cell_step h dq w =
    if w_noff w h =? 0
    then mkWs (w_off w + 12) (nset (w_noff w) h (w_off w)) (linkq dq (w_off w) (w_cells w) ++ [mkCell h (w_off w) (piece h) (length (piece h)) 0]) (w_out w)
    else mkWs (w_off w) (w_noff w) (linkq dq (w_noff w h) (w_cells w)) (w_out w).
Proof.
  intros Hq. unfold cell_step, begin_cell. destruct (w_noff w h =? 0).
  - destruct dq as [q|]; cbn [w_off w_noff w_cells w_out last_len linkq].
    + unfold last_len. cbn [w_off w_noff w_cells w_out]. rewrite map_app. cbn [map]. destruct (node_eqb (c_node (mkCell h (w_off w) (piece h) 0 0)) q) eqn:E.
      * apply node_eqb_eq in E. cbn in E. congruence.
      * rewrite on_last_app. rewrite nset_same. reflexivity.
    + unfold last_len. cbn [w_off w_noff w_cells w_out]. rewrite on_last_app. reflexivity.
  - destruct dq as [q|]; [reflexivity|]. destruct w; reflexivity.
Qed.
Lemma linkq_in dq v l c : In c (linkq dq v l) -> exists c0, In c0 l /\ c_node c = c_node c0 /\ c_off c = c_off c0 /\ c_data c = c_data c0 /\ c_len c = c_len c0 /\
  (c_next c = c_next c0 \/ Some (c_node c) = dq /\ c_next c = v).
Proof.
  destruct dq as [q|]; cbn [linkq]; [|intros H; exists c; auto 10]. intros H. apply in_map_iff in H as (c0 & <- & Hin). exists c0. split; [assumption|].
  destruct (node_eqb (c_node c0) q) eqn:E; cbn; [|auto 10]. apply node_eqb_eq in E. subst q. repeat split. right. auto.
Qed.
Lemma linkq_in2 dq v l c : In c l -> exists c', In c' (linkq dq v l) /\ c_node c' = c_node c.
Proof. destruct dq as [q|]; cbn [linkq]; [|eauto]. intros H. eexists. split; [apply in_map; exact H|]. cbn. destruct (node_eqb (c_node c) q); reflexivity. Qed.
Lemma linkq_apart dq v l : ForallOrdPairs (fun a b => apart (c_off a, 12) (c_off b, 12)) l -> ForallOrdPairs (fun a b => apart (c_off a, 12) (c_off b, 12)) (linkq dq v l).
Proof.
  destruct dq as [q|]; cbn [linkq]; [|auto]. induction 1 as [|a l H1 H2 IH]; cbn [map]; constructor; [|exact IH]. apply Forall_map. eapply Forall_impl; [|exact H1].
  intros b Hb. destruct (node_eqb (c_node a) q), (node_eqb (c_node b) q); exact Hb.
Qed.
Lemma linkq_dq q v l c : In c (linkq (Some q) v l) -> c_node c = q -> c_next c = v.
Proof. cbn [linkq]. intros H E. apply in_map_iff in H as (c0 & <- & Hin). destruct (node_eqb (c_node c0) q) eqn:K; [reflexivity|]. cbn in E. subst q. rewrite node_eqb_refl in K. discriminate. Qed.

Lemma cell_step_inv base h dq w : h <> [] -> cinv base w -> linked dq w -> (forall q, dq = Some q -> rest q = h) -> dq <> Some h ->
  let w' := cell_step h dq w in
  cinv base w' /\ linked (Some h) w' /\ w_out w' = w_out w /\ w_noff w' h <> 0 /\ w_off w <= w_off w' /\
  (forall x, w_noff w x <> 0 -> w_noff w' x = w_noff w x) /\
  (forall c, In c (w_cells w') -> (exists c0, In c0 (w_cells w) /\ c_off c0 = c_off c) \/ w_off w <= c_off c).
Proof.
  intros Hh HI HL Hr Hq. cbv zeta. rewrite cell_step_eq by assumption. pose proof (ci_base _ _ HI) as HB. pose proof (ci_pos _ _ HI) as HP. destruct (Nat.eqb_spec (w_noff w h) 0) as [E0|E0].
  - assert (Hnew : forall c, In c (w_cells w) -> c_node c <> h).
    { intros c Hc E. destruct (ci_in _ _ HI c Hc) as (A & _ & B & _). rewrite E in A. lia. }
    split; [|split; [|split; [reflexivity|split; [cbn; rewrite nset_same; lia|split; [cbn; lia|split]]]]].
    + split; cbn [w_off w_noff w_cells w_out]; [assumption|lia| | |].
      * intros c Hc. apply in_app_or in Hc as [Hc|[<-|[]]].
        -- apply linkq_in in Hc as (c0 & Hc0 & E1 & E2 & E3 & E4 & _). destruct (ci_in _ _ HI c0 Hc0) as (A1 & A2 & A3 & A4 & A5 & A6). rewrite E1, E2, E3, E4. rewrite nset_other by (apply Hnew; assumption). repeat split; try assumption; lia.
        -- cbn. rewrite nset_same. repeat split; try assumption; lia.
      * intros x Hx. destruct (list_eq_dec N.eq_dec x h) as [->|Hne].
        -- eexists. split; [apply in_or_app; right; left; reflexivity|reflexivity].
        -- rewrite nset_other in Hx by assumption. destruct (ci_has _ _ HI x Hx) as (c & Hc & <-). destruct (linkq_in2 dq (w_off w) _ c Hc) as (c' & Hc' & Hn). exists c'. split; [apply in_or_app; left; assumption|assumption].
      * apply FOP_snoc; [apply linkq_apart, (ci_apart _ _ HI)|]. apply Forall_forall. intros c Hc. apply linkq_in in Hc as (c0 & Hc0 & _ & E2 & _). destruct (ci_in _ _ HI c0 Hc0) as (_ & _ & _ & A4 & _). rewrite E2. left. cbn. lia.
    + intros c Hc. cbn [w_off w_noff w_cells w_out] in *. apply in_app_or in Hc as [Hc|[<-|[]]].
      * pose proof (linkq_in _ _ _ _ Hc) as (c0 & Hc0 & E1 & E2 & E3 & E4 & E5). destruct (HL c0 Hc0) as (L1 & L2). rewrite E1. split.
        -- intros H0. destruct E5 as [E5|(E5 & _)]; [rewrite E5; auto|]. exfalso. rewrite E1 in E5. specialize (Hr (c_node c0) (eq_sym E5)). congruence.
        -- intros H0 H1. destruct dq as [q|].
           ++ destruct (list_eq_dec N.eq_dec (c_node c0) q) as [<-|Hne].
              ** rewrite (linkq_dq _ _ _ _ Hc E1). rewrite (Hr _ eq_refl). rewrite nset_same. split; [reflexivity|lia].
              ** assert (Hx : Some (c_node c0) <> Some q) by congruence. destruct (L2 H0 Hx) as (M1 & M2). destruct E5 as [E5|(E5 & _)]; [|congruence]. rewrite E5. rewrite nset_other by congruence. auto.
           ++ destruct (L2 H0 ltac:(discriminate)) as (M1 & M2). destruct E5 as [E5|(E5 & _)]; [|discriminate]. rewrite E5. rewrite nset_other by congruence. auto.
      * cbn. split; [reflexivity|]. congruence.
    + cbn [w_noff]. intros x Hx. apply nset_other. congruence.
    + cbn [w_cells]. intros c Hc. apply in_app_or in Hc as [Hc|[<-|[]]]; [left|right; cbn; lia]. apply linkq_in in Hc as (c0 & Hc0 & _ & E2 & _). exists c0. auto.
  - split; [|split; [|split; [reflexivity|split; [exact E0|split; [cbn; lia|split]]]]].
    + split; cbn [w_off w_noff w_cells w_out]; [assumption|lia| | |].
      * intros c Hc. apply linkq_in in Hc as (c0 & Hc0 & E1 & E2 & E3 & E4 & _). destruct (ci_in _ _ HI c0 Hc0) as (A1 & A2 & A3 & A4 & A5 & A6). rewrite E1, E2, E3, E4. repeat split; assumption.
      * intros x Hx. destruct (ci_has _ _ HI x Hx) as (c & Hc & <-). apply linkq_in2. assumption.
      * apply linkq_apart, (ci_apart _ _ HI).
    + intros c Hc. cbn [w_off w_noff w_cells w_out] in *. pose proof (linkq_in _ _ _ _ Hc) as (c0 & Hc0 & E1 & E2 & E3 & E4 & E5). destruct (HL c0 Hc0) as (L1 & L2). rewrite E1. split.
      * intros H0. destruct E5 as [E5|(E5 & _)]; [rewrite E5; auto|]. exfalso. rewrite E1 in E5. specialize (Hr (c_node c0) (eq_sym E5)). congruence.
      * intros H0 H1. destruct dq as [q|].
        -- destruct (list_eq_dec N.eq_dec (c_node c0) q) as [<-|Hne].
           ++ rewrite (linkq_dq _ _ _ _ Hc E1). rewrite (Hr _ eq_refl). split; [reflexivity|exact E0].
           ++ assert (Hx : Some (c_node c0) <> Some q) by congruence. destruct (L2 H0 Hx) as (M1 & M2). destruct E5 as [E5|(E5 & _)]; [|congruence]. rewrite E5. auto.
        -- destruct (L2 H0 ltac:(discriminate)) as (M1 & M2). destruct E5 as [E5|(E5 & _)]; [|discriminate]. rewrite E5. auto.
    + reflexivity.
    + cbn [w_cells]. intros c Hc. left. apply linkq_in in Hc as (c0 & Hc0 & _ & E2 & _). exists c0. auto.
Qed.

Lemma walk_inv base : forall n h dq w, length h <= n -> cinv base w -> linked dq w -> (forall q, dq = Some q -> rest q = h) -> (forall q, dq = Some q -> length h < length q) ->
  let w' := walk_data h true 0 false dq w in
  cinv base w' /\ linked None w' /\ w_out w' = w_out w /\ (h <> [] -> w_noff w' h <> 0) /\ w_off w <= w_off w' /\
  (forall x, w_noff w x <> 0 -> w_noff w' x = w_noff w x) /\
  (forall c, In c (w_cells w') -> (exists c0, In c0 (w_cells w) /\ c_off c0 = c_off c) \/ w_off w <= c_off c).
Proof.
  induction n as [|n IH]; intros h dq w Hn HI HL Hr Hlt; cbv zeta.
  1: destruct h; [|cbn in Hn; lia].
  2: destruct h as [|c h].
  1,2: cbn [walk_data]; split; [exact HI|]; split; [|split; [reflexivity|split; [congruence|split; [lia|split; [reflexivity|intros c Hc; left; eauto]]]]].
  1,2: intros c Hc; destruct (HL c Hc) as (L1 & L2); split; [exact L1|]; intros H0 _; apply L2; [exact H0|]; intros E; specialize (Hr _ (eq_sym E)); congruence.
  rewrite walk_step. assert (Hq : dq <> Some (c :: h)) by (intros E; specialize (Hlt _ E); lia).
  destruct (cell_step_inv base (c :: h) dq w ltac:(discriminate) HI HL Hr Hq) as (S1 & S2 & S3 & S4 & S5 & S6 & S7).
  pose proof (rest_len (c :: h)) as RL. cbn [length] in RL, Hn.
  destruct (IH (rest (c :: h)) (Some (c :: h)) (cell_step (c :: h) dq w)) as (I1 & I2 & I3 & _ & I5 & I6 & I7); [lia|assumption|assumption|intros q E; congruence|intros q E; injection E as <-; cbn [length]; lia|].
  split; [exact I1|]. split; [exact I2|]. split; [congruence|]. split; [intros _; rewrite I6 by assumption; assumption|]. split; [lia|].
  split; [intros x Hx; rewrite I6, S6 by (rewrite ?S6; assumption); reflexivity|].
  intros c0 Hc0. destruct (I7 c0 Hc0) as [(c1 & Hc1 & E1)|Hge]; [|right; lia]. destruct (S7 c1 Hc1) as [(c2 & Hc2 & E2)|Hge]; [left; exists c2; split; [assumption|congruence]|right; lia].
Qed.

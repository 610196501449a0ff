(** The table compiler: compiled tables implement their source. *)
From Coq Require Import ZifyBool ZifyN ZifyNat.
From Verif Require Import Base Types M_Engine M_Mktable S_Dict S_Engine S_Table S_Source P_Dict P_Mktable P_Mktable2.

(** level of a word with respect to a pattern *)
Fixpoint plev (ci : bool) (p : list (N * N)) (w : list N) : option nat :=
  match p, w with
  | [], [] => Some 0
  | (lo, hi) :: p', c :: w' =>
      if (c <=? 256)%N then match sel ci lo hi c, plev ci p' w' with Some d, Some e => Some (d + e) | _, _ => None end else None
  | _, _ => None
  end.
Lemma plev_len ci : forall p w e, plev ci p w = Some e -> length w = length p.
Proof.
  induction p as [|[lo hi] p IH]; intros [|c w] e; cbn; try discriminate; [reflexivity|]. destruct (c <=? 256)%N; [|discriminate]. destruct (sel ci lo hi c); [|discriminate]. destruct (plev ci p w) eqn:E; [|discriminate]. intros _. f_equal. eapply IH. exact E.
Qed.

Lemma reach_spec ci : forall p ws v lv, In (v, lv) (reach ci ws p) <-> exists t u e, In t ws /\ v = fst t ++ u /\ plev ci p u = Some e /\ lv = snd t + e.
Proof.
  induction p as [|[lo hi] p IH]; intros ws v lv; cbn [reach].
  - split.
    + intros H. exists (v, lv), [], 0. cbn. rewrite app_nil_r. auto.
    + intros (t & u & e & Ht & -> & Hp & ->). destruct u; [|discriminate]. injection Hp as <-. rewrite app_nil_r, Nat.add_0_r. destruct t; exact Ht.
  - rewrite IH. split.
    + intros (t & u & e & Ht & -> & Hp & ->). apply in_flat_map in Ht as (t0 & Ht0 & Ht). apply in_flat_map in Ht as (c & Hc & Ht). destruct (sel ci lo hi c) as [d|] eqn:Es; cbn in Ht; [|contradiction]. destruct Ht as [<-|[]].
      exists t0, (c :: u), (d + e). cbn. rewrite <- app_assoc. apply syms_in in Hc. replace (c <=? 256)%N with true by lia. rewrite Es, Hp. repeat split; auto. lia.
    + intros (t & u & e & Ht & -> & Hp & ->). destruct u as [|c u]; [discriminate|]. cbn in Hp. destruct (c <=? 256)%N eqn:Ec; [|discriminate]. destruct (sel ci lo hi c) as [d|] eqn:Es; [|discriminate]. destruct (plev ci p u) as [e'|] eqn:Ep; [|discriminate]. injection Hp as <-.
      exists (fst t ++ [c], snd t + d), u, e'. cbn. rewrite <- app_assoc. repeat split; auto; [|lia]. apply in_flat_map. exists t. split; [exact Ht|]. apply in_flat_map. exists c. split; [apply syms_in; lia|]. rewrite Es. left. reflexivity.
Qed.

Lemma inner_spec ci : forall p ws v, In v (map fst (inner ci ws p)) <-> exists t u e, In t ws /\ v = fst t ++ u /\ u <> [] /\ length u < length p /\ plev ci (firstn (length u) p) u = Some e.
Proof.
  induction p as [|[lo hi] p IH]; intros ws v.
  - cbn. split; [intros []|]. intros (t & u & e & _ & _ & _ & H & _). lia.
  - destruct p as [|b p].
    + cbn. split; [intros []|]. intros (t & u & e & _ & _ & Hu & H & _). destruct u; [contradiction|cbn in H; lia].
    + change (inner ci ws ((lo, hi) :: b :: p)) with (extend ci lo hi ws ++ inner ci (extend ci lo hi ws) (b :: p)). rewrite map_app, in_app_iff, IH.
      assert (HE : forall t, In t (extend ci lo hi ws) <-> exists t0 c d, In t0 ws /\ (c <= 256)%N /\ sel ci lo hi c = Some d /\ t = (fst t0 ++ [c], snd t0 + d)).
      { intros t. unfold extend. rewrite in_flat_map. split.
        - intros (t0 & Ht0 & Ht). apply in_flat_map in Ht as (c & Hc & Ht). destruct (sel ci lo hi c) as [d|] eqn:Es; cbn in Ht; [|contradiction]. destruct Ht as [<-|[]]. exists t0, c, d. apply syms_in in Hc. auto.
        - intros (t0 & c & d & Ht0 & Hc & Es & ->). exists t0. split; [exact Ht0|]. apply in_flat_map. exists c. split; [apply syms_in; exact Hc|]. rewrite Es. left. reflexivity. }
      split.
      * intros [H|(t & u & e & Ht & -> & Hu & Hl & Hp)].
        -- apply in_map_iff in H as (t & <- & Ht). apply HE in Ht as (t0 & c & d & Ht0 & Hc & Es & ->). exists t0, [c], (d + 0). cbn. replace (c <=? 256)%N with true by lia. rewrite Es. repeat split; auto; [discriminate|lia].
        -- apply HE in Ht as (t0 & c & d & Ht0 & Hc & Es & ->). exists t0, (c :: u), (d + e). cbn [fst]. rewrite <- app_assoc. cbn [app length firstn plev]. replace (c <=? 256)%N with true by lia. rewrite Es, Hp. cbn [length] in Hl. repeat split; auto; [discriminate|lia].
      * intros (t & u & e & Ht & -> & Hu & Hl & Hp). destruct u as [|c u]; [contradiction|]. cbn [length firstn plev] in Hp, Hl. destruct (c <=? 256)%N eqn:Ec; [|discriminate]. destruct (sel ci lo hi c) as [d|] eqn:Es; [|discriminate]. destruct (plev ci (firstn (length u) (b :: p)) u) as [e'|] eqn:Ep; [|discriminate].
        destruct u as [|c' u].
        -- left. apply in_map_iff. exists (fst t ++ [c], snd t + d). split; [reflexivity|]. apply HE. exists t, c, d. repeat split; auto. lia.
        -- right. exists (fst t ++ [c], snd t + d), (c' :: u), e'. cbn [fst]. rewrite <- app_assoc. split; [apply HE; exists t, c, d; repeat split; auto; lia|]. split; [reflexivity|]. split; [discriminate|]. cbn [length] in *. split; [lia|exact Ep].
Qed.

(** The effect of a line on the entry of one word. *)
Definition line_eff (ln : sline) (v : list N) (a : option info) : option info :=
  match plev (sl_ci ln) (sl_pat ln) v with
  | Some e => Some (leaf_eff (sl_out ln) (S e) a)
  | None => if negb (length v =? 0) && (length v <? length (sl_pat ln)) then
              match plev (sl_ci ln) (firstn (length v) (sl_pat ln)) v with Some _ => Some (int_eff a) | None => a end
            else a
  end.

Lemma add_line_inf l cbs ln : good l -> sl_pat ln <> [] -> sl_cb ln = false ->
  exists l', add_line (mkMk l cbs) ln = mkMk l' cbs /\ good l' /\ forall v, inf l' v = line_eff ln v (inf l v).
Proof.
  intros G HP Hc. destruct (add_line_eff l cbs ln G HP Hc) as (l' & lm & E & G' & (A1 & A2) & (B1 & B2)). exists l'. split; [exact E|]. split; [exact G'|].
  intros v. unfold line_eff.
  assert (HR : forall lv, In (v, lv) (reach (sl_ci ln) [([], 1)] (sl_pat ln)) <-> exists e, plev (sl_ci ln) (sl_pat ln) v = Some e /\ lv = S e).
  { intros lv. rewrite reach_spec. split.
    - intros (t & u & e & [<-|[]] & -> & H & ->). cbn. eauto.
    - intros (e & H & ->). exists ([], 1), v, e. cbn. auto. }
  assert (HI : In v (map fst (inner (sl_ci ln) [([], 1)] (sl_pat ln))) <-> v <> [] /\ length v < length (sl_pat ln) /\ exists e, plev (sl_ci ln) (firstn (length v) (sl_pat ln)) v = Some e).
  { rewrite inner_spec. split.
    - intros (t & u & e & [<-|[]] & -> & H1 & H2 & H3). cbn. eauto.
    - intros (H1 & H2 & e & H3). exists ([], 1), v, e. cbn. auto. }
  destruct (plev (sl_ci ln) (sl_pat ln) v) as [e|] eqn:Ep.
  - rewrite (B1 v (S e)) by (apply HR; eauto). rewrite A2; [reflexivity|]. rewrite HI. intros (_ & H & _). apply plev_len in Ep. lia.
  - rewrite B2. 2:{ intros H. apply in_map_iff in H as ((v' & lv) & E' & Hin). cbn in E'. subst v'. apply HR in Hin as (e & H & _). congruence. }
    destruct (in_dec (list_eq_dec N.eq_dec) v (map fst (inner (sl_ci ln) [([], 1)] (sl_pat ln)))) as [Hin|Hn].
    + pose proof Hin as Hin'. apply in_map_iff in Hin' as ((v' & lv) & E' & Hin'). cbn in E'. subst v'. rewrite (A1 _ _ Hin'). apply HI in Hin as (H1 & H2 & e & H3).
      replace (length v =? 0) with false by (symmetry; apply Nat.eqb_neq; destruct v; [contradiction|cbn; lia]). replace (length v <? length (sl_pat ln)) with true by (symmetry; apply Nat.ltb_lt; exact H2). cbn [negb andb]. rewrite H3. reflexivity.
    + rewrite A2 by exact Hn. destruct (Nat.eqb_spec (length v) 0) as [|Hv0]; cbn [negb andb]; [reflexivity|]. destruct (Nat.ltb_spec (length v) (length (sl_pat ln))) as [Hlt|]; [|reflexivity].
      destruct (plev (sl_ci ln) (firstn (length v) (sl_pat ln)) v) eqn:E2; [|reflexivity]. exfalso. apply Hn. apply HI. split; [intros ->; cbn in Hv0; lia|]. eauto.
Qed.

Lemma good0 : good [state_new DEADEND].
Proof.
  constructor; cbn; [lia| | | |]; intros [|s]; cbn; try lia; try discriminate.
  intros _. split; discriminate.
Qed.

Lemma build_inf_go : forall lines l cbs, good l -> Forall (fun ln => sl_pat ln <> [] /\ sl_cb ln = false) lines ->
  exists l', fold_left add_line lines (mkMk l cbs) = mkMk l' cbs /\ good l' /\ forall v, inf l' v = fold_left (fun a ln => line_eff ln v a) lines (inf l v).
Proof.
  induction lines as [|ln lines IH]; intros l cbs G HF; [exists l; auto|]. inversion HF as [|? ? (H1 & H2) HF']; subst.
  destruct (add_line_inf l cbs ln G H1 H2) as (l1 & E1 & G1 & I1). cbn [fold_left]. rewrite E1. destruct (IH l1 cbs G1 HF') as (l2 & E2 & G2 & I2).
  exists l2. split; [exact E2|]. split; [exact G2|]. intros v. rewrite I2, I1. reflexivity.
Qed.
Lemma build_inf lines : Forall (fun ln => sl_pat ln <> [] /\ sl_cb ln = false) lines -> good (build lines) /\
  forall v, inf (build lines) v = fold_left (fun a ln => line_eff ln v a) lines (match v with [] => Some (DEADEND, [], 0) | _ => None end).
Proof.
  intros H. destruct (build_inf_go lines _ [] good0 H) as (l' & E & G & I). unfold build, mk0. rewrite E. split; [exact G|]. intros v. cbn [k_states]. rewrite I. destruct v as [|c v]; [reflexivity|]. reflexivity.
Qed.

(** *** walking the table *)
Lemma get_offset_kid s c : (forall k, kid s c = Some k -> (m_beg s <= c < m_end s)%N) -> get_offset (to_tstate s) c = Some (kid_off s c).
Proof.
  intros H. unfold get_offset. cbn [to_tstate t_beg t_end t_kids]. destruct (N.leb_spec (m_beg s) c); destruct (N.ltb_spec c (m_end s)); cbn [andb].
  2,3,4: unfold kid_off; destruct (kid s c) as [k|] eqn:E; [specialize (H k eq_refl); lia|reflexivity].
  rewrite nth_error_map. rewrite (nth_error_nth' _ 0) by (rewrite seq_length; lia). rewrite seq_nth by lia. cbn. f_equal. f_equal. lia.
Qed.
Lemma read_to_table l n : n < length l -> read_state (to_table l) n = Some (to_tstate (get l n)).
Proof.
  intros H. unfold read_state, to_table. rewrite nth_error_map. rewrite (nth_error_nth' _ (state_new DEADEND)) by exact H. reflexivity.
Qed.
Lemma walk_path l (G : good l) : forall w n, n < length l -> walk_from (to_table l) n w = match path_from l n w with Some k => WAt k | None => WDead end.
Proof.
  induction w as [|c w IH]; intros n Hn; [reflexivity|]. cbn [walk_from path_from]. rewrite read_to_table by exact Hn. rewrite get_offset_kid by (intros k; apply (g_rng l G); exact Hn).
  unfold kid_off. destruct (kid (get l n) c) as [k|] eqn:E; [|reflexivity]. pose proof (g_kid l G n c k Hn E). destruct k; [lia|]. apply IH. lia.
Qed.

(** *** plain lines *)
Lemma sel_plain lo hi c : sel false lo hi c = if ((lo <=? c) && (c <=? hi))%N then Some 1 else None.
Proof. unfold sel. destruct (_ && _)%N; reflexivity. Qed.

Lemma range_in lo hi c : In c (range lo hi) <-> (lo <= c <= hi /\ c <= 256)%N.
Proof. unfold range. rewrite filter_In. change (map N.of_nat (seq 0 257)) with syms. rewrite syms_in. lia. Qed.
Lemma words_in : forall p w, In w (words p) <-> plev false p w = Some (length p).
Proof.
  induction p as [|[lo hi] p IH]; intros [|c w]; cbn [words plev length].
  - cbn. intuition.
  - cbn. intuition discriminate.
  - rewrite in_flat_map. split; [|discriminate]. intros (c & _ & H). apply in_map_iff in H as (x & E & _). discriminate.
  - rewrite in_flat_map. rewrite sel_plain. split.
    + intros (c' & Hc & H). apply in_map_iff in H as (x & E & Hx). injection E as -> ->. apply range_in in Hc. apply IH in Hx. replace (c <=? 256)%N with true by lia. replace ((lo <=? c) && (c <=? hi))%N with true by lia. rewrite Hx. reflexivity.
    + destruct (c <=? 256)%N eqn:E1; [|discriminate]. destruct ((lo <=? c) && (c <=? hi))%N eqn:E2; [|discriminate]. destruct (plev false p w) as [e|] eqn:Ep; [|discriminate]. intros H. cbn in H. injection H as ->. exists c. split; [apply range_in; lia|]. apply in_map. apply IH. exact Ep.
Qed.
Lemma plev_plain : forall p w e, plev false p w = Some e -> e = length p.
Proof.
  induction p as [|[lo hi] p IH]; intros [|c w] e; cbn; try discriminate; [congruence|]. destruct (c <=? 256)%N; [|discriminate]. rewrite sel_plain. destruct (_ && _)%N; [|discriminate]. destruct (plev false p w) eqn:E; [|discriminate]. intros H. injection H as <-. cbn. f_equal. eapply IH. exact E.
Qed.
Lemma words_nonempty : forall p, Forall (fun r => (fst r <= snd r /\ snd r <= 256)%N) p -> exists w, In w (words p).
Proof.
  induction 1 as [|[lo hi] p H HF (w & IH)]; [exists []; left; reflexivity|]. cbn in H. exists (lo :: w). cbn [words]. apply in_flat_map. exists lo. split; [apply range_in; lia|]. apply in_map. exact IH.
Qed.
Lemma words_split : forall p u x, In (u ++ x) (words p) <-> In u (words (firstn (length u) p)) /\ In x (words (skipn (length u) p)).
Proof.
  induction p as [|[lo hi] p IH]; intros u x.
  - rewrite firstn_nil, skipn_nil. cbn. split; [intros [H|[]]; symmetry in H; apply app_eq_nil in H as (-> & ->); auto|]. intros ([<-|[]] & [<-|[]]). auto.
  - destruct u as [|c u]; [cbn [app length firstn skipn]; cbn [words]; intuition; left; reflexivity|]. cbn [app length firstn skipn words]. rewrite !in_flat_map. split.
    + intros (c' & Hc & H). apply in_map_iff in H as (y & E & Hy). injection E as -> ->. apply IH in Hy as (H1 & H2). split; [|exact H2]. exists c. split; [exact Hc|]. apply in_map. exact H1.
    + intros ((c' & Hc & H) & H2). apply in_map_iff in H as (y & E & Hy). injection E as -> ->. exists c. split; [exact Hc|]. apply in_map. apply IH. auto.
Qed.

Definition line_dict (ln : sline) : dict := map (fun w => (w, cells (sl_out ln))) (words (sl_pat ln)).
Lemma lookup_app D1 D2 w : lookup (D1 ++ D2) w = match lookup D1 w with Some o => Some o | None => lookup D2 w end.
Proof. induction D1 as [|[k o] D1 IH]; [reflexivity|]. cbn. destruct (eqb_syms k w); [reflexivity|exact IH]. Qed.
Lemma longer_app D1 D2 w : has_longer (D1 ++ D2) w = has_longer D1 w || has_longer D2 w.
Proof. apply existsb_app. Qed.
Lemma prefix_app D1 D2 w : has_prefix (D1 ++ D2) w = has_prefix D1 w || has_prefix D2 w.
Proof. apply existsb_app. Qed.

Lemma eqb_syms_eq : forall a b, eqb_syms a b = true <-> a = b.
Proof. induction a as [|x a IH]; intros [|y b]; cbn; split; try discriminate; try reflexivity. - intros H. apply andb_prop in H as (H1 & H2). apply N.eqb_eq in H1. apply IH in H2. congruence. - intros H. injection H as -> ->. rewrite N.eqb_refl. apply IH. reflexivity. Qed.
Lemma is_prefix_app : forall a b, is_prefix a b = true <-> exists x, b = a ++ x.
Proof. induction a as [|x a IH]; intros b; cbn; [split; eauto|]. destruct b as [|y b]; [split; [discriminate|intros (z & E); discriminate]|]. rewrite andb_true_iff, N.eqb_eq, IH. split; [intros (-> & z & ->); eauto|]. intros (z & E). injection E as -> ->. eauto. Qed.

Lemma line_lookup ln w : lookup (line_dict ln) w = match plev false (sl_pat ln) w with Some _ => Some (cells (sl_out ln)) | None => None end.
Proof.
  unfold line_dict. assert (H : forall L, lookup (map (fun w => (w, cells (sl_out ln))) L) w = if in_dec (list_eq_dec N.eq_dec) w L then Some (cells (sl_out ln)) else None).
  { induction L as [|x L IH]; [reflexivity|]. cbn [map lookup]. rewrite IH. destruct (eqb_syms x w) eqn:E.
    - apply eqb_syms_eq in E. subst x. destruct (in_dec _ w (w :: L)) as [|n]; [reflexivity|]. exfalso. apply n. left. reflexivity.
    - destruct (in_dec _ w L) as [i|n]; destruct (in_dec _ w (x :: L)) as [i'|n']; try reflexivity; [exfalso; apply n'; right; exact i|]. destruct i' as [->|i']; [|contradiction]. assert (eqb_syms w w = true) by (apply eqb_syms_eq; reflexivity). congruence. }
  rewrite H. destruct (in_dec _ w (words (sl_pat ln))) as [i|n].
  - apply words_in in i. rewrite i. reflexivity.
  - destruct (plev false (sl_pat ln) w) as [e|] eqn:E; [|reflexivity]. exfalso. apply n. apply words_in. rewrite E. f_equal. eapply plev_plain. exact E.
Qed.

Definition properly (ln : sline) (v : list N) : bool := (length v <? length (sl_pat ln)) && match plev false (firstn (length v) (sl_pat ln)) v with Some _ => true | None => false end.
Lemma line_longer ln w : plain ln -> has_longer (line_dict ln) w = properly ln w.
Proof.
  intros HP. apply eq_true_iff_eq. unfold has_longer, line_dict, properly. rewrite existsb_exists, andb_true_iff, Nat.ltb_lt. split.
  - intros ((k & o) & Hin & H). apply in_map_iff in Hin as (x & E & Hx). injection E as -> _. cbn [fst] in H. apply andb_prop in H as (H1 & H2). apply is_prefix_app in H1 as (y & ->).
    pose proof Hx as Hx'. apply words_in in Hx'. apply plev_len in Hx'. rewrite app_length in Hx'. destruct y as [|c y]; [rewrite app_nil_r in H2; assert (eqb_syms w w = true) by (apply eqb_syms_eq; reflexivity); rewrite H in H2; discriminate|].
    cbn in Hx'. split; [lia|]. apply words_split in Hx as (Hx1 & _). apply words_in in Hx1. rewrite Hx1. reflexivity.
  - intros (H1 & H2). destruct (plev false (firstn (length w) (sl_pat ln)) w) as [e|] eqn:E; [|discriminate]. clear H2.
    assert (Hw : In w (words (firstn (length w) (sl_pat ln)))) by (apply words_in; rewrite E; f_equal; eapply plev_plain; exact E).
    destruct (words_nonempty (skipn (length w) (sl_pat ln))) as (y & Hy). { pose proof (pl_rng _ HP) as HR. rewrite <- (firstn_skipn (length w) (sl_pat ln)) in HR. apply Forall_app in HR. apply HR. }
    exists (w ++ y, cells (sl_out ln)). split; [apply in_map_iff; exists (w ++ y); split; [reflexivity|]; apply words_split; auto|]. cbn [fst]. apply andb_true_iff. split; [apply is_prefix_app; eauto|].
    apply negb_true_iff. destruct (eqb_syms w (w ++ y)) eqn:E3; [|reflexivity]. apply eqb_syms_eq in E3. apply words_in, plev_len in Hy. rewrite skipn_length in Hy. apply (f_equal (@length N)) in E3. rewrite app_length in E3. lia.
Qed.
Lemma prefix_iff D w : has_prefix D w = (match lookup D w with Some _ => true | None => false end) || has_longer D w.
Proof.
  induction D as [|[k o] D IH]; [reflexivity|]. cbn [has_prefix lookup has_longer existsb fst] in *. unfold has_prefix, has_longer in *. rewrite IH. destruct (eqb_syms k w) eqn:E1.
  - apply eqb_syms_eq in E1. subst k. assert (H : is_prefix w w = true) by (apply is_prefix_app; exists []; rewrite app_nil_r; reflexivity). rewrite H. reflexivity.
  - assert (H : eqb_syms w k = false) by (destruct (eqb_syms w k) eqn:E2; [apply eqb_syms_eq in E2; subst; assert (eqb_syms k k = true) by (apply eqb_syms_eq; reflexivity); congruence|reflexivity]). rewrite H, andb_true_r.
    destruct (is_prefix w k); destruct (lookup D w); cbn; auto; rewrite ?orb_true_r; reflexivity.
Qed.

(** The state of a word after a list of plain lines. *)
Definition agrees (D : dict) (v : list N) (a : option info) : Prop :=
  match lookup D v, has_longer D v with
  | None, false => a = None
  | None, true => a = Some (CONTINUE, [], 0)
  | Some o, m => exists d, cells d = o /\ a = Some (if m then SUBMATCH else MATCH, d, S (length v))
  end.

Lemma line_agrees D ln v a : v <> [] -> plain ln -> agrees D v a -> agrees (D ++ line_dict ln) v (line_eff ln v a).
Proof.
  intros Hv HP H. unfold agrees, line_eff in *. rewrite lookup_app, longer_app, line_lookup, line_longer by exact HP. rewrite (pl_ci _ HP). unfold properly.
  replace (length v =? 0) with false by (symmetry; apply Nat.eqb_neq; destruct v; [contradiction|cbn; lia]). cbn [negb andb].
  destruct (plev false (sl_pat ln) v) as [e|] eqn:Ep.
  - pose proof (plev_plain _ _ _ Ep) as ->. pose proof (plev_len _ _ _ _ Ep) as HL. replace (length v <? length (sl_pat ln)) with false by (symmetry; apply Nat.ltb_ge; lia). cbn [andb]. rewrite orb_false_r, <- HL.
    destruct (lookup D v) as [o|].
    + destruct H as (d & Hd & ->). exists d. split; [exact Hd|]. unfold leaf_eff. destruct (has_longer D v); rewrite Nat.leb_refl; reflexivity.
    + exists (sl_out ln). split; [reflexivity|]. destruct (has_longer D v); subst a; reflexivity.
  - destruct (length v <? length (sl_pat ln)); cbn [andb].
    2:{ rewrite orb_false_r. destruct (lookup D v); [exact H|]. destruct (has_longer D v); exact H. }
    destruct (plev false (firstn (length v) (sl_pat ln)) v); cbn.
    2:{ rewrite orb_false_r. destruct (lookup D v); [exact H|]. destruct (has_longer D v); exact H. }
    rewrite orb_true_r. destruct (lookup D v) as [o|].
    + destruct H as (d & Hd & ->). exists d. split; [exact Hd|]. destruct (has_longer D v); reflexivity.
    + destruct (has_longer D v); subst a; reflexivity.
Qed.

Lemma source_snoc lines ln : source_dict (lines ++ [ln]) = source_dict lines ++ line_dict ln.
Proof. unfold source_dict. rewrite flat_map_app. cbn. rewrite app_nil_r. reflexivity. Qed.

Lemma lines_agree v : v <> [] -> forall lines, Forall plain lines -> agrees (source_dict lines) v (fold_left (fun a ln => line_eff ln v a) lines None).
Proof.
  intros Hv. induction lines as [|ln lines IH] using rev_ind; intros HF; [reflexivity|]. apply Forall_app in HF as (H1 & H2). inversion H2; subst.
  rewrite fold_left_app, source_snoc. cbn [fold_left]. apply line_agrees; auto.
Qed.
Lemma lines_root lines : Forall plain lines -> forall a, fold_left (fun a ln => line_eff ln [] a) lines a = a.
Proof.
  induction 1 as [|ln lines H HF IH]; intros a; [reflexivity|]. cbn [fold_left]. unfold line_eff at 2. destruct (sl_pat ln) as [|[lo hi] p] eqn:E; [destruct (pl_pat _ H E)|]. cbn. apply IH.
Qed.

Theorem build_implements lines : Forall plain lines -> timpl (to_table (build lines)) (source_dict lines).
Proof.
  intros HF. destruct (build_inf lines) as (G & HI). { eapply Forall_impl; [|exact HF]. intros ln H. split; [apply (pl_pat _ H)|apply (pl_cb _ H)]. }
  constructor.
  - rewrite read_to_table by (pose proof (g_len _ G); lia). eexists. split; [reflexivity|]. specialize (HI []). rewrite lines_root in HI by exact HF. unfold inf in HI. cbn in HI. injection HI as HI _ _. exact HI.
  - intros w Hw. unfold walk. rewrite (walk_path _ G) by (pose proof (g_len _ G); lia). specialize (HI w). destruct w as [|c w]; [contradiction|]. set (v := c :: w) in *.
    pose proof (lines_agree v Hw lines HF) as HA. rewrite <- HI in HA. unfold agrees, inf, path in HA. rewrite prefix_iff.
    destruct (path_from (build lines) 0 v) as [k|] eqn:Ep; cbn [option_map] in HA.
    + assert (Hk : k < length (build lines)) by (eapply (path_lt _ G v); exact Ep). 
      destruct (lookup (source_dict lines) v) as [o|].
      * destruct HA as (d & Hd & HA). injection HA as H1 H2 _. split; [reflexivity|]. rewrite read_to_table by exact Hk. eexists. split; [reflexivity|]. cbn [to_tstate t_status t_data]. rewrite H1, H2. split; [destruct (has_longer _ _); reflexivity|]. intros x Hx. congruence.
      * destruct (has_longer (source_dict lines) v); [|discriminate]. injection HA as H1 H2 _. split; [reflexivity|]. rewrite read_to_table by exact Hk. eexists. split; [reflexivity|]. cbn [to_tstate t_status]. split; [exact H1|discriminate].
    + destruct (lookup (source_dict lines) v); [destruct HA as (d & _ & HA); discriminate|]. destruct (has_longer (source_dict lines) v); [discriminate|reflexivity].
Qed.

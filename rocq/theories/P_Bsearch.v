(** The binary search finds exactly the row containing the value, for ascending tables. *)
From Verif Require Import Base M_Bsearch S_Ranges.
From Coq Require Import ZifyBool ZifyN ZifyNat.
Local Open Scope N_scope.

Section Search.
Context {R : Type}.
Variables first last : R -> N.
Notation bounds := (map (fun r => (first r, last r))).

Lemma asc_tail a rs : ascending (bounds (a :: rs)) -> ascending (bounds rs).
Proof. cbn. tauto. Qed.
Lemma asc_head : forall rs a r, ascending (bounds (a :: rs)) -> In r rs -> first a <= last a /\ last a < first r /\ first r <= last r.
Proof.
  induction rs as [|b rs IH]; intros a r H Hr; [contradiction|].
  assert (E : first a <= last a /\ last a < first b /\ ascending (bounds (b :: rs))) by (cbn in H |- *; tauto). destruct E as (E1 & E2 & E3).
  destruct Hr as [<-|Hr].
  - repeat split; try assumption. cbn in E3. tauto.
  - destruct (IH b r E3 Hr) as (F1 & F2 & F3). repeat split; lia.
Qed.
Lemma asc_order rs : ascending (bounds rs) -> forall i j r s, (i < j)%nat -> nth_error rs i = Some r -> nth_error rs j = Some s -> last r < first s.
Proof.
  induction rs as [|a rs IH]; intros H i j r s Hij Hi Hj; [destruct i; discriminate|].
  destruct j as [|j]; [lia|]. cbn in Hj. destruct i as [|i]; cbn in Hi.
  - injection Hi as <-. apply nth_error_In in Hj. eapply asc_head; eassumption.
  - eapply (IH (asc_tail _ _ H) i j); eauto. lia.
Qed.
Lemma asc_row rs r : ascending (bounds rs) -> In r rs -> first r <= last r.
Proof.
  induction rs as [|a rs IH]; intros H Hr; [contradiction|]. destruct Hr as [<-|Hr]; [cbn in H; tauto|]. apply IH; [eapply asc_tail; eassumption|assumption].
Qed.

(** What the loop may still find lies in [lo, hi). *)
Lemma loop_spec rs x (A : ascending (bounds rs)) : forall fuel lo hi, (hi - lo < fuel)%nat -> (hi <= length rs)%nat ->
  (forall i r, nth_error rs i = Some r -> (i < lo)%nat -> last r < x) ->
  (forall i r, nth_error rs i = Some r -> (hi <= i)%nat -> x < first r) ->
  exists o, bs_loop first last rs x fuel lo hi = Some o /\
    match o with Some r => In r rs /\ first r <= x <= last r | None => forall r, In r rs -> ~ (first r <= x <= last r) end.
Proof.
  induction fuel as [|f IH]; intros lo hi Hf Hh HL HH; [lia|]. cbn [bs_loop].
  destruct (Nat.leb_spec hi lo) as [Hle|Hlt].
  - exists None. split; [reflexivity|]. intros r Hr Hx. apply In_nth_error in Hr as (i & Hi). destruct (Nat.lt_ge_cases i lo) as [H|H].
    + specialize (HL i r Hi H). lia.
    + specialize (HH i r Hi ltac:(lia)). lia.
  - set (mid := ((lo + (hi - 1)) / 2)%nat). assert (Hm : (lo <= mid <= hi - 1)%nat).
    { subst mid. split; [apply Nat.div_le_lower_bound; lia|apply Nat.div_le_upper_bound; lia]. }
    destruct (nth_error rs mid) as [r|] eqn:Er; [|apply nth_error_None in Er; lia].
    destruct (N.ltb_spec (last r) x) as [H1|H1].
    + apply IH; try lia; [|assumption]. intros i s Hi Hlt'. destruct (Nat.eq_dec i mid) as [->|].
      * rewrite Er in Hi. injection Hi as <-. assumption.
      * pose proof (asc_order rs A i mid s r ltac:(lia) Hi Er). pose proof (asc_row rs r A (nth_error_In _ _ Er)). lia.
    + destruct (N.ltb_spec x (first r)) as [H2|H2].
      * apply IH; try lia; [assumption|]. intros i s Hi Hge. destruct (Nat.eq_dec i mid) as [->|].
        -- rewrite Er in Hi. injection Hi as <-. assumption.
        -- pose proof (asc_order rs A mid i r s ltac:(lia) Er Hi). pose proof (asc_row rs r A (nth_error_In _ _ Er)). lia.
      * exists (Some r). split; [reflexivity|]. split; [eapply nth_error_In; eassumption|lia].
Qed.
Theorem find_spec rs x : ascending (bounds rs) -> rs <> [] ->
  exists o, bs_find first last rs x = Some o /\
    match o with Some r => In r rs /\ first r <= x <= last r | None => forall r, In r rs -> ~ (first r <= x <= last r) end.
Proof.
  intros A Hne. unfold bs_find. assert (Ex : exists a rs0, rs = a :: rs0) by (destruct rs as [|a rs0]; [congruence|eauto]). destruct Ex as (a & rs0 & Ers). assert (Ea : nth_error rs 0 = Some a) by (rewrite Ers; reflexivity). rewrite Ea.
  destruct (nth_error rs (length rs - 1)) as [b|] eqn:Eb; [|apply nth_error_None in Eb; rewrite Ers in Eb; cbn in Eb; lia].
  destruct ((x <? first a) || (last b <? x)) eqn:E.
  - exists None. split; [reflexivity|]. intros r Hr Hx. apply In_nth_error in Hr as (i & Hi). apply orb_true_iff in E as [E|E].
    + destruct i as [|i]; [rewrite Ers in Hi; cbn in Hi; injection Hi as <-; lia|].
      pose proof (asc_order rs A 0 (S i) a r ltac:(lia) Ea Hi). pose proof (asc_row rs a A (nth_error_In _ _ Ea)). lia.
    + destruct (Nat.eq_dec i (length rs - 1)) as [->|Hn]; [rewrite Eb in Hi; injection Hi as <-; lia|].
      assert (i < length rs)%nat by (apply nth_error_Some; congruence).
      pose proof (asc_order rs A i (length rs - 1) r b ltac:(lia) Hi Eb). pose proof (asc_row rs b A (nth_error_In _ _ Eb)). lia.
  - apply loop_spec; [assumption|lia|lia| |].
    + intros i r Hi Hlt. lia.
    + intros i r Hi Hge. assert (nth_error rs i = None) by (apply nth_error_None; lia). congruence.
Qed.
(** The row is unique. *)
Lemma asc_unique rs x r s : ascending (bounds rs) -> In r rs -> In s rs -> first r <= x <= last r -> first s <= x <= last s -> r = s.
Proof.
  intros A Hr Hs H1 H2. apply In_nth_error in Hr as (i & Hi). apply In_nth_error in Hs as (j & Hj).
  destruct (Nat.lt_trichotomy i j) as [H|[->|H]].
  - pose proof (asc_order rs A i j r s H Hi Hj). lia.
  - congruence.
  - pose proof (asc_order rs A j i s r H Hj Hi). lia.
Qed.
Corollary find_some rs x r : ascending (bounds rs) -> In r rs -> first r <= x <= last r -> bs_find first last rs x = Some (Some r).
Proof.
  intros A Hr Hx. destruct (find_spec rs x A) as (o & Ho & Hs); [intros ->; contradiction|]. rewrite Ho. destruct o as [s|].
  - destruct Hs as (Hs1 & Hs2). rewrite (asc_unique rs x s r A Hs1 Hr Hs2 Hx). reflexivity.
  - exfalso. apply (Hs r Hr Hx).
Qed.
Corollary find_none rs x : ascending (bounds rs) -> rs <> [] -> (forall r, In r rs -> ~ (first r <= x <= last r)) -> bs_find first last rs x = Some None.
Proof.
  intros A Hne Hn. destruct (find_spec rs x A Hne) as (o & Ho & Hs). rewrite Ho. destruct o as [s|]; [|reflexivity]. exfalso. apply (Hn s); tauto.
Qed.
End Search.

(** A decision procedure for [ascending]. *)
Fixpoint asc_b (rs : list (N * N)) : bool :=
  match rs with
  | [] => true
  | (a, b) :: r => (a <=? b) && match r with (c, _) :: _ => b <? c | [] => true end && asc_b r
  end.
Lemma asc_b_ok rs : asc_b rs = true -> ascending rs.
Proof.
  induction rs as [|[a b] r IH]; cbn; [trivial|]. intros H. apply andb_prop in H as (H1 & H2). apply andb_prop in H1 as (H0 & H1).
  split; [lia|]. split; [destruct r as [|[c d] r']; [trivial|lia]|auto].
Qed.
(** The value of the bytes of a datum. *)
Lemma lor_add u b : b < 256 -> N.lor (N.shiftl u 8) b = u * 256 + b.
Proof.
  intros Hb. rewrite N.shiftl_mul_pow2. change (2 ^ 8) with 256.
  assert (E : N.land (u * 256) b = 0).
  { apply N.bits_inj. intros k. rewrite N.land_spec, N.bits_0. change 256 with (2 ^ 8) in *. destruct (N.lt_ge_cases k 8) as [H|H].
    - rewrite N.mul_pow2_bits_low by assumption. reflexivity.
    - destruct (N.eq_dec b 0) as [->|Hz]; [rewrite N.bits_0, andb_false_r; reflexivity|].
      rewrite (N.bits_above_log2 b), andb_false_r; [reflexivity|]. apply N.log2_lt_pow2 in Hb; lia. }
  rewrite <- N.lxor_lor by assumption. symmetry. apply N.add_nocarry_lxor. assumption.
Qed.
Lemma be_value_app l b : be_value (l ++ [b]) = be_value l * 256 + b.
Proof.
  induction l as [|a l IH]; [cbn; lia|]. cbn [be_value app]. rewrite IH, app_length. cbn [length]. replace (N.of_nat (length l + 1)) with (N.of_nat (length l) + 1) by lia.
  rewrite N.pow_add_r. change (256 ^ 1) with 256. lia.
Qed.
Lemma u32_value l : Forall (fun b => b < 256) l -> u32_of l = be_value l mod 0x100000000.
Proof.
  induction l as [|b l IH] using rev_ind; intros H; [reflexivity|]. apply Forall_app in H as (H1 & H2). inversion H2 as [|? ? Hb _]; subst.
  unfold u32_of. rewrite fold_left_app. cbn [fold_left]. fold (u32_of l). rewrite IH, lor_add by assumption. rewrite be_value_app.
  rewrite N.add_mod, N.mul_mod_idemp_l, <- N.add_mod by discriminate. reflexivity.
Qed.
Lemma be_value_bound l : Forall (fun b => b < 256) l -> be_value l < 256 ^ N.of_nat (length l).
Proof.
  induction l as [|b l IH]; intros H; [cbn; lia|]. inversion H; subst. specialize (IH H3). cbn [be_value length]. rewrite Nat2N.inj_succ, N.pow_succ_r' . nia.
Qed.

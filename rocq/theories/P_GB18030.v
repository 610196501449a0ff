(** The algorithmic part of GB18030. *)
From Verif Require Import Base Types M_Engine M_Callback M_UTF16 M_Bsearch M_GB18030 D_Ranges S_Ranges S_Unicode S_GB18030 P_Bsearch P_Filter P_UTF16.
From Coq Require Import ZifyBool ZifyN ZifyNat.
Local Open Scope N_scope.

Lemma bounds3 rs : map (fun r : N * N * N => (f3 r, l3 r)) rs = map fst rs.
Proof. apply map_ext. intros [[a b] v]. reflexivity. Qed.
Definition raw (b : list N) : N := match b with [a; b; c; d] => ((a * 10 + b) * 126 + c) * 10 + d | _ => 0 end.
Lemma raw_number b : four b -> raw b = 1687218 + number b.
Proof. destruct b as [|a [|b [|c [|d [|]]]]]; cbn [four raw number]; try contradiction. lia. Qed.

(** The two tables are inverse to each other and agree with the specification. *)
Definition row_ok (r s u : N * N * N) : bool :=
  (f3 r =? v3 s) && (v3 r =? f3 s) && (l3 r - f3 r =? l3 s - f3 s) && (f3 u =? f3 s) && (l3 u =? l3 s) && (v3 u + 1687218 =? v3 s) && (f3 r <=? l3 r) && (f3 s <=? l3 s) && (l3 s <? 0x110000).
Fixpoint all3 (f : N * N * N -> N * N * N -> N * N * N -> bool) (a b c : list (N * N * N)) : bool :=
  match a, b, c with x :: a, y :: b, z :: c => f x y z && all3 f a b c | [], [], [] => true | _, _, _ => false end.
Lemma tables_agree : all3 row_ok gb_from_table gb_to_table runs = true.
Proof. vm_compute. reflexivity. Qed.
Lemma all3_in f : forall a b c, all3 f a b c = true ->
  (forall x, In x a -> exists y z, In y b /\ In z c /\ f x y z = true) /\ (forall y, In y b -> exists x z, In x a /\ In z c /\ f x y z = true) /\
  (forall z, In z c -> exists x y, In x a /\ In y b /\ f x y z = true).
Proof.
  induction a as [|x a IH]; intros [|y b] [|z c] H; try discriminate; [repeat split; intros ? []|]. cbn in H. apply andb_prop in H as (H & HA).
  destruct (IH _ _ HA) as (I1 & I2 & I3). repeat split; intros w [<-|Hw]; eauto 8 using in_eq, in_cons.
  - destruct (I1 w Hw) as (y' & z' & ? & ? & ?). eauto 8 using in_cons.
  - destruct (I2 w Hw) as (y' & z' & ? & ? & ?). eauto 8 using in_cons.
  - destruct (I3 w Hw) as (y' & z' & ? & ? & ?). eauto 8 using in_cons.
Qed.
Lemma row_facts r s u : row_ok r s u = true ->
  f3 r = v3 s /\ v3 r = f3 s /\ l3 r - f3 r = l3 s - f3 s /\ f3 u = f3 s /\ l3 u = l3 s /\ v3 s = v3 u + 1687218 /\ f3 r <= l3 r /\ f3 s <= l3 s /\ l3 s < 0x110000.
Proof. unfold row_ok. lia. Qed.

(** Encoder. *)
Lemma put_in d c r : u32_of d = c -> (length d <= 4)%nat -> In r gb_to_table -> f3 r <= c <= l3 r ->
  exists b, gb_put (1 :: d) = Val (Some [b]) /\ four b /\ number b = v3 r - 1687218 + (c - f3 r).
Proof.
  intros Hd Hl Hr Hc. unfold gb_put. cbn [tl]. replace (4 <? N.of_nat (length d)) with false by lia. rewrite Hd.
  rewrite (find_some f3 l3 gb_to_table c r); [|rewrite bounds3; apply gb_ok|assumption|assumption].
  destruct (all3_in _ _ _ _ tables_agree) as (_ & H2 & _). destruct (H2 r Hr) as (x & u & _ & Hu & HR). apply row_facts in HR as (R1 & R2 & R3 & R4 & R5 & R6 & R7 & R8 & R9).
  assert (HB : v3 u + (l3 u - f3 u) < 1260000).
  { assert (F : forallb (fun z => v3 z + (l3 z - f3 z) <? 1260000) runs = true) by (vm_compute; reflexivity). rewrite forallb_forall in F. specialize (F u Hu). lia. }
  set (g := v3 r + (c - f3 r) - 1687218). assert (Hg : g < 1260000) by (subst g; lia).
  eexists. split; [reflexivity|]. replace (v3 r - 1687218 + (c - f3 r)) with g by (subst g; lia). clearbody g.
  pose proof (N.div_mod g 10 ltac:(discriminate)) as D1. pose proof (N.mod_lt g 10 ltac:(discriminate)) as M1.
  pose proof (N.div_mod (g / 10) 126 ltac:(discriminate)) as D2. pose proof (N.mod_lt (g / 10) 126 ltac:(discriminate)) as M2.
  pose proof (N.div_mod (g / 10 / 126) 10 ltac:(discriminate)) as D3. pose proof (N.mod_lt (g / 10 / 126) 10 ltac:(discriminate)) as M3.
  set (q := g / 10 / 126 / 10) in *. assert (Hq : q < 100) by lia. cbn [four number]. rewrite (N.mod_small (129 + q)) by lia. lia.
Qed.
Lemma put_out d c : u32_of d = c -> (length d <= 4)%nat -> (forall r, In r runs -> ~ (f3 r <= c <= l3 r)) -> gb_put (1 :: d) = Val None.
Proof.
  intros Hd Hl Hn. unfold gb_put. cbn [tl]. replace (4 <? N.of_nat (length d)) with false by lia. rewrite Hd.
  rewrite (find_none f3 l3 gb_to_table c); [reflexivity|rewrite bounds3; apply gb_ok|discriminate|].
  intros r Hr Hc. destruct (all3_in _ _ _ _ tables_agree) as (_ & H2 & _). destruct (H2 r Hr) as (x & u & _ & Hu & HR). apply row_facts in HR.
  apply (Hn u Hu). lia.
Qed.

(** Decoder: the state after some bytes of a code. *)
Definition part (w : list N) : gbs :=
  match w with
  | [] => mkGb 0 0
  | [a] => mkGb 1 (a * 10)
  | [a; b] => mkGb 2 ((a * 10 + b) * 126)
  | [a; b; c] => mkGb 3 (((a * 10 + b) * 126 + c) * 10)
  | _ => mkGb 0 0
  end.
Definition same (t : gbs) (w : list N) : Prop := g_st t = length w /\ (w = [] \/ t = part w).
Lemma catch_up_sat : forall fuel c t, (length c <= g_st t)%nat -> gb_catch_up (S fuel) c t = Some t.
Proof. intros fuel c t H. cbn. replace (nth_error c (g_st t)) with (@None N); [reflexivity|]. symmetry. apply nth_error_None. assumption. Qed.
Lemma byte_part w x : (length w < 3)%nat -> forall t, same t w -> same (gb_byte t x) (w ++ [x]).
Proof.
  intros Hl t (H1 & H2). unfold same, gb_byte. destruct w as [|a [|b [|c r]]]; cbn in *; try lia; rewrite H1.
  - auto.
  - destruct H2 as [|H2]; [discriminate|]. rewrite H2. cbn. auto.
  - destruct H2 as [|H2]; [discriminate|]. rewrite H2. cbn. auto.
Qed.
Lemma step_part c w d t : (length c <= length w)%nat -> (length w < 3)%nat -> same t w -> exists t', gb_step c t d = (t', None) /\ same t' (w ++ [d]).
Proof.
  intros Hc Hw H. unfold gb_step. pose proof H as H0. destruct H as (H1 & H2). rewrite catch_up_sat by lia. exists (gb_byte t d). split; [|apply byte_part; assumption].
  rewrite H1. destruct w as [|a [|b [|c0 r]]]; cbn in *; try lia; reflexivity.
Qed.
Lemma step_last c w d t : (length c <= 3)%nat -> length w = 3%nat -> same t w -> gb_step c t d = gb_char (mkGb 0 (raw (w ++ [d]))).
Proof.
  intros Hc Hw (H1 & H2). unfold gb_step. rewrite catch_up_sat by lia. rewrite H1, Hw. destruct w as [|a0 [|a1 [|a2 [|]]]]; try discriminate Hw.
  destruct H2 as [|H2]; [discriminate|]. rewrite H2. reflexivity.
Qed.
(** At the first call the table's bytes are taken in. *)
Lemma catch_up_part c t : (length c <= 3)%nat -> g_st t = 0%nat -> exists t', gb_catch_up 5 c t = Some t' /\ same t' c.
Proof.
  intros Hc Ht. destruct t as [st u]. cbn in Ht. subst st. destruct c as [|a [|b [|x [|]]]]; cbn in Hc; try lia; cbn; eexists; (split; [reflexivity|]); unfold same; cbn; auto.
Qed.
Lemma step_first c t t' d : g_st t = 0%nat -> gb_catch_up 5 c t = Some t' -> same t' c -> (length c <= 3)%nat -> gb_step c t d = gb_step c t' d.
Proof.
  intros Ht Hu (H1 & _) Hc. unfold gb_step. rewrite Hu, catch_up_sat by lia. reflexivity.
Qed.

Definition emit4 (u : N) : datum := w_emit [u / 0x1000000 mod 0x100; u / 0x10000 mod 0x100; u / 0x100 mod 0x100; u mod 0x100].
Lemma emit4_udatum u : 0 < u -> u < 0x1000000 -> emit4 u = udatum u.
Proof.
  intros H0 H. unfold emit4, udatum, w_emit, be_bytes. f_equal.
  pose proof (N.div_mod u 0x100 ltac:(discriminate)). pose proof (N.mod_lt u 0x100 ltac:(discriminate)).
  assert (E : u / 0x10000 = u / 0x100 / 0x100) by (rewrite N.div_div by discriminate; reflexivity).
  assert (E3 : u / 0x1000000 = 0) by (apply N.div_small; assumption). rewrite E3. change (0 mod 0x100) with 0. cbn [strip0].
  pose proof (N.div_mod (u / 0x100) 0x100 ltac:(discriminate)). pose proof (N.mod_lt (u / 0x100) 0x100 ltac:(discriminate)).
  destruct (N.ltb_spec u 0x100) as [U1|U1].
  - replace (u / 0x10000) with 0 by lia. replace (u / 0x100) with 0 by lia. change (0 mod 0x100) with 0. cbn [strip0]. rewrite N.mod_small by assumption. destruct u; [lia|reflexivity].
  - destruct (N.ltb_spec u 0x10000) as [U2|U2].
    + replace (u / 0x10000) with 0 by lia. change (0 mod 0x100) with 0. cbn [strip0]. rewrite N.mod_small by lia. destruct (u / 0x100) eqn:Eq; [lia|reflexivity].
    + replace (u <? 0x1000000) with true by lia. rewrite (N.mod_small (u / 0x10000)) by lia. destruct (u / 0x10000) eqn:Eq; [lia|reflexivity].
Qed.
Lemma char_in b c : in_sequence b c -> gb_char (mkGb 0 (raw b)) = (mkGb 0 (raw b), Some (NEXTPHASE, [udatum c])).
Proof.
  intros (Hf & lo & hi & n & Hin & Hc & Hn). unfold gb_char. cbn [g_ucs].
  destruct (all3_in _ _ _ _ tables_agree) as (_ & _ & H3). destruct (H3 _ Hin) as (x & y & Hx & Hy & HR). apply row_facts in HR as (R1 & R2 & R3 & R4 & R5 & R6 & R7 & R8 & R9).
  cbn [f3 l3 v3 fst snd] in *. pose proof (raw_number b Hf) as Hr.
  rewrite (find_some f3 l3 gb_from_table (raw b) x); [|rewrite bounds3; apply gb_ok|assumption|lia].
  replace (v3 x + (raw b - f3 x)) with c by lia. fold (emit4 c). cbv zeta. rewrite emit4_udatum; [reflexivity| |lia].
  assert (F : forallb (fun z => 0 <? f3 z) runs = true) by (vm_compute; reflexivity). rewrite forallb_forall in F. specialize (F _ Hin). cbn in F. lia.
Qed.
Lemma char_reject b : four b -> (forall c, ~ in_sequence b c) -> gb_char (mkGb 0 (raw b)) = (mkGb 0 (raw b), Some (DEADEND, [])).
Proof.
  intros Hf Hn. unfold gb_char. cbn [g_ucs]. rewrite (find_none f3 l3 gb_from_table (raw b)); [reflexivity|rewrite bounds3; apply gb_ok|discriminate|].
  intros r Hr Hx. destruct (all3_in _ _ _ _ tables_agree) as (H1 & _ & _). destruct (H1 _ Hr) as (y & u & Hy & Hu & HR). apply row_facts in HR as (R1 & R2 & R3 & R4 & R5 & R6 & R7 & R8 & R9).
  destruct u as [[lo hi] n]. cbn [f3 l3 v3 fst snd] in *. pose proof (raw_number b Hf) as Hb.
  apply (Hn (lo + (raw b - f3 r))). split; [assumption|]. exists lo, hi, n. split; [assumption|]. lia.
Qed.

(** Feeding a whole code in any number of calls. *)
Lemma loop_part c : forall chunk w t i, (length w + length chunk <= 3)%nat -> same t w -> (length c <= length w)%nat ->
  exists t', byte_loop (gb_step c) t chunk i = (t', (i + length chunk)%nat, CONTINUE, []) /\ same t' (w ++ chunk).
Proof.
  induction chunk as [|d chunk IH]; intros w t i Hl Hs Hcw.
  - exists t. cbn. rewrite Nat.add_0_r, app_nil_r. auto.
  - cbn [length] in *. destruct (step_part c w d t Hcw ltac:(lia) Hs) as (t1 & E1 & S1). cbn [byte_loop]. rewrite E1.
    destruct (IH (w ++ [d]) t1 (S i)) as (t' & E & S'); [rewrite app_length; cbn; lia|assumption|rewrite app_length; lia|].
    exists t'. rewrite E. rewrite <- app_assoc in S'. split; [|assumption]. do 3 f_equal. lia.
Qed.
Lemma loop_last c : forall chunk w t i x, (length w + length chunk = 3)%nat -> same t w -> (length c <= length w)%nat ->
  byte_loop (gb_step c) t (chunk ++ [x]) i =
  match gb_char (mkGb 0 (raw (w ++ chunk ++ [x]))) with (t', Some (st, o)) => (t', (i + length chunk)%nat, st, o) | (t', None) => (t', S (i + length chunk), CONTINUE, []) end.
Proof.
  induction chunk as [|d chunk IH]; intros w t i x Hl Hs Hcw; cbn [app length] in *.
  - cbn [byte_loop]. rewrite (step_last c w x t) by (assumption || lia). destruct (gb_char _) as (t' & [[st o]|]); rewrite Nat.add_0_r; reflexivity.
  - destruct (step_part c w d t Hcw ltac:(lia) Hs) as (t1 & E1 & S1). cbn [byte_loop]. rewrite E1.
    rewrite (IH (w ++ [d]) t1 (S i) x); [|rewrite app_length; cbn; lia|assumption|rewrite app_length; lia]. rewrite <- app_assoc. cbn [app].
    replace (S i + length chunk)%nat with (i + S (length chunk))%nat by lia. reflexivity.
Qed.
(** The table data of each later call are no longer than what was read before. *)
Fixpoint behind (done : nat) (calls : list (list N * list N)) : Prop :=
  match calls with
  | [] => True
  | (c, chunk) :: r => (length c <= done)%nat /\ chunk <> [] /\ behind (done + length chunk) r
  end.
Lemma calls_run b c : in_sequence b c -> forall calls w t, calls <> [] -> same t w -> b = w ++ concat (map snd calls) -> behind (length w) calls ->
  exists t', gb_calls t calls = Some (t', [udatum c]) /\ g_st t' = 0%nat.
Proof.
  intros Hb. assert (Hl : length b = 4%nat) by (destruct Hb as (Hf & _); destruct b as [|? [|? [|? [|? [|]]]]]; cbn in Hf; try contradiction; reflexivity).
  induction calls as [|[cc chunk] r IH]; intros w t Hne Hs Hbw HB; [congruence|]. cbn [behind] in HB. destruct HB as (HB1 & HB2 & HB3). cbn [map snd concat] in Hbw. cbn [gb_calls].
  assert (HL : (length w + (length chunk + length (concat (map snd r))) = 4)%nat) by (rewrite <- Hl, Hbw, !app_length; reflexivity).
  destruct r as [|x r].
  - cbn in Hbw. rewrite app_nil_r in Hbw. destruct (exists_last HB2) as (ch & z & ->). rewrite app_length in HL. cbn in HL.
    rewrite (loop_last cc ch w t 0 z) by (assumption || lia). rewrite <- Hbw, (char_in b c Hb). cbn [Nat.add]. rewrite app_length. cbn [length]. replace (S (length ch) =? length ch + 1)%nat with true by lia.
    eexists. split; [reflexivity|reflexivity].
  - assert (Hx : (1 <= length (concat (map snd (x :: r))))%nat) by (destruct x as [cx chx]; cbn in HB3 |- *; destruct HB3 as (_ & Hn & _); destruct chx; [congruence|cbn; lia]).
    destruct (loop_part cc chunk w t 0%nat) as (t1 & E1 & S1); [lia|assumption|lia|]. rewrite E1.
    apply (IH (w ++ chunk) t1); [discriminate|assumption|rewrite <- app_assoc; assumption|rewrite app_length; assumption].
Qed.
Lemma calls_first c chunk r t t' : chunk <> [] -> g_st t = 0%nat -> gb_catch_up 5 c t = Some t' -> same t' c -> (length c <= 3)%nat ->
  gb_calls t ((c, chunk) :: r) = gb_calls t' ((c, chunk) :: r).
Proof. intros Hne Ht Hu Hs Hc. destruct chunk as [|d chunk]; [congruence|]. cbn [gb_calls byte_loop]. rewrite (step_first c t t' d Ht Hu Hs Hc). reflexivity. Qed.
Theorem decode_calls b c k calls chunk r t : in_sequence b c -> (k <= 3)%nat -> g_st t = 0%nat -> calls = (firstn k b, chunk) :: r ->
  concat (map snd calls) = skipn k b -> behind k calls -> exists t', gb_calls t calls = Some (t', [udatum c]) /\ g_st t' = 0%nat.
Proof.
  intros Hb Hk Ht -> Hc HB. assert (Hl : length b = 4%nat) by (destruct Hb as (Hf & _); destruct b as [|? [|? [|? [|? [|]]]]]; cbn in Hf; try contradiction; reflexivity).
  assert (HF : length (firstn k b) = k) by (rewrite firstn_length; lia).
  destruct (catch_up_part (firstn k b) t ltac:(lia) Ht) as (t1 & Hu & Hs).
  rewrite (calls_first _ chunk r t t1); [|destruct HB as (_ & Hne & _); assumption|assumption|assumption|assumption|lia].
  apply (calls_run b c Hb _ (firstn k b)); [discriminate|assumption|rewrite Hc, firstn_skipn; reflexivity|rewrite HF; assumption].
Qed.
(** Injectivity of the numbering. *)
Lemma number_inj b b' : four b -> four b' -> number b = number b' -> b = b'.
Proof.
  destruct b as [|a0 [|a1 [|a2 [|a3 [|]]]]]; cbn [four]; try contradiction. destruct b' as [|b0 [|b1 [|b2 [|b3 [|]]]]]; cbn [four number]; try contradiction.
  intros (A0 & A1 & A2 & A3) (B0 & B1 & B2 & B3) H.
  assert (a3 = b3) by lia. assert (a2 = b2) by lia. assert (a1 = b1) by lia. assert (a0 = b0) by lia. congruence.
Qed.
Lemma u32_udatum c : c < 0x1000000 -> u32_of (be_bytes c) = c /\ (length (be_bytes c) <= 4)%nat.
Proof.
  intros Hc.
  assert (HB : Forall (fun b => b < 256) (be_bytes c) /\ be_value (be_bytes c) = c).
  { pose proof (N.div_mod c 0x100 ltac:(discriminate)). pose proof (N.mod_lt c 0x100 ltac:(discriminate)).
    pose proof (N.div_mod (c / 0x100) 0x100 ltac:(discriminate)). pose proof (N.mod_lt (c / 0x100) 0x100 ltac:(discriminate)).
    assert (E : c / 0x10000 = c / 0x100 / 0x100) by (rewrite N.div_div by discriminate; reflexivity).
    unfold be_bytes. destruct (N.ltb_spec c 0x100); [|destruct (N.ltb_spec c 0x10000); [|destruct (N.ltb_spec c 0x1000000); [|lia]]];
      (split; [repeat constructor; try rewrite E; lia|cbn -[N.div N.modulo N.mul]; change (256 ^ 0) with 1; change (256 ^ 1) with 256; change (256 ^ 2) with 65536; try rewrite E; lia]). }
  destruct HB as (HB & HV). rewrite u32_value, HV by assumption. split; [apply N.mod_small; lia|].
  unfold be_bytes. destruct (c <? 0x100), (c <? 0x10000), (c <? 0x1000000); cbn; lia.
Qed.

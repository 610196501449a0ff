From Verif Require Import Base Types M_Engine M_Mktable M_Layout P_Layout.
From Coq Require Import ZifyBool ZifyN ZifyNat.

(** What the compiler guarantees of its state graph. *)
Record wf (l : list mstate) : Prop := {
  wf_len : 1 <= length l;
  wf_kid : forall i s c k, nth_error l i = Some s -> kid s c = Some k -> k < length l /\ (m_beg s <= c < m_end s)%N;
  wf_rng : forall i s, nth_error l i = Some s -> (m_beg s < 65536 /\ m_end s <= 257)%N;
  wf_nil : forall i s, nth_error l i = Some s -> m_kids s = [] -> (m_end s <= m_beg s)%N
}.

Lemma base_len s : length (base_bytes s) = 4 * N.to_nat (m_end s - m_beg s).
Proof.
  assert (G : forall (f : nat -> N) n k, length (flat_map (fun i => le32 (f i)) (seq k n)) = 4 * n).
  { intros f n. induction n as [|n IH]; intros k; [reflexivity|]. cbn [seq flat_map]. rewrite app_length, IH. cbn [length le32]. lia. }
  unfold base_bytes. apply (G (fun i => _)).
Qed.
Lemma enc_state_len a b c d e : length (enc_state a b c d e) = 16. Proof. reflexivity. Qed.
Lemma enc_data_len a b c : length (enc_data a b c) = 12. Proof. reflexivity. Qed.

(** ** First pass *)
Definition entry_of (w : wst) (i : nat) (s : mstate) : Prop := exists data base,
  In (16 * i, enc_state (status_code (m_status s)) (N.of_nat data) (m_beg s) (m_end s) (N.of_nat base)) (w_out w) /\
  (m_data s = [] -> data = 0) /\ (m_data s <> [] -> data = w_noff w (m_data s) /\ data <> 0) /\
  (m_kids s <> [] -> In (base, base_bytes s) (w_out w)) /\ base <= w_off w.
Record pass1 (n i : nat) (w : wst) : Prop := {
  p1_c : cinv (16 * n) w;
  p1_l : linked None w;
  p1_clean : clean (w_out w);
  p1_out : forall o bs, In (o, bs) (w_out w) -> (exists k, k < i /\ o = 16 * k /\ length bs = 16) \/ (16 * n <= o /\ o + length bs <= w_off w);
  p1_cell : forall c x, In c (w_cells w) -> In x (w_out w) -> apart (c_off c, 12) (area x)
}.
Lemma write_state_inv n i s w : i < n -> pass1 n i w -> pass1 n (S i) (write_state i s w) /\ entry_of (write_state i s w) i s /\
  w_off w <= w_off (write_state i s w) /\ (forall x, w_noff w x <> 0 -> w_noff (write_state i s w) x = w_noff w x) /\ incl (w_out w) (w_out (write_state i s w)).
Proof.
  intros Hi [PC PL PK PO PX]. unfold write_state.
  destruct (walk_inv (16 * n) (length (m_data s)) (m_data s) None w (le_n _) PC PL ltac:(discriminate) ltac:(discriminate)) as (I1 & I2 & I3 & I4 & I5 & I6 & I7).
  set (w1 := walk_data (m_data s) true 0 false None w) in *.
  set (data := match m_data s with [] => 0 | h => w_noff w1 h end).
  assert (Hd0 : m_data s = [] -> data = 0) by (intros E; subst data; rewrite E; reflexivity).
  assert (Hd1 : m_data s <> [] -> data = w_noff w1 (m_data s) /\ data <> 0).
  { intros E. subst data. destruct (m_data s) eqn:Ed; [contradiction|]. split; [reflexivity|]. apply I4. discriminate. }
  assert (HX : forall c x, In c (w_cells w1) -> In x (w_out w) -> apart (c_off c, 12) (area x)).
  { intros c [o bs] Hc Hx. destruct (I7 c Hc) as [(c0 & Hc0 & <-)|Hge]; [apply (PX c0 _ Hc0 Hx)|]. right. cbn. destruct (PO _ _ Hx) as [(k & Hk & -> & ->)|(H1 & H2)]; [|lia]. pose proof (ci_base _ _ PC). lia. }
  pose proof (ci_base _ _ I1) as HB. pose proof (ci_pos _ _ I1) as HP.
  assert (HC : forall c, In c (w_cells w1) -> 16 * n <= c_off c /\ c_off c + 12 <= w_off w1) by (intros c Hc; destruct (ci_in _ _ I1 c Hc) as (_ & _ & A & B & _); auto).
  assert (HS : forall bs : list N, length bs = 16 -> Forall (fun x => apart (area x) (16 * i, length bs)) (w_out w)).
  { intros bs Hl. apply Forall_forall. intros [o b] Hx. unfold apart, area. cbn [fst snd]. rewrite Hl. destruct (PO _ _ Hx) as [(k & Hk & -> & ->)|(H1 & H2)]; lia. }
  destruct (m_kids s) as [|kd kds] eqn:EK.
  - set (st := enc_state _ _ _ _ _). split; [|split; [|split; [cbn; lia|split; [intros x Hx; cbn; apply I6; assumption|cbn; rewrite I3; apply incl_appl, incl_refl]]]].
    + split; cbn [w_off w_noff w_cells w_out].
      * destruct I1 as [A1 A2 A3 A4 A5]. split; assumption.
      * exact I2.
      * rewrite I3. apply clean_snoc; [exact PK|]. apply HS. reflexivity.
      * intros o bs H. rewrite I3 in H. apply in_app_or in H as [H|[H|[]]].
        -- destruct (PO _ _ H) as [(k & Hk & Ho & Hl)|(H1 & H2)]; [left; exists k; repeat split; auto; lia|right; lia].
        -- injection H as <- <-. left. exists i. split; [lia|]. split; reflexivity.
      * intros c x Hc Hx. rewrite I3 in Hx. apply in_app_or in Hx as [Hx|[<-|[]]]; [apply HX; assumption|]. right. cbn [area fst snd]. destruct (HC c Hc). change (length st) with 16. lia.
    + exists data, 0. cbn [w_off w_noff w_cells w_out]. split; [apply in_or_app; right; left; reflexivity|]. split; [exact Hd0|]. split; [exact Hd1|]. split; [congruence|lia].
  - set (st := enc_state _ _ _ _ _). split; [|split; [|split; [cbn; lia|split; [intros x Hx; cbn; apply I6; assumption|cbn; rewrite I3; apply incl_appl, incl_refl]]]].
    + split; cbn [w_off w_noff w_cells w_out].
      * destruct I1 as [A1 A2 A3 A4 A5]. split; cbn [w_off w_noff w_cells w_out]; try assumption; [lia|]. intros c Hc. destruct (A3 c Hc) as (B1 & B2 & B3 & B4 & B5). repeat split; try tauto; lia.
      * exact I2.
      * rewrite I3. change [(w_off w1, base_bytes s); (16 * i, st)] with ([(w_off w1, base_bytes s)] ++ [(16 * i, st)]). rewrite app_assoc. apply clean_snoc.
        -- apply clean_snoc; [exact PK|]. apply Forall_forall. intros [o b] Hx. left. cbn [area fst snd]. destruct (PO _ _ Hx) as [(k & Hk & -> & ->)|(H1 & H2)]; lia.
        -- apply Forall_app. split; [apply HS; reflexivity|]. constructor; [|constructor]. right. cbn [area fst snd]. change (length st) with 16. lia.
      * intros o bs H. rewrite I3 in H. apply in_app_or in H as [H|[H|[H|[]]]].
        -- destruct (PO _ _ H) as [(k & Hk & Ho & Hl)|(H1 & H2)]; [left; exists k; repeat split; auto; lia|right; lia].
        -- injection H as <- <-. right. lia.
        -- injection H as <- <-. left. exists i. split; [lia|]. split; reflexivity.
      * intros c x Hc Hx. rewrite I3 in Hx. destruct (HC c Hc). apply in_app_or in Hx as [Hx|[<-|[<-|[]]]]; [apply HX; assumption| |].
        -- left. cbn [area fst snd]. lia.
        -- right. cbn [area fst snd]. change (length st) with 16. lia.
    + exists data, (w_off w1). cbn [w_off w_noff w_cells w_out]. split; [apply in_or_app; right; right; left; reflexivity|]. split; [exact Hd0|]. split; [exact Hd1|]. split; [intros _; apply in_or_app; right; left; reflexivity|lia].
Qed.
Lemma entry_mono w w' i s : entry_of w i s -> (forall x, w_noff w x <> 0 -> w_noff w' x = w_noff w x) -> incl (w_out w) (w_out w') -> w_off w <= w_off w' -> entry_of w' i s.
Proof.
  intros (data & base & H1 & H2 & H3 & H4 & H5) Hn Hi Ho. exists data, base. split; [apply Hi, H1|]. split; [exact H2|]. split; [|split; [intros K; apply Hi, H4, K|lia]].
  intros K. destruct (H3 K) as (E & E'). split; [|exact E']. rewrite Hn; congruence.
Qed.
Lemma write_states_inv n : forall l i w, i + length l = n -> pass1 n i w ->
  let w' := write_states i l w in pass1 n n w' /\ (forall k s, nth_error l k = Some s -> entry_of w' (i + k) s) /\
  w_off w <= w_off w' /\ (forall x, w_noff w x <> 0 -> w_noff w' x = w_noff w x) /\ incl (w_out w) (w_out w').
Proof.
  induction l as [|s l IH]; intros i w Hn HP; cbv zeta; cbn [write_states].
  - replace i with n in HP by (cbn in Hn; lia). split; [exact HP|]. split; [intros [|k]; discriminate|]. split; [lia|]. split; [reflexivity|apply incl_refl].
  - cbn [length] in Hn. destruct (write_state_inv n i s w ltac:(lia) HP) as (S1 & S2 & S3 & S4 & S5). destruct (IH (S i) _ ltac:(lia) S1) as (I1 & I2 & I3 & I4 & I5).
    split; [exact I1|]. split; [|split; [lia|split; [intros x Hx; rewrite I4, S4 by (rewrite ?S4; assumption); reflexivity|eapply incl_tran; eassumption]]].
    intros [|k] s0 Hk; cbn in Hk.
    + injection Hk as <-. rewrite Nat.add_0_r. eapply entry_mono; eassumption.
    + rewrite <- plus_n_Sm. apply (I2 k s0 Hk).
Qed.

(** ** Second pass *)
Definition hok (f : list N -> option (list N)) : Prop := forall u h, f u = Some h -> exists pre, h = pre ++ u.
Lemma set_heads_ok hd : forall u f, hok f -> (exists pre, hd = pre ++ u) -> hok (set_heads u hd f) /\ (forall x, f x <> None -> set_heads u hd f x <> None).
Proof.
  induction u as [|b u IH]; intros f Hf (pre & E); cbn [set_heads]; [auto|].
  destruct (IH (nset f (b :: u) (Some hd))) as (I1 & I2).
  - intros x h. unfold nset. destruct (node_eqb x (b :: u)) eqn:K; [apply node_eqb_eq in K; subst x; intros H; injection H as <-; eauto|apply Hf].
  - exists (pre ++ [b]). rewrite <- app_assoc. exact E.
  - split; [exact I1|]. intros x Hx. apply I2. unfold nset. destruct (node_eqb x (b :: u)); congruence.
Qed.
Lemma head_cell_ok f c : hok f -> hok (head_cell f c) /\ head_cell f c (c_data c) <> None /\ (forall x, f x <> None -> head_cell f c x <> None).
Proof.
  intros Hf. unfold head_cell. destruct (f (c_data c)) eqn:E; [split; [exact Hf|split; [congruence|auto]]|].
  destruct (set_heads_ok (c_data c) (tl (c_data c)) (nset f (c_data c) (Some (c_data c)))) as (H1 & H2).
  - intros x h. unfold nset. destruct (node_eqb x (c_data c)) eqn:K; [apply node_eqb_eq in K; subst x; intros H; injection H as <-; exists []; reflexivity|apply Hf].
  - destruct (c_data c) as [|b u]; [exists []; reflexivity|exists [b]; reflexivity].
  - split; [exact H1|]. split; [apply H2; rewrite nset_same; discriminate|]. intros x Hx. apply H2. unfold nset. destruct (node_eqb x (c_data c)); congruence.
Qed.
Lemma heads_ok cs c : In c cs -> exists pre, heads cs (c_data c) = Some (pre ++ c_data c).
Proof.
  assert (K : forall cs f, hok f -> hok (fold_left head_cell cs f) /\ (forall x, f x <> None -> fold_left head_cell cs f x <> None) /\ forall c, In c cs -> fold_left head_cell cs f (c_data c) <> None).
  { clear. induction cs as [|a cs IH]; intros f Hf; cbn [fold_left]; [split; [exact Hf|split; [auto|intros c []]]|].
    destruct (head_cell_ok f a Hf) as (H1 & H2 & H3). destruct (IH _ H1) as (I1 & I2 & I3). split; [exact I1|]. split; [intros x Hx; apply I2, H3, Hx|].
    intros c [<-|Hc]; [apply I2, H2|apply I3, Hc]. }
  intros Hc. destruct (K cs (fun _ => None)) as (H1 & _ & H3); [intros u h; discriminate|]. unfold heads. specialize (H3 c Hc). destruct (fold_left head_cell cs (fun _ => None) (c_data c)) as [h|] eqn:E; [|congruence].
  destruct (H1 _ _ E) as (pre & ->). eauto.
Qed.
Definition placed (out : wlog) (u : list N) (o : nat) : Prop := exists o' pre, In (o', pre ++ u) out /\ o = o' + length pre.
Lemma set_offs_ok out o0 hd : In (o0, hd) out -> 0 < o0 -> forall u pre f, hd = pre ++ u -> (forall x, f x <> 0 -> placed out x (f x)) ->
  let f' := set_offs u (o0 + length pre) f in (forall x, f' x <> 0 -> placed out x (f' x)) /\ (forall x, f x <> 0 -> f' x <> 0) /\ (forall q v, u = q ++ v -> v <> [] -> f' v <> 0).
Proof.
  intros Hin H0. induction u as [|b u IH]; intros pre f E Hf; cbv zeta; cbn [set_offs].
  - split; [exact Hf|]. split; [auto|]. intros q v Eq Hv. destruct q, v; discriminate || contradiction.
  - destruct (IH (pre ++ [b]) (nset f (b :: u) (o0 + length pre))) as (I1 & I2 & I3).
    + rewrite <- app_assoc. exact E.
    + intros x. unfold nset. destruct (node_eqb x (b :: u)) eqn:K; [apply node_eqb_eq in K; subst x; intros _; exists o0, pre; split; [rewrite <- E; exact Hin|reflexivity]|apply Hf].
    + rewrite app_length in *. cbn [length] in *. replace (S (o0 + length pre)) with (o0 + (length pre + 1)) by lia. split; [exact I1|].
      split; [intros x Hx; apply I2; unfold nset; destruct (node_eqb x (b :: u)); [lia|exact Hx]|]. intros q v Eq Hv. destruct q as [|y q].
      * cbn in Eq. subst v. apply I2. rewrite nset_same. lia.
      * cbn in Eq. injection Eq as <- Eq. apply (I3 q v Eq Hv).
Qed.
Lemma set_offs_nil u : forall o f, set_offs u o f [] = f [].
Proof. induction u as [|b u IH]; intros o f; cbn [set_offs]; [reflexivity|]. rewrite IH. apply nset_other. discriminate. Qed.

Definition cell_done (out : wlog) (c : cell) : Prop := exists a, In (c_off c, enc_data (N.of_nat a) (N.of_nat (c_len c)) (N.of_nat (c_next c))) out /\ (c_data c <> [] -> placed out (c_data c) a) /\ (c_data c = [] -> a = 0).
Record pass2 (todo : list cell) (d : dst) : Prop := {
  p2_clean : clean (d_out d);
  p2_pos : 0 < d_off d;
  p2_bound : forall o bs, In (o, bs) (d_out d) -> o + length bs <= d_off d;
  p2_noff : forall u, d_noff d u <> 0 -> placed (d_out d) u (d_noff d u);
  p2_nil : d_noff d [] = 0;
  p2_todo : forall c x, In c todo -> In x (d_out d) -> apart (c_off c, 12) (area x);
  p2_in : forall c, In c todo -> c_off c + 12 <= d_off d;
  p2_apart : ForallOrdPairs (fun a b => apart (c_off a, 12) (c_off b, 12)) todo
}.
Lemma placed_mono out out' u o : placed out u o -> incl out out' -> placed out' u o.
Proof. intros (o' & pre & H & E) Hi. exists o', pre. split; [apply Hi, H|exact E]. Qed.
Lemma cell_done_mono out out' c : cell_done out c -> incl out out' -> cell_done out' c.
Proof. intros (a & H1 & H2 & H3) Hi. exists a. split; [apply Hi, H1|]. split; [intros K; eapply placed_mono; [apply H2, K|exact Hi]|exact H3]. Qed.
Lemma write_cell_inv hd c todo d : (exists pre, hd (c_data c) = Some (pre ++ c_data c)) -> pass2 (c :: todo) d ->
  pass2 todo (write_cell hd d c) /\ cell_done (d_out (write_cell hd d c)) c /\ incl (d_out d) (d_out (write_cell hd d c)) /\ d_off d <= d_off (write_cell hd d c).
Proof.
  intros (pre & Eh) [PC PP PB PN PZ PT PI PA]. unfold write_cell.
  set (d1 := if d_noff d (c_data c) =? 0 then _ else d).
  assert (H1 : pass2 (c :: todo) d1 /\ incl (d_out d) (d_out d1) /\ d_off d <= d_off d1 /\ (c_data c <> [] -> d_noff d1 (c_data c) <> 0)).
  { subst d1. destruct (Nat.eqb_spec (d_noff d (c_data c)) 0) as [E0|E0].
    - rewrite Eh. set (u := pre ++ c_data c). assert (Hin : In (d_off d, u) (d_out d ++ [(d_off d, u)])) by (apply in_or_app; right; left; reflexivity).
      destruct (set_offs_ok (d_out d ++ [(d_off d, u)]) (d_off d) u Hin PP u [] (d_noff d) eq_refl) as (S1 & S2 & S3).
      { intros x Hx. eapply placed_mono; [apply PN, Hx|apply incl_appl, incl_refl]. }
      cbn [length] in S1, S2, S3. rewrite Nat.add_0_r in *. split; [|split; [cbn; apply incl_appl, incl_refl|split; [cbn; lia|]]].
      + split; cbn [d_off d_noff d_out].
        * apply clean_snoc; [exact PC|]. apply Forall_forall. intros [o bs] Hx. left. cbn. apply PB, Hx.
        * lia.
        * intros o bs H. apply in_app_or in H as [H|[H|[]]]; [apply PB in H; lia|injection H as <- <-; lia].
        * exact S1.
        * rewrite set_offs_nil. exact PZ.
        * intros x y Hx Hy. apply in_app_or in Hy as [Hy|[<-|[]]]; [apply PT; assumption|]. left. cbn. apply PI, Hx.
        * intros x Hx. specialize (PI x Hx). lia.
        * exact PA.
      + intros Hne. cbn [d_noff]. apply (S3 pre (c_data c) eq_refl Hne).
    - split; [split; assumption|]. split; [apply incl_refl|]. split; [lia|auto]. }
  clearbody d1. destruct H1 as ([QC QP QB QN QZ QT QI QA] & Hi & Ho & Hn). set (e := enc_data _ _ _).
  assert (Hinc : incl (d_out d1) (d_out d1 ++ [(c_off c, e)])) by apply incl_appl, incl_refl.
  split; [|split; [|split; [cbn [d_out]; eapply incl_tran; eassumption|cbn; lia]]].
  - inversion QA as [|? ? QA1 QA2]; subst. split; cbn [d_off d_noff d_out].
    + apply clean_snoc; [exact QC|]. apply Forall_forall. intros x Hx. change (length e) with 12. apply apart_sym. apply QT; [left; reflexivity|exact Hx].
    + exact QP.
    + intros o bs H. apply in_app_or in H as [H|[H|[]]]; [apply QB, H|]. injection H as <- <-. change (length e) with 12. apply QI. left. reflexivity.
    + intros u Hu. eapply placed_mono; [apply QN, Hu|exact Hinc].
    + exact QZ.
    + intros x y Hx Hy. apply in_app_or in Hy as [Hy|[<-|[]]]; [apply QT; [right; exact Hx|exact Hy]|]. rewrite Forall_forall in QA1. apply apart_sym. exact (QA1 x Hx).
    + intros x Hx. apply QI. right. exact Hx.
    + exact QA2.
  - exists (d_noff d1 (c_data c)). cbn [d_out]. split; [apply in_or_app; right; left; reflexivity|]. split.
    + intros Hne. eapply placed_mono; [apply QN, Hn, Hne|exact Hinc].
    + intros ->. exact QZ.
Qed.
Lemma write_cells_inv hd : forall todo d, (forall c, In c todo -> exists pre, hd (c_data c) = Some (pre ++ c_data c)) -> pass2 todo d ->
  let d' := fold_left (write_cell hd) todo d in pass2 [] d' /\ (forall c, In c todo -> cell_done (d_out d') c) /\ incl (d_out d) (d_out d') /\ d_off d <= d_off d'.
Proof.
  induction todo as [|c todo IH]; intros d Hh HP; cbv zeta; cbn [fold_left].
  - split; [exact HP|]. split; [intros c []|]. split; [apply incl_refl|lia].
  - destruct (write_cell_inv hd c todo d (Hh c (or_introl eq_refl)) HP) as (W1 & W2 & W3 & W4). destruct (IH _ (fun x Hx => Hh x (or_intror Hx)) W1) as (I1 & I2 & I3 & I4).
    split; [exact I1|]. split; [|split; [eapply incl_tran; eassumption|lia]]. intros x [<-|Hx]; [eapply cell_done_mono; [exact W2|exact I3]|apply I2, Hx].
Qed.

(** ** Reading back *)
Lemma rd32_at z size ws o bs i n : (forall x, x < size -> z x = content ws x) -> o + length bs <= size -> clean ws -> In (o, bs) ws -> i + 4 <= length bs -> (n < 2 ^ 32)%N ->
  (forall j, j < 4 -> nth (i + j) bs 0%N = nth j (le32 n) 0%N) -> rd32 z (o + i) = n.
Proof.
  intros HZ HS HC Hin Hl Hn HE. unfold rd32. rewrite !HZ by lia. rewrite <- !Nat.add_assoc.
  replace (content ws (o + i)) with (content ws (o + (i + 0))) by (f_equal; lia).
  rewrite !(content_in ws o bs) by (try assumption; lia). rewrite !HE by lia. cbn [nth le32]. apply rd32_le. exact Hn.
Qed.
Lemma rd16_at z size ws o bs i n : (forall x, x < size -> z x = content ws x) -> o + length bs <= size -> clean ws -> In (o, bs) ws -> i + 2 <= length bs -> (n < 65536)%N ->
  (forall j, j < 2 -> nth (i + j) bs 0%N = nth j (le16 n) 0%N) -> rd16 z (o + i) = n.
Proof.
  intros HZ HS HC Hin Hl Hn HE. unfold rd16. rewrite !HZ by lia. rewrite <- !Nat.add_assoc.
  replace (content ws (o + i)) with (content ws (o + (i + 0))) by (f_equal; lia).
  rewrite !(content_in ws o bs) by (try assumption; lia). rewrite !HE by lia. cbn [nth le16]. apply rd16_le. exact Hn.
Qed.
Lemma map_nth_seq (u : list N) : map (fun i => nth i u 0%N) (seq 0 (length u)) = u.
Proof. apply (nth_ext _ _ 0%N 0%N); [rewrite map_length, seq_length; reflexivity|]. intros n Hn. rewrite map_length, seq_length in Hn. rewrite (nth_indep _ 0%N (nth 0 u 0%N)) by (rewrite map_length, seq_length; exact Hn). rewrite map_nth with (f := fun i => nth i u 0%N) (d := 0). rewrite seq_nth by exact Hn. reflexivity. Qed.
Lemma base_nth s i j : i < N.to_nat (m_end s - m_beg s) -> j < 4 -> nth (4 * i + j) (base_bytes s) 0%N = nth j (le32 (N.of_nat (16 * kid_off s (m_beg s + N.of_nat i)%N))) 0%N.
Proof.
  unfold base_bytes. generalize (N.to_nat (m_end s - m_beg s)) as n. intros n.
  assert (K : forall n k i, i < n -> j < 4 -> nth (4 * i + j) (flat_map (fun i => le32 (N.of_nat (16 * kid_off s (m_beg s + N.of_nat i)%N))) (seq k n)) 0%N = nth j (le32 (N.of_nat (16 * kid_off s (m_beg s + N.of_nat (k + i))%N))) 0%N).
  { clear. induction n as [|n IH]; intros k i Hi Hj; [lia|]. cbn [seq flat_map]. destruct i as [|i].
    - rewrite Nat.add_0_r. rewrite app_nth1 by (cbn; lia). reflexivity.
    - rewrite app_nth2 by (cbn [length le32]; lia). replace (4 * S i + j - length (le32 (N.of_nat (16 * kid_off s (m_beg s + N.of_nat k)%N)))) with (4 * i + j) by (cbn [length le32]; lia).
      rewrite IH by lia. rewrite <- plus_n_Sm. reflexivity. }
  intros Hi Hj. apply (K n 0 i Hi Hj).
Qed.

Theorem layout_read_back l : wf l -> (N.of_nat (file_size l) < 2 ^ 32)%N -> forall z, (forall x, x < file_size l -> z x = file_bytes l x) -> forall i s, nth_error l i = Some s ->
  let r := rt_read_state z (16 * i) in
  r_status r = status_code (m_status s) /\ r_beg r = m_beg s /\ r_end r = m_end s /\
  listcpy_st z (r_data r) (cells (m_data s)) /\
  forall v, rt_get_offset z r v = 16 * kid_off s v.
Proof.
  intros HW HSZ z HZ i s Hs.
  set (w0 := mkWs (16 * length l) (fun _ => 0) [] []).
  assert (P0 : pass1 (length l) 0 w0).
  { pose proof (wf_len _ HW). split; [split; cbn|intros c []|constructor|intros o bs []|intros c x []]; [lia|lia|intros c []|congruence|constructor]. }
  destruct (write_states_inv (length l) l 0 w0 eq_refl P0) as (Q1 & Q2 & _ & _ & _). unfold file_bytes, file_size, write_all in *. fold w0 in HSZ, HZ.
  set (w := write_states 0 l w0) in *. specialize (Q2 i s Hs). cbn [Nat.add] in Q2. destruct Q1 as [PC PL PK PO PX].
  assert (P2 : pass2 (w_cells w) (mkDs (w_off w) (fun _ => 0) (w_out w))).
  { pose proof (ci_base _ _ PC). pose proof (ci_pos _ _ PC). split; cbn [d_off d_noff d_out]; try assumption; try reflexivity; [lia| |congruence| |exact (ci_apart _ _ PC)].
    - intros o bs Hx. destruct (PO _ _ Hx) as [(k & Hk & -> & ->)|(H1 & H2)]; lia.
    - intros c Hc. apply (ci_in _ _ PC c Hc). }
  destruct (write_cells_inv (heads (w_cells w)) (w_cells w) _ (fun c Hc => heads_ok (w_cells w) c Hc) P2) as (R1 & R2 & R3 & R4).
  set (d := fold_left (write_cell (heads (w_cells w))) (w_cells w) (mkDs (w_off w) (fun _ => 0) (w_out w))) in *.
  cbn [d_out d_off] in R3, R4. destruct R1 as [DC DP DB _ _ _ _ _].
  destruct Q2 as (data & base & E1 & E2 & E3 & E4 & E5). apply R3 in E1. pose proof (DB _ _ E1) as HB1. rewrite enc_state_len in HB1.
  assert (Hcell : forall c, In c (w_cells w) -> c_next c < d_off d).
  { intros c Hc. destruct (PL c Hc) as (L1 & L2). destruct (list_eq_dec N.eq_dec (rest (c_node c)) []) as [Er|Er]; [rewrite (L1 Er); exact DP|].
    destruct (L2 Er ltac:(discriminate)) as (L3 & L4). destruct (ci_has _ _ PC _ L4) as (c1 & Hc1 & En). destruct (ci_in _ _ PC c1 Hc1) as (A1 & _ & _ & A4 & _). rewrite L3. rewrite <- En, A1. lia. }
  assert (HL : forall n h, length h <= n -> (h = [] \/ w_noff w h <> 0) -> listcpy_st z (match h with [] => 0 | _ => w_noff w h end) (cells h)).
  { induction n as [|n IH]; intros h Hn Hh; (destruct h as [|b h]; [constructor|]); [cbn in Hn; lia|].
    destruct Hh as [Hh|Hh]; [discriminate|]. rewrite (cells_piece (length (b :: h)) (b :: h) (le_n _)) by discriminate.
    destruct (ci_has _ _ PC _ Hh) as (c & Hc & En). destruct (ci_in _ _ PC c Hc) as (A1 & A2 & A3 & A4 & A5 & A6). rewrite En in *.
    destruct (R2 c Hc) as (a & F1 & F2 & F3). pose proof (DB _ _ F1) as FB. pose proof (Hcell c Hc) as Hnx.
    assert (HP : piece (b :: h) = map (fun i => z (a + i)) (seq 0 (length (piece (b :: h)))) /\ (N.of_nat a < 2 ^ 32)%N /\ (N.of_nat (c_len c) < 2 ^ 32)%N).
    { rewrite A6, <- A5. destruct (list_eq_dec N.eq_dec (c_data c) []) as [Ed|Ed].
      - rewrite (F3 Ed), Ed. split; [reflexivity|]. split; reflexivity.
      - destruct (F2 Ed) as (o' & pre & Ho & ->). pose proof (DB _ _ Ho) as HB2. rewrite app_length in HB2. split; [|split; lia].
        transitivity (map (fun i => nth i (c_data c) 0%N) (seq 0 (length (c_data c)))); [symmetry; apply map_nth_seq|]. apply map_ext_in. intros j Hj. apply in_seq in Hj.
        rewrite HZ by lia. rewrite <- Nat.add_assoc. rewrite (content_in _ _ _ _ DC Ho) by (rewrite app_length; lia). rewrite app_nth2 by lia. f_equal. lia. }
    destruct HP as (HP & Ha & Hln).
    assert (G1 : rd32 z (w_noff w (b :: h)) = N.of_nat a).
    { rewrite A1. rewrite <- (Nat.add_0_r (c_off c)). eapply rd32_at; [exact HZ|exact FB|exact DC|exact F1|cbn; lia|exact Ha|]. intros j Hj. destruct j as [|[|[|[|]]]]; reflexivity || lia. }
    assert (G2 : rd32 z (w_noff w (b :: h) + 4) = N.of_nat (c_len c)).
    { rewrite A1. eapply rd32_at; [exact HZ|exact FB|exact DC|exact F1|cbn; lia|exact Hln|]. intros j Hj. destruct j as [|[|[|[|]]]]; reflexivity || lia. }
    assert (G3 : rd32 z (w_noff w (b :: h) + 8) = N.of_nat (c_next c)).
    { rewrite A1. eapply rd32_at; [exact HZ|exact FB|exact DC|exact F1|cbn; lia|lia|]. intros j Hj. destruct j as [|[|[|[|]]]]; reflexivity || lia. }
    rewrite HP. replace (map (fun i => z (a + i)) (seq 0 (length (piece (b :: h))))) with (map (fun i => z (N.to_nat (rd32 z (w_noff w (b :: h))) + i)) (seq 0 (N.to_nat (rd32 z (w_noff w (b :: h) + 4))))).
    2:{ rewrite G1, G2, !Nat2N.id, A6. reflexivity. }
    apply ls_next; [exact Hh|]. rewrite G3, Nat2N.id. destruct (PL c Hc) as (L1 & L2). rewrite En in *. pose proof (rest_len (b :: h)) as RL. cbn [length] in RL, Hn.
    destruct (list_eq_dec N.eq_dec (rest (b :: h)) []) as [Er|Er].
    - rewrite (L1 Er), Er. constructor.
    - destruct (L2 Er ltac:(discriminate)) as (-> & L4). pose proof (IH (rest (b :: h)) ltac:(lia) (or_intror L4)) as IHr. destruct (rest (b :: h)) eqn:Ex; [contradiction|]. exact IHr. }
  assert (Hdata : (N.of_nat data < 2 ^ 32)%N).
  { destruct (list_eq_dec N.eq_dec (m_data s) []) as [Ed|Ed]; [rewrite (E2 Ed); reflexivity|]. destruct (E3 Ed) as (E31 & E32). rewrite E31 in E32. destruct (ci_has _ _ PC _ E32) as (c & Hc & En). destruct (ci_in _ _ PC c Hc) as (A1 & _ & _ & A4 & _). rewrite E31, <- En, A1. lia. }
  destruct (wf_rng _ HW i s Hs) as (W1 & W2).
  assert (X1 : z (16 * i) = status_code (m_status s)).
  { rewrite HZ by lia. rewrite <- (Nat.add_0_r (16 * i)). rewrite (content_in _ _ _ _ DC E1) by (cbn; lia). reflexivity. }
  assert (X2 : rd32 z (16 * i + 4) = N.of_nat data). { eapply rd32_at; [exact HZ|rewrite enc_state_len; exact HB1|exact DC|exact E1|cbn; lia|exact Hdata|]. intros j Hj. destruct j as [|[|[|[|]]]]; reflexivity || lia. }
  assert (X3 : rd16 z (16 * i + 8) = m_beg s). { eapply rd16_at; [exact HZ|rewrite enc_state_len; exact HB1|exact DC|exact E1|cbn; lia|lia|]. intros j Hj. destruct j as [|[|]]; reflexivity || lia. }
  assert (X4 : rd16 z (16 * i + 10) = m_end s). { eapply rd16_at; [exact HZ|rewrite enc_state_len; exact HB1|exact DC|exact E1|cbn; lia|lia|]. intros j Hj. destruct j as [|[|]]; reflexivity || lia. }
  assert (X5 : rd32 z (16 * i + 12) = N.of_nat base). { eapply rd32_at; [exact HZ|rewrite enc_state_len; exact HB1|exact DC|exact E1|cbn; lia|lia|]. intros j Hj. destruct j as [|[|[|[|]]]]; reflexivity || lia. }
  cbv zeta. unfold rt_read_state. cbn [r_status r_data r_beg r_end r_base]. rewrite X1, X2, X3, X4, X5, !Nat2N.id. do 3 (split; [reflexivity|]). split.
  - pose proof (HL (length (m_data s)) (m_data s) (le_n _)) as HL'. destruct (list_eq_dec N.eq_dec (m_data s) []) as [Ed|Ed].
    + rewrite (E2 Ed), Ed. constructor.
    + destruct (E3 Ed) as (E31 & E32). rewrite E31 in *. specialize (HL' (or_intror E32)). destruct (m_data s); [contradiction|exact HL'].
  - intros v. unfold rt_get_offset. cbn [r_beg r_end r_base]. destruct ((m_beg s <=? v)%N && (v <? m_end s)%N) eqn:EV.
    + assert (HK : m_kids s <> []) by (intros K; pose proof (wf_nil _ HW i s Hs K); lia). specialize (E4 HK). apply R3 in E4.
      assert (Hko : 16 * kid_off s v < d_off d).
      { unfold kid_off. destruct (kid s v) as [k|] eqn:Ek; [|lia]. destruct (wf_kid _ HW i s v k Hs Ek) as (Hk & _). pose proof (ci_base _ _ PC). lia. }
      rewrite (rd32_at z (d_off d) (d_out d) base (base_bytes s) (N.to_nat (v - m_beg s) * 4) (N.of_nat (16 * kid_off s v)) HZ (DB _ _ E4) DC E4); [apply Nat2N.id|rewrite base_len; lia|lia|].
      intros j Hj. replace (N.to_nat (v - m_beg s) * 4 + j) with (4 * N.to_nat (v - m_beg s) + j) by lia. rewrite base_nth by lia.
      rewrite N2Nat.id. replace (m_beg s + (v - m_beg s))%N with v by lia. reflexivity.
    + unfold kid_off. destruct (kid s v) as [k|] eqn:Ek; [|reflexivity]. destruct (wf_kid _ HW i s v k Hs Ek) as (_ & Hk). lia.
Qed.

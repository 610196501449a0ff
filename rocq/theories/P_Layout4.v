(** Everything written is a byte, and lookups in the file are lookups in the table. *)
From Verif Require Import Base Types M_Engine S_Dict S_Table M_Mktable M_Layout P_Layout P_Layout2 P_Layout3 P_Mktable P_Mktable2 P_Mktable3.
From Coq Require Import ZifyBool ZifyN ZifyNat.

(** ** Symbols *)
Definition sym (c : N) : Prop := (c <= 256)%N.
Lemma hexd_lt c : (hexd c < 16)%N.
Proof. unfold hexd. repeat match goal with |- context [if ?b then _ else _] => destruct b eqn:?; [lia|] end. lia. Qed.
Lemma parse_out_sym : forall t c j, (c < 16)%N \/ j = false -> Forall sym (parse_out t c j).
Proof.
  induction t as [|x t IH]; intros c j H; cbn [parse_out]; [constructor|]. destruct (x =? 44)%N; [constructor; [unfold sym; lia|apply IH; exact H]|].
  pose proof (hexd_lt x). destruct j; [constructor; [unfold sym; destruct H; [lia|discriminate]|apply IH; right; reflexivity]|apply IH; left; assumption].
Qed.
Lemma parse_line_sym x ln : parse_line x = Some (Some ln) -> Forall sym (sl_out ln).
Proof.
  unfold parse_line. destruct (split_line x) as [[[f t]|]|]; try discriminate.
  destruct (match f with 33%N :: f' => (true, f') | _ => (false, f) end) as [ci f1]. destruct (match t with 63%N :: t' => (true, t') | _ => (false, t) end) as [cb t1].
  destruct (parse_pattern f1); [|discriminate]. intros H. injection H as <-. cbn. apply parse_out_sym. right. reflexivity.
Qed.
Lemma parse_lines_sym : forall ls lines, parse_lines ls = Some lines -> Forall (fun ln => Forall sym (sl_out ln)) lines.
Proof.
  induction ls as [|x ls IH]; intros lines H; cbn in H; [injection H as <-; constructor|]. destruct (parse_line x) as [[ln|]|] eqn:E; [| |discriminate]; destruct (parse_lines ls) as [r|]; try discriminate; injection H as <-.
  - constructor; [eapply parse_line_sym; eassumption|apply IH; reflexivity].
  - apply IH. reflexivity.
Qed.
Definition dsym (s : mstate) : Prop := Forall sym (m_data s).
Definition dsyml := Forall dsym.
Lemma dsyml_upd l k f : dsyml l -> (forall s, dsym s -> dsym (f s)) -> dsyml (upd l k f). Proof. intros H Hf. apply Forall_upd; assumption. Qed.
Lemma dsyml_app l s : dsyml l -> dsym s -> dsyml (l ++ [s]). Proof. intros H Hs. apply Forall_app. split; [exact H|constructor; [exact Hs|constructor]]. Qed.
Lemma dsym_new x : dsym (state_new x). Proof. constructor. Qed.
Lemma dsyml_get l k : dsyml l -> dsym (get l k).
Proof. intros H. unfold get. destruct (nth_in_or_default k l (state_new DEADEND)) as [Hi| ->]; [apply (proj1 (Forall_forall _ _) H), Hi|apply dsym_new]. Qed.
Lemma interior_sym ci lo hi it c l todo : dsyml l -> dsyml (fst (interior ci lo hi it (l, todo) c)).
Proof.
  intros H. unfold interior. destruct (sel _ _ _ c); [|exact H]. pose proof (fun k => dsyml_get l k H) as G.
  destruct (kid _ c) as [k|]; [destruct (m_status (get l k))|]; cbn [fst]; repeat (apply dsyml_upd; [|auto]); auto; apply dsyml_app; auto using dsym_new. exact (G k).
Qed.
Lemma fold_fst {A B C} (P : A -> Prop) (f : A * B -> C -> A * B) : (forall a b c, P a -> P (fst (f (a, b) c))) -> forall cs a b, P a -> P (fst (fold_left f cs (a, b))).
Proof. intros H. induction cs as [|c cs IH]; intros a b Ha; cbn [fold_left]; [exact Ha|]. specialize (H a b c Ha). destruct (f (a, b) c) as [a' b']. apply IH. exact H. Qed.
Lemma rounds_sym ci : forall pat todo l, dsyml l -> dsyml (fst (rounds ci todo l pat)).
Proof.
  induction pat as [|[lo hi] pat IH]; intros todo l H; cbn [rounds]; [exact H|].
  assert (K : dsyml (fst (fold_left (interior_item ci lo hi) todo (l, [])))).
  { apply (fold_fst dsyml); [|exact H]. intros a b c Ha. unfold interior_item. apply (fold_fst dsyml); [|exact Ha]. intros a' b' c' Ha'. apply interior_sym, Ha'. }
  destruct (fold_left (interior_item ci lo hi) todo (l, [])) as [l1 t1]. apply IH. exact K.
Qed.
Lemma leaf_sym ci cb dat it x c : Forall sym dat -> dsyml (k_states x) -> dsyml (k_states (leaf ci cb dat it x c)).
Proof.
  intros Hd H. unfold leaf. destruct (sel _ _ _ c); [|exact H].
  destruct (kid _ c) as [k|]; [|destruct cb; [destruct (cb_find _ _)|]];
  repeat match goal with |- context [if ?b then _ else _] => destruct b | |- context [match ?x with CONTINUE => _ | _ => _ end] => destruct x end; cbn [k_states];
  repeat (apply dsyml_upd; [|intros s Hs; first [exact Hs|exact Hd]]); auto; apply dsyml_app; auto using dsym_new; apply dsyml_upd; auto.
Qed.
Lemma fold_inv {A B} (P : A -> Prop) (f : A -> B -> A) : (forall a b, P a -> P (f a b)) -> forall bs a, P a -> P (fold_left f bs a).
Proof. intros H. induction bs; intros a' Ha; cbn; auto. Qed.
Lemma build_sym lines : Forall (fun ln => Forall sym (sl_out ln)) lines -> dsyml (build lines).
Proof.
  intros H. unfold build. assert (H0 : dsyml (k_states mk0)) by (constructor; [apply dsym_new|constructor]). revert H0. generalize mk0. induction H as [|ln lines Hl _ IH]; intros x Hx; cbn [fold_left]; [exact Hx|]. apply IH.
  unfold add_line. destruct (sl_pat ln) as [|[lo hi] pat].
  - match goal with |- context [if ?b then _ else _] => destruct b end; [exact Hx|]. cbn [k_states]. apply dsyml_upd; [exact Hx|]. intros s Hs. exact Hl.
  - pose proof (rounds_sym (sl_ci ln) pat [mkT 0 lo hi 1] (k_states x) Hx) as K. destruct (rounds _ _ _ pat) as [l todo]. cbn [fst] in K.
    apply (fold_inv (fun x => dsyml (k_states x))); [|exact K]. intros a it Ha. unfold leaf_item. apply (fold_inv (fun x => dsyml (k_states x))); [|exact Ha]. intros a' c Ha'. apply leaf_sym; assumption.
Qed.

(** ** Bytes *)
Definition byte (c : N) : Prop := (c < 256)%N.
Definition logb (ws : wlog) : Prop := Forall (fun w => Forall byte (snd w)) ws.
Lemma content_byte ws x : logb ws -> byte (content ws x).
Proof.
  intros H. unfold content. destruct (find _ (rev ws)) as [[o bs]|] eqn:E; [|unfold byte; lia]. apply find_some in E as (E & B). apply in_rev in E. rewrite <- in_rev in E || idtac.
  pose proof (proj1 (Forall_forall _ _) H _ E) as K. cbn in K. destruct (nth_in_or_default (x - o) bs 0%N) as [Hi| ->]; [apply (proj1 (Forall_forall _ _) K), Hi|unfold byte; lia].
Qed.
Lemma mod_byte n : byte (n mod 256). Proof. apply N.mod_lt. discriminate. Qed.
Lemma le32_b n : Forall byte (le32 n). Proof. unfold le32. repeat constructor; apply mod_byte. Qed.
Lemma le16_b n : Forall byte (le16 n). Proof. unfold le16. repeat constructor; apply mod_byte. Qed.
Lemma enc_state_b s d b e k : Forall byte (enc_state (status_code s) d b e k).
Proof. unfold enc_state. constructor; [destruct s; reflexivity|]. repeat (apply Forall_app; split); auto using le32_b, le16_b. repeat constructor. Qed.
Lemma enc_data_b d b e : Forall byte (enc_data d b e).
Proof. unfold enc_data. repeat (apply Forall_app; split); auto using le32_b. Qed.
Lemma base_b s : Forall byte (base_bytes s).
Proof. unfold base_bytes. apply Forall_flat_map. apply Forall_forall. intros i _. apply le32_b. Qed.
Lemma piece_b h : Forall sym h -> Forall byte (piece h).
Proof. induction 1 as [|c h Hc Hh IH]; cbn [piece]; [constructor|]. destruct (N.eqb_spec c 256); [constructor|]. constructor; [unfold byte, sym in *; lia|exact IH]. Qed.
Definition cellb (cs : list cell) : Prop := Forall (fun c => Forall byte (c_data c)) cs.
Lemma on_last_b n cs : cellb cs -> cellb (on_last (set_len n) cs).
Proof. induction cs as [|c cs IH]; intros H; [exact H|]. inversion H as [|? ? H1 H2]; subst. destruct cs as [|c' cs]; [constructor; [exact H1|constructor]|]. change (cellb (c :: on_last (set_len n) (c' :: cs))). constructor; [exact H1|]. apply IH, H2. Qed.
Lemma begin_b h dq w : Forall sym h -> cellb (w_cells w) -> cellb (w_cells (fst (begin_cell h dq w))) /\ w_out (fst (begin_cell h dq w)) = w_out w.
Proof.
  intros Hh H. unfold begin_cell.
  assert (K : forall q v cs, cellb cs -> cellb (map (fun c => if node_eqb (c_node c) q then set_next v c else c) cs)).
  { intros q v cs Hc. apply Forall_map. eapply Forall_impl; [|exact Hc]. intros c Hb. destruct (node_eqb _ q); exact Hb. }
  assert (K2 : cellb (w_cells w ++ [mkCell h (w_off w) (piece h) 0 0])) by (apply Forall_app; split; [exact H|constructor; [apply piece_b, Hh|constructor]]).
  destruct (w_noff w h =? 0); destruct dq as [q|]; cbn [fst w_cells w_out]; split; auto.
Qed.
Lemma walk_b : forall h k l j dq w, Forall sym h -> cellb (w_cells w) -> cellb (w_cells (walk_data h k l j dq w)) /\ w_out (walk_data h k l j dq w) = w_out w.
Proof.
  induction h as [|c h IH]; intros k l j dq w Hh H; cbn [walk_data].
  - destruct j; [|auto]. split; [apply on_last_b, H|reflexivity].
  - assert (G : forall (w1 : wst) (j1 : bool) (dq1 : option (list N)), cellb (w_cells w1) -> w_out w1 = w_out w ->
      cellb (w_cells (if (c =? 256)%N then walk_data h true 0 false dq1 (if j1 then last_len l w1 else w1) else walk_data h false (S l) j1 dq1 w1)) /\
      w_out (if (c =? 256)%N then walk_data h true 0 false dq1 (if j1 then last_len l w1 else w1) else walk_data h false (S l) j1 dq1 w1) = w_out w).
    { intros w1 j1 dq1 A B. inversion Hh; subst. destruct (c =? 256)%N.
      - destruct (IH true 0 false dq1 (if j1 then last_len l w1 else w1)) as (I1 & I2); [assumption|destruct j1; [apply on_last_b, A|exact A]|]. split; [exact I1|]. rewrite I2, <- B. destruct j1; reflexivity.
      - destruct (IH false (S l) j1 dq1 w1) as (I1 & I2); [assumption|exact A|]. split; [exact I1|]. rewrite I2. exact B. }
    destruct k; [|apply G; auto]. pose proof (begin_b (c :: h) dq w Hh H) as (B1 & B2). destruct (begin_cell (c :: h) dq w) as [w' j']. apply G; assumption.
Qed.
Lemma write_state_b i s w : dsym s -> cellb (w_cells w) -> logb (w_out w) -> cellb (w_cells (write_state i s w)) /\ logb (w_out (write_state i s w)).
Proof.
  intros Hs Hc Hl. unfold write_state. destruct (walk_b (m_data s) true 0 false None w Hs Hc) as (A & B). set (w1 := walk_data (m_data s) true 0 false None w) in *.
  destruct (m_kids s); cbn [w_cells w_out]; (split; [exact A|]); rewrite B; apply Forall_app; (split; [exact Hl|]); repeat (apply Forall_cons; [cbn [snd]; first [apply base_b|apply enc_state_b]|]); constructor.
Qed.
Lemma write_states_b : forall l i w, dsyml l -> cellb (w_cells w) -> logb (w_out w) -> cellb (w_cells (write_states i l w)) /\ logb (w_out (write_states i l w)).
Proof.
  induction l as [|s l IH]; intros i w H Hc Hl; cbn [write_states]; [auto|]. inversion H; subst. destruct (write_state_b i s w) as (A & B); try assumption. apply IH; assumption.
Qed.
Definition headb (f : list N -> option (list N)) : Prop := forall u h, f u = Some h -> Forall byte h.
Lemma set_heads_b hd : Forall byte hd -> forall u f, headb f -> headb (set_heads u hd f).
Proof. intros Hh. induction u as [|b u IH]; intros f Hf; cbn [set_heads]; [exact Hf|]. apply IH. intros x h. unfold nset. destruct (node_eqb x (b :: u)); [intros E; injection E as <-; exact Hh|apply Hf]. Qed.
Lemma heads_b cs : cellb cs -> headb (heads cs).
Proof.
  intros H. unfold heads. assert (H0 : headb (fun _ => None)) by (intros u h; discriminate). revert H0. generalize (fun _ : list N => @None (list N)). induction H as [|c cs Hc _ IH]; intros f Hf; cbn [fold_left]; [exact Hf|]. apply IH.
  unfold head_cell. destruct (f (c_data c)) eqn:E; [exact Hf|]. apply set_heads_b; [exact Hc|]. intros x h. unfold nset. destruct (node_eqb x (c_data c)); [intros K; injection K as <-; exact Hc|apply Hf].
Qed.
Lemma write_cell_b hd d c : headb hd -> logb (d_out d) -> logb (d_out (write_cell hd d c)).
Proof.
  intros Hh Hl. unfold write_cell. cbn [d_out]. apply Forall_app. split; [|apply Forall_cons; [apply enc_data_b|constructor]].
  destruct (d_noff d (c_data c) =? 0); [|exact Hl]. destruct (hd (c_data c)) as [u|] eqn:E; [|exact Hl]. cbn [d_out]. apply Forall_app. split; [exact Hl|]. apply Forall_cons; [cbn; eapply Hh, E|constructor].
Qed.
Lemma file_byte l x : dsyml l -> byte (file_bytes l x).
Proof.
  intros H. unfold file_bytes, write_all. destruct (write_states_b l 0 (mkWs (16 * length l) (fun _ => 0) [] []) H) as (A & B); [constructor|constructor|].
  apply content_byte. apply (fold_inv (fun d => logb (d_out d))); [|exact B]. intros d c Hd. apply write_cell_b; [apply heads_b, A|exact Hd].
Qed.

(** ** Lookup in the file *)
Lemma wf_offset l n c : wf l -> n < length l -> get_offset (to_tstate (get l n)) c = Some (kid_off (get l n) c).
Proof. intros W H. apply get_offset_kid. intros k K. apply (wf_kid _ W n (get l n) c k); [|exact K]. unfold get. apply nth_error_nth'. exact H. Qed.
Lemma file_walk_table l z : wf l -> (N.of_nat (file_size l) < 2 ^ 32)%N -> (forall x, x < file_size l -> z x = file_bytes l x) ->
  forall w n, n < length l -> match walk_from (to_table l) n w with
    | WAt k => k < length l /\ file_walk z (16 * n) w = Some (16 * k)
    | WDead => file_walk z (16 * n) w = None
    | WUB => False end.
Proof.
  intros W HS HZ. induction w as [|c w IH]; intros n Hn; cbn [walk_from file_walk]; [auto|]. rewrite read_to_table by exact Hn. rewrite wf_offset by assumption.
  assert (Hg : nth_error l n = Some (get l n)) by (unfold get; apply nth_error_nth'; exact Hn).
  destruct (layout_read_back l W HS z HZ n (get l n) Hg) as (_ & _ & _ & _ & HO). rewrite HO.
  destruct (kid_off (get l n) c) as [|k] eqn:EK; [reflexivity|].
  assert (Hk : S k < length l). { unfold kid_off in EK. destruct (kid (get l n) c) as [k'|] eqn:E; [|discriminate]. subst k'. apply (wf_kid _ W n (get l n) c (S k) Hg E). }
  specialize (IH (S k) Hk). replace (16 * S k) with (S (15 + 16 * k)) in * by lia. exact IH.
Qed.

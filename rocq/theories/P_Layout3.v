(** The state graph of the compiler is well formed, for every source. *)
From Verif Require Import Base Types M_Engine M_Mktable M_Layout P_Layout P_Layout2 P_Mktable P_Mktable2.
From Coq Require Import ZifyBool ZifyN ZifyNat.

Definition okst (n : nat) (s : mstate) : Prop :=
  (forall c k, kid s c = Some k -> k < n /\ (m_beg s <= c < m_end s)%N) /\ (m_beg s < 65536 /\ m_end s <= 257)%N /\ (m_kids s = [] -> (m_end s <= m_beg s)%N).
Definition okl (l : list mstate) : Prop := Forall (okst (length l)) l.
Lemma okst_mono n m s : n <= m -> okst n s -> okst m s.
Proof. intros H (A & B & C). split; [|auto]. intros c k K. destruct (A c k K). split; [lia|assumption]. Qed.
Lemma Forall_upd (P : mstate -> Prop) f : (forall s, P s -> P (f s)) -> forall l k, Forall P l -> Forall P (upd l k f).
Proof. intros H l. induction l as [|x l IH]; intros k HF; [destruct k; exact HF|]. inversion HF; subst. destruct k; cbn [upd]; constructor; auto. Qed.
Lemma upd_upd f g : forall l k, upd (upd l k f) k g = upd l k (fun s => g (f s)).
Proof. induction l as [|x l IH]; intros [|k]; cbn [upd]; try reflexivity. rewrite IH. reflexivity. Qed.
Lemma upd_app f x : forall l k, k < length l -> upd l k f ++ [x] = upd (l ++ [x]) k f.
Proof. induction l as [|y l IH]; intros k H; cbn in H; [lia|]. destruct k; cbn [upd app]; [reflexivity|]. rewrite IH by lia. reflexivity. Qed.
Lemma okst_data n s d v : okst n s -> okst n (ms_data s d v). Proof. intros H. exact H. Qed.
Lemma okst_status n s x : okst n s -> okst n (ms_status s x). Proof. intros H. exact H. Qed.
Lemma okst_new n x : okst n (state_new x).
Proof. split; [intros c k; discriminate|]. split; cbn; [lia|]. intros _. lia. Qed.
Lemma okst_attach n s c k : (c <= 256)%N -> k < n -> okst n s -> okst n (ms_kid (ms_widen s c) c k).
Proof.
  intros Hc Hk (A & (B1 & B2) & C). split; [|split].
  - intros c' k' K. rewrite kid_set in K. change (m_beg (ms_kid (ms_widen s c) c k)) with (if (c <? m_beg s)%N then c else m_beg s). change (m_end (ms_kid (ms_widen s c) c k)) with (if (m_end s <=? c)%N then (c + 1)%N else m_end s).
    destruct (N.eqb_spec c c') as [<-|Hne]; [injection K as <-|destruct (A c' k' K)]; (split; [assumption|]); destruct (N.ltb_spec c (m_beg s)), (N.leb_spec (m_end s) c); lia.
  - cbn. destruct (N.ltb_spec c (m_beg s)), (N.leb_spec (m_end s) c); lia.
  - discriminate.
Qed.
Lemma okst_widen n s c : (c <= 256)%N -> m_kids s <> [] -> okst n s -> okst n (ms_widen s c).
Proof.
  intros Hc HK (A & (B1 & B2) & C). split; [|split].
  - intros c' k' K. change (kid (ms_widen s c) c') with (kid s c') in K. cbn. destruct (A c' k' K). split; [assumption|]. destruct (N.ltb_spec c (m_beg s)), (N.leb_spec (m_end s) c); lia.
  - cbn. destruct (N.ltb_spec c (m_beg s)), (N.leb_spec (m_end s) c); lia.
  - intros K. contradiction.
Qed.
Lemma Forall_upd_at (P : mstate -> Prop) f : forall l k, Forall P l -> (k < length l -> P (f (get l k))) -> Forall P (upd l k f).
Proof.
  induction l as [|x l IH]; intros k HF Hk; [destruct k; exact HF|]. inversion HF; subst. destruct k; cbn [upd]; constructor; auto; try (apply Hk; cbn; lia).
  apply IH; [assumption|]. intros H. apply Hk. cbn. lia.
Qed.
Lemma okl_get l k : okl l -> okst (length l) (get l k).
Proof. intros H. unfold get. destruct (nth_in_or_default k l (state_new DEADEND)) as [Hi| ->]; [apply (proj1 (Forall_forall _ _) H), Hi|apply okst_new]. Qed.
Lemma okl_upd l k f : okl l -> (okst (length l) (get l k) -> okst (length l) (f (get l k))) -> okl (upd l k f).
Proof. intros H Hf. unfold okl. rewrite upd_len. apply Forall_upd_at; [exact H|]. intros _. apply Hf, okl_get, H. Qed.
Lemma okl_app l x : okl l -> okst (S (length l)) x -> okl (l ++ [x]).
Proof. intros H Hx. unfold okl. rewrite app_length. cbn [length]. rewrite Nat.add_1_r. apply Forall_app. split; [|constructor; [exact Hx|constructor]]. eapply Forall_impl; [|exact H]. intros s. apply okst_mono. lia. Qed.
Lemma kid_nonnil s c k : kid s c = Some k -> m_kids s <> []. Proof. intros H E. unfold kid in H. rewrite E in H. discriminate. Qed.
Lemma okl_new_kid l s c x k : okl l -> (c <= 256)%N -> s < length l -> okst (S (length l)) x -> k = length l ->
  okl (upd (upd (l ++ [x]) s (fun st => ms_widen st c)) s (fun st => ms_kid st c k)).
Proof.
  intros H Hc Hs Hx ->. rewrite upd_upd. apply okl_upd; [apply okl_app; assumption|]. rewrite app_length. cbn [length]. intros K. apply okst_attach; [exact Hc|lia|exact K].
Qed.

Lemma widen_kid_comm l s c k : upd (upd l s (fun st => ms_kid st c k)) s (fun st => ms_widen st c) = upd (upd l s (fun st => ms_widen st c)) s (fun st => ms_kid st c k).
Proof. rewrite !upd_upd. reflexivity. Qed.
Definition todo_in (n : nat) (todo : list titem) : Prop := Forall (fun t => ti_state t < n) todo.
Lemma todo_mono n m t : n <= m -> todo_in n t -> todo_in m t.
Proof. intros H. apply Forall_impl. intros x Hx. lia. Qed.
Lemma interior_wf ci lo hi it l todo c : okl l -> (c <= 256)%N -> ti_state it < length l -> todo_in (length l) todo ->
  let '(l', todo') := interior ci lo hi it (l, todo) c in okl l' /\ length l <= length l' /\ todo_in (length l') todo'.
Proof.
  intros H Hc Hs Ht. unfold interior. destruct (sel ci (ti_lo it) (ti_hi it) c) as [lv|]; [|auto].
  assert (Hadd : forall n k, todo_in n todo -> k < n -> todo_in n (todo ++ [mkT k lo hi (ti_level it + lv)])).
  { intros n k A B. apply Forall_app. split; [exact A|]. constructor; [exact B|constructor]. }
  destruct (kid (get l (ti_state it)) c) as [k|] eqn:EK.
  - pose proof (okl_get l (ti_state it) H) as (A & _). destruct (A c k EK) as (Hk & _). pose proof (kid_nonnil _ _ _ EK) as HN.
    assert (Hsame : okl (upd l (ti_state it) (fun st => ms_widen st c)) /\ length l <= length (upd l (ti_state it) (fun st => ms_widen st c)) /\ todo_in (length (upd l (ti_state it) (fun st => ms_widen st c))) (todo ++ [mkT k lo hi (ti_level it + lv)])).
    { rewrite upd_len. split; [|split; [lia|apply Hadd; assumption]]. apply okl_upd; [exact H|]. apply okst_widen; assumption. }
    destruct (m_status (get l k)); try exact Hsame.
    + rewrite !upd_len. split; [|split; [lia|apply Hadd; assumption]].
      assert (H1 : okl (upd l k (fun st => ms_status st SUBMATCH))) by (apply okl_upd; [exact H|auto]).
      apply okl_upd; [exact H1|]. apply okst_widen; [exact Hc|]. rewrite get_upd_any. destruct ((ti_state it =? k) && (k <? length l)); exact HN.
    + rewrite !upd_len, app_length. cbn [length]. split; [|split; [lia|apply Hadd; [eapply todo_mono; [|exact Ht]; lia|lia]]].
      rewrite widen_kid_comm. apply okl_new_kid; try assumption; [apply okst_data, okst_new|reflexivity].
  - rewrite !upd_len, app_length. cbn [length]. split; [|split; [lia|apply Hadd; [eapply todo_mono; [|exact Ht]; lia|lia]]].
    rewrite widen_kid_comm. apply okl_new_kid; try assumption; [apply okst_new|reflexivity].
Qed.
Lemma interior_fold ci lo hi it : forall cs l todo, (forall c, In c cs -> (c <= 256)%N) -> okl l -> ti_state it < length l -> todo_in (length l) todo ->
  let '(l', todo') := fold_left (interior ci lo hi it) cs (l, todo) in okl l' /\ length l <= length l' /\ todo_in (length l') todo'.
Proof.
  induction cs as [|c cs IH]; intros l todo Hcs H Hs Ht; cbn [fold_left]; [auto|]. pose proof (interior_wf ci lo hi it l todo c H (Hcs c (or_introl eq_refl)) Hs Ht) as K. destruct (interior ci lo hi it (l, todo) c) as [l1 t1]. destruct K as (K1 & K2 & K3).
  pose proof (IH l1 t1 (fun x Hx => Hcs x (or_intror Hx)) K1 ltac:(lia) K3) as J. destruct (fold_left (interior ci lo hi it) cs (l1, t1)) as [l2 t2]. destruct J as (J1 & J2 & J3). split; [exact J1|]. split; [lia|exact J3].
Qed.
Lemma item_wf ci lo hi it l todo : okl l -> ti_state it < length l -> todo_in (length l) todo ->
  let '(l', todo') := interior_item ci lo hi (l, todo) it in okl l' /\ length l <= length l' /\ todo_in (length l') todo'.
Proof. intros H Hs Ht. unfold interior_item. apply interior_fold; try assumption. intros c Hc. apply syms_in. exact Hc. Qed.
Definition okpair (x : list mstate * list titem) : Prop := okl (fst x) /\ todo_in (length (fst x)) (snd x).
Lemma fold_items (f : list mstate * list titem -> titem -> list mstate * list titem) :
  (forall x it, okpair x -> ti_state it < length (fst x) -> okpair (f x it) /\ length (fst x) <= length (fst (f x it))) ->
  forall its x, okpair x -> todo_in (length (fst x)) its -> okpair (fold_left f its x) /\ length (fst x) <= length (fst (fold_left f its x)).
Proof.
  intros Hf. induction its as [|it its IH]; intros x Hx Hi; cbn [fold_left]; [split; [exact Hx|lia]|]. inversion Hi as [|? ? Hi1 Hi2]; subst.
  destruct (Hf x it Hx Hi1) as (K1 & K2). destruct (IH _ K1 ltac:(eapply todo_mono; eassumption)) as (J1 & J2). split; [exact J1|lia].
Qed.
Lemma items_fold ci lo hi its l todo : okl l -> todo_in (length l) its -> todo_in (length l) todo ->
  okpair (fold_left (interior_item ci lo hi) its (l, todo)) /\ length l <= length (fst (fold_left (interior_item ci lo hi) its (l, todo))).
Proof.
  intros H Hi Ht. apply (fold_items (interior_item ci lo hi)) with (x := (l, todo)); [|split; assumption|exact Hi].
  intros [l1 t1] it (A & B) Hs. pose proof (item_wf ci lo hi it l1 t1 A Hs B) as K. destruct (interior_item ci lo hi (l1, t1) it) as [l2 t2]. destruct K as (K1 & K2 & K3). split; [split; assumption|exact K2].
Qed.
Lemma rounds_wf ci : forall pat todo l, okl l -> todo_in (length l) todo ->
  let '(l', todo') := rounds ci todo l pat in okl l' /\ length l <= length l' /\ todo_in (length l') todo'.
Proof.
  induction pat as [|[lo hi] pat IH]; intros todo l H Ht; cbn [rounds]; [auto|].
  pose proof (items_fold ci lo hi todo l [] H Ht ltac:(constructor)) as K. destruct (fold_left (interior_item ci lo hi) todo (l, [])) as [l1 t1]. destruct K as ((K1 & K3) & K2). cbn [fst snd] in *.
  pose proof (IH t1 l1 K1 K3) as J. destruct (rounds ci t1 l1 pat) as [l2 t2]. destruct J as (J1 & J2 & J3). split; [exact J1|]. split; [lia|exact J3].
Qed.
Definition okmk (x : mk) : Prop := okl (k_states x) /\ Forall (fun p => snd p < length (k_states x)) (k_cbs x).
Lemma cb_find_in : forall l d k, cb_find l d = Some k -> exists p, In p l /\ snd p = k.
Proof. induction l as [|[a v] l IH]; intros d k H; [discriminate|]. cbn in H. destruct (list_eq_dec N.eq_dec a d); [injection H as <-; exists (a, v); split; [left; reflexivity|reflexivity]|]. destruct (IH _ _ H) as (p & A & B). exists p. split; [right; exact A|exact B]. Qed.
Lemma leaf_wf ci cb dat it x c : okmk x -> (c <= 256)%N -> ti_state it < length (k_states x) ->
  okmk (leaf ci cb dat it x c) /\ length (k_states x) <= length (k_states (leaf ci cb dat it x c)).
Proof.
  intros (H & HC) Hc Hs. unfold leaf. destruct (sel ci (ti_lo it) (ti_hi it) c) as [lv|]; [|split; [split; assumption|lia]].
  set (s := ti_state it) in *. set (l0 := k_states x) in *. set (l := upd l0 s (fun st => ms_widen st c)). assert (Ll : length l = length l0) by apply upd_len.
  assert (Hcb : forall n, length l0 <= n -> Forall (fun p : list N * nat => snd p < n) (k_cbs x)) by (intros n Hn; eapply Forall_impl; [|exact HC]; intros p Hp; cbn in *; lia).
  assert (Hd : forall l' k lv', okl l' -> okl (upd l' k (fun st => ms_data st dat lv'))) by (intros l' k lv' A; apply okl_upd; [exact A|auto]).
  assert (Hst : forall l' k x', okl l' -> okl (upd l' k (fun st => ms_status st x'))) by (intros l' k x' A; apply okl_upd; [exact A|auto]).
  assert (Hnew : forall st, okl (upd (l ++ [state_new st]) s (fun st => ms_kid st c (length l)))).
  { intros st. unfold l at 1. rewrite upd_app by exact Hs. apply okl_new_kid; try assumption. apply okst_new. }
  assert (EK : kid (get l s) c = kid (get l0 s) c). { subst l. rewrite get_upd by exact Hs. reflexivity. }
  rewrite EK. destruct (kid (get l0 s) c) as [k|] eqn:EK0.
  - pose proof (okl_get l0 s H) as (A & _). destruct (A c k EK0) as (Hk & _). pose proof (kid_nonnil _ _ _ EK0) as HN.
    assert (Hl : okl l) by (subst l; apply okl_upd; [exact H|]; apply okst_widen; assumption).
    assert (F : forall l' k', okl l' -> length l0 <= length l' -> forall lv', okmk (mkMk (upd l' k' (fun st => ms_data st dat lv')) (k_cbs x)) /\ length l0 <= length (k_states (mkMk (upd l' k' (fun st => ms_data st dat lv')) (k_cbs x)))).
    { intros l' k' A1 A2 lv'. unfold okmk. cbn [k_states k_cbs]. rewrite upd_len. split; [split; [apply Hd, A1|apply Hcb, A2]|exact A2]. }
    match goal with |- context [if ?b then _ else _] => destruct b end; [unfold okmk; cbn [k_states k_cbs]; split; [split; [exact Hl|apply Hcb; lia]|lia]|].
    destruct (m_status (get l k)); try (destruct cb); apply F; rewrite ?upd_len, ?app_length; cbn [length]; try lia; auto.
  - destruct cb; [destruct (cb_find (k_cbs x) dat) as [k|] eqn:EF|].
    + destruct (cb_find_in _ _ _ EF) as (p & Hp & Ek). rewrite Forall_forall in HC. pose proof (HC p Hp) as Hk. rewrite Ek in Hk.
      unfold okmk. cbn [k_states k_cbs]. rewrite !upd_len. split; [split; [|apply Hcb; lia]|lia]. apply Hd. unfold l. rewrite upd_upd. apply okl_upd; [exact H|]. intros K. apply okst_attach; assumption.
    + unfold okmk. cbn [k_states k_cbs]. rewrite !upd_len, app_length. cbn [length]. split; [split; [apply Hd, Hnew|constructor; [cbn [snd]; lia|apply Hcb; lia]]|lia].
    + unfold okmk. cbn [k_states k_cbs]. rewrite !upd_len, app_length. cbn [length]. split; [split; [apply Hd, Hnew|apply Hcb; lia]|lia].
Qed.
Lemma leaf_fold ci cb dat it : forall cs x, (forall c, In c cs -> (c <= 256)%N) -> okmk x -> ti_state it < length (k_states x) ->
  okmk (fold_left (leaf ci cb dat it) cs x) /\ length (k_states x) <= length (k_states (fold_left (leaf ci cb dat it) cs x)).
Proof.
  induction cs as [|c cs IH]; intros x Hcs H Hs; cbn [fold_left]; [auto|]. destruct (leaf_wf ci cb dat it x c H (Hcs c (or_introl eq_refl)) Hs) as (K1 & K2).
  destruct (IH _ (fun y Hy => Hcs y (or_intror Hy)) K1 ltac:(lia)) as (J1 & J2). split; [exact J1|lia].
Qed.
Lemma leaf_item_wf ci cb dat it x : okmk x -> ti_state it < length (k_states x) ->
  okmk (leaf_item ci cb dat x it) /\ length (k_states x) <= length (k_states (leaf_item ci cb dat x it)).
Proof. intros H Hs. unfold leaf_item. apply leaf_fold; try assumption. intros c Hc. apply syms_in. exact Hc. Qed.
Lemma fold_leaves (f : mk -> titem -> mk) :
  (forall x it, okmk x -> ti_state it < length (k_states x) -> okmk (f x it) /\ length (k_states x) <= length (k_states (f x it))) ->
  forall its x, okmk x -> todo_in (length (k_states x)) its -> okmk (fold_left f its x) /\ length (k_states x) <= length (k_states (fold_left f its x)).
Proof.
  intros Hf. induction its as [|it its IH]; intros x Hx Hi; cbn [fold_left]; [split; [exact Hx|lia]|]. inversion Hi as [|? ? Hi1 Hi2]; subst.
  destruct (Hf x it Hx Hi1) as (K1 & K2). destruct (IH _ K1 ltac:(eapply todo_mono; eassumption)) as (J1 & J2). split; [exact J1|lia].
Qed.
Lemma leaves_fold ci cb dat its x : okmk x -> todo_in (length (k_states x)) its ->
  okmk (fold_left (leaf_item ci cb dat) its x) /\ length (k_states x) <= length (k_states (fold_left (leaf_item ci cb dat) its x)).
Proof. apply (fold_leaves (leaf_item ci cb dat)). intros y it Hy Hs. apply leaf_item_wf; assumption. Qed.
Lemma add_line_wf x ln : okmk x -> 1 <= length (k_states x) -> okmk (add_line x ln) /\ 1 <= length (k_states (add_line x ln)).
Proof.
  intros (H & HC) H1. unfold add_line. destruct (sl_pat ln) as [|[lo hi] pat].
  - match goal with |- context [if ?b then _ else _] => destruct b end; [split; [split; assumption|exact H1]|]. unfold okmk. cbn [k_states k_cbs]. rewrite upd_len. split; [split; [|exact HC]|exact H1].
    apply okl_upd; [exact H|]. destruct (sl_cb ln); auto.
  - pose proof (rounds_wf (sl_ci ln) pat [mkT 0 lo hi 1] (k_states x) H ltac:(constructor; [exact H1|constructor])) as K. destruct (rounds (sl_ci ln) [mkT 0 lo hi 1] (k_states x) pat) as [l todo]. destruct K as (K1 & K2 & K3).
    destruct (leaves_fold (sl_ci ln) (sl_cb ln) (sl_out ln) todo (mkMk l (k_cbs x))) as (J1 & J2); [split; [exact K1|]; cbn [k_states k_cbs]; eapply Forall_impl; [|exact HC]; intros p Hp; cbn in *; lia|exact K3|]. split; [exact J1|]. cbn [k_states] in J2. lia.
Qed.
Theorem build_wf lines : wf (build lines).
Proof.
  unfold build.
  assert (G : forall ls x, okmk x -> 1 <= length (k_states x) -> okmk (fold_left add_line ls x) /\ 1 <= length (k_states (fold_left add_line ls x))).
  { induction ls as [|ln ls IH]; intros x A B; cbn [fold_left]; [auto|]. destruct (add_line_wf x ln A B). apply IH; assumption. }
  destruct (G lines mk0) as ((G1 & _) & G2); [split; [constructor; [apply okst_new|constructor]|constructor]|cbn; lia|]. unfold okl in G1.
  assert (G3 : forall i s, nth_error (k_states (fold_left add_line lines mk0)) i = Some s -> okst (length (k_states (fold_left add_line lines mk0))) s).
  { intros i s Hs. apply (proj1 (Forall_forall _ _) G1). eapply nth_error_In, Hs. }
  split.
  - exact G2.
  - intros i s c k Hs. apply (G3 i s Hs).
  - intros i s Hs. apply (G3 i s Hs).
  - intros i s Hs. apply (G3 i s Hs).
Qed.

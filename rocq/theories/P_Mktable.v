(** The table compiler as a map from words to entries. *)
From Verif Require Import Base Types M_Engine M_Mktable.

Definition info := (status * list N * nat)%type.
Definition node (s : mstate) : info := (m_status s, m_data s, m_level s).

Fixpoint path_from (l : list mstate) (n : nat) (w : list N) : option nat :=
  match w with [] => Some n | c :: w' => match kid (get l n) c with Some k => path_from l k w' | None => None end end.
Definition path l w := path_from l 0 w.
Definition inf (l : list mstate) (w : list N) : option info := option_map (fun n => node (get l n)) (path l w).

Lemma path_from_app l : forall w n u, path_from l n (w ++ u) = match path_from l n w with Some k => path_from l k u | None => None end.
Proof. induction w as [|c w IH]; intros n u; cbn; [reflexivity|]. destruct (kid (get l n) c); [apply IH|reflexivity]. Qed.
Lemma path_snoc l w c : path l (w ++ [c]) = match path l w with Some n => kid (get l n) c | None => None end.
Proof. unfold path. rewrite path_from_app. destruct (path_from l 0 w) as [n|]; [|reflexivity]. cbn. destruct (kid (get l n) c); reflexivity. Qed.

(** *** heap operations *)
Lemma upd_len l : forall k f, length (upd l k f) = length l.
Proof. induction l as [|x l IH]; intros [|k] f; cbn; auto. Qed.
Lemma get_upd l k f : k < length l -> get (upd l k f) k = f (get l k).
Proof. unfold get. revert k. induction l as [|x l IH]; intros [|k] H; cbn in *; try lia; [reflexivity|]. apply IH. lia. Qed.
Lemma get_upd_ne l : forall k j f, j <> k -> get (upd l k f) j = get l j.
Proof. unfold get. induction l as [|x l IH]; intros [|k] [|j] f H; cbn; try reflexivity; try lia. apply IH. lia. Qed.
Lemma get_app l x k : k < length l -> get (l ++ [x]) k = get l k.
Proof. intros H. unfold get. apply app_nth1. exact H. Qed.
Lemma get_new l x : get (l ++ [x]) (length l) = x.
Proof. unfold get. rewrite app_nth2 by lia. rewrite Nat.sub_diag. reflexivity. Qed.
Lemma kid_set s c k c' : kid (ms_kid s c k) c' = if (c =? c')%N then Some k else kid s c'.
Proof. reflexivity. Qed.

Record good (l : list mstate) : Prop := {
  g_len : 1 <= length l;
  g_kid : forall s c k, s < length l -> kid (get l s) c = Some k -> 0 < k < length l;
  g_inj : forall s c s' c' k, s < length l -> s' < length l -> kid (get l s) c = Some k -> kid (get l s') c' = Some k -> s = s' /\ c = c';
  g_rng : forall s c k, s < length l -> kid (get l s) c = Some k -> (m_beg (get l s) <= c < m_end (get l s))%N;
  g_sub : forall s, s < length l -> m_status (get l s) <> SUBROUTINE /\ m_status (get l s) <> SUBMATCH_SUBROUTINE
}.

Lemma path_lt l (G : good l) : forall w n, path l w = Some n -> n < length l.
Proof.
  induction w as [|c w IH] using rev_ind; intros n H.
  - injection H as <-. pose proof (g_len l G). lia.
  - rewrite path_snoc in H. destruct (path l w) as [m|] eqn:E; [|discriminate]. apply (g_kid l G m c n) in H; [lia|]. apply IH. reflexivity.
Qed.
Lemma path_inj l (G : good l) : forall w w' n, path l w = Some n -> path l w' = Some n -> w = w'.
Proof.
  induction w as [|c w IH] using rev_ind; intros w' n H H'.
  - injection H as <-. destruct w' as [|c' w' _] using rev_ind; [reflexivity|]. rewrite path_snoc in H'. destruct (path l w') as [m|] eqn:E; [|discriminate].
    apply (g_kid l G) in H'; [lia|]. eapply path_lt; eassumption.
  - rewrite path_snoc in H. destruct (path l w) as [m|] eqn:E; [|discriminate]. destruct w' as [|c' w' _] using rev_ind.
    + injection H' as <-. apply (g_kid l G) in H; [lia|]. eapply path_lt; eassumption.
    + rewrite path_snoc in H'. destruct (path l w') as [m'|] eqn:E'; [|discriminate].
      destruct (g_inj l G m c m' c' n) as (<- & <-); try assumption; try (eapply path_lt; eassumption). f_equal. eapply IH; [reflexivity|exact E'].
Qed.

(** *** Two ways the compiler changes the heap at the word w++[c]. *)

(** the child exists: its status, data and level change *)
Definition same_kids (f : mstate -> mstate) : Prop := forall s, m_kids (f s) = m_kids s /\ m_beg (f s) = m_beg s /\ m_end (f s) = m_end s.

Lemma kid_same f s c : same_kids f -> kid (f s) c = kid s c.
Proof. intros H. unfold kid. rewrite (proj1 (H s)). reflexivity. Qed.

Lemma path_from_ext l l' : (forall n c, kid (get l' n) c = kid (get l n) c) -> forall w n, path_from l' n w = path_from l n w.
Proof. intros H w. induction w as [|c w IH]; intros n; cbn; [reflexivity|]. rewrite H. destruct (kid (get l n) c); auto. Qed.

Lemma get_upd_any l k f j : get (upd l k f) j = if (j =? k) && (k <? length l) then f (get l j) else get l j.
Proof.
  destruct (Nat.eqb_spec j k) as [->|Hne]; cbn [andb].
  - destruct (Nat.ltb_spec k (length l)); [apply get_upd; assumption|]. unfold get. rewrite !nth_overflow; [reflexivity| |rewrite upd_len]; assumption.
  - apply get_upd_ne. exact Hne.
Qed.

Lemma kids_upd l k f : same_kids f -> forall n c, kid (get (upd l k f) n) c = kid (get l n) c.
Proof. intros H n c. rewrite get_upd_any. destruct (_ && _); [apply kid_same; exact H|reflexivity]. Qed.

Lemma good_upd l k f : good l -> same_kids f -> (forall s, m_status (f s) <> SUBROUTINE /\ m_status (f s) <> SUBMATCH_SUBROUTINE \/ m_status (f s) = m_status s) -> good (upd l k f).
Proof.
  intros G H Hst. constructor.
  - rewrite upd_len. apply (g_len l G).
  - intros s c j. rewrite upd_len, kids_upd by exact H. apply (g_kid l G).
  - intros s c s' c' j. rewrite upd_len, !kids_upd by exact H. apply (g_inj l G).
  - intros s c j Hs. rewrite upd_len in Hs. rewrite kids_upd by exact H. intros HK. pose proof (g_rng l G s c j Hs HK) as HR.
    rewrite get_upd_any. destruct (_ && _); [|exact HR]. destruct (H (get l s)) as (_ & -> & ->). exact HR.
  - intros s Hs. rewrite upd_len in Hs. pose proof (g_sub l G s Hs) as HS. rewrite get_upd_any. destruct (_ && _); [|exact HS]. destruct (Hst (get l s)) as [H1 | ->]; assumption.
Qed.

Lemma good_widen l k c : good l -> good (upd l k (fun st => ms_widen st c)).
Proof.
  intros G. assert (HK : forall n c', kid (get (upd l k (fun st => ms_widen st c)) n) c' = kid (get l n) c') by (intros n c'; rewrite get_upd_any; destruct (_ && _); reflexivity).
  constructor.
  - rewrite upd_len. apply (g_len l G).
  - intros s c' j. rewrite upd_len, HK. apply (g_kid l G).
  - intros s c1 s' c' j. rewrite upd_len, !HK. apply (g_inj l G).
  - intros s c' j Hs. rewrite upd_len in Hs. rewrite HK. intros Hj. pose proof (g_rng l G s c' j Hs Hj) as HR.
    rewrite get_upd_any. destruct (_ && _); [|exact HR]. cbn. destruct (N.ltb_spec c (m_beg (get l s))); destruct (N.leb_spec (m_end (get l s)) c); lia.
  - intros s Hs. rewrite upd_len in Hs. rewrite get_upd_any. destruct (_ && _); apply (g_sub l G s Hs).
Qed.
Lemma path_widen l k c w : path (upd l k (fun st => ms_widen st c)) w = path l w.
Proof. apply path_from_ext. intros n c'. rewrite get_upd_any. destruct (_ && _); reflexivity. Qed.
Lemma node_widen l k c n : node (get (upd l k (fun st => ms_widen st c)) n) = node (get l n).
Proof. rewrite get_upd_any. destruct (_ && _); reflexivity. Qed.
Lemma inf_widen l k c w : inf (upd l k (fun st => ms_widen st c)) w = inf l w.
Proof. unfold inf. rewrite path_widen. destruct (path l w); [|reflexivity]. cbn. rewrite node_widen. reflexivity. Qed.

Lemma path_upd l k f w : same_kids f -> path (upd l k f) w = path l w.
Proof. intros H. apply path_from_ext. intros n c. apply kids_upd. exact H. Qed.

(** The existing child changes. *)
Lemma inf_upd l k f u : good l -> same_kids f -> path l u = Some k ->
  forall v, inf (upd l k f) v = if list_eq_dec N.eq_dec v u then Some (node (f (get l k))) else inf l v.
Proof.
  intros G H Hu v. unfold inf. rewrite path_upd by exact H. pose proof (path_lt l G u k Hu) as Hk. destruct (list_eq_dec N.eq_dec v u) as [->|Hne].
  - rewrite Hu. cbn. rewrite get_upd by exact Hk. reflexivity.
  - destruct (path l v) as [n|] eqn:E; [|reflexivity]. cbn. rewrite get_upd_ne; [reflexivity|]. intros ->. apply Hne. eapply path_inj; eassumption.
Qed.

(** A new child. *)
Definition add_kid (l : list mstate) (s : nat) (c : N) (x : mstate) : list mstate := upd (upd (l ++ [x]) s (fun st => ms_kid st c (length l))) s (fun st => ms_widen st c).

Lemma kid_add l s c x n c' : s < length l -> m_kids x = [] -> n <= length l -> kid (get (add_kid l s c x) n) c' = if (n =? s) && (c =? c')%N then Some (length l) else if n =? length l then None else kid (get l n) c'.
Proof.
  intros Hs Hx Hn. unfold add_kid. rewrite get_upd_any. rewrite upd_len, app_length. cbn [length]. replace (s <? length l + 1) with true by (symmetry; apply Nat.ltb_lt; lia).
  destruct (Nat.eqb_spec n s) as [->|Hne]; cbn [andb].
  - rewrite get_upd by (rewrite app_length; cbn; lia). rewrite get_app by exact Hs. unfold ms_widen, kid. cbn [m_kids ms_kid assocN]. destruct (N.eqb_spec c c'); [reflexivity|].
    replace (s =? length l) with false by (symmetry; apply Nat.eqb_neq; lia). reflexivity.
  - rewrite get_upd_ne by exact Hne. destruct (Nat.eqb_spec n (length l)) as [->|Hnl].
    + rewrite get_new. unfold kid. rewrite Hx. reflexivity.
    + rewrite get_app by lia. reflexivity.
Qed.
Lemma len_add l s c x : length (add_kid l s c x) = S (length l).
Proof. unfold add_kid. rewrite !upd_len, app_length. cbn. lia. Qed.
Lemma node_add l s c x n : s < length l -> n <= length l -> node (get (add_kid l s c x) n) = if n =? length l then node x else node (get l n).
Proof.
  intros Hs Hn. unfold add_kid. rewrite node_widen. rewrite get_upd_any. rewrite app_length. cbn [length]. destruct (Nat.eqb_spec n s) as [->|Hne]; cbn [andb].
  - replace (s <? length l + 1) with true by (symmetry; apply Nat.ltb_lt; lia). rewrite get_app by exact Hs. replace (s =? length l) with false by (symmetry; apply Nat.eqb_neq; lia). reflexivity.
  - destruct (Nat.eqb_spec n (length l)) as [->|Hnl]; [rewrite get_new; reflexivity|rewrite get_app by lia; reflexivity].
Qed.

Lemma good_add l s c x : good l -> s < length l -> kid (get l s) c = None -> m_kids x = [] -> m_status x <> SUBROUTINE /\ m_status x <> SUBMATCH_SUBROUTINE -> good (add_kid l s c x).
Proof.
  intros G Hs Hc Hx Hst. constructor.
  - rewrite len_add. lia.
  - intros n c' k. rewrite len_add. intros Hn. rewrite kid_add by (try assumption; lia).
    destruct (_ && _); [intros E; injection E as <-; pose proof (g_len l G); lia|]. destruct (Nat.eqb_spec n (length l)); [discriminate|]. intros HK. apply (g_kid l G) in HK; lia.
  - intros n c1 n' c2 k. rewrite len_add. intros Hn Hn'. rewrite !kid_add by (try assumption; lia).
    destruct (Nat.eqb_spec n s) as [->|E1]; destruct (N.eqb_spec c c1) as [<-|E2]; cbn [andb]; intros H1;
      try (injection H1 as <-; destruct (Nat.eqb_spec n' s) as [->|E3]; destruct (N.eqb_spec c c2) as [<-|E4]; cbn [andb]; intros H2; try (split; reflexivity);
           (destruct (Nat.eqb_spec s (length l)); [lia|]; try (destruct (Nat.eqb_spec n' (length l)); [discriminate|])); apply (g_kid l G) in H2; lia).
    all: destruct (Nat.eqb_spec n' s) as [->|E3]; destruct (N.eqb_spec c c2) as [<-|E4]; cbn [andb]; intros H2.
    all: try (injection H2 as <-).
    all: repeat match type of H1 with (if ?a =? ?b then None else _) = _ => destruct (Nat.eqb_spec a b); [discriminate H1|] end.
    all: repeat match type of H2 with (if ?a =? ?b then None else _) = _ => destruct (Nat.eqb_spec a b); [discriminate H2|] end.
    all: try (apply (g_kid l G) in H1; lia).
    all: eapply (g_inj l G); [| |exact H1|exact H2]; lia.
  - intros n c' k. rewrite len_add. intros Hn. rewrite kid_add by (try assumption; lia). intros HK.
    unfold add_kid. rewrite get_upd_any. rewrite upd_len, app_length. cbn [length]. replace (s <? length l + 1) with true by (symmetry; apply Nat.ltb_lt; lia).
    destruct (Nat.eqb_spec n s) as [->|Hne]; cbn [andb] in *.
    + rewrite get_upd by (rewrite app_length; cbn; lia). rewrite get_app by exact Hs. cbn [ms_widen m_beg m_end ms_kid].
      destruct (N.eqb_spec c c') as [->|Hcc].
      * destruct (N.ltb_spec c' (m_beg (get l s))); destruct (N.leb_spec (m_end (get l s)) c'); lia.
      * destruct (Nat.eqb_spec s (length l)); [lia|]. pose proof (g_rng l G s c' k Hs HK). destruct (N.ltb_spec c (m_beg (get l s))); destruct (N.leb_spec (m_end (get l s)) c); lia.
    + destruct (Nat.eqb_spec n (length l)); [discriminate|]. rewrite get_upd_ne by exact Hne. rewrite get_app by lia. apply (g_rng l G n c' k); [lia|exact HK].
  - intros n Hn. rewrite len_add in Hn. pose proof (node_add l s c x n Hs ltac:(lia)) as HN. change (m_status (get (add_kid l s c x) n)) with (fst (fst (node (get (add_kid l s c x) n)))). rewrite HN. destruct (Nat.eqb_spec n (length l)); [exact Hst|]. apply (g_sub l G n). lia.
Qed.

Lemma path_add l s c x w : good l -> path l w = Some s -> kid (get l s) c = None -> m_kids x = [] ->
  forall v, path (add_kid l s c x) v = if list_eq_dec N.eq_dec v (w ++ [c]) then Some (length l) else path l v.
Proof.
  intros G Hw Hc Hx. assert (Hs : s < length l) by (eapply path_lt; eassumption).
  induction v as [|d v IH] using rev_ind.
  - destruct (list_eq_dec N.eq_dec [] (w ++ [c])) as [E|_]; [destruct w; discriminate|reflexivity].
  - rewrite !path_snoc, IH. destruct (list_eq_dec N.eq_dec v (w ++ [c])) as [->|Hv].
    + rewrite kid_add by (try assumption; lia). rewrite Nat.eqb_refl. replace (length l =? s) with false by (symmetry; apply Nat.eqb_neq; lia). cbn [andb].
      destruct (list_eq_dec N.eq_dec ((w ++ [c]) ++ [d]) (w ++ [c])) as [E|_]; [apply (f_equal (@length N)) in E; rewrite !app_length in E; cbn in E; lia|].
      rewrite path_snoc, Hw, Hc. reflexivity.
    + destruct (path l v) as [m|] eqn:Em.
      * assert (Hm : m < length l) by (eapply path_lt; eassumption). rewrite kid_add by (try assumption; lia). replace (m =? length l) with false by (symmetry; apply Nat.eqb_neq; lia).
        destruct (Nat.eqb_spec m s) as [->|Hms]; cbn [andb].
        -- assert (v = w) by (eapply path_inj; eassumption). subst v. destruct (N.eqb_spec c d) as [->|Hcd].
           ++ destruct (list_eq_dec N.eq_dec (w ++ [d]) (w ++ [d])); [reflexivity|contradiction].
           ++ destruct (list_eq_dec N.eq_dec (w ++ [d]) (w ++ [c])) as [E|_]; [apply app_inv_head in E; congruence|reflexivity].
        -- destruct (list_eq_dec N.eq_dec (v ++ [d]) (w ++ [c])) as [E|_]; [|reflexivity]. apply app_inj_tail in E as (-> & ->). congruence.
      * destruct (list_eq_dec N.eq_dec (v ++ [d]) (w ++ [c])) as [E|_]; [|reflexivity]. apply app_inj_tail in E as (-> & ->). congruence.
Qed.

Lemma inf_add l s c x w : good l -> path l w = Some s -> kid (get l s) c = None -> m_kids x = [] ->
  forall v, inf (add_kid l s c x) v = if list_eq_dec N.eq_dec v (w ++ [c]) then Some (node x) else inf l v.
Proof.
  intros G Hw Hc Hx v. assert (Hs : s < length l) by (eapply path_lt; eassumption). unfold inf. rewrite (path_add l s c x w G Hw Hc Hx). destruct (list_eq_dec N.eq_dec v (w ++ [c])).
  - cbn. rewrite node_add by (try assumption; lia). rewrite Nat.eqb_refl. reflexivity.
  - destruct (path l v) as [m|] eqn:E; [|reflexivity]. cbn. assert (m < length l) by (eapply path_lt; eassumption). rewrite node_add by (try assumption; lia). replace (m =? length l) with false by (symmetry; apply Nat.eqb_neq; lia). reflexivity.
Qed.

(** *** The two primitive effects *)
Definition int_eff (a : option info) : info :=
  match a with
  | None => (CONTINUE, [], 0)
  | Some (MATCH, d, lv) => (SUBMATCH, d, lv)
  | Some x => x
  end.
Definition leaf_eff (dat : list N) (level : nat) (a : option info) : info :=
  match a with
  | None => (MATCH, dat, level)
  | Some (st, d, lv) =>
      match st with
      | MATCH | SUBMATCH => if level <=? lv then (st, d, lv) else (MATCH, dat, level)
      | CONTINUE => (SUBMATCH, dat, level)
      | _ => (MATCH, dat, level)
      end
  end.

(** what one step does: the word u gets [e], paths only grow *)
Definition effect (l l' : list mstate) (u : list N) (e : info) : Prop :=
  good l' /\ (forall v, inf l' v = if list_eq_dec N.eq_dec v u then Some e else inf l v) /\ (forall v n, path l v = Some n -> path l' v = Some n) /\ exists k, path l' u = Some k.

Lemma interior_eff ci lo' hi' it l todo w c lv : good l -> path l w = Some (ti_state it) -> sel ci (ti_lo it) (ti_hi it) c = Some lv ->
  exists l' k, interior ci lo' hi' it (l, todo) c = (l', todo ++ [mkT k lo' hi' (ti_level it + lv)]) /\ effect l l' (w ++ [c]) (int_eff (inf l (w ++ [c]))) /\ path l' (w ++ [c]) = Some k.
Proof.
  intros G Hw Hs. unfold interior. rewrite Hs. set (s := ti_state it) in *. assert (Hs' : s < length l) by (eapply path_lt; eassumption).
  destruct (kid (get l s) c) as [k|] eqn:Ek.
  - assert (Hp : path l (w ++ [c]) = Some k) by (rewrite path_snoc, Hw; exact Ek).
    assert (Hi : inf l (w ++ [c]) = Some (node (get l k))) by (unfold inf; rewrite Hp; reflexivity). rewrite Hi.
    assert (Hk : k < length l) by (eapply path_lt; eassumption). pose proof (g_sub l G k Hk) as (S1 & S2).
    destruct (m_status (get l k)) eqn:Est; try congruence.
    all: unfold node; rewrite Est; cbn [int_eff].
    all: eexists _, k; (split; [reflexivity|]).
    3:{ set (f := fun st => ms_status st SUBMATCH). assert (Hf : same_kids f) by (intros x; auto).
        assert (G1 : good (upd l k f)) by (apply good_upd; [exact G|exact Hf|]; intros x; left; cbn; split; discriminate).
        split; [|rewrite path_widen, path_upd by exact Hf; exact Hp].
        split; [apply good_widen; exact G1|]. split; [|split; [intros v n Hv; rewrite path_widen, path_upd by exact Hf; exact Hv|exists k; rewrite path_widen, path_upd by exact Hf; exact Hp]].
        intros v. rewrite inf_widen. rewrite (inf_upd l k f _ G Hf Hp). reflexivity. }
    all: (split; [|rewrite path_widen; exact Hp]); (split; [apply good_widen; exact G|]); (split; [|split; [intros v n Hv; rewrite path_widen; exact Hv|exists k; rewrite path_widen; exact Hp]]);
      intros v; rewrite inf_widen; destruct (list_eq_dec N.eq_dec v (w ++ [c])) as [->|]; [|reflexivity]; rewrite Hi; unfold node; rewrite Est; reflexivity.
  - assert (Hi : inf l (w ++ [c]) = None) by (unfold inf; rewrite path_snoc, Hw, Ek; reflexivity). rewrite Hi.
    eexists _, (length l). split; [reflexivity|]. fold (add_kid l s c (state_new CONTINUE)).
    assert (Hp : path (add_kid l s c (state_new CONTINUE)) (w ++ [c]) = Some (length l)) by (rewrite (path_add l s c (state_new CONTINUE) w G Hw Ek eq_refl); destruct (list_eq_dec N.eq_dec (w ++ [c]) (w ++ [c])); [reflexivity|contradiction]).
    split; [|exact Hp]. split; [apply good_add; auto; cbn; split; discriminate|]. split; [apply inf_add; auto|]. split; [|exists (length l); exact Hp].
    intros v n Hv. rewrite (path_add l s c (state_new CONTINUE) w G Hw Ek eq_refl). destruct (list_eq_dec N.eq_dec v (w ++ [c])) as [->|]; [|exact Hv]. rewrite path_snoc, Hw, Ek in Hv. discriminate.
Qed.

Lemma add_kid_comm l s c x : s < length l -> kid (get l s) c = None -> upd (upd l s (fun st => ms_widen st c) ++ [x]) s (fun st => ms_kid st c (length (upd l s (fun st => ms_widen st c)))) = add_kid l s c x.
Proof.
  intros Hs _. unfold add_kid. rewrite upd_len. assert (HG : forall n l s, s < length l -> upd (upd l s (fun st => ms_widen st c) ++ [x]) s (fun st => ms_kid st c n) = upd (upd (l ++ [x]) s (fun st => ms_kid st c n)) s (fun st => ms_widen st c)).
  { clear. intros n. induction l as [|y l IH]; intros [|s] Hs; cbn in *; try lia; [reflexivity|]. f_equal. apply IH. lia. }
  apply HG. exact Hs.
Qed.

Lemma leaf_effect ci dat it l w c lv : good l -> path l w = Some (ti_state it) -> sel ci (ti_lo it) (ti_hi it) c = Some lv ->
  exists l', (forall cbs, leaf ci false dat it (mkMk l cbs) c = mkMk l' cbs) /\ effect l l' (w ++ [c]) (leaf_eff dat (lv + ti_level it) (inf l (w ++ [c]))).
Proof.
  intros G Hw Hs. unfold leaf. rewrite Hs. cbn [k_states k_cbs]. set (s := ti_state it) in *. assert (Hs' : s < length l) by (eapply path_lt; eassumption).
  set (lw := upd l s (fun st => ms_widen st c)). assert (Gw : good lw) by (apply good_widen; exact G).
  assert (Hkid : forall c', kid (get lw s) c' = kid (get l s) c') by (intros c'; unfold lw; rewrite get_upd by exact Hs'; reflexivity). rewrite Hkid.
  set (lev := lv + ti_level it).
  destruct (kid (get l s) c) as [k|] eqn:Ek.
  - assert (Hp : path l (w ++ [c]) = Some k) by (rewrite path_snoc, Hw; exact Ek).
    assert (Hpw : path lw (w ++ [c]) = Some k) by (unfold lw; rewrite path_widen; exact Hp).
    assert (Hk : k < length l) by (eapply path_lt; eassumption). assert (Hkw : k < length lw) by (unfold lw; rewrite upd_len; exact Hk).
    assert (Hi : inf l (w ++ [c]) = Some (node (get lw k))) by (unfold inf; rewrite Hp; cbn; unfold lw; rewrite node_widen; reflexivity). rewrite Hi.
    pose proof (g_sub lw Gw k Hkw) as (S1 & S2). unfold node. set (st := get lw k) in *.
    (* the state changes *)
    assert (HX : forall x, same_kids (fun st0 => ms_data (ms_status st0 x) dat lev) -> x <> SUBROUTINE /\ x <> SUBMATCH_SUBROUTINE ->
       effect l (upd (upd lw k (fun st0 => ms_status st0 x)) k (fun st0 => ms_data st0 dat lev)) (w ++ [c]) (x, dat, lev)).
    { intros x Hsk Hx. assert (E : upd (upd lw k (fun st0 => ms_status st0 x)) k (fun st0 => ms_data st0 dat lev) = upd lw k (fun st0 => ms_data (ms_status st0 x) dat lev)).
      { clear. generalize lw. intros q. revert k. induction q as [|y q IH]; intros [|k]; cbn; try reflexivity. f_equal. apply IH. }
      rewrite E. set (f := fun st0 => ms_data (ms_status st0 x) dat lev) in *.
      split; [apply good_upd; [exact Gw|exact Hsk|]; intros y; left; exact Hx|]. split; [|split; [|exists k; rewrite path_upd by exact Hsk; exact Hpw]].
      - intros v. rewrite (inf_upd lw k f _ Gw Hsk Hpw). destruct (list_eq_dec N.eq_dec v (w ++ [c])); [reflexivity|]. unfold lw. rewrite inf_widen. reflexivity.
      - intros v n Hv. rewrite path_upd by exact Hsk. unfold lw. rewrite path_widen. exact Hv. }
    assert (HD : effect l lw (w ++ [c]) (node st)).
    { split; [exact Gw|]. split; [|split; [|exists k; exact Hpw]].
      - intros v. unfold lw at 1. rewrite inf_widen. destruct (list_eq_dec N.eq_dec v (w ++ [c])) as [->|]; [exact Hi|reflexivity].
      - intros v n Hv. unfold lw. rewrite path_widen. exact Hv. }
    destruct (m_status st) eqn:Est; try congruence; cbn [andb leaf_eff].
    + (* CONTINUE *) eexists. split; [intros cbs; reflexivity|]. apply HX; [intros y; auto|split; discriminate].
    + eexists. split; [intros cbs; reflexivity|]. apply HX; [intros y; auto|split; discriminate].
    + destruct (lev <=? m_level st); eexists; (split; [intros cbs; reflexivity|]); [|apply HX; [intros y; auto|split; discriminate]].
      unfold node in HD. rewrite Est in HD. exact HD.
    + destruct (lev <=? m_level st); eexists; (split; [intros cbs; reflexivity|]); [|apply HX; [intros y; auto|split; discriminate]].
      unfold node in HD. rewrite Est in HD. exact HD.
    + eexists. split; [intros cbs; reflexivity|]. apply HX; [intros y; auto|split; discriminate].
    + eexists. split; [intros cbs; reflexivity|]. apply HX; [intros y; auto|split; discriminate].
    + eexists. split; [intros cbs; reflexivity|]. apply HX; [intros y; auto|split; discriminate].
  - assert (Hi : inf l (w ++ [c]) = None) by (unfold inf; rewrite path_snoc, Hw, Ek; reflexivity). rewrite Hi. cbn [leaf_eff].
    eexists. split; [intros cbs; reflexivity|]. unfold lw at 1 2. rewrite add_kid_comm by assumption.
    set (la := add_kid l s c (state_new MATCH)). assert (Ga : good la) by (apply good_add; auto; cbn; split; discriminate).
    assert (Hpa : path la (w ++ [c]) = Some (length l)) by (unfold la; rewrite (path_add l s c (state_new MATCH) w G Hw Ek eq_refl); destruct (list_eq_dec N.eq_dec (w ++ [c]) (w ++ [c])); [reflexivity|contradiction]).
    replace (length lw) with (length l) by (unfold lw; rewrite upd_len; reflexivity).
    set (f := fun st => ms_data st dat lev). assert (Hsk : same_kids f) by (intros y; auto).
    split; [apply good_upd; [exact Ga|exact Hsk|]; intros y; right; reflexivity|]. split; [|split; [|exists (length l); rewrite path_upd by exact Hsk; exact Hpa]].
    + intros v. rewrite (inf_upd la (length l) f _ Ga Hsk Hpa). destruct (list_eq_dec N.eq_dec v (w ++ [c])) as [->|Hv].
      * unfold f, node, ms_data. cbn [m_status m_data m_level]. assert (HN : node (get la (length l)) = node (state_new MATCH)) by (unfold la; rewrite node_add by lia; rewrite Nat.eqb_refl; reflexivity). injection HN as -> _ _. reflexivity.
      * unfold la. rewrite (inf_add l s c (state_new MATCH) w G Hw Ek eq_refl). destruct (list_eq_dec N.eq_dec v (w ++ [c])); [contradiction|reflexivity].
    + intros v n Hv. rewrite path_upd by exact Hsk. unfold la. rewrite (path_add l s c (state_new MATCH) w G Hw Ek eq_refl). destruct (list_eq_dec N.eq_dec v (w ++ [c])) as [->|]; [|exact Hv]. rewrite path_snoc, Hw, Ek in Hv. discriminate.
Qed.

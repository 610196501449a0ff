(** The data in a compiled table consist of bytes. *)
From Verif Require Import Base Types M_Engine M_Mktable M_Modules S_Source.
From Coq Require Import ZifyBool ZifyN ZifyNat.

Definition le256 (d : list N) : Prop := Forall (fun v => (v <= 256)%N) d.
Lemma hexd_lt c : (hexd c < 16)%N. Proof. unfold hexd. repeat match goal with |- context [if ?b then _ else _] => destruct b eqn:? end; lia. Qed.
Lemma parse_out_le : forall t c j, (j = true -> (c < 16)%N) -> le256 (parse_out t c j).
Proof.
  induction t as [|x t IH]; intros c j H; cbn [parse_out]; [constructor|]. destruct (x =? 44)%N; [constructor; [lia|apply IH; exact H]|].
  pose proof (hexd_lt x). destruct j.
  - cbv zeta. constructor; [specialize (H eq_refl); lia|]. apply IH. discriminate.
  - apply IH. auto.
Qed.
Lemma parse_line_le line l : parse_line line = Some (Some l) -> le256 (sl_out l).
Proof.
  unfold parse_line. destruct (split_line line) as [[(f, t)|]|]; try discriminate.
  destruct (match f with 33%N :: f' => (true, f') | _ => (false, f) end) as (ci & f1). destruct (match t with 63%N :: t' => (true, t') | _ => (false, t) end) as (cb & t1).
  destruct (parse_pattern f1); [|discriminate]. intros H. injection H as <-. apply parse_out_le. discriminate.
Qed.
Lemma parse_lines_le : forall ls l, parse_lines ls = Some l -> Forall (fun x => le256 (sl_out x)) l.
Proof.
  induction ls as [|x ls IH]; intros l H; cbn [parse_lines] in H; [injection H as <-; constructor|].
  destruct (parse_line x) as [[ln|]|] eqn:E; destruct (parse_lines ls) as [l'|]; try discriminate; injection H as <-; [|auto]. constructor; [eapply parse_line_le; exact E|auto].
Qed.

Definition okm (s : mstate) : Prop := le256 (m_data s).
Lemma okm_new x : okm (state_new x). Proof. constructor. Qed.
Lemma get_ok l k : Forall okm l -> okm (get l k).
Proof. intros H. unfold get. destruct (nth_in_or_default k l (state_new DEADEND)) as [Hi| ->]; [|apply okm_new]. rewrite Forall_forall in H. auto. Qed.
Lemma upd_ok l k f : (forall s, okm s -> okm (f s)) -> Forall okm l -> Forall okm (upd l k f).
Proof. intros Hf H. revert k. induction H as [|x l Hx Hl IH]; intros [|k]; cbn [upd]; try (constructor; [|auto]); try constructor; try (apply Hf; exact Hx); try exact Hx; try exact Hl. Qed.
Lemma app_ok l s : Forall okm l -> okm s -> Forall okm (l ++ [s]). Proof. intros. apply Forall_app. auto. Qed.
Lemma interior_ok ci lo hi it x c : Forall okm (fst x) -> Forall okm (fst (interior ci lo hi it x c)).
Proof.
  destruct x as [l todo]. cbn [fst]. intros H. unfold interior. destruct (sel _ _ _ _) as [lv|]; [|exact H].
  destruct (kid (get l (ti_state it)) c) as [k|].
  - destruct (m_status (get l k)); cbn [fst]; (apply upd_ok; [intros s Hs; exact Hs|]); try exact H.
    + apply upd_ok; [intros s Hs; exact Hs|exact H].
    + apply upd_ok; [intros s Hs; exact Hs|]. apply app_ok; [exact H|]. apply (get_ok l k H).
  - cbn [fst]. apply upd_ok; [intros s Hs; exact Hs|]. apply upd_ok; [intros s Hs; exact Hs|]. apply app_ok; [exact H|apply okm_new].
Qed.
Lemma fold_ok {A B} (Q : A -> Prop) (f : A -> B -> A) : (forall a b, Q a -> Q (f a b)) -> forall l a, Q a -> Q (fold_left f l a).
Proof. intros H. induction l as [|b l IH]; intros a Ha; cbn; auto. Qed.
Lemma rounds_ok ci : forall pat todo l, Forall okm l -> Forall okm (fst (rounds ci todo l pat)).
Proof.
  induction pat as [|(lo, hi) pat IH]; intros todo l H; cbn [rounds]; [exact H|].
  pose proof (fold_ok (fun x => Forall okm (fst x)) (interior_item ci lo hi) (fun a b Ha => fold_ok (fun x => Forall okm (fst x)) _ (fun a' b' Ha' => interior_ok ci lo hi b a' b' Ha') syms a Ha) todo (l, []) H) as HF. cbv beta in HF.
  destruct (fold_left (interior_item ci lo hi) todo (l, [])) as [l' todo']. apply IH. exact HF.
Qed.
Lemma leaf_ok ci cb dat it x c : le256 dat -> Forall okm (k_states x) -> Forall okm (k_states (leaf ci cb dat it x c)).
Proof.
  intros Hd H. unfold leaf. destruct (sel _ _ _ _) as [lv|]; [|exact H]. cbv zeta.
  set (l := upd (k_states x) (ti_state it) (fun st => ms_widen st c)). assert (Hl : Forall okm l) by (apply upd_ok; [intros s Hs; exact Hs|exact H]). clearbody l.
  assert (Hfin : forall l' k n, Forall okm l' -> Forall okm (upd l' k (fun st => ms_data st dat n))) by (intros; apply upd_ok; [intros s _; exact Hd|assumption]).
  assert (Hstat : forall l' k y, Forall okm l' -> Forall okm (upd l' k (fun st => ms_status st y))) by (intros; apply upd_ok; [intros s Hs; exact Hs|assumption]).
  assert (Hkid : forall l' k y z, Forall okm l' -> Forall okm (upd l' k (fun st => ms_kid st y z))) by (intros; apply upd_ok; [intros s Hs; exact Hs|assumption]).
  destruct (kid (get l (ti_state it)) c) as [k|].
  - match goal with |- context [if ?b then _ else _] => destruct b end; [exact Hl|]. destruct (m_status (get l k)); try (destruct cb); cbn [k_states]; auto; apply Hfin; try apply Hkid; auto; apply app_ok; auto using okm_new.
  - destruct cb; [destruct (cb_find (k_cbs x) dat) as [k|]|]; cbn [k_states]; apply Hfin; apply Hkid; auto; apply app_ok; auto using okm_new.
Qed.
Lemma line_ok x ln : le256 (sl_out ln) -> Forall okm (k_states x) -> Forall okm (k_states (add_line x ln)).
Proof.
  intros Hd H. unfold add_line. destruct (sl_pat ln) as [|(lo, hi) pat].
  - match goal with |- context [if ?b then _ else _] => destruct b end; [exact H|]. cbn [k_states]. apply upd_ok; [intros s _; exact Hd|exact H].
  - pose proof (rounds_ok (sl_ci ln) pat [mkT 0 lo hi 1] (k_states x) H) as HR. destruct (rounds _ _ _ _) as [l todo]. cbn [fst] in HR.
    apply (fold_ok (fun y => Forall okm (k_states y))); [|exact HR]. intros a b Ha. unfold leaf_item. apply (fold_ok (fun y => Forall okm (k_states y))); [|exact Ha]. intros a' b' Ha'. apply leaf_ok; assumption.
Qed.
Lemma build_ok : forall ls, Forall (fun x => le256 (sl_out x)) ls -> Forall okm (build ls).
Proof.
  intros ls H. unfold build. assert (H0 : Forall okm (k_states mk0)) by (constructor; [apply okm_new|constructor]). revert H0. generalize mk0. induction H as [|x ls Hx _ IH]; intros m Hm; cbn [fold_left]; [exact Hm|].
  apply IH. apply line_ok; assumption.
Qed.
Lemma cells_le : forall n d, length d <= n -> le256 d -> Forall le256 (cells d).
Proof.
  induction n as [|n IH]; intros d Hn H; [destruct d; [constructor|cbn in Hn; lia]|]. destruct d as [|c d]; [constructor|]. cbn [length] in Hn. inversion H as [|? ? Hc Hd]; subst. cbn [cells].
  destruct (c =? 256)%N; [constructor; [constructor|apply IH; [lia|exact Hd]]|]. destruct d as [|c' d']; [repeat constructor; exact Hc|]. destruct (c' =? 256)%N.
  - constructor; [constructor; [exact Hc|constructor]|]. apply IH; [cbn in Hn; lia|inversion Hd; assumption].
  - pose proof (IH (c' :: d') ltac:(lia) Hd) as HI. destruct (cells (c' :: d')) as [|x r]; [constructor; [constructor; [exact Hc|constructor]|constructor]|]. inversion HI; subst. constructor; [constructor; assumption|assumption].
Qed.
Theorem compiled_data src : Forall (fun st => Forall le256 (t_data st)) (compiled src).
Proof.
  unfold compiled, mktable. destruct (parse_source (text_file src)) as [ls|] eqn:E; cbn [option_map]; [|constructor]. unfold to_table. apply Forall_forall. intros st Hst. apply in_map_iff in Hst as (s & <- & Hs). cbn.
  eapply cells_le; [apply le_n|]. pose proof (build_ok ls (parse_lines_le _ _ E)) as HB. rewrite Forall_forall in HB. apply HB. exact Hs.
Qed.

(** What a phase can see of the phase before it. *)
From Verif Require Import Base Types M_Engine.

Section E.
Context {P : Type}.
Notation ephase := (ephase P).
Variable R : ephase -> ephase -> Prop.
Hypothesis Rq : forall a b, R a b -> p_queue P a = p_queue P b.
Hypothesis Rh : forall a b, R a b -> p_headlen P a = p_headlen P b.
Hypothesis Rl : forall a b n, R a b -> match listfree P a n, listfree P b n with Some a', Some b' => R a' b' | None, None => True | _, _ => False end.

Definition Rres (r r' : lres P) : Prop :=
  match r, r' with
  | LRes _ pv t ie oe g, LRes _ pv' t' ie' oe' g' => ie = ie' /\ oe = oe' /\ g = g' /\ t = t' /\ R pv pv'
  | LUB _, LUB _ => True
  | _, _ => False
  end.

Ltac fin := cbn [obind ub_or Rres]; auto.
Ltac lf pv pv' H := match goal with |- context [listfree P pv ?n] => let X := fresh in pose proof (Rl _ _ n H) as X; destruct (listfree P pv n); destruct (listfree P pv' n); try contradiction; cbn [obind ub_or]; [|exact I] end.

Lemma from_step_R pv pv' t pc : R pv pv' -> Rres (from_step P pv t pc) (from_step P pv' t pc).
Proof.
  intros H. pose proof (Rq _ _ H) as Hq. pose proof (Rh _ _ H) as Hh.
  assert (Hn : curr_node P pv t = curr_node P pv' t) by (unfold curr_node; rewrite Hq; reflexivity).
  assert (Hl : curr_len P pv t = curr_len P pv' t) by (unfold curr_len; rewrite Hq, Hh; reflexivity).
  assert (Hcb : call_cb P pv t = call_cb P pv' t) by (unfold call_cb; rewrite Hn; reflexivity).
  assert (Hc : forall ds, Rres (from_commit P pv t ds) (from_commit P pv' t ds)).
  { intros ds. unfold from_commit. cbv zeta. lf pv pv' H. destruct (reset P _); fin. }
  destruct pc; cbn [from_step].
  - rewrite Hq. destruct (_ <? _); fin.
  - rewrite Hl. destruct (curr_len P pv' t); [|exact I]. destruct (_ <? _); [|fin]. rewrite Hn. destruct (curr_node P pv' t); [|exact I]. destruct (this_codec P t); [|exact I].
    destruct (nth_error _ _); [|exact I]. destruct (feed P _ _ _); fin.
  - rewrite Hcb. destruct (t_status (p_state P t)); try apply Hc; fin; destruct (call_cb P pv' t); fin.
  - unfold from_dead. cbv zeta. destruct (p_fmatch P _).
    + destruct (p_match_data P _).
      * destruct (call_flush P _); fin. destruct (reset P _); fin.
      * lf pv pv' H. destruct (reset P _); fin.
    + destruct (_ <? _).
      * destruct (this_codec P _) as [c|]; fin. destruct (read_state (e_tab P c) 0); fin.
      * destruct (reset P _) as [r|]; fin. lf pv pv' H. fin.
  - exact I.
Qed.

Hypothesis Rt : forall a b, R a b -> p_tail P a = p_tail P b.
Hypothesis Rs : forall a b q n, R a b -> R (set_queue P a q n) (set_queue P b q n).

Lemma data_step_R pv pv' t pc : R pv pv' -> Rres (data_step P pv t pc) (data_step P pv' t pc).
Proof.
  intros H. pose proof (Rq _ _ H) as Hq. pose proof (Rt _ _ H) as Ht.
  assert (Hn : forall t, curr_node P pv t = curr_node P pv' t) by (intros; unfold curr_node; rewrite Hq; reflexivity).
  assert (Hcb : call_cb P pv t = call_cb P pv' t) by (unfold call_cb; rewrite Hn; reflexivity).
  assert (Hc : forall ds, Rres (data_commit P pv t ds) (data_commit P pv' t ds)).
  { intros ds. unfold data_commit. cbv zeta. lf pv pv' H. destruct (reset P _); fin. }
  destruct pc; cbn [data_step].
  - rewrite Hq. destruct (_ <? _); fin. cbv zeta. rewrite Hn. destruct (curr_node P pv' _); [|exact I]. destruct (this_codec P _); [|exact I]. destruct (bytes_loop P _ _ _) as [[t3 x]|]; [|exact I]. destruct x; fin.
  - exact I.
  - rewrite Hcb. destruct (t_status (p_state P t)); try apply Hc; fin; try (destruct (call_cb P pv' t); fin; fail).
    + rewrite Hq, Ht. cbv zeta. destruct (_ <? _); fin. repeat split; auto.
    + destruct (is_to P t); fin.
    + unfold data_hold. cbv zeta. lf pv pv' H. destruct (reset P _); fin.
  - unfold data_dead. cbv zeta. destruct (p_fmatch P _).
    + destruct (p_match_data P _).
      * destruct (call_flush P _); fin. destruct (reset P _); fin.
      * lf pv pv' H. destruct (reset P _); fin.
    + destruct (_ <? _).
      * destruct (this_codec P _) as [c|]; fin. destruct (read_state (e_tab P c) 0); fin.
      * destruct (is_to P _).
        -- destruct (reset P _) as [r|]; fin. lf pv pv' H. fin.
        -- rewrite Hq, Ht. destruct (p_queue P pv'); [exact I|]. destruct (reset P _); fin. repeat split; auto.
  - destruct (this_codec P t); [|exact I]. destruct (feed P _ _ _); [|exact I]. destruct (t_status _); fin.
Qed.

Lemma local_step_R pv pv' t pc : R pv pv' -> Rres (local_step P pv t pc) (local_step P pv' t pc).
Proof. intros H. unfold local_step. destruct (p_type P t); try exact I; [apply from_step_R|apply data_step_R|apply data_step_R]; exact H. Qed.
End E.

(** Proofs about WHITESPACE-DERAIL and WHITESPACE-RERAIL. *)
From Verif Require Import Base Types M_Engine M_Bsearch M_Rail S_Ranges S_Inter P_Bsearch P_Inter.
From Coq Require Import ZifyBool ZifyN ZifyNat.

Fixpoint merge (b : nat) (w : list datum) (q : list (nat * datum)) : list datum :=
  match w with
  | [] => map snd q
  | x :: w' => fst (drain b q) ++ x :: merge (S b) w' (snd (drain b q))
  end.
Lemma drain_all b q : Forall (fun x => fst x <= b) q -> drain b q = (map snd q, []).
Proof. induction 1 as [|[o d] q H _ IH]; [reflexivity|]. cbn in *. destruct (Nat.leb_spec o b); [rewrite IH; reflexivity|lia]. Qed.
Lemma drain_app_big b q o d : b < o -> drain b (q ++ [(o, d)]) = (fst (drain b q), snd (drain b q) ++ [(o, d)]).
Proof.
  intros H. induction q as [|[o' d'] q IH]; cbn.
  - destruct (Nat.leb_spec o b); [lia|reflexivity].
  - destruct (o' <=? b); [rewrite IH; destruct (drain b q); reflexivity|reflexivity].
Qed.
Lemma drain_parts b q : map snd q = fst (drain b q) ++ map snd (snd (drain b q)).
Proof. induction q as [|[o d] q IH]; [reflexivity|]. cbn. destruct (o <=? b); [destruct (drain b q); cbn in *; f_equal; exact IH|reflexivity]. Qed.
Lemma drain_bound b c q : Forall (fun x => fst x <= c) q -> Forall (fun x => fst x <= c) (snd (drain b q)).
Proof.
  induction 1 as [|[o d] q H HF IH]; [constructor|]. cbn. destruct (o <=? b); [destruct (drain b q); exact IH|]. constructor; assumption.
Qed.
Lemma merge_drained b w q : merge b w q = fst (drain b q) ++ merge b w (snd (drain b q)).
Proof.
  assert (Hd : forall q, drain b (snd (drain b q)) = ([], snd (drain b q))).
  { induction q0 as [|[o d] q0 IH]; [reflexivity|]. cbn. destruct (Nat.leb_spec o b) as [H|H]; [destruct (drain b q0); exact IH|]. cbn. destruct (Nat.leb_spec o b); [lia|reflexivity]. }
  destruct w as [|x w]; cbn [merge]; [apply drain_parts|]. rewrite Hd. reflexivity.
Qed.
Lemma merge_ws : forall w b q o d, o = b + length w -> Forall (fun x => fst x <= o) q -> merge b w (q ++ [(o, d)]) = merge b w q ++ [d].
Proof.
  induction w as [|x w IH]; intros b q o d Ho HF; cbn [merge length] in *.
  - rewrite map_app. reflexivity.
  - rewrite drain_app_big by lia. cbn [fst snd]. rewrite IH by (try lia; apply drain_bound; assumption). rewrite <- app_assoc. reflexivity.
Qed.
Lemma merge_datum : forall w b q x, Forall (fun y => fst y <= b + length w) q -> merge b (w ++ [x]) q = merge b w q ++ [x].
Proof.
  induction w as [|y w IH]; intros b q x HF; cbn [merge length app] in *.
  - rewrite drain_all by (eapply Forall_impl; [|exact HF]; cbn; lia). reflexivity.
  - rewrite IH; [rewrite <- app_assoc; reflexivity|]. apply drain_bound. eapply Forall_impl; [|exact HF]. cbn. lia.
Qed.

Definition ok_line (g : datum -> datum) (done : list datum) (s : line) : Prop :=
  let r := l_rail s in
  r_offA r = r_offB r + length (l_wire s) /\ Forall (fun x => fst x <= r_offA r) (r_queue r) /\
  l_out s ++ merge (r_offB r) (l_wire s) (r_queue r) = map (fun d => if is_ws d then d else g d) done /\
  (r_flag r = false -> l_wire s = [] -> r_queue r = []).
Lemma turn_ok g all s b : (exists done, all = done ++ l_rest s /\ ok_line g done s) ->
  exists done, all = done ++ l_rest (turn (fun d => [g d]) s b) /\ ok_line g done (turn (fun d => [g d]) s b).
Proof.
  intros (done & Ha & HA & HQ & HO & HF). destruct s as [rest w [q oa ob fl] out]. cbn in *. unfold turn. destruct b; cbn [l_rest l_wire l_rail l_out].
  - destruct rest as [|d rest]; [exists done; unfold ok_line; cbn; auto|]. unfold derail_conv. destruct (is_ws d) eqn:E; cbn [r_queue r_offA r_offB r_flag flat_map app].
    + exists (done ++ [d]). cbn [l_rest]. split; [rewrite <- app_assoc; exact Ha|]. unfold ok_line. cbn. rewrite app_nil_r. split; [lia|]. split; [apply Forall_app; split; [assumption|repeat constructor]|].
      split; [|discriminate]. rewrite merge_ws by (try assumption; lia). rewrite app_assoc, HO, map_app. cbn. rewrite E. reflexivity.
    + exists (done ++ [d]). cbn [l_rest]. split; [rewrite <- app_assoc; exact Ha|]. unfold ok_line. cbn. split; [rewrite app_length; cbn; lia|]. split; [eapply Forall_impl; [|exact HQ]; cbn; lia|].
      split; [|intros _ H; destruct w; discriminate]. rewrite merge_datum by (rewrite <- HA; assumption). rewrite app_assoc, HO, map_app. cbn. rewrite E. reflexivity.
  - destruct w as [|d w]; [exists done; unfold ok_line; cbn; auto|]. unfold rerail_conv. cbn [r_queue r_offA r_offB r_flag].
    destruct (drain ob q) as [o1 q1] eqn:E1. destruct (drain (S ob) q1) as [o2 q2] eqn:E2. exists done. cbn [l_rest]. split; [exact Ha|]. unfold ok_line. cbn.
    assert (B1 : Forall (fun x => fst x <= oa) q1) by (pose proof (drain_bound ob oa q HQ) as H; rewrite E1 in H; exact H).
    assert (B2 : Forall (fun x => fst x <= oa) q2) by (pose proof (drain_bound (S ob) oa q1 B1) as H; rewrite E2 in H; exact H).
    cbn in HA. split; [lia|]. split; [exact B2|]. split.
    + rewrite <- HO. cbn [merge]. rewrite E1. cbn [fst snd]. rewrite (merge_drained (S ob) w q1), E2. cbn [fst snd]. rewrite <- !app_assoc. cbn. reflexivity.
    + intros _ ->. cbn in HA. rewrite drain_all in E2 by (eapply Forall_impl; [|exact B1]; cbn; lia). congruence.
Qed.
Lemma turns_ok g all sch : forall s, (exists done, all = done ++ l_rest s /\ ok_line g done s) ->
  exists done, all = done ++ l_rest (turns (fun d => [g d]) sch s) /\ ok_line g done (turns (fun d => [g d]) sch s).
Proof. induction sch as [|b sch IH]; intros s H; [exact H|]. cbn. apply IH. apply turn_ok. exact H. Qed.
Lemma is_ws_spec d : okbytes d -> is_ws d = true <-> exists c, code d c /\ (c = 0x09 \/ c = 0x0A \/ c = 0x0D \/ c = 0x20)%N.
Proof.
  intros Hd. destruct (hd1_cases d) as [(l & ->)|H].
  - inversion Hd; subst. unfold is_ws. cbv zeta. rewrite u32_value by assumption. split.
    + intros H. exists (be_value l mod 0x100000000)%N. split; [exists l; auto|]. lia.
    + intros (c & (l' & E & ->) & Hc). injection E as <-. lia.
  - split.
    + destruct d as [|b l]; [discriminate|]. cbn in H. unfold is_ws. destruct b as [|[?|?|]]; try discriminate. congruence.
    + intros (c & (l & -> & _) & _). cbn in H. congruence.
Qed.

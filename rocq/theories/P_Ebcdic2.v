(** Proofs about the mixed EBCDIC codecs: the decoder. *)
From Verif Require Import Base Types M_Engine M_Raw M_Ebcdic S_Ebcdic P_Raw P_Ebcdic.

(** Between codes, or after the first byte of a code ([s]: the state reached). *)
Inductive ebst := EIdle (st : bool) | EMid (st : bool) (s : tstate).
Ltac walk := repeat (match goal with |- context [match ?x with _ => _ end] => is_var x; destruct x end; try reflexivity; try congruence).
Lemma not_shift (d : datum) {A} (x y z : A) : d <> [1; 0x0E]%N -> d <> [1; 0x0F]%N -> match d with [1; 0x0E]%N => x | [1; 0x0F]%N => y | _ => z end = z.
Proof. intros H1 H2. walk. Qed.
Lemma not_shift_tr (d : datum) (ds : list datum) (st : bool) s : d <> [1; 0x0E]%N -> d <> [1; 0x0F]%N ->
  match d :: ds with [1; 0x0E]%N :: _ => Some (EIdle true, [], 0) | [1; 0x0F]%N :: _ => Some (EIdle false, [], 0) | d :: r => if st then Some (EMid st s, [], 0) else Some (EIdle st, d :: r, 0) | [] => None end =
  if st then Some (EMid st s, [], 0) else Some (EIdle st, d :: ds, 0).
Proof. intros H1 H2. walk. Qed.


Section Dec.
Variables (tab : table) (root : tstate) (init : option (bool -> bool)).
Hypothesis Hroot : read_state tab 0 = Some root.
Let c (st : bool) : ecodec bool := mkEc bool tab None None init st.

Definition next_state (s : tstate) (b : N) : option tstate := match get_offset s b with Some (S n) => read_state tab (S n) | _ => None end.
Definition is_callb (s : tstate) : bool := match t_status s with SUBROUTINE | SUBMATCH_SUBROUTINE => true | _ => false end.
Definition eb_tr (x : ebst) (b : N) : option (ebst * list datum * nat) :=
  match x with
  | EIdle st =>
      match next_state root b with
      | None => None
      | Some s =>
          if is_callb s then
            match t_data s with
            | [1; 0x0E]%N :: _ => Some (EIdle true, [], 0)
            | [1; 0x0F]%N :: _ => Some (EIdle false, [], 0)
            | d :: r => if st then Some (EMid st s, [], 0) else Some (EIdle st, d :: r, 0)
            | [] => None
            end
          else match t_status s with CONTINUE => Some (EMid st s, [], 0) | _ => None end
      end
  | EMid st s =>
      match next_state s b with
      | Some s2 => match t_status s2 with MATCH => Some (EIdle st, t_data s2, 0) | _ => None end
      | None => None
      end
  end.
Definition eb_rep (x : ebst) (q : list (list N)) (R : list N) (th : bphase) : Prop :=
  match x with
  | EIdle st => exists cu i ba hl md out, th = mkEp bool FROM [c st] 0 cu i ba hl md root 0 false false false out (length out)
  | EMid st s => exists cu i ba hl md s' off fm fp fl out, th = mkEp bool FROM [c st] 0 cu i ba hl md s' off fm fp fl out (length out) /\ (forall v, get_offset s' v = get_offset s v)
  end.

(** The byte is read and the table consulted. *)
Lemma eb_feed st cu i ba hl md s0 off fm fp fl out (pv : bphase) (q : list (list N)) m d b s : p_queue bool pv = q -> cu = S m -> nth_error q m = Some d -> nth_error d i = Some b ->
  next_state s0 b = Some s -> exists off', raw_step bool eb_from_conv pv (mkEp bool FROM [c st] 0 cu i ba hl md s0 off fm fp fl out (length out)) LInner =
    LRes bool pv (mkEp bool FROM [c st] 0 cu i ba hl md s off' fm fp fl out (length out)) 0 0 (Stay LX).
Proof.
  intros Hq -> Hm Hi Hn. unfold next_state in Hn. destruct (get_offset s0 b) as [[|n]|] eqn:Eg; try discriminate. exists (S n).
  unfold raw_step, local_step. cbn [p_type p_state]. unfold from_step, curr_len, curr_node, this_codec. cbn [p_curr p_i p_codecs p_index nth_error]. rewrite Hq. unfold datum. rewrite Hm. cbn [option_map].
  assert (Hlt : i < length d) by (apply nth_error_Some; congruence). apply Nat.ltb_lt in Hlt. rewrite Hlt, Hi. unfold feed. cbn [p_state]. rewrite Eg. cbn [c e_tab]. rewrite Hn. reflexivity.
Qed.
(** A code ends: commit. *)
Lemma eb_commit (st : bool) i ba hl md s off fm fp fl out (pv : bphase) (q : list (list N)) m (ds : list datum) : p_queue bool pv = q -> p_tail bool pv = length q -> m < length q ->
  exists pv1, p_queue bool pv1 = skipn m q /\ p_tail bool pv1 = length (skipn m q) /\
  from_commit bool pv (mkEp bool FROM [c st] 0 (S m) i ba hl md s off fm fp fl out (length out)) ds =
    LRes bool pv1 (mkEp bool FROM [c st] 0 0 i 0 (S i) [] root 0 false false false (out ++ ds) (length (out ++ ds))) 0 0 GNext.
Proof.
  intros Hq Ht Hm. exists (set_queue bool pv (skipn m q) (length q - m)). split; [reflexivity|]. split; [cbn; rewrite skipn_length; reflexivity|].
  unfold from_commit. rewrite app_tail_end by reflexivity. cbn -[reset app]. rewrite Hq, Ht. unfold reset. cbn -[read_state app]. rewrite Hroot. reflexivity.
Qed.
Lemma skip_hd (q : list (list N)) m d : nth_error q m = Some d -> exists r, skipn m q = d :: r /\ r = skipn (S m) q.
Proof. revert q. induction m as [|m IH]; intros [|x q] H; try discriminate; cbn in *; [injection H as ->; eauto|]. apply IH in H. exact H. Qed.
Lemma after_commit (q : list (list N)) m d i : nth_error q m = Some d -> skipn m q <> [] /\ unread (skipn m q) 0 i (S i) = rest_at q (S m) (S i).
Proof.
  intros H. destruct (skip_hd q m d H) as (r & E & ->). rewrite E. split; [discriminate|]. cbn [unread]. unfold rest_at at 1. cbn [nth]. cbn [rest_at].
  assert (Hn : nth m q [] = d) by (apply nth_error_nth; exact H). rewrite Hn. reflexivity.
Qed.

Lemma eb_step : forall x b x' o e, eb_tr x b = Some (x', o, e) -> forall pv (th : bphase) (q : list (list N)) m i d, p_queue bool pv = q -> p_tail bool pv = length q ->
  eb_rep x q (b :: rest_at q (S m) (S i)) th -> p_curr bool th = S m -> p_i bool th = i -> nth_error q m = Some d -> nth_error d i = Some b ->
  exists pv1 th1 q1 pc1, p_queue bool pv1 = q1 /\ p_tail bool pv1 = length q1 /\ q1 <> [] /\ p_curr bool th1 <= length q1 /\ ok_pc q1 (p_curr bool th1) (p_i bool th1) pc1 /\
    unread q1 (p_curr bool th1) (p_i bool th1) (p_headlen bool th1) = rest_at q (S m) (S i) /\ eb_rep x' q1 (rest_at q (S m) (S i)) th1 /\
    p_queue bool th1 = p_queue bool th ++ o /\
    forall pv' th' a b', phase_runs eb_from_conv pv1 th1 pc1 pv' th' a b' -> phase_runs eb_from_conv pv th LInner pv' th' (e + a) b'.
Proof.
  intros x b x' o e HT pv th q m i d Hq Ht Hr Hc Hi Hm Hb.
  assert (Hlt : m < length q) by (apply nth_error_Some; congruence).
  destruct (after_commit q m d i Hm) as [Hne HU].
  (* ways to go on *)
  assert (Commit : forall st st' s off ba hl md fm fp fl out ds s0 off0 fm0 fp0 fl0, th = mkEp bool FROM [c st] 0 (S m) i ba hl md s0 off0 fm0 fp0 fl0 out (length out) ->
     (forall pv' th' a b', phase_runs eb_from_conv pv (mkEp bool FROM [c st'] 0 (S m) i ba hl md s off fm fp fl out (length out)) LX pv' th' a b' -> phase_runs eb_from_conv pv th LInner pv' th' a b') ->
     (t_status s = MATCH /\ ds = t_data s) \/ (t_status s = NEXTPHASE /\ ds = []) ->
     exists pv1 th1 q1 pc1, p_queue bool pv1 = q1 /\ p_tail bool pv1 = length q1 /\ q1 <> [] /\ p_curr bool th1 <= length q1 /\ ok_pc q1 (p_curr bool th1) (p_i bool th1) pc1 /\
       unread q1 (p_curr bool th1) (p_i bool th1) (p_headlen bool th1) = rest_at q (S m) (S i) /\ eb_rep (EIdle st') q1 (rest_at q (S m) (S i)) th1 /\
       p_queue bool th1 = p_queue bool th ++ ds /\ forall pv' th' a b', phase_runs eb_from_conv pv1 th1 pc1 pv' th' a b' -> phase_runs eb_from_conv pv th LInner pv' th' a b').
  { intros st st' s off ba hl md fm fp fl out ds s0 off0 fm0 fp0 fl0 Eth Hgo Hs.
    destruct (eb_commit st' i ba hl md s off fm fp fl out pv q m ds Hq Ht Hlt) as (pv1 & Q1 & T1 & E1).
    exists pv1. eexists _, (skipn m q), LOuter. split; [exact Q1|]. split; [exact T1|]. split; [exact Hne|].
    assert (Es : raw_step bool eb_from_conv pv (mkEp bool FROM [c st'] 0 (S m) i ba hl md s off fm fp fl out (length out)) LX =
       LRes bool pv1 (mkEp bool FROM [c st'] 0 0 i 0 (S i) [] root 0 false false false (out ++ ds) (length (out ++ ds))) 0 0 GNext).
    { unfold raw_step, local_step. cbn [p_type p_state from_step]. destruct Hs as [[Hs ->]|[Hs ->]]; rewrite Hs; exact E1. }
    split; [|split; [|split; [|split; [|split]]]].
    6:{ intros pv' th' a b' Hrun. apply Hgo. change a with (0 + a). change b' with (0 + b'). eapply pr_again; [exact Es|right; reflexivity|exact Hrun]. }
    - apply Nat.le_0_l.
    - exact I.
    - exact HU.
    - cbn [eb_rep]. eexists _, _, _, _, _, _. reflexivity.
    - rewrite Eth. reflexivity. }
  assert (Go : forall st s s' off ba hl md fm fp fl out hl' s0 off0 fm0 fp0 fl0 ba0 md0, th = mkEp bool FROM [c st] 0 (S m) i ba0 hl' md0 s0 off0 fm0 fp0 fl0 out (length out) ->
     (forall v, get_offset s' v = get_offset s v) ->
     (forall pv' th' a b', phase_runs eb_from_conv pv (mkEp bool FROM [c st] 0 (S m) (S i) ba hl md s' off fm fp fl out (length out)) LInner pv' th' a b' -> phase_runs eb_from_conv pv th LInner pv' th' a b') ->
     exists pv1 th1 q1 pc1, p_queue bool pv1 = q1 /\ p_tail bool pv1 = length q1 /\ q1 <> [] /\ p_curr bool th1 <= length q1 /\ ok_pc q1 (p_curr bool th1) (p_i bool th1) pc1 /\
       unread q1 (p_curr bool th1) (p_i bool th1) (p_headlen bool th1) = rest_at q (S m) (S i) /\ eb_rep (EMid st s) q1 (rest_at q (S m) (S i)) th1 /\
       p_queue bool th1 = p_queue bool th ++ [] /\ forall pv' th' a b', phase_runs eb_from_conv pv1 th1 pc1 pv' th' a b' -> phase_runs eb_from_conv pv th LInner pv' th' a b').
  { intros st s s' off ba hl md fm fp fl out hl' s0 off0 fm0 fp0 fl0 ba0 md0 Eth Hg Hgo. exists pv. eexists _, q, LInner. split; [exact Hq|]. split; [exact Ht|].
    split; [intros ->; destruct m; discriminate|]. split; [|split; [|split; [|split; [|split; [|exact Hgo]]]]].
    - exact Hlt.
    - apply Nat.lt_0_succ.
    - reflexivity.
    - cbn [eb_rep]. eexists _, _, _, _, _, _, _, _, _, _, _. split; [reflexivity|exact Hg].
    - rewrite Eth, app_nil_r. reflexivity. }
  destruct x as [st|st s].
  - destruct Hr as (cu & i0 & ba & hl & md & out & ->). cbn [p_curr p_i] in Hc, Hi. subst cu i0. cbn [eb_tr] in HT.
    destruct (next_state root b) as [s|] eqn:En; [|discriminate].
    destruct (eb_feed st (S m) i ba hl md root 0 false false false out pv q m d b s Hq eq_refl Hm Hb En) as (off & Ef).
    destruct (is_callb s) eqn:Ec.
    + destruct (t_data s) as [|dd ds] eqn:Ed; [discriminate|].
      assert (Hcall : forall st' x, eb_from_conv pv (mkEp bool FROM [c st] 0 (S m) i ba hl md s off false false false out (length out)) =
          Some (pv, mkEp bool FROM [c st'] 0 (S m) i ba hl md (with_status s x) off false false false out (length out), 0) -> x <> NOOP ->
          forall pv' th' a b', phase_runs eb_from_conv pv (mkEp bool FROM [c st'] 0 (S m) i ba hl md (with_status s x) off false false true out (length out)) LX pv' th' a b' ->
          phase_runs eb_from_conv pv (mkEp bool FROM [c st] 0 (S m) i ba hl md root 0 false false false out (length out)) LInner pv' th' a b').
      { intros st' x Ecv Hx pv' th' a b' Hrun. change a with (0 + (0 + a)). change b' with (0 + (0 + b')). eapply pr_stay; [exact Ef|]. eapply pr_stay; [|exact Hrun].
        unfold raw_step. cbn [p_state]. unfold is_callb in Ec. destruct (t_status s) eqn:Es; try discriminate; rewrite Ecv; cbn; destruct x; reflexivity || congruence. }
      assert (Hcv : eb_from_conv pv (mkEp bool FROM [c st] 0 (S m) i ba hl md s off false false false out (length out)) =
         match dd with
         | [1; 0x0E]%N => Some (pv, mkEp bool FROM [c true] 0 (S m) i ba hl md (with_status s NEXTPHASE) off false false false out (length out), 0)
         | [1; 0x0F]%N => Some (pv, mkEp bool FROM [c false] 0 (S m) i ba hl md (with_status s NEXTPHASE) off false false false out (length out), 0)
         | _ => Some (pv, mkEp bool FROM [c st] 0 (S m) i ba hl md (with_status s (if st then SUBMATCH else MATCH)) off false false false out (length out), 0)
         end).
      { unfold eb_from_conv, cur_status, this_codec. cbn [p_state p_codecs p_index nth_error option_map e_priv c]. rewrite Ed. walk. }
      assert (Hcase : dd = [1; 0x0E]%N \/ dd = [1; 0x0F]%N \/
         (match dd with [1; 0x0E]%N => Some (pv, mkEp bool FROM [c true] 0 (S m) i ba hl md (with_status s NEXTPHASE) off false false false out (length out), 0)
         | [1; 0x0F]%N => Some (pv, mkEp bool FROM [c false] 0 (S m) i ba hl md (with_status s NEXTPHASE) off false false false out (length out), 0)
         | _ => Some (pv, mkEp bool FROM [c st] 0 (S m) i ba hl md (with_status s (if st then SUBMATCH else MATCH)) off false false false out (length out), 0) end =
          Some (pv, mkEp bool FROM [c st] 0 (S m) i ba hl md (with_status s (if st then SUBMATCH else MATCH)) off false false false out (length out), 0) /\
          match dd :: ds with [1; 0x0E]%N :: _ => Some (EIdle true, [], 0) | [1; 0x0F]%N :: _ => Some (EIdle false, [], 0) | d :: r => if st then Some (EMid st s, [], 0) else Some (EIdle st, d :: r, 0) | [] => None end =
          if st then Some (EMid st s, [], 0) else Some (EIdle st, dd :: ds, 0))).
      { destruct (list_eq_dec N.eq_dec dd [1; 0x0E]%N) as [E|N1]; [left; exact E|]. destruct (list_eq_dec N.eq_dec dd [1; 0x0F]%N) as [E|N2]; [right; left; exact E|]. right. right. split; [apply not_shift; assumption|apply not_shift_tr; assumption]. }
      destruct Hcase as [->|[->|[Hn Htr]]].
      * injection HT as <- <- <-. eapply (Commit st true); [reflexivity|apply (Hcall true NEXTPHASE); [exact Hcv|discriminate]|right; split; reflexivity].
      * injection HT as <- <- <-. eapply (Commit st false); [reflexivity|apply (Hcall false NEXTPHASE); [exact Hcv|discriminate]|right; split; reflexivity].
      * rewrite Hn in Hcv. rewrite Htr in HT. destruct st; injection HT as <- <- <-.
        -- eapply (Go true s (with_status s SUBMATCH)); [reflexivity|reflexivity|]. intros pv' th' a b' Hrun.
           apply (Hcall true SUBMATCH Hcv ltac:(discriminate)). change a with (0 + a). change b' with (0 + b'). eapply pr_stay; [|exact Hrun]. reflexivity.
        -- eapply (Commit false false); [reflexivity|apply (Hcall false MATCH); [exact Hcv|discriminate]|left; split; [reflexivity|symmetry; exact Ed]].
    + destruct (t_status s) eqn:Es; try discriminate. injection HT as <- <- <-.
      eapply (Go st s s); [reflexivity|reflexivity|]. intros pv' th' a b' Hrun. change a with (0 + (0 + a)). change b' with (0 + (0 + b')). eapply pr_stay; [exact Ef|]. eapply pr_stay; [|exact Hrun].
      unfold raw_step, local_step. cbn [p_state p_type from_step]. rewrite Es. reflexivity.
  - destruct Hr as (cu & i0 & ba & hl & md & s' & off & fm & fp & fl & out & -> & Hg). cbn [p_curr p_i] in Hc, Hi. subst cu i0. cbn [eb_tr] in HT.
    destruct (next_state s b) as [s2|] eqn:En; [|discriminate]. destruct (t_status s2) eqn:Es; try discriminate. injection HT as <- <- <-.
    assert (En' : next_state s' b = Some s2) by (unfold next_state in *; rewrite Hg; exact En).
    destruct (eb_feed st (S m) i ba hl md s' off fm fp fl out pv q m d b s2 Hq eq_refl Hm Hb En') as (off' & Ef).
    eapply (Commit st st); [reflexivity| |left; split; [exact Es|reflexivity]]. intros pv' th' a b' Hrun. change a with (0 + a). change b' with (0 + b'). eapply pr_stay; [exact Ef|exact Hrun].
Qed.

Theorem dec_calls l st' o e i ba : trs eb_tr (EIdle false) (concat (concat l)) = Some (EIdle st', o, e) ->
  exists pv' th' q', calls eb_from_conv (input_phase bool) (fresh_phase bool FROM (c false) root i ba) l pv' th' e 0 /\ p_queue bool th' = o /\
    p_fpending bool th' = false /\ cur_status th' = Some st' /\ paused eb_rep (EIdle st') pv' th' q'.
Proof.
  intros HT. destruct (machine_calls eb_from_conv eb_tr eb_rep) with (l := l) (x := EIdle false) (x' := EIdle st') (o := o) (e := e) (pv := input_phase bool) (th := fresh_phase bool FROM (c false) root i ba) (q := @nil (list N)) as (pv' & th' & q' & Hp & Hd & Hr).
  - intros [st|st s] q R th; [intros (? & ? & ? & ? & ? & ? & ->); reflexivity|intros (? & ? & ? & ? & ? & ? & ? & ? & ? & ? & ? & -> & _); reflexivity].
  - intros [st|st s] q R th cu j; [intros (? & ? & ? & ? & ? & ? & ->); eexists _, _, _, _, _, _; reflexivity|].
    intros (? & ? & ? & ? & ? & ? & ? & ? & ? & ? & ? & -> & H). eexists _, _, _, _, _, _, _, _, _, _, _. split; [reflexivity|exact H].
  - intros [st|st s] q ds R th H; exact H.
  - exact eb_step.
  - exact HT.
  - repeat split. exists 0, i, ba, 0, [], []. reflexivity.
  - exists pv', th', q'. split; [exact Hr|]. split; [exact Hd|]. pose proof Hp as Hp'. destruct Hp as (_ & _ & _ & _ & _ & (? & ? & ? & ? & ? & ? & ->)). auto.
Qed.
End Dec.

(** The tables: single byte codes call, with data that is not SO or SI; SO and SI call with data 01 0E, 01 0F; double byte codes match. *)
Definition dec_entry (tab : table) (code data : datum) : Prop :=
  (length code = 1 /\ calls_on tab code data /\ data <> [1; 0x0E]%N /\ data <> [1; 0x0F]%N) \/
  (length code = 2 /\ matches_on tab code data /\ exists root s, read_state tab 0 = Some root /\ spells tab root (firstn 1 code) s /\
     (t_status s = CONTINUE \/ is_call s /\ exists d, t_data s = [d] /\ d <> [1; 0x0E]%N /\ d <> [1; 0x0F]%N)).
Definition dec_shifts (tab : table) : Prop := calls_on tab [0x0E]%N [1; 0x0E]%N /\ calls_on tab [0x0F]%N [1; 0x0F]%N.

Lemma spells1 tab root b s : spells tab root [b] s -> next_state tab root b = Some s.
Proof. intros H. inversion H; subst. match goal with K : spells _ _ [] _ |- _ => inversion K; subst end. unfold next_state. rewrite H2. assumption. Qed.
Lemma spells2 tab root a b s : spells tab root [a; b] s -> exists s1, spells tab root [a] s1 /\ next_state tab s1 b = Some s.
Proof. intros H. inversion H; subst. exists s1. split; [econstructor; try eassumption; constructor|]. apply spells1. assumption. Qed.
Lemma is_call_b s : is_call s -> is_callb s = true.
Proof. unfold is_callb. intros [->| ->]; reflexivity. Qed.
Lemma tr_mixed tab root : read_state tab 0 = Some root -> dec_shifts tab -> forall st codes bytes, mixed st codes bytes -> forall datas, Forall2 (dec_entry tab) codes datas ->
  trs (eb_tr tab root) (EIdle st) bytes = Some (EIdle false, datas, 0).
Proof.
  intros Hr [Hso Hsi].
  assert (SO : forall st, eb_tr tab root (EIdle st) 0x0E%N = Some (EIdle true, [], 0)).
  { intros st. destruct Hso as (r & s & Hr' & _ & Hsp & Hc & Hd). assert (r = root) by congruence. subst r. cbn [eb_tr]. rewrite (spells1 _ _ _ _ Hsp), (is_call_b _ Hc), Hd. reflexivity. }
  assert (SI : forall st, eb_tr tab root (EIdle st) 0x0F%N = Some (EIdle false, [], 0)).
  { intros st. destruct Hsi as (r & s & Hr' & _ & Hsp & Hc & Hd). assert (r = root) by congruence. subst r. cbn [eb_tr]. rewrite (spells1 _ _ _ _ Hsp), (is_call_b _ Hc), Hd. reflexivity. }
  induction 1 as [|cd cs bs Hl Hx IH|cd cs bs Hl Hx IH|cd cs bs Hl Hx IH|cd cs bs Hl Hx IH|]; intros datas HF.
  - inversion HF; subst. reflexivity.
  - inversion HF as [|? y ? ys He HF']; subst. specialize (IH ys HF'). destruct He as [(_ & Hc & N1 & N2)|(Hl2 & _)]; [|rewrite Hl in Hl2; discriminate Hl2].
    destruct cd as [|b [|? ?]]; try discriminate. cbn [app trs]. destruct Hc as (r & s & Hr' & _ & Hsp & Hc & Hd). assert (r = root) by congruence. subst r.
    assert (E1 : eb_tr tab root (EIdle false) b = Some (EIdle false, [y], 0)) by (cbn [eb_tr]; rewrite (spells1 _ _ _ _ Hsp), (is_call_b _ Hc), Hd; exact (not_shift_tr y [] false s N1 N2)). rewrite E1, IH. reflexivity.
  - cbn [trs]. rewrite SO. rewrite (IH datas HF). reflexivity.
  - inversion HF as [|? y ? ys He HF']; subst. specialize (IH ys HF'). destruct He as [(Hl2 & _)|(Hl2 & Hm & r & s & Hr' & Hsp & Hs)]; [rewrite Hl2 in Hl; inversion Hl; lia|].
    destruct cd as [|a [|b [|? ?]]]; try discriminate. cbn [firstn] in Hsp. assert (r = root) by congruence. subst r. destruct Hm as (r & s2 & Hr2 & _ & Hsp2 & Hm & Hd2). assert (r = root) by congruence. subst r.
    destruct (spells2 _ _ _ _ _ Hsp2) as (s1 & Hs1 & Hn). apply spells1 in Hsp, Hs1. rewrite Hsp in Hs1. injection Hs1 as <-.
    cbn [app trs].
    assert (E1 : eb_tr tab root (EIdle true) a = Some (EMid true s, [], 0)).
    { unfold eb_tr. rewrite Hsp. destruct Hs as [Hs|(Hs & d & Hd & N1 & N2)].
      - unfold is_callb. rewrite Hs. reflexivity.
      - rewrite (is_call_b _ Hs), Hd. exact (not_shift_tr d [] true s N1 N2). }
    assert (E2 : eb_tr tab root (EMid true s) b = Some (EIdle true, [y], 0)) by (unfold eb_tr; rewrite Hn, Hm, Hd2; reflexivity).
    rewrite E1, E2, IH. reflexivity.
  - cbn [trs]. rewrite SI. rewrite (IH datas HF). reflexivity.
  - inversion HF; subst. cbn [trs]. rewrite SI. reflexivity.
Qed.
Theorem dec_stream tab root init i ba l codes datas : read_state tab 0 = Some root -> dec_shifts tab -> Forall2 (dec_entry tab) codes datas -> mixed false codes (concat (concat l)) ->
  exists pv' th', streams eb_from_conv (input_phase bool) (fresh_phase bool FROM (mkEc bool tab None None init false) root i ba) l pv' th' 0 0 /\ p_queue bool th' = datas /\ cur_status th' = Some false.
Proof.
  intros Hr Hs HF Hm. destruct (dec_calls tab root init Hr l false datas 0 i ba (tr_mixed tab root Hr Hs _ _ _ Hm _ HF)) as (pv' & th' & q' & Hrun & Hd & Hp & Hst & _).
  exists pv', th'. split; [|split; assumption]. exists pv', th', 0, 0, 0, 0. split; [exact Hrun|]. split; [apply fl_done; exact Hp|split; reflexivity].
Qed.

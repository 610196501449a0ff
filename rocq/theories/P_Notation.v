(** Proofs about the BSDCONV notation: reading digits. *)
From Verif Require Import Base Types M_Engine M_Raw M_Callback M_Escape M_Modules M_Notation S_Escape S_Notation P_Raw P_Ebcdic P_Escape.
From Coq Require Import ZifyBool ZifyN ZifyNat.

Notation nc := nt_codec.
Definition nroot : tstate := mkTs DEADEND [] 0 257 (repeat 1 257).
Definition nsub : tstate := mkTs SUBROUTINE [] 65535 0 [].
(** Nothing read yet, or the bytes read so far with the next flag and whether more than one digit was read. *)
Inductive nst := NIdle | NAcc (bytes : list N) (f : nflag) (fm : bool).
Definition nt_digit (bytes : list N) (f : nflag) (v : N) : list N * nflag :=
  match f with NB => (set_last bytes (fun x => N.lor ((x * 16) mod 256) v), NA) | _ => (bytes ++ [v], NB) end.
Definition nt_tr (x : nst) (b : N) : option (nst * list datum * nat) :=
  match hexv b with
  | None => None
  | Some v => match x with
              | NIdle => Some (NAcc [v] NB false, [], 0)
              | NAcc bytes f fm => let '(bytes', f') := nt_digit bytes f v in Some (NAcc bytes' f' true, [], 0)
              end
  end.
Definition nt_rep (x : nst) (q : list (list N)) (R : list N) (th : nphase) : Prop :=
  match x with
  | NIdle => exists t cu i ba hl md out, n_flag t = NClear /\ th = mkEp note FROM [nc t] 0 cu i ba hl md nroot 0 false false false out (length out)
  | NAcc bytes f fm => exists cu i ba hl md st out, f <> NClear /\ bytes <> [] /\ (fm = true -> md = []) /\
      th = mkEp note FROM [nc (mkNote NLive bytes f)] 0 cu i ba hl md (with_status nsub st) 1 fm true true out (length out)
  end.

(** Reading a byte leads to the callback state. *)
Lemma nt_feed t cu i ba hl md s off fm fp fl out (pv : nphase) (q : list (list N)) m d b : p_queue note pv = q -> cu = S m -> nth_error q m = Some d -> nth_error d i = Some b ->
  (s = nroot /\ off = 0 /\ (b < 256)%N) \/ (exists st, s = with_status nsub st /\ off = 1 /\ fl = true) ->
  raw_step note nt_conv pv (mkEp note FROM [nc t] 0 cu i ba hl md s off fm fp fl out (length out)) LInner =
    LRes note pv (mkEp note FROM [nc t] 0 cu i ba hl md nsub 1 fm fp fl out (length out)) 0 0 (Stay LX).
Proof.
  intros Hq -> Hm Hi Hs.
  unfold raw_step, local_step. cbn [p_type p_state]. unfold from_step, curr_len, curr_node, this_codec. cbn [p_curr p_i p_codecs p_index nth_error]. rewrite Hq. unfold datum. rewrite Hm. cbn [option_map].
  assert (Hlt : i < length d) by (apply nth_error_Some; congruence). apply Nat.ltb_lt in Hlt. rewrite Hlt, Hi.
  assert (Hf : feed note (nc t) (mkEp note FROM [nc t] 0 (S m) i ba hl md s off fm fp fl out (length out)) b = Some (mkEp note FROM [nc t] 0 (S m) i ba hl md nsub 1 fm fp fl out (length out))).
  { unfold feed. cbn [p_state p_floop p_offset]. destruct Hs as [(-> & -> & Hb)|(st & -> & -> & ->)].
    - assert (Eg : get_offset nroot b = Some 1).
      { unfold get_offset, nroot. cbn [t_beg t_end t_kids]. replace ((0 <=? b)%N && (b <? 257)%N) with true by lia.
        destruct (nth_error (repeat 1 257) (N.to_nat (b - 0))) as [x|] eqn:En.
        - apply nth_error_In, repeat_spec in En. subst x. reflexivity.
        - apply nth_error_None in En. rewrite repeat_length in En. lia. }
      rewrite Eg. reflexivity.
    - assert (Eg : get_offset (with_status nsub st) b = Some 0).
      { unfold get_offset, with_status, nsub. cbn [t_beg t_end t_kids]. replace (b <? 0)%N with false by lia. rewrite andb_false_r. reflexivity. }
      rewrite Eg. reflexivity. }
  unfold datum in Hf. rewrite Hf. reflexivity.
Qed.

(** What a digit does to the private state. *)
Definition nt_next (t : note) (v : N) : note * status :=
  match n_flag t with
  | NClear => (mkNote NLive [v] NB, CONTINUE)
  | f => (mkNote (match f with NB => n_ptr t | _ => NLive end) (fst (nt_digit (n_bytes t) f v)) (snd (nt_digit (n_bytes t) f v)), match n_bytes t with [] => CONTINUE | _ => SUBMATCH end)
  end.
Lemma nt_call t cu i ba hl md fm fp fl out (pv : nphase) (q : list (list N)) m d b v : p_queue note pv = q -> cu = S m -> nth_error q m = Some d -> nth_error d i = Some b -> hexv b = Some v ->
  raw_step note nt_conv pv (mkEp note FROM [nc t] 0 cu i ba hl md nsub 1 fm fp fl out (length out)) LX =
    LRes note pv (mkEp note FROM [nc (fst (nt_next t v))] 0 cu i ba hl md (with_status nsub (snd (nt_next t v))) 1 fm fp true out (length out)) 0 0 (Stay LX).
Proof.
  intros Hq -> Hm Hi Hv. unfold raw_step. cbn [p_state t_status nsub].
  unfold nt_conv, curr_node, nt_get, this_codec. cbn [p_curr p_codecs p_index nth_error option_map p_i]. rewrite Hq. unfold datum. rewrite Hm, Hi, Hv.
  destruct t as [p bytes f]. unfold nt_next. cbn [n_flag n_bytes n_ptr e_priv nc nt_codec].
  destruct f; cbn [fst snd nt_digit n_flag n_bytes n_ptr]; try reflexivity; destruct bytes; reflexivity.
Qed.

Lemma set_last_ne l f : l <> [] -> set_last l f <> [].
Proof.
  unfold set_last. intros H. destruct (rev l) as [|x r] eqn:E.
  - apply (f_equal (@rev N)) in E. rewrite rev_involutive in E. contradiction.
  - intros K. apply (f_equal (@rev N)) in K. rewrite rev_involutive in K. discriminate.
Qed.
Lemma hexv_byte b v : hexv b = Some v -> (b < 256)%N.
Proof.
  unfold hexv. repeat match goal with |- context [if ?x then _ else _] => destruct x eqn:? end; intros H; try discriminate; lia.
Qed.

Lemma nt_step : forall x b x' o e, nt_tr x b = Some (x', o, e) -> forall pv (th : nphase) (q : list (list N)) m i d, p_queue note pv = q -> p_tail note pv = length q ->
  nt_rep x q (b :: rest_at q (S m) (S i)) th -> p_curr note th = S m -> p_i note th = i -> nth_error q m = Some d -> nth_error d i = Some b ->
  exists pv1 th1 q1 pc1, p_queue note pv1 = q1 /\ p_tail note pv1 = length q1 /\ q1 <> [] /\ p_curr note th1 <= length q1 /\ ok_pc q1 (p_curr note th1) (p_i note th1) pc1 /\
    unread q1 (p_curr note th1) (p_i note th1) (p_headlen note th1) = rest_at q (S m) (S i) /\ nt_rep x' q1 (rest_at q (S m) (S i)) th1 /\
    p_queue note th1 = p_queue note th ++ o /\
    forall pv' th' a b', phase_runs nt_conv pv1 th1 pc1 pv' th' a b' -> phase_runs nt_conv pv th LInner pv' th' (e + a) b'.
Proof.
  intros x b x' o e HT pv th q m i d Hq Ht Hr Hc Hi Hm Hb. unfold nt_tr in HT. destruct (hexv b) as [v|] eqn:Ev; [|discriminate].
  assert (Hlt : m < length q) by (apply nth_error_Some; congruence).
  destruct x as [|bytes f fm].
  - destruct Hr as (t & cu & i0 & ba & hl & md & out & Hf & ->). cbn [p_curr p_i] in Hc, Hi. subst cu i0. injection HT as <- <- <-.
    assert (En : nt_next t v = (mkNote NLive [v] NB, CONTINUE)) by (unfold nt_next; rewrite Hf; reflexivity).
    assert (H1 : raw_step note nt_conv pv (mkEp note FROM [nc t] 0 (S m) i ba hl md nroot 0 false false false out (length out)) LInner =
       LRes note pv (mkEp note FROM [nc t] 0 (S m) i ba hl md nsub 1 false false false out (length out)) 0 0 (Stay LX)) by (apply (nt_feed _ _ _ _ _ _ _ _ _ _ _ _ _ q m d b); auto; left; repeat split; apply (hexv_byte _ _ Ev)).
    pose proof (nt_call t (S m) i ba hl md false false false out pv q m d b v Hq eq_refl Hm Hb Ev) as H2. rewrite En in H2. cbn [fst snd] in H2.
    exists pv. eexists _, q, LInner. split; [exact Hq|]. split; [exact Ht|]. split; [intros ->; destruct m; discriminate|]. split; [|split; [|split; [|split; [|split]]]].
    6:{ intros pv' th' a b' Hrun. change (0 + a) with (0 + (0 + (0 + a))). change b' with (0 + (0 + (0 + b'))). eapply pr_stay; [exact H1|]. eapply pr_stay; [exact H2|]. eapply pr_stay; [reflexivity|exact Hrun]. }
    + exact Hlt.
    + apply Nat.lt_0_succ.
    + reflexivity.
    + cbn [nt_rep]. eexists _, _, _, _, _, _, _. split; [discriminate|]. split; [discriminate|]. split; [discriminate|reflexivity].
    + cbn. rewrite app_nil_r. reflexivity.
  - destruct Hr as (cu & i0 & ba & hl & md & st & out & Hf & Hne & Hmd & ->). cbn [p_curr p_i] in Hc, Hi. subst cu i0.
    destruct (nt_digit bytes f v) as [bytes' f'] eqn:Ed. injection HT as <- <- <-.
    assert (En : nt_next (mkNote NLive bytes f) v = (mkNote NLive bytes' f', SUBMATCH)).
    { unfold nt_next. cbn [n_flag n_bytes n_ptr]. destruct f; try contradiction; rewrite Ed; cbn [fst snd]; destruct bytes; try contradiction; reflexivity. }
    assert (Hne' : bytes' <> [] /\ f' <> NClear).
    { unfold nt_digit in Ed. destruct f; injection Ed as <- <-; (split; [|discriminate]); try (intros K; apply app_eq_nil in K as [_ K]; discriminate). apply set_last_ne. exact Hne. }
    assert (H1 : raw_step note nt_conv pv (mkEp note FROM [nc (mkNote NLive bytes f)] 0 (S m) i ba hl md (with_status nsub st) 1 fm true true out (length out)) LInner =
       LRes note pv (mkEp note FROM [nc (mkNote NLive bytes f)] 0 (S m) i ba hl md nsub 1 fm true true out (length out)) 0 0 (Stay LX)) by (apply (nt_feed _ _ _ _ _ _ _ _ _ _ _ _ _ q m d b); auto; right; exists st; auto).
    pose proof (nt_call (mkNote NLive bytes f) (S m) i ba hl md fm true true out pv q m d b v Hq eq_refl Hm Hb Ev) as H2. rewrite En in H2. cbn [fst snd] in H2.
    exists pv. eexists _, q, LInner. split; [exact Hq|]. split; [exact Ht|]. split; [intros ->; destruct m; discriminate|]. split; [|split; [|split; [|split; [|split]]]].
    6:{ intros pv' th' a b' Hrun. change (0 + a) with (0 + (0 + (0 + a))). change b' with (0 + (0 + (0 + b'))). eapply pr_stay; [exact H1|]. eapply pr_stay; [exact H2|]. eapply pr_stay; [reflexivity|exact Hrun]. }
    + exact Hlt.
    + apply Nat.lt_0_succ.
    + reflexivity.
    + cbn [nt_rep]. eexists _, _, _, _, _, _, _. split; [apply Hne'|]. split; [apply Hne'|]. split; [reflexivity|reflexivity].
    + cbn. rewrite app_nil_r. reflexivity.
Qed.

Lemma nt_calls l x x' o e pv (th : nphase) q : trs nt_tr x (concat (concat l)) = Some (x', o, e) -> paused nt_rep x pv th q ->
  exists pv' th' q', paused nt_rep x' pv' th' q' /\ p_queue note th' = p_queue note th ++ o /\ calls nt_conv pv th l pv' th' e 0.
Proof.
  apply machine_calls.
  - intros [|bytes f fm] q0 R th0 H; [destruct H as (? & ? & ? & ? & ? & ? & ? & _ & ->)|destruct H as (? & ? & ? & ? & ? & ? & ? & _ & _ & _ & ->)]; reflexivity.
  - intros [|bytes f fm] q0 R th0 cu i H; [destruct H as (t & cu0 & i0 & ba & hl & md & out & Hf & ->)|destruct H as (cu0 & i0 & ba & hl & md & st & out & Hf & Hn & Hm & ->)].
    + exists t, cu, i, ba, hl, md, out. split; [exact Hf|reflexivity].
    + exists cu, i, ba, hl, md, st, out. repeat (split; [assumption|]). reflexivity.
  - intros [|bytes f fm] q0 ds R th0 H; exact H.
  - exact nt_step.
Qed.

(** Two digits per byte. *)
Lemma set_last_snoc l x f : set_last (l ++ [x]) f = l ++ [f x].
Proof. unfold set_last. rewrite rev_app_distr. cbn. rewrite rev_involutive. reflexivity. Qed.
Lemma lor_shift h l : (h < 16)%N -> (l < 16)%N -> N.lor ((h * 16) mod 256) l = (16 * h + l)%N.
Proof.
  intros Hh Hl.
  assert (E : forallb (fun h => forallb (fun l => N.eqb (N.lor ((h * 16) mod 256) l) (16 * h + l)) (map N.of_nat (seq 0 16))) (map N.of_nat (seq 0 16)) = true) by reflexivity.
  rewrite forallb_forall in E. assert (Hin : forall x, (x < 16)%N -> In x (map N.of_nat (seq 0 16))) by (intros x Hx; apply in_map_iff; exists (N.to_nat x); split; [lia|]; apply in_seq; lia).
  specialize (E h (Hin h Hh)). rewrite forallb_forall in E. apply N.eqb_eq, E, Hin, Hl.
Qed.

Lemma digit_hexv v x : is_hex v x -> hexv x = Some v /\ (v < 16)%N.
Proof. intros H. destruct (P_Escape.hexv_digit _ _ H) as (H1 & H2 & _). auto. Qed.
(** A whole byte on top of whole bytes. *)
Lemma tr_byte bytes h l x y fm : is_hex h x -> is_hex l y -> bytes <> [] ->
  forall R, trs nt_tr (NAcc bytes NA fm) (x :: y :: R) = trs nt_tr (NAcc (bytes ++ [16 * h + l]%N) NA true) R.
Proof.
  intros Hx Hy Hne R. destruct (digit_hexv _ _ Hx) as (Ex & Bx). destruct (digit_hexv _ _ Hy) as (Ey & By).
  cbn [trs]. unfold nt_tr at 1. rewrite Ex. cbn [nt_digit]. unfold nt_tr at 1. rewrite Ey. cbn [nt_digit]. rewrite set_last_snoc, lor_shift by assumption.
  destruct (trs nt_tr (NAcc (bytes ++ [(16 * h + l)%N]) NA true) R) as [[[? ?] ?]|]; reflexivity.
Qed.
Lemma tr_first h l x y : is_hex h x -> is_hex l y -> forall R, trs nt_tr NIdle (x :: y :: R) = trs nt_tr (NAcc [16 * h + l]%N NA true) R.
Proof.
  intros Hx Hy R. destruct (digit_hexv _ _ Hx) as (Ex & Bx). destruct (digit_hexv _ _ Hy) as (Ey & By).
  cbn [trs]. unfold nt_tr at 1. rewrite Ex. cbn [nt_digit]. unfold nt_tr at 1. rewrite Ey. cbn [nt_digit]. change [h] with ([] ++ [h]). rewrite set_last_snoc, lor_shift by assumption.
  cbn [app]. destruct (trs nt_tr (NAcc [(16 * h + l)%N] NA true) R) as [[[? ?] ?]|]; reflexivity.
Qed.
Lemma tr_digits : forall d text, hex_of d text -> forall bytes, bytes <> [] -> trs nt_tr (NAcc bytes NA true) text = Some (NAcc (bytes ++ d) NA true, [], 0).
Proof.
  induction 1 as [|h l x y d text Hx Hy _ IH]; intros bytes Hne; [rewrite app_nil_r; reflexivity|]. rewrite (tr_byte _ h l) by assumption.
  rewrite IH by (intros K; apply app_eq_nil in K as [_ K]; discriminate). rewrite <- app_assoc. reflexivity.
Qed.
Lemma tr_all d text : hex_of d text -> d <> [] -> trs nt_tr NIdle text = Some (NAcc d NA true, [], 0).
Proof.
  destruct 1 as [|h l x y d text Hx Hy H]; intros Hne; [contradiction|]. rewrite (tr_first h l) by assumption. exact (tr_digits _ _ H [(16 * h + l)%N] ltac:(discriminate)).
Qed.

Definition nt_fresh (t : note) (i ba : nat) : nphase := fresh_phase note FROM (nc t) nroot i ba.
Theorem nt_stream t i ba l d : n_flag t = NClear -> hex_of d (concat (concat l)) -> d <> [] ->
  exists pv' th', streams nt_conv (input_phase note) (nt_fresh t i ba) l pv' th' 0 0 /\ p_queue note th' = [d].
Proof.
  intros Hf Hd Hne.
  destruct (nt_calls l NIdle _ _ _ (input_phase note) (nt_fresh t i ba) [] (tr_all _ _ Hd Hne)) as (pv1 & th1 & q1 & Hp & Hq & Hr).
  { split; [reflexivity|]. split; [reflexivity|]. split; [reflexivity|]. split; [exact I|]. split; [reflexivity|]. exists t, 0, i, ba, 0, [], []. split; [exact Hf|reflexivity]. }
  destruct Hp as (Q1 & T1 & C1 & A1 & _ & (cu & i1 & ba1 & hl & md & st & out & _ & _ & Hmd & ->)). cbn [p_curr p_i p_queue] in *. rewrite (Hmd eq_refl) in *. subst out.
  assert (E1 : raw_step note nt_conv pv1 (mkEp note FROM [nc (mkNote NLive d NA)] 0 cu i1 ba1 hl [] (with_status nsub st) 1 true true true [] 0) LDead =
     LRes note pv1 (mkEp note FROM [nc (mkNote NLive d NA)] 0 cu i1 ba1 hl [] nroot 0 false false false [d] 1) 0 0 GBegin) by reflexivity.
  exists pv1, (mkEp note FROM [nc (mkNote NLive d NA)] 0 cu i1 ba1 hl [] nroot 0 false false false [d] 1). split; [|reflexivity].
  eexists _, _, 0, 0, 0, 0. split; [exact Hr|]. split; [|split; reflexivity].
  refine (fl_dead note nt_conv pv1 _ pv1 _ 0 0 pv1 _ 0 0 _ _ (fl_done note nt_conv pv1 _ _)); [reflexivity| |reflexivity].
  refine (pr_again note nt_conv _ _ _ _ _ 0 0 _ _ _ 0 0 E1 (or_introl eq_refl) _). apply pr_idle. apply outer_break with (q := q1); [exact Q1|reflexivity|]. cbn [p_curr]. rewrite C1. apply Nat.le_refl.
Qed.

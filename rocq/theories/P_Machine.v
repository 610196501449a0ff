(** Decoding phases given as machines on bytes, as instances of P_Flow. *)
From Verif Require Import Base Types M_Engine M_Output M_Raw S_Session S_Engine P_Trans P_Engine1 P_Engine2 P_Engine3 P_Engine4 P_Engine5 P_Engine6 P_Flow P_Raw.

Section M.
Context {P X : Type}.
Notation ecodec := (ecodec P). Notation ephase := (ephase P).
Arguments p_type {P}. Arguments p_codecs {P}. Arguments p_index {P}. Arguments p_curr {P}. Arguments p_i {P}.
Arguments p_bak {P}. Arguments p_headlen {P}. Arguments p_match_data {P}. Arguments p_state {P}. Arguments p_offset {P}.
Arguments p_fmatch {P}. Arguments p_fpending {P}. Arguments p_floop {P}. Arguments p_queue {P}. Arguments p_tail {P}.
Arguments local_step {P}. Arguments from_step {P}. Arguments LRes {P}. Arguments LUB {P}.

(** What the machine does with one byte; no transition: nothing is claimed. *)
Variable tr : X -> N -> option (X * list datum).
(** What the phase looks like in state [x], with [R] left to read; the position of the cursor does not matter. *)
Variable rep : X -> list (list N) -> list N -> ephase -> Prop.
(** Where the input may end. *)
Variable acc : X -> Prop.
Variable cout : bool.

Definition pc_of (g : lgoto) : lpc := match g with Stay pc => pc | _ => LOuter end.
Definition steps_on (pv th : ephase) (o : list datum) (x' : X) (rest : list N) (pc0 : lpc) : Prop :=
  exists pv1 th1 g, lsteps pv th pc0 pv1 th1 0 0 g /\ same_ctl pv pv1 /\ same_static th th1 /\ p_tail pv1 = length (p_queue pv1) /\ p_queue pv1 <> [] /\
    p_curr th1 <= length (p_queue pv1) /\ ok_pc (p_queue pv1) (p_curr th1) (p_i th1) (pc_of g) /\ unread (p_queue pv1) (p_curr th1) (p_i th1) (p_headlen th1) = rest /\
    rep x' (p_queue pv1) rest th1 /\ p_queue th1 = p_queue th ++ o /\ p_tail th1 = length (p_queue th1) /\ (g = GBegin \/ g = GNext \/ g = Stay LInner).

Hypothesis rep_type : forall x q R th, rep x q R th -> p_type th = FROM.
Hypothesis rep_moved : forall x q R th cu i, rep x q R th -> rep x q R (moved th cu i).
Hypothesis rep_ctl : forall x q R th th', rep x q R th -> same_ctl th th' -> rep x q R th'.
Hypothesis rep_push : forall x q ds R th, (q = [] -> p_headlen th = 0) -> rep x q R th -> rep x (q ++ ds) (R ++ concat ds) th.
Hypothesis rep_acc : forall x q th, rep x q [] th -> acc x -> p_fpending th = false.
Hypothesis rep_step : forall x b x' o, tr x b = Some (x', o) -> forall (pv th : ephase) m i d, p_tail pv = length (p_queue pv) -> p_headlen pv = 0 -> p_tail th = length (p_queue th) ->
  rep x (p_queue pv) (b :: rest_at (p_queue pv) (S m) (S i)) th -> p_curr th = S m -> p_i th = i -> nth_error (p_queue pv) m = Some d -> nth_error d i = Some b ->
  steps_on pv th o x' (rest_at (p_queue pv) (S m) (S i)) LInner.
Hypothesis tr_out : cout = true -> forall x b x' o, tr x b = Some (x', o) -> Forall ne o.

Fixpoint run (x : X) (bs : list N) : option (X * list datum) :=
  match bs with
  | [] => Some (x, [])
  | b :: r => match tr x b with
              | None => None
              | Some (x1, o1) => match run x1 r with None => None | Some (x2, o2) => Some (x2, o1 ++ o2) end
              end
  end.
Definition mden (x : X) (R : list N) : Den (P:=P) := fun Y o e f =>
  e = 0 /\ f = None /\ exists x' o1, run x (R ++ concat Y) = Some (x', o1) /\ acc x' /\ o = filter nonempty o1.
Definition minv (fin mid : bool) (pv th : ephase) (D : Den (P:=P)) (m : list nat) : Prop :=
  exists x R, p_tail pv = length (p_queue pv) /\ p_headlen pv = 0 /\ (p_queue pv = [] -> p_headlen th = 0) /\ p_curr th <= length (p_queue pv) /\
    (mid = false -> at_end (p_queue pv) (p_curr th) (p_i th)) /\ unread (p_queue pv) (p_curr th) (p_i th) (p_headlen th) = R /\ rep x (p_queue pv) R th /\
    (forall Y o e f, D Y o e f -> mden x R Y o e f) /\ m = [length R; length (p_queue pv) - p_curr th; 0; 0].
Definition mspec : pspec (P:=P) := mkPs FROM false cout minv (fun _ f => f = None).

Lemma concat_filter_ne (l : list datum) : concat (filter nonempty l) = concat l.
Proof. induction l as [|[|x d] l IH]; cbn; [reflexivity|exact IH|rewrite IH; reflexivity]. Qed.
Lemma unread_app (q ds : list (list N)) cu i hl : cu <= length q -> (q = [] -> hl = 0) -> unread (q ++ ds) cu i hl = unread q cu i hl ++ concat ds.
Proof.
  intros Hc Hh. destruct cu as [|n].
  - destruct q as [|d q]; cbn [app unread].
    + rewrite (Hh eq_refl). destruct ds as [|d ds]; reflexivity.
    + cbn [rest_at nth skipn]. rewrite concat_app, app_assoc. reflexivity.
  - cbn [unread rest_at]. rewrite app_nth1 by lia. rewrite skipn_app. replace (S n - length q) with 0 by lia. cbn [skipn]. rewrite concat_app, app_assoc. reflexivity.
Qed.
Lemma at_end_app (q ds : list (list N)) cu i : cu <= length q -> at_end q cu i -> at_end (q ++ ds) cu i.
Proof. destruct cu as [|n]; cbn; [auto|]. intros H. rewrite app_nth1 by lia. auto. Qed.
Lemma at_end_unread (q : list (list N)) cu i hl : length q <= cu -> at_end q cu i -> unread q cu i hl = [].
Proof. destruct cu as [|n]; cbn [unread at_end rest_at]; intros H He; [destruct q; [reflexivity|cbn in H; lia]|]. rewrite He, skipn_all2 by exact H. reflexivity. Qed.

Lemma mach_outer fin (pv th : ephase) D m : minv fin false pv th D m -> p_tail th = length (p_queue th) -> p_curr th < length (p_queue pv) -> ach mspec fin pv th D m LOuter.
Proof.
  intros (x & R & Ht & Hh & Hhl & Hc & He & HU & Hr & HD & ->) Hq Hlt. specialize (He eq_refl).
  exists pv, (moved th (S (p_curr th)) (if p_curr th =? 0 then p_headlen th else 0)), 0, (Stay LInner). split; [|split; [|split]].
  - apply ls_one. unfold local_step. rewrite (rep_type _ _ _ _ Hr). unfold from_step. apply Nat.ltb_lt in Hlt. rewrite Hlt. reflexivity.
  - apply same_ctl_refl.
  - split; [reflexivity|]. split; [reflexivity|reflexivity].
  - exists [], (mden x R), [length R; length (p_queue pv) - S (p_curr th); 0; 0], true. split; [rewrite app_nil_r; reflexivity|]. split; [exact Hq|]. split; [constructor|]. split; [|split; [|split]].
    + exists x, R. split; [exact Ht|]. split; [exact Hh|]. split; [exact Hhl|]. split; [cbn; lia|]. split; [discriminate|]. split; [|split; [apply rep_moved; exact Hr|split; [auto|reflexivity]]].
      cbn [moved set_i set_curr p_curr p_i p_headlen]. rewrite <- HU. destruct (p_curr th) as [|n] eqn:Ec; cbn [Nat.eqb unread].
      * destruct (p_queue pv); [cbn in Hlt; lia|]. reflexivity.
      * cbn [at_end] in He. cbn [rest_at]. rewrite He. cbn [app]. rewrite (P_Raw.skipn_cons_nth [] (S n) (p_queue pv) Hlt). reflexivity.
    + intros Y o e f _ HY. exists o, e. split; [apply HD; exact HY|]. split; reflexivity.
    + apply lex_next, lex_here; [lia|reflexivity].
    + reflexivity.
Qed.
Lemma mach_inner fin (pv th : ephase) D m : minv fin true pv th D m -> p_tail th = length (p_queue th) -> live fin D ->
  ach mspec fin pv th D m LInner \/ (local_step pv th LInner = LRes pv th 0 0 (Stay LOuter) /\ minv fin false pv th D m).
Proof.
  intros (x & R & Ht & Hh & Hhl & Hc & _ & HU & Hr & HD & ->) Hq (Y0 & o0 & e0 & f0 & _ & HY0).
  assert (Hty := rep_type _ _ _ _ Hr).
  assert (Hinv : at_end (p_queue pv) (p_curr th) (p_i th) -> minv fin false pv th D [length R; length (p_queue pv) - p_curr th; 0; 0]).
  { intros He. exists x, R. repeat (split; [assumption|]). split; [auto|]. repeat (split; [assumption|]). reflexivity. }
  destruct (p_curr th) as [|n] eqn:Ec.
  - right. split; [|apply Hinv; exact I]. unfold local_step. rewrite Hty. unfold from_step, curr_len. rewrite Ec, Hh. reflexivity.
  - cbn [unread rest_at] in HU. destruct (skipn (p_i th) (nth n (p_queue pv) [])) as [|b l] eqn:Es.
    + right. split; [|apply Hinv; exact Es]. unfold local_step. rewrite Hty. unfold from_step, curr_len. rewrite Ec. assert (En : nth_error (p_queue pv) n = Some (nth n (p_queue pv) [])) by (apply nth_error_nth'; exact Hc). rewrite En. cbn [option_map].
      apply skipn_nil_len in Es. replace (p_i th <? length (nth n (p_queue pv) [])) with false by (symmetry; apply Nat.ltb_ge; exact Es). reflexivity.
    + left. assert (HU2 : (b :: l) ++ concat (skipn (S n) (p_queue pv)) = R) by (rewrite <- HU; apply (f_equal (fun z => z ++ concat (skipn (S n) (p_queue pv)))); symmetry; exact Es). clear HU. rename HU2 into HU. assert (Hi : p_i th < length (nth n (p_queue pv) [])). { destruct (Nat.le_gt_cases (length (nth n (p_queue pv) [])) (p_i th)) as [L|L]; [|exact L]. rewrite skipn_all2 in Es by exact L. discriminate. }
      rewrite (P_Raw.skipn_cons_nth 0%N _ _ Hi) in Es. injection Es as Eb El.
      assert (ER : R = b :: rest_at (p_queue pv) (S n) (S (p_i th))). { rewrite <- HU. cbn [rest_at app]. f_equal. apply (f_equal (fun z => z ++ concat (skipn (S n) (p_queue pv)))). symmetry. exact El. }
      destruct (HD _ _ _ _ HY0) as (-> & -> & xf & of & Hrun & _). rewrite ER in Hrun. cbn [app run] in Hrun. destruct (tr x b) as [[x1 o1]|] eqn:Et; [|discriminate]. clear Hrun.
      rewrite ER in Hr. destruct (rep_step _ _ _ _ Et pv th n (p_i th) (nth n (p_queue pv) []) Ht Hh Hq Hr Ec eq_refl (nth_error_nth' _ _ Hc)) as (pv1 & th1 & g & G1 & G2 & G3 & G4 & G5 & G6 & G7 & G8 & G9 & G10 & G11 & G12).
      { rewrite (nth_error_nth' _ 0%N Hi), Eb. reflexivity. }
      exists pv1, th1, 0, g. split; [exact G1|]. split; [exact G2|]. split; [exact G3|].
      set (rest := rest_at (p_queue pv) (S n) (S (p_i th))) in *.
      exists o1, (mden x1 rest), [length rest; length (p_queue pv1) - p_curr th1; 0; 0], (match g with Stay LInner => true | _ => false end).
      split; [exact G10|]. split; [exact G11|]. split; [intros Hco; eapply tr_out; eassumption|]. split; [|split; [|split]].
      * exists x1, rest. split; [exact G4|]. split; [rewrite G2; exact Hh|]. split; [contradiction|]. split; [exact G6|]. split; [|split; [exact G8|split; [exact G9|split; [auto|reflexivity]]]].
        destruct G12 as [->|[->| ->]]; [intros _; exact G7|intros _; exact G7|discriminate].
      * intros Y o e f _ HY. destruct (HD _ _ _ _ HY) as (-> & -> & x' & o2 & Hrun & Hacc & ->). rewrite ER in Hrun. cbn [app run] in Hrun. rewrite Et in Hrun. destruct (run x1 (rest ++ concat Y)) as [[x3 o3]|] eqn:E3; [|discriminate]. injection Hrun as <- <-.
        exists (filter nonempty o3), 0. split; [split; [reflexivity|]; split; [reflexivity|]; exists x3, o3; auto|]. split; [apply filter_app|reflexivity].
      * rewrite ER. cbn [length]. apply lex_here; [lia|reflexivity].
      * destruct G12 as [->|[->| ->]]; reflexivity.
Qed.

Theorem mspec_ok : pspec_ok mspec.
Proof.
  constructor; cbn [mspec s_type s_cin s_cout s_inv s_fin].
  - intros fin mid pv th D m (x & R & Ht & Hh & Hhl & Hc & He & HU & Hr & HD & ->). split; [eapply rep_type; exact Hr|]. split; [exact Ht|reflexivity].
  - intros fin pv th D m HI Hq _ Hlt. apply mach_outer; assumption.
  - intros _ fin pv th D m HI Hq Hl. apply mach_inner; assumption.
  - intros fin mid pv th D m (x & R & Ht & Hh & Hhl & Hc & He & HU & Hr & HD & ->) Hle. unfold local_step. rewrite (rep_type _ _ _ _ Hr). unfold from_step. apply Nat.ltb_ge in Hle. rewrite Hle. reflexivity.
  - intros fin pv th D m (x & R & Ht & Hh & Hhl & Hc & He & HU & Hr & HD & ->) Hq Hle Hp (o & e & f & HY). exfalso. specialize (He eq_refl).
    rewrite (at_end_unread _ _ _ (p_headlen th) Hle He) in HU. subst R. destruct (HD _ _ _ _ HY) as (_ & _ & x' & o1 & Hrun & Hacc & _). cbn in Hrun. injection Hrun as <- <-. rewrite (rep_acc _ _ _ Hr Hacc) in Hp. discriminate.
  - intros fin pv th D m o e f (x & R & Ht & Hh & Hhl & Hc & He & HU & Hr & HD & ->) Hle Hp HY. specialize (He eq_refl). rewrite (at_end_unread _ _ _ (p_headlen th) Hle He) in HU. subst R.
    destruct (HD _ _ _ _ HY) as (-> & -> & x' & o1 & Hrun & Hacc & ->). cbn in Hrun. injection Hrun as <- <-. auto.
  - intros mid pv pv' th D m ds (x & R & Ht & Hh & Hhl & Hc & He & HU & Hr & HD & ->) Hq' Ht' Hh' _. eexists. exists x, (R ++ concat ds). rewrite (Hh' eq_refl). rewrite Hq' in *.
    split; [exact Ht'|]. split; [exact Hh|]. split; [intros E; apply app_eq_nil in E as [E _]; auto|]. split; [rewrite app_length; lia|]. split; [intros Em; apply at_end_app; auto|].
    split; [rewrite unread_app by auto; rewrite HU; reflexivity|]. split; [apply rep_push; assumption|]. split; [|reflexivity].
    intros Y o e f HY. unfold fed in HY. destruct (HD _ _ _ _ HY) as (-> & -> & x' & o1 & Hrun & Hacc & ->). split; [reflexivity|]. split; [reflexivity|]. exists x', o1. split; [|auto].
    rewrite concat_app, concat_filter_ne, app_assoc in Hrun. exact Hrun.
  - intros fin mid pv th th' D m (x & R & Ht & Hh & Hhl & Hc & He & HU & Hr & HD & ->) Hctl. exists x, R.
    assert (E1 : p_curr th' = p_curr th) by (rewrite Hctl; reflexivity). assert (E2 : p_i th' = p_i th) by (rewrite Hctl; reflexivity). assert (E3 : p_headlen th' = p_headlen th) by (rewrite Hctl; reflexivity).
    rewrite E1, E2, E3. repeat (split; [assumption|]). split; [eapply rep_ctl; eassumption|]. split; [assumption|reflexivity].
  - intros fin pv th D m (x & R & Ht & Hh & Hhl & Hc & He & HU & Hr & HD & ->). exists x, R. repeat (split; [assumption|]). split; [discriminate|]. repeat (split; [assumption|]). reflexivity.
  - intros mid pv th D m HI. exact HI.
  - auto.
Qed.
End M.

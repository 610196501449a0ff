(** Lemmas about the specification functions of S_Engine. *)
From Verif Require Import Base Types S_Engine.

(** A codec never reports a match of zero symbols, and matches lie inside the stream. *)
Lemma scan_bound v : forall rest pre best n d, 
  (forall m e, best = Some (m, e) -> 1 <= m <= length pre) ->
  scan v pre rest best = Some (n, d) -> 1 <= n <= length pre + length rest.
Proof.
  induction rest as [|x r IH]; intros pre best n d Hb H; cbn in H.
  - specialize (Hb _ _ H). cbn. lia.
  - destruct (v (pre ++ [x])) as [| |e|e].
    + specialize (Hb _ _ H). cbn. lia.
    + apply IH in H; [rewrite app_length in H; cbn in *; lia|].
      intros m e E. specialize (Hb _ _ E). rewrite app_length. cbn. lia.
    + apply IH in H; [rewrite app_length in H; cbn in *; lia|].
      intros m e' E. injection E as <- <-. rewrite app_length. cbn. lia.
    + injection H as <- <-. cbn. lia.
Qed.

Lemma first_match_bound cs ds n d : first_match cs ds = Some (n, d) -> 1 <= n <= length ds.
Proof.
  induction cs as [|v cs IH]; cbn; [discriminate|].
  destruct (scan v [] ds None) as [[m e]|] eqn:E; [|exact IH].
  intros H. injection H as <- <-. apply (scan_bound v ds [] None m e); [discriminate|exact E].
Qed.

Lemma examined_bound v : forall rest pre, rest <> [] -> S (length pre) <= examined v pre rest <= length pre + length rest.
Proof.
  induction rest as [|x r IH]; intros pre Hn; [contradiction|]. cbn.
  destruct r as [|y r].
  - destruct (v (pre ++ [x])); cbn; rewrite ?app_length; cbn; lia.
  - assert (H := IH (pre ++ [x]) ltac:(discriminate)). rewrite app_length in H. cbn [length] in H.
    destruct (v (pre ++ [x])); cbn [length]; lia.
Qed.

Lemma trans_fuel_enough k cs : forall f f' ds, length ds <= f -> length ds <= f' ->
  trans_fuel k cs f ds = trans_fuel k cs f' ds.
Proof.
  induction f as [|f IH]; intros f' ds H H'.
  - destruct ds; [destruct f'; reflexivity|cbn in H; lia].
  - destruct ds as [|x r]; [destruct f'; reflexivity|]. destruct f' as [|f']; [cbn in H'; lia|].
    cbn [trans_fuel]. cbn [length] in H, H'.
    destruct (first_match cs (x :: r)) as [[n d]|] eqn:E.
    + apply first_match_bound in E. cbn [length] in E.
      rewrite (IH f' (skipn n (x :: r))); [reflexivity| |]; rewrite skipn_length; cbn [length]; lia.
    + destruct k.
      * rewrite (IH f' r) by lia. reflexivity.
      * rewrite (IH f' r) by lia. reflexivity.
      * pose proof (examined_bound (last cs (fun _ => VDead)) (x :: r) [] ltac:(discriminate)) as Hx. cbn [length] in Hx.
        rewrite (IH f' (skipn (examined (last cs (fun _ => VDead)) [] (x :: r)) (x :: r))); [reflexivity| |]; rewrite skipn_length; cbn [length]; lia.
      * rewrite (IH f' r) by lia. reflexivity.
Qed.

Lemma trans_nil k cs : trans k cs [] = ([], 0).
Proof. reflexivity. Qed.

(** Unfolding equation without fuel. *)
Lemma trans_cons k cs x r : trans k cs (x :: r) =
  match first_match cs (x :: r) with
  | Some (n, d) => let '(o, e) := trans k cs (skipn n (x :: r)) in (d ++ o, e)
  | None =>
      match k with
      | KFrom => let '(o, e) := trans k cs r in (o, S e)
      | KInter | KSink => let '(o, e) := trans k cs r in (x :: o, e)
      | KTo => let '(o, e) := trans k cs (skipn (examined (last cs (fun _ => VDead)) [] (x :: r)) (x :: r)) in (o, S e)
      end
  end.
Proof.
  unfold trans at 1. cbn [length trans_fuel]. destruct (first_match cs (x :: r)) as [[n d]|] eqn:E.
  - apply first_match_bound in E. cbn [length] in E.
    unfold trans. rewrite (trans_fuel_enough k cs (length r) (length (skipn n (x :: r)))); [reflexivity| |lia].
    rewrite skipn_length. cbn [length]. lia.
  - pose proof (examined_bound (last cs (fun _ => VDead)) (x :: r) [] ltac:(discriminate)) as Hx. cbn [length] in Hx.
    destruct k; unfold trans; try reflexivity.
    rewrite (trans_fuel_enough KTo cs (length r) (length (skipn (examined (last cs (fun _ => VDead)) [] (x :: r)) (x :: r)))); [reflexivity| |lia].
    rewrite skipn_length. cbn [length]. lia.
Qed.

Lemma trans_match k cs ds n d : first_match cs ds = Some (n, d) ->
  trans k cs ds = (d ++ fst (trans k cs (skipn n ds)), snd (trans k cs (skipn n ds))).
Proof.
  intros H. destruct ds as [|x r].
  - apply first_match_bound in H. cbn in H. lia.
  - rewrite trans_cons, H. destruct (trans k cs (skipn n (x :: r))); reflexivity.
Qed.

Lemma trans_fail_from cs x r : first_match cs (x :: r) = None ->
  trans KFrom cs (x :: r) = (fst (trans KFrom cs r), S (snd (trans KFrom cs r))).
Proof. intros H. rewrite trans_cons, H. destruct (trans KFrom cs r); reflexivity. Qed.
Lemma trans_fail_inter cs x r : first_match cs (x :: r) = None ->
  trans KInter cs (x :: r) = (x :: fst (trans KInter cs r), snd (trans KInter cs r)).
Proof. intros H. rewrite trans_cons, H. destruct (trans KInter cs r); reflexivity. Qed.
Lemma trans_fail_to cs ds : ds <> [] -> first_match cs ds = None ->
  trans KTo cs ds = (fst (trans KTo cs (skipn (examined (last cs (fun _ => VDead)) [] ds) ds)),
                     S (snd (trans KTo cs (skipn (examined (last cs (fun _ => VDead)) [] ds) ds)))).
Proof.
  intros Hn H. destruct ds as [|x r]; [contradiction|]. rewrite trans_cons, H.
  destruct (trans KTo cs (skipn (examined (last cs (fun _ => VDead)) [] (x :: r)) (x :: r))); reflexivity.
Qed.

Lemma trans_sink ds : trans KSink [] ds = (ds, 0).
Proof. induction ds as [|x r IH]; [reflexivity|]. rewrite trans_cons. cbn [first_match]. rewrite IH. reflexivity. Qed.

(** * Progress of a scan *)

(** [reads v pre best]: reading [pre] from the start goes through [VCont]/[VSub] only, and [best] is
    the last [VSub]. *)
Inductive reads (v : csem) : list datum -> option (nat * list datum) -> Prop :=
| rd_nil : reads v [] None
| rd_cont pre best x : reads v pre best -> v (pre ++ [x]) = VCont -> reads v (pre ++ [x]) best
| rd_sub pre best x d : reads v pre best -> v (pre ++ [x]) = VSub d -> reads v (pre ++ [x]) (Some (S (length pre), d)).

Lemma scan_cont v pre best x r : v (pre ++ [x]) = VCont -> scan v pre (x :: r) best = scan v (pre ++ [x]) r best.
Proof. intros H. cbn. rewrite H. reflexivity. Qed.

Lemma reads_scan v pre best : reads v pre best -> forall rest, scan v [] (pre ++ rest) None = scan v pre rest best.
Proof.
  induction 1 as [|pre best x H IH Hv|pre best x d H IH Hv]; intros rest; cbn [app]; [reflexivity| |];
    rewrite <- app_assoc, IH; cbn; rewrite Hv; reflexivity.
Qed.

Lemma reads_examined v pre best : reads v pre best -> forall rest, examined v [] (pre ++ rest) = examined v pre rest.
Proof.
  induction 1 as [|pre best x H IH Hv|pre best x d H IH Hv]; intros rest; cbn [app]; [reflexivity| |];
    rewrite <- app_assoc, IH; cbn; rewrite Hv; reflexivity.
Qed.

Lemma reads_best_bound v pre best n d : reads v pre best -> best = Some (n, d) -> 1 <= n <= length pre.
Proof.
  intros H. revert n d. induction H as [|pre best x H IH Hv|pre best x e H IH Hv]; intros n d E.
  - discriminate.
  - specialize (IH _ _ E). rewrite app_length. cbn. lia.
  - injection E as <- <-. rewrite app_length. cbn. lia.
Qed.

(** Reading several symbols that are all [VCont]. *)
Inductive conts (v : csem) : list datum -> list datum -> Prop :=
| ct_nil pre : conts v pre []
| ct_cons pre x r : v (pre ++ [x]) = VCont -> conts v (pre ++ [x]) r -> conts v pre (x :: r).

Lemma reads_conts v : forall R pre best, reads v pre best -> conts v pre R -> reads v (pre ++ R) best.
Proof.
  induction R as [|x R IH]; intros pre best H Hc; [rewrite app_nil_r; exact H|].
  inversion Hc; subst. replace (pre ++ x :: R) with ((pre ++ [x]) ++ R) by (rewrite <- app_assoc; reflexivity).
  apply IH; [|assumption]. apply rd_cont; assumption.
Qed.

(** * first_match, codec by codec *)
Lemma first_match_skip cs k ds v : 
  (forall j w, j < k -> nth_error cs j = Some w -> scan w [] ds None = None) ->
  nth_error cs k = Some v ->
  first_match cs ds = match scan v [] ds None with Some r => Some r | None => first_match (skipn (S k) cs) ds end.
Proof.
  revert k. induction cs as [|w cs IH]; intros k H Hk; [destruct k; discriminate|].
  destruct k as [|k]; cbn in Hk.
  - injection Hk as ->. reflexivity.
  - cbn [first_match]. rewrite (H 0 w); [|lia|reflexivity]. cbn [skipn]. apply IH; [|exact Hk].
    intros j w' Hj Hw. apply (H (S j) w'); [lia|exact Hw].
Qed.

Lemma first_match_hit cs k ds v r : 
  (forall j w, j < k -> nth_error cs j = Some w -> scan w [] ds None = None) ->
  nth_error cs k = Some v -> scan v [] ds None = Some r -> first_match cs ds = Some r.
Proof. intros H Hk Hs. rewrite (first_match_skip cs k ds v H Hk), Hs. reflexivity. Qed.

Lemma first_match_none cs ds : (forall j w, nth_error cs j = Some w -> scan w [] ds None = None) -> first_match cs ds = None.
Proof.
  induction cs as [|v cs IH]; intros H; [reflexivity|]. cbn. rewrite (H 0 v eq_refl). apply IH.
  intros j w Hw. exact (H (S j) w Hw).
Qed.

(** * The denotation of a pipeline with data in flight *)
Definition flow := (list datum * nat * nat)%type.

Definition apply_at (ph : psem) (B : list datum) (x : flow) : flow :=
  let '(ds, ie, oe) := x in
  let '(o, e) := trans (ps_kind ph) (ps_cs ph) (B ++ inj (ps_kind ph) ds) in
  match ps_kind ph with
  | KFrom => (o, ie + e, oe)
  | KTo => (o, ie, oe + e)
  | _ => (o, ie, oe)
  end.
Fixpoint denote (l : list (psem * list datum)) (x : flow) : flow :=
  match l with
  | [] => x
  | (ph, B) :: r => denote r (apply_at ph B x)
  end.

Lemma inj_app k a b : inj k (a ++ b) = inj k a ++ inj k b.
Proof.
  destruct k; unfold inj; try apply filter_app. rewrite concat_app, map_app. reflexivity.
Qed.
Lemma inj_nil k : inj k [] = [].
Proof. destruct k; reflexivity. Qed.

Lemma denote_app l1 : forall l2 x, denote (l1 ++ l2) x = denote l2 (denote l1 x).
Proof. induction l1 as [|[ph B] l1 IH]; intros l2 x; cbn; [reflexivity|apply IH]. Qed.

Definition add_err (x : flow) (i o : nat) : flow := let '(ds, ie, oe) := x in (ds, ie + i, oe + o).
Definition flow_data (x : flow) : list datum := fst (fst x).
Definition flow_ierr (x : flow) : nat := snd (fst x).
Definition flow_oerr (x : flow) : nat := snd x.

Lemma apply_at_add ph B x i o : apply_at ph B (add_err x i o) = add_err (apply_at ph B x) i o.
Proof.
  destruct x as [[ds ie] oe]. cbn. destruct (trans _ _ _) as [out e]. destruct (ps_kind ph); cbn; f_equal; try lia; f_equal; lia.
Qed.
Lemma denote_add l : forall x i o, denote l (add_err x i o) = add_err (denote l x) i o.
Proof. induction l as [|[ph B] l IH]; intros x i o; cbn; [reflexivity|]. rewrite apply_at_add. apply IH. Qed.

Definition err_of (k : kind) (e : nat) : nat * nat := match k with KFrom => (e, 0) | KTo => (0, e) | _ => (0, 0) end.

(** A commit at one phase, seen by the denotation: output [out] moves to the next phase and [e] errors
    move into the counters. *)
Lemma denote_commit l1 ph B B' ph2 B2 l2 x out e :
  (forall Y, Y = inj (ps_kind ph) (flow_data (denote l1 x)) ->
    trans (ps_kind ph) (ps_cs ph) (B ++ Y) =
      (out ++ fst (trans (ps_kind ph) (ps_cs ph) (B' ++ Y)), e + snd (trans (ps_kind ph) (ps_cs ph) (B' ++ Y)))) ->
  denote (l1 ++ (ph, B) :: (ph2, B2) :: l2) x =
  denote (l1 ++ (ph, B') :: (ph2, B2 ++ inj (ps_kind ph2) out) :: l2)
    (add_err x (fst (err_of (ps_kind ph) e)) (snd (err_of (ps_kind ph) e))).
Proof.
  intros H. rewrite !denote_app. rewrite denote_add. cbn [denote]. f_equal.
  rewrite apply_at_add.
  destruct (denote l1 x) as [[ds ie] oe]. unfold apply_at at 2 4. cbn [flow_data fst] in H.
  rewrite (H _ eq_refl). destruct (trans (ps_kind ph) (ps_cs ph) (B' ++ _)) as [o' e']. cbn [fst snd].
  destruct (ps_kind ph); cbn [err_of fst snd add_err apply_at]; rewrite inj_app, <- app_assoc;
   repeat match goal with |- context [trans ?k ?c ?l] => destruct (trans k c l) end; 
   destruct (ps_kind ph2); f_equal; try lia; f_equal; lia.
Qed.

(** Moving the data of a phase along (consumed symbols already in B'). *)
Lemma denote_same l1 ph B B' l2 x : B = B' -> denote (l1 ++ (ph, B) :: l2) x = denote (l1 ++ (ph, B') :: l2) x.
Proof. intros ->. reflexivity. Qed.

(** Drained phases produce nothing. *)
Lemma denote_drained l : Forall (fun pb => snd pb = []) l -> forall ie oe, denote l ([], ie, oe) = ([], ie, oe).
Proof.
  induction 1 as [|[ph B] l HB _ IH]; intros ie oe; cbn in *; [reflexivity|]. subst B. rewrite inj_nil. cbn [app].
  rewrite trans_nil. destruct (ps_kind ph); cbn; rewrite ?Nat.add_0_r; apply IH.
Qed.

(** Adding input: data appended in front of the future. *)
Lemma denote_enqueue ph B l d ds ie oe :
  denote ((ph, B) :: l) (d :: ds, ie, oe) = denote ((ph, B ++ inj (ps_kind ph) [d]) :: l) (ds, ie, oe).
Proof.
  cbn [denote]. f_equal. unfold apply_at. change (d :: ds) with ([d] ++ ds).
  rewrite inj_app, app_assoc. reflexivity.
Qed.

(** Errors only grow along a pipeline. *)
Lemma apply_at_ierr_le ph B x : flow_ierr x <= flow_ierr (apply_at ph B x).
Proof.
  destruct x as [[ds ie] oe]. cbn. destruct (trans _ _ _). destruct (ps_kind ph); cbn; lia.
Qed.
Lemma denote_ierr_le l : forall x, flow_ierr x <= flow_ierr (denote l x).
Proof.
  induction l as [|[ph B] l IH]; intros x; cbn; [lia|]. etransitivity; [apply (apply_at_ierr_le ph B)|apply IH].
Qed.

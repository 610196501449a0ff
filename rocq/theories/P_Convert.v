(** The functional specification of phases satisfies the declarative one. *)
From Verif Require Import Base Types S_Engine S_Dict S_Convert P_Trans P_Dict.

Section Scan.
Variable lk : list datum -> option (list datum).
Variable ext : list datum -> bool.
Variable ok : datum -> Prop.
Hypothesis Hext : forall w x more, Forall ok (w ++ x :: more) -> w <> [] -> lk (w ++ x :: more) <> None -> ext w = true.
Let v : csem := fun w => verdict_of (lk w) (ext w).

Lemma scan_char : forall rest pre best, Forall ok (pre ++ rest) ->
  (exists m o, 1 <= m <= length rest /\ lk (pre ++ firstn m rest) = Some o /\
     (forall m', m < m' <= length rest -> lk (pre ++ firstn m' rest) = None) /\ scan v pre rest best = Some (length pre + m, o)) \/
  ((forall m, 1 <= m <= length rest -> lk (pre ++ firstn m rest) = None) /\ scan v pre rest best = best).
Proof.
  induction rest as [|x r IH]; intros pre best HF.
  - right. split; [intros m H; cbn in H; lia|reflexivity].
  - assert (HF' : Forall ok ((pre ++ [x]) ++ r)) by (rewrite <- app_assoc; exact HF).
    assert (Hpe : pre ++ [x] <> []) by (destruct pre; discriminate).
    assert (Hsh : forall m, pre ++ firstn (S m) (x :: r) = (pre ++ [x]) ++ firstn m r) by (intros m; rewrite <- app_assoc; reflexivity).
    assert (Hno : ext (pre ++ [x]) = false -> forall m, 2 <= m <= length (x :: r) -> lk (pre ++ firstn m (x :: r)) = None).
    { intros He m Hm. destruct m as [|m]; [lia|]. rewrite Hsh. destruct r as [|y r]; [cbn in Hm; lia|]. destruct m as [|m]; [lia|]. cbn [firstn].
      destruct (lk ((pre ++ [x]) ++ y :: firstn m r)) eqn:El; [|reflexivity]. rewrite (Hext (pre ++ [x]) y (firstn m r)) in He; try congruence.
      assert (HF2 : Forall ok (((pre ++ [x]) ++ y :: firstn m r) ++ skipn m r)) by (rewrite <- app_assoc; cbn [app]; rewrite firstn_skipn; exact HF').
      apply Forall_app in HF2. apply HF2. }
    assert (H1 : pre ++ firstn 1 (x :: r) = pre ++ [x]) by reflexivity.
    cbn [scan]. unfold v at 1 4. destruct (lk (pre ++ [x])) as [o|] eqn:El; destruct (ext (pre ++ [x])) eqn:Ee; cbn [verdict_of].
    + destruct (IH (pre ++ [x]) (Some (S (length pre), o)) HF') as [(m & o' & A1 & A2 & A3 & A4)|(A1 & A2)].
      * left. exists (S m), o'. cbn [length]. split; [lia|]. rewrite Hsh. split; [exact A2|]. split.
        -- intros m' Hm'. destruct m' as [|m']; [lia|]. rewrite Hsh. apply A3. lia.
        -- rewrite A4, app_length. cbn. f_equal. f_equal. lia.
      * left. exists 1, o. rewrite H1. cbn [length]. split; [lia|]. split; [exact El|]. split.
        -- intros m' Hm'. destruct m' as [|m']; [lia|]. rewrite Hsh. apply A1. lia.
        -- rewrite A2. f_equal. f_equal. lia.
    + left. exists 1, o. rewrite H1. cbn [length]. split; [lia|]. split; [exact El|]. split; [|f_equal; f_equal; lia].
      intros m' Hm'. apply Hno; [reflexivity|cbn; lia].
    + destruct (IH (pre ++ [x]) best HF') as [(m & o' & A1 & A2 & A3 & A4)|(A1 & A2)].
      * left. exists (S m), o'. cbn [length]. split; [lia|]. rewrite Hsh. split; [exact A2|]. split.
        -- intros m' Hm'. destruct m' as [|m']; [lia|]. rewrite Hsh. apply A3. lia.
        -- rewrite A4, app_length. cbn. f_equal. f_equal. lia.
      * right. split; [|exact A2]. intros m Hm. cbn [length] in Hm. destruct m as [|m]; [lia|]. rewrite Hsh. destruct m as [|m]; [cbn [firstn]; rewrite app_nil_r; exact El|]. apply A1. lia.
    + right. split; [|reflexivity]. intros m Hm. destruct m as [|[|m]]; [lia|rewrite H1; exact El|]. apply Hno; [reflexivity|lia].
Qed.

Lemma examined_char : forall rest pre, rest <> [] -> (forall m, 1 <= m <= length rest -> lk (pre ++ firstn m rest) = None) ->
  exists k, examined v pre rest = length pre + k /\ 1 <= k <= length rest /\ (forall i, 1 <= i < k -> ext (pre ++ firstn i rest) = true) /\
    (k < length rest -> ext (pre ++ firstn k rest) = false).
Proof.
  induction rest as [|x r IH]; intros pre Hne Hlk; [contradiction|]. cbn [examined]. unfold v at 1.
  pose proof (Hlk 1 ltac:(cbn; lia)) as Hl1. cbn [firstn] in Hl1. rewrite Hl1.
  assert (Hsh : forall m, pre ++ firstn (S m) (x :: r) = (pre ++ [x]) ++ firstn m r) by (intros m; rewrite <- app_assoc; reflexivity).
  destruct (ext (pre ++ [x])) eqn:Ee; cbn [verdict_of].
  - destruct r as [|y r].
    + exists 1. cbn. rewrite app_length. cbn. repeat split; try lia.
    + destruct (IH (pre ++ [x])) as (k & K1 & K2 & K3 & K4); [discriminate| |].
      { intros m Hm. rewrite <- Hsh. apply Hlk. cbn in *. lia. }
      exists (S k). rewrite K1, app_length. cbn [length] in *. split; [lia|]. split; [lia|]. split.
      * intros i Hi. destruct i as [|i]; [lia|]. rewrite Hsh. destruct i as [|i]; [cbn [firstn]; rewrite app_nil_r; exact Ee|]. apply K3. lia.
      * intros H. rewrite Hsh. apply K4. lia.
  - exists 1. cbn [length]. split; [lia|]. split; [lia|]. split; [intros; lia|]. intros _. exact Ee.
Qed.
End Scan.

Definition sem_of (t : ptype) : dict -> csem := match t with FROM => from_sem | _ => data_sem end.

(** both kinds of dictionary have the form needed *)
Definition ext_of (t : ptype) (D : dict) (w : list datum) : bool :=
  match t with FROM => has_longer D (concat w) | _ => has_prefix D (joined w ++ [256%N]) end.
Lemma sem_form t D : sem_of t D = fun w => verdict_of (lookup D (key_of t w)) (ext_of t D w).
Proof. destruct t; reflexivity. Qed.

Lemma joined_app w x more : w <> [] -> joined (w ++ x :: more) = joined w ++ 256%N :: joined (x :: more).
Proof.
  induction w as [|a w IH]; intros H; [contradiction|]. destruct w as [|b w].
  - destruct more; reflexivity.
  - specialize (IH ltac:(discriminate)). change (joined ((a :: b :: w) ++ x :: more)) with (a ++ 256%N :: joined ((b :: w) ++ x :: more)).
    rewrite IH. change (joined (a :: b :: w)) with (a ++ 256%N :: joined (b :: w)). rewrite <- app_assoc. reflexivity.
Qed.

Lemma ext_ok t D : (t = FROM \/ t = INTER \/ t = TO) ->
  forall w x more, Forall (fun d => t = FROM -> d <> []) (w ++ x :: more) -> w <> [] -> lookup D (key_of t (w ++ x :: more)) <> None -> ext_of t D w = true.
Proof.
  intros Ht w x more HF Hw Hl. destruct (lookup D _) as [o|] eqn:E; [|congruence]. apply lookup_in in E.
  destruct Ht as [->|Ht].
  - cbn in *. rewrite concat_app in E. cbn in E. apply has_longer_spec. apply Forall_app in HF. destruct HF as (_ & HF). inversion HF; subst. destruct x as [|b x]; [exfalso; apply H1; reflexivity|].
    exists (concat w ++ (b :: x) ++ concat more), o, b, (x ++ concat more). split; [exact E|reflexivity].
  - assert (E' : In (joined (w ++ x :: more), o) D) by (destruct Ht as [->| ->]; exact E).
    assert (G : has_prefix D (joined w ++ [256%N]) = true).
    { rewrite joined_app in E' by exact Hw. apply has_prefix_spec. exists (joined w ++ 256%N :: joined (x :: more)), o, (joined (x :: more)). split; [exact E'|]. rewrite <- app_assoc. reflexivity. }
    destruct Ht as [->| ->]; exact G.
Qed.

Section Phase.
Variable t : ptype.
Hypothesis Ht : t = FROM \/ t = INTER \/ t = TO.
Definition sym_ok (d : datum) : Prop := t = FROM -> d <> [].

Lemma scan_dict D ds : Forall sym_ok ds ->
  match scan (sem_of t D) [] ds None with
  | Some (n, o) => entry_at t D ds n o /\ forall m o', entry_at t D ds m o' -> m <= n
  | None => no_entry_at t D ds
  end.
Proof.
  intros HF. rewrite sem_form.
  destruct (scan_char (fun w => lookup D (key_of t w)) (ext_of t D) sym_ok (ext_ok t D Ht) ds [] None HF) as [(m & o & A1 & A2 & A3 & ->)|(A1 & ->)]; cbn [app length plus] in *.
  - split; [split; assumption|]. intros m' o' (H1 & H2). destruct (Nat.le_gt_cases m' m); [assumption|]. rewrite A3 in H2 by lia. discriminate.
  - intros m o (H1 & H2). rewrite A1 in H2 by exact H1. discriminate.
Qed.

Lemma first_match_dict Ds ds : Forall sym_ok ds ->
  match first_match (map (sem_of t) Ds) ds with
  | Some (n, o) => chosen t Ds ds n o
  | None => unmatched t Ds ds
  end.
Proof.
  intros HF. induction Ds as [|D Ds IH]; [intros D []|]. cbn [map first_match]. pose proof (scan_dict D ds HF) as HS.
  destruct (scan (sem_of t D) [] ds None) as [[n o]|].
  - exists 0, D. split; [reflexivity|]. split; [intros; lia|]. exact HS.
  - destruct (first_match (map (sem_of t) Ds) ds) as [[n o]|].
    + destruct IH as (j & D' & H1 & H2 & H3). exists (S j), D'. split; [exact H1|]. split; [|exact H3]. intros i D2 Hi Hn. destruct i as [|i]; [injection Hn as <-; exact HS|]. eapply H2; [|exact Hn]. lia.
    + intros D' [<-|Hin]; [exact HS|apply IH; exact Hin].
Qed.

Lemma last_map {A B} (f : A -> B) (l : list A) d d' : l <> [] -> last (map f l) d = f (last l d').
Proof. induction l as [|a l IH]; [contradiction|]. intros _. destruct l as [|b l]; [reflexivity|]. apply IH. discriminate. Qed.

Lemma unmatched_lookup Ds ds D : unmatched t Ds ds -> In D Ds -> forall m, 1 <= m <= length ds -> lookup D (key_of t (firstn m ds)) = None.
Proof. intros H Hin m Hm. destruct (lookup D (key_of t (firstn m ds))) as [o|] eqn:E; [|reflexivity]. exfalso. apply (H D Hin m o). split; assumption. Qed.

Lemma dropped_examined Ds ds : t = TO -> Ds <> [] -> ds <> [] -> unmatched t Ds ds ->
  dropped Ds ds (examined (last (map (sem_of t) Ds) (fun _ => VDead)) [] ds).
Proof.
  intros Et HDs Hne Hu. rewrite (last_map (sem_of t) Ds _ []) by exact HDs. rewrite sem_form.
  assert (Hin : In (last Ds []) Ds). { destruct (exists_last HDs) as (l & a & ->). rewrite last_last. apply in_or_app. right. left. reflexivity. }
  destruct (examined_char (fun w => lookup (last Ds []) (key_of t w)) (ext_of t (last Ds [])) sym_ok (ext_ok t _ Ht) ds [] Hne (unmatched_lookup Ds ds _ Hu Hin)) as (k & -> & K2 & K3 & K4).
  cbn [length plus app] in *. unfold dropped. subst t. cbn in *. auto.
Qed.

Definition kind_of_type : kind := match t with FROM => KFrom | TO => KTo | _ => KInter end.

Lemma trans_run Ds : Ds <> [] -> forall n ds, length ds <= n -> Forall sym_ok ds ->
  run_phase t Ds ds (fst (trans kind_of_type (map (sem_of t) Ds) ds)) (snd (trans kind_of_type (map (sem_of t) Ds) ds)).
Proof.
  intros HDs. induction n as [|n IH]; intros ds Hn HF.
  - destruct ds; [|cbn in Hn; lia]. constructor.
  - destruct ds as [|x r]; [constructor|]. pose proof (first_match_dict Ds (x :: r) HF) as HM.
    assert (Hskip : forall k, 1 <= k <= length (x :: r) -> length (skipn k (x :: r)) <= n /\ Forall sym_ok (skipn k (x :: r))).
    { intros k Hk. rewrite skipn_length. split; [cbn [length] in *; lia|]. rewrite <- (firstn_skipn k (x :: r)) in HF. apply Forall_app in HF. apply HF. }
    destruct (first_match (map (sem_of t) Ds) (x :: r)) as [[k o]|] eqn:EM.
    + rewrite (trans_match _ _ _ _ _ EM). cbn [fst snd]. destruct (Hskip k (first_match_bound _ _ _ _ EM)) as (H1 & H2). apply rp_match with k; [exact HM|apply IH; assumption].
    + pose proof Ht as [E|[E|E]]; unfold kind_of_type in IH |- *; rewrite E in IH, EM, HM |- *; cbn [fst snd].
      * rewrite (trans_fail_from _ _ _ EM). cbn [fst snd]. inversion HF; subst. apply rp_skip; auto. apply IH; [cbn in Hn; lia|assumption].
      * rewrite (trans_fail_inter _ _ _ EM). cbn [fst snd]. inversion HF; subst. apply rp_pass; auto. apply IH; [cbn in Hn; lia|assumption].
      * rewrite (trans_fail_to _ (x :: r)) by (try discriminate; exact EM). cbn [fst snd].
        pose proof (dropped_examined Ds (x :: r) E HDs ltac:(discriminate)) as HD. rewrite E in HD. specialize (HD HM).
        destruct (Hskip _ (proj1 HD)) as (H1 & H2). eapply rp_drop; [reflexivity|discriminate|exact HM|exact HD|]. apply IH; assumption.
Qed.
End Phase.

Definition psem_of (ph : phase_desc) : psem := mkPsem (kind_of_type (fst ph)) (map (sem_of (fst ph)) (snd ph)).

Lemma seen_ok t ds : Forall (sym_ok t) (seen_by t ds).
Proof.
  unfold sym_ok. destruct t; cbn; try (apply Forall_forall; intros; congruence). apply Forall_forall. intros x Hx _. apply in_map_iff in Hx. destruct Hx as (b & <- & _). discriminate.
Qed.

Theorem pipeline_run_conv : forall c ds ie oe, (forall t Ds, In (t, Ds) c -> (t = FROM \/ t = INTER \/ t = TO) /\ Ds <> []) ->
  exists ie' oe', run_conv c ds (fst (fst (fold_left (fun x ph => apply_phase ph x) (map psem_of c) (ds, ie, oe)))) ie' oe' /\
    snd (fst (fold_left (fun x ph => apply_phase ph x) (map psem_of c) (ds, ie, oe))) = ie + ie' /\
    snd (fold_left (fun x ph => apply_phase ph x) (map psem_of c) (ds, ie, oe)) = oe + oe'.
Proof.
  induction c as [|[t Ds] c IH]; intros ds ie oe Hc.
  - exists 0, 0. cbn. split; [constructor|]. lia.
  - destruct (Hc t Ds (or_introl eq_refl)) as (Ht & HDs). cbn [map fold_left].
    assert (Hinj : inj (kind_of_type t) ds = seen_by t ds) by (destruct Ht as [->|[-> | ->]]; reflexivity).
    pose proof (trans_run t Ht Ds HDs (length (seen_by t ds)) (seen_by t ds) (le_n _) (seen_ok t ds)) as HR.
    unfold apply_phase at 2 4 6. cbn [psem_of ps_kind ps_cs fst snd]. rewrite Hinj. destruct (trans (kind_of_type t) (map (sem_of t) Ds) (seen_by t ds)) as [o e]. cbn [fst snd] in HR.
    assert (Hc' : forall t0 Ds0, In (t0, Ds0) c -> (t0 = FROM \/ t0 = INTER \/ t0 = TO) /\ Ds0 <> []) by (intros; apply Hc; right; assumption).
    destruct Ht as [->|[-> | ->]]; cbn [kind_of_type];
      [destruct (IH o (ie + e) oe Hc') as (i' & o' & H1 & H2 & H3) | destruct (IH o ie oe Hc') as (i' & o' & H1 & H2 & H3) | destruct (IH o ie (oe + e) Hc') as (i' & o' & H1 & H2 & H3)];
      eexists _, _; (split; [eapply rc_cons; eassumption|]); rewrite H2, H3; cbn; lia.
Qed.

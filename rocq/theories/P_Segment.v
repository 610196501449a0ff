From Coq Require Import ZifyBool ZifyN ZifyNat.
From Verif Require Import Base Types M_Engine S_Engine S_Dict S_Convert S_Segment P_Dict P_Convert P_Session3.

Lemma segmented_cover t Ds ds segs : segmented t Ds ds segs -> concat (map fst segs) = ds.
Proof. induction 1 as [|ds n o segs Hc H IH|x ds segs Hu H IH]; cbn; [reflexivity| |]; rewrite IH; [apply firstn_skipn|reflexivity]. Qed.

Lemma chosen_pos t Ds ds n o : chosen t Ds ds n o -> 1 <= n <= length ds.
Proof. intros (j & D & _ & _ & (H & _) & _). exact H. Qed.

Lemma from_segments Ds ds out e : run_phase FROM Ds ds out e -> exists segs, segmented FROM Ds ds segs /\ out = matched_data segs /\ e = misses segs.
Proof.
  induction 1 as [|ds n o out e Hc H (segs & S1 & -> & ->)|x ds out e Ht Hu H (segs & S1 & -> & ->)|x ds out e Ht Hu H IH|ds k out e Ht Hne Hu Hd H IH]; try discriminate.
  - exists []. repeat split. constructor.
  - exists ((firstn n ds, Some o) :: segs). repeat split. constructor; assumption.
  - exists (([x], None) :: segs). repeat split. constructor; assumption.
Qed.
Lemma inter_segments Ds ds out e : run_phase INTER Ds ds out e -> e = 0 /\ exists segs, segmented INTER Ds ds segs /\ out = replaced_data segs.
Proof.
  induction 1 as [|ds n o out e Hc H (E & segs & S1 & ->)|x ds out e Ht Hu H IH|x ds out e Ht Hu H (E & segs & S1 & ->)|ds k out e Ht Hne Hu Hd H IH]; try discriminate.
  - split; [reflexivity|]. exists []. repeat split. constructor.
  - split; [exact E|]. exists ((firstn n ds, Some o) :: segs). repeat split. constructor; assumption.
  - split; [exact E|]. exists (([x], None) :: segs). repeat split. constructor; assumption.
Qed.

Lemma is_prefix_in : forall a b x, is_prefix (a ++ [x]) b = true -> In x b.
Proof. induction a as [|y a IH]; intros [|z b] x; cbn; try discriminate. - intros H. apply andb_prop in H as (H & _). apply N.eqb_eq in H. left. congruence. - intros H. apply andb_prop in H as (_ & H). right. eapply IH. exact H. Qed.
Lemma single_no_prefix D w : single_datum_keys D -> has_prefix D (w ++ [256%N]) = false.
Proof.
  intros H. unfold has_prefix. apply not_true_is_false. intros E. apply existsb_exists in E as ((k & o) & Hin & Hp). cbn in Hp. apply is_prefix_in in Hp. destruct (H _ _ Hin Hp).
Qed.
Lemma to_segments Ds ds out e : single_datum_keys (last Ds []) -> run_phase TO Ds ds out e -> exists segs, segmented TO Ds ds segs /\ out = matched_data segs /\ e = misses segs.
Proof.
  intros HS. induction 1 as [|ds n o out e Hc H (segs & S1 & -> & ->)|x ds out e Ht Hu H IH|x ds out e Ht Hu H IH|ds k out e Ht Hne Hu (Hk & Hd1 & Hd2) H (segs & S1 & -> & ->)]; try discriminate.
  - exists []. repeat split. constructor.
  - exists ((firstn n ds, Some o) :: segs). repeat split. constructor; assumption.
  - assert (k = 1). { destruct (Nat.eq_dec k 1); [assumption|]. specialize (Hd1 1 ltac:(lia)). rewrite single_no_prefix in Hd1 by exact HS. discriminate. }
    subst k. destruct ds as [|x ds]; [contradiction|]. exists (([x], None) :: segs). repeat split. constructor; assumption.
Qed.

Lemma run_conv_app c1 : forall c2 ds out ie oe, run_conv (c1 ++ c2) ds out ie oe <->
  exists mid ie1 oe1 ie2 oe2, run_conv c1 ds mid ie1 oe1 /\ run_conv c2 mid out ie2 oe2 /\ ie = ie1 + ie2 /\ oe = oe1 + oe2.
Proof.
  induction c1 as [|[t Ds] c1 IH]; intros c2 ds out ie oe; cbn [app].
  - split; [intros H; exists ds, 0, 0, ie, oe; repeat split; auto; constructor|]. intros (mid & ie1 & oe1 & ie2 & oe2 & H1 & H2 & -> & ->). inversion H1; subst. exact H2.
  - split.
    + intros H. inversion H as [|? ? ? ? ? ? ? ? ? ? HC]; subst. apply IH in HC as (m & i1 & o1 & i2 & o2 & R1 & R2 & -> & ->). eexists m, _, _, i2, o2. repeat split; [econstructor; eassumption|exact R2| |]; lia.
    + intros (m & i1 & o1 & i2 & o2 & R1 & R2 & -> & ->). inversion R1; subst. rewrite <- !Nat.add_assoc. econstructor; [eassumption|]. apply IH. do 5 eexists. repeat split; eassumption.
Qed.

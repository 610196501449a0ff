(** Resolution of names by bsdconv_create meets its specification. *)
From Verif Require Import Base Types M_ConvString S_ConvString S_Resolve P_ConvString P_ConvString2 P_ConvString3.

Lemma is_ws_white c : is_ws c = true <-> white c.
Proof.
  unfold is_ws, white. rewrite existsb_exists. split.
  - intros (x & H & E). apply Nat.eqb_eq in E. rewrite E. cbn in *. tauto.
  - intros H. exists (nat_of_ascii c). split; [cbn in *; tauto|apply Nat.eqb_refl].
Qed.
Lemma spaced_strip s s' : spaced s s' -> strip_ws s = strip_ws s'.
Proof.
  induction 1 as [|c s s' H IH|c s s' Hw H IH]; [reflexivity| |]; unfold strip_ws in *; cbn [filter].
  - rewrite IH. reflexivity.
  - apply is_ws_white in Hw. rewrite Hw. cbn [negb]. exact IH.
Qed.
Lemma up_char_nat c : nat_of_ascii (up_char c) = (if (97 <=? nat_of_ascii c) && (nat_of_ascii c <=? 122) then nat_of_ascii c - 32 else nat_of_ascii c).
Proof.
  unfold up_char. destruct ((97 <=? nat_of_ascii c) && (nat_of_ascii c <=? 122)); [|reflexivity]. apply nat_ascii_embedding.
  pose proof (nat_ascii_bounded c). lia.
Qed.
Lemma nat_of_ascii_inj a b : nat_of_ascii a = nat_of_ascii b -> a = b.
Proof. intros H. rewrite <- (ascii_nat_embedding a), <- (ascii_nat_embedding b), H. reflexivity. Qed.
Lemma letter_up a b : up_char a = up_char b -> same_letter a b.
Proof.
  intros H. assert (E : nat_of_ascii (up_char a) = nat_of_ascii (up_char b)) by (rewrite H; reflexivity). rewrite !up_char_nat in E. unfold same_letter.
  destruct (Nat.leb_spec 97 (nat_of_ascii a)), (Nat.leb_spec (nat_of_ascii a) 122), (Nat.leb_spec 97 (nat_of_ascii b)), (Nat.leb_spec (nat_of_ascii b) 122); cbn [andb] in E;
    try (left; apply nat_of_ascii_inj; lia); first [right; left; lia | right; right; lia].
Qed.
Lemma letter_up' a b : same_letter a b -> up_char a = up_char b.
Proof.
  unfold same_letter, up_char. intros [->|[[H E]|[H E]]]; [reflexivity| |].
  - replace (97 <=? nat_of_ascii a) with true by (symmetry; apply Nat.leb_le; lia). replace (nat_of_ascii a <=? 122) with true by (symmetry; apply Nat.leb_le; lia).
    replace (97 <=? nat_of_ascii b) with false by (symmetry; apply Nat.leb_gt; lia). cbn [andb]. rewrite <- E. apply ascii_nat_embedding.
  - replace (97 <=? nat_of_ascii b) with true by (symmetry; apply Nat.leb_le; lia). replace (nat_of_ascii b <=? 122) with true by (symmetry; apply Nat.leb_le; lia).
    replace (97 <=? nat_of_ascii a) with false by (symmetry; apply Nat.leb_gt; lia). cbn [andb]. rewrite <- E. symmetry. apply ascii_nat_embedding.
Qed.
Lemma strcase_same a b : strcase_eq a b = true <-> same_name a b.
Proof.
  unfold strcase_eq. rewrite str_eqb_eq. unfold strtoupper. split.
  - revert b. induction a as [|x a IH]; intros [|y b] H; try discriminate; constructor.
    + apply letter_up. cbn in H. congruence.
    + apply IH. cbn in H. congruence.
  - induction 1 as [|x y a b H _ IH]; [reflexivity|]. cbn [map]. rewrite IH, (letter_up' _ _ H). reflexivity.
Qed.
Lemma vital_essential t c : module_vital t c = true <-> essential t c.
Proof.
  unfold module_vital, essential. destruct t; try (split; [discriminate|contradiction]); rewrite ?orb_true_iff, !strcase_same; tauto.
Qed.

Lemma find_codec_some w t : forall cs k j, find_codec w t k cs = Some j -> exists a c b, cs = a ++ c :: b /\ j = k + length a /\
  (forall x, In x a -> w_check w t (desc x) = true) /\ w_check w t (desc c) = false.
Proof.
  induction cs as [|c cs IH]; intros k j H; [discriminate|]. cbn [find_codec] in H. destruct (w_check w t (desc c)) eqn:E.
  - destruct (IH (S k) j H) as (a & c' & b & -> & -> & Ha & Hc). exists (c :: a), c', b. repeat split; try assumption.
    + cbn [length]. lia.
    + intros x [<-|Hx]; [exact E|apply Ha; exact Hx].
  - injection H as <-. exists [], c, cs. repeat split; [cbn; lia|intros x []|exact E].
Qed.
Lemma find_missing_some w : forall ps k i j, find_missing w k ps = Some (i, j) -> exists before t first c rest after,
  ps = before ++ mkPhase t (first ++ c :: rest) :: after /\ i = k + length before /\ j = length first /\ installed w before /\
  (forall x, In x first -> w_check w t (desc x) = true) /\ w_check w t (desc c) = false.
Proof.
  induction ps as [|p ps IH]; intros k i j H; [discriminate|]. cbn [find_missing] in H.
  destruct (find_codec w (ptyp p) 0 (codecs p)) as [j'|] eqn:E.
  - injection H as <- <-. apply find_codec_some in E as (a & c & b & Ec & -> & Ha & Hc). exists [], (ptyp p), a, c, b, ps.
    destruct p as [t cs]. cbn [ptyp codecs] in *. subst cs. repeat split; try assumption; cbn; try lia. intros q x [].
  - destruct (IH (S k) i j H) as (be & t & f & c & r & af & -> & -> & -> & Hb & Hf & Hc). exists (p :: be), t, f, c, r, af.
    repeat split; try assumption; cbn [length]; try lia.
    intros q x [<-|Hq] Hx; [eapply find_codec_none; eassumption|eapply Hb; eassumption].
Qed.
Lemma nth_error_mid {A} (a : list A) x b : nth_error (a ++ x :: b) (length a) = Some x.
Proof. induction a; [reflexivity|assumption]. Qed.
Lemma set_nth_mid {A} (a : list A) x b y : set_nth (length a) y (a ++ x :: b) = a ++ y :: b.
Proof. induction a as [|z a IH]; [reflexivity|]. cbn. rewrite IH. reflexivity. Qed.

Definition of_round (r : round) : option outcome :=
  match r with
  | Resolved ps => Some (Phases ps)
  | Failed EINVAL => Some Syntax_error
  | Failed EDOOFUS => Some Broken_installation
  | Failed EOPNOTSUPP => Some Unknown_name
  | Again _ => None
  end.
Lemma loop_resolves w : forall f s r, create_loop f w s = Some r -> exists o, of_round r = Some o /\ resolves w s o.
Proof.
  induction f as [|f IH]; intros s r H; [discriminate|]. cbn [create_loop] in H. unfold create_round in H.
  destruct (unpack s) as [ps|] eqn:Eu; [|injection H as <-; exists Syntax_error; split; [reflexivity|apply rs_syntax; exact Eu]].
  destruct (find_missing w 0 ps) as [[i j]|] eqn:Em.
  2:{ injection H as <-. exists (Phases ps). split; [reflexivity|]. apply rs_done; [exact Eu|]. intros p c Hp Hc. exact (find_missing_none _ _ _ Em p c Hp Hc). }
  apply find_missing_some in Em as (be & t & fi & c & re & af & -> & -> & -> & Hb & Hf & Hc). cbn [Nat.add] in H.
  rewrite nth_error_mid in H. cbn [codecs ptyp] in H. rewrite nth_error_mid in H.
  set (put := fun x => be ++ mkPhase t (fi ++ x :: re) :: af).
  assert (Hm : first_missing w (be ++ mkPhase t (fi ++ c :: re) :: af) t c put) by (exists be, fi, re, af; repeat split; assumption).
  destruct (module_vital t (desc c)) eqn:Ev.
  { injection H as <-. exists Broken_installation. split; [reflexivity|]. eapply rs_essential; [exact Eu|exact Hm|apply vital_essential; exact Ev]. }
  assert (Hne : ~ essential t (desc c)) by (intros K; apply vital_essential in K; congruence).
  destruct (w_alias w t (desc c)) as [a|] eqn:Ea.
  2:{ injection H as <-. exists Unknown_name. split; [reflexivity|]. eapply rs_unknown; eassumption. }
  destruct (str_eqb a (desc c)) eqn:Ee.
  { injection H as <-. apply str_eqb_eq in Ee. subst a. exists Unknown_name. split; [reflexivity|]. eapply rs_itself; eassumption. }
  rewrite set_nth_mid, set_nth_mid in H. destruct (IH _ _ H) as (o & Ho & Hr). exists o. split; [exact Ho|].
  eapply rs_alias; [exact Eu|exact Hm|exact Hne|exact Ea| |exact Hr]. intros ->. rewrite (proj2 (str_eqb_eq _ _) eq_refl) in Ee. discriminate.
Qed.

(** The specification determines the outcome. *)
Lemma app_first_eq {A} (f : A -> bool) : forall a x b a' x' b', a ++ x :: b = a' ++ x' :: b' -> (forall y, In y a -> f y = true) -> f x = false ->
  (forall y, In y a' -> f y = true) -> f x' = false -> a = a' /\ x = x' /\ b = b'.
Proof.
  induction a as [|y a IH]; intros x b [|y' a'] x' b' E Ha Hx Ha' Hx'; cbn in E.
  - injection E as -> ->. auto.
  - injection E as -> E. rewrite Ha' in Hx by (left; reflexivity). discriminate.
  - injection E as -> E. rewrite Ha in Hx' by (left; reflexivity). discriminate.
  - injection E as -> E. destruct (IH x b a' x' b' E) as (-> & -> & ->); auto; intros z Hz; [apply Ha|apply Ha']; right; exact Hz.
Qed.
Lemma first_missing_unique w ps t c put t' c' put' : first_missing w ps t c put -> first_missing w ps t' c' put' -> t = t' /\ c = c' /\ put = put'.
Proof.
  intros (b & f & r & a & -> & E & Hb & Hf & Hc) (b' & f' & r' & a' & -> & E' & Hb' & Hf' & Hc'). cbv beta in E, E'. rewrite E in E'. clear E.
  set (ok := fun p => forallb (fun x => w_check w (ptyp p) (desc x)) (codecs p)).
  assert (K : forall l, installed w l -> forall y, In y l -> ok y = true) by (intros l H y Hy; apply forallb_forall; intros x Hx; exact (H y x Hy Hx)).
  assert (L : forall t f c r, w_check w t (desc c) = false -> ok (mkPhase t (f ++ c :: r)) = false).
  { intros t0 f0 c0 r0 H. unfold ok. cbn [codecs ptyp]. rewrite forallb_app. cbn [forallb]. rewrite H. apply andb_false_r. }
  destruct (app_first_eq ok _ _ _ _ _ _ E' (K _ Hb) (L t f c r Hc) (K _ Hb') (L t' f' c' r' Hc')) as (-> & Ep & ->). injection Ep as -> Ef.
  destruct (app_first_eq (fun x => w_check w t' (desc x)) _ _ _ _ _ _ Ef Hf Hc Hf' Hc') as (-> & -> & ->). auto.
Qed.
Lemma missing_not_installed w ps t c put : first_missing w ps t c put -> ~ installed w ps.
Proof.
  intros (b & f & r & a & -> & -> & _ & _ & Hc) H. specialize (H (mkPhase t (f ++ c :: r)) c). cbn [ptyp codecs] in H.
  rewrite Hc in H. discriminate H; apply in_or_app; right; left; reflexivity.
Qed.
Lemma resolves_unique w s r : resolves w s r -> forall r', resolves w s r' -> r = r'.
Proof.
  induction 1 as [s E|s ps E Hi|s ps t c put E Hm He|s ps t c put E Hm He Ha|s ps t c put E Hm He Ha|s ps t c put a r E Hm He Ha Hn Hr IH];
  intros r' H'; inversion H'; subst; try reflexivity; try congruence;
  repeat match goal with A : unpack ?s = Some _, B : unpack ?s = Some _ |- _ => rewrite A in B; injection B as <- end;
  try (exfalso; eapply missing_not_installed; eassumption);
  match goal with A : first_missing _ _ _ _ _, B : first_missing _ _ _ _ _ |- _ => destruct (first_missing_unique _ _ _ _ _ _ _ _ A B) as (-> & -> & ->) | _ => idtac end;
  try contradiction; try congruence.
  apply IH. match goal with A : w_alias _ _ _ = Some ?x, B : w_alias _ _ _ = Some ?y |- _ => assert (x = y) by congruence; subst; assumption end.
Qed.
Theorem create_resolves w s r : acyclic (w_alias w) -> (exists n, forall f, n <= f -> exists x, create f w s = Some x /\ of_round x = Some r) <-> resolves w (strip_ws s) r.
Proof.
  intros Hac. destruct (create_terminates w s Hac) as (n & x & Hn & _). specialize (loop_resolves w n (strip_ws s) x (Hn n (le_n n))) as (o & Ho & Hr). split.
  - intros (m & Hm). destruct (Hm (Nat.max n m) ltac:(lia)) as (y & Hy & Hoy). rewrite Hn in Hy by lia. injection Hy as <-. congruence.
  - intros H. rewrite (resolves_unique _ _ _ H _ Hr). exists n. intros f Hf. exists x. split; [apply Hn; exact Hf|exact Ho].
Qed.

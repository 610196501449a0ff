(** Proofs about the intermediate modules of M_Inter. *)
From Verif Require Import Base Types M_Engine M_Bsearch M_Filter M_Star M_Inter D_Ranges S_Ranges S_Inter P_Bsearch P_Filter.
From Coq Require Import ZifyBool ZifyN ZifyNat.
Local Open Scope N_scope.

Definition okbytes (d : datum) : Prop := Forall (fun b => b < 256) d.
Lemma hd1_cases (d : datum) : (exists l, d = 1 :: l) \/ hd 0 d <> 1.
Proof. destruct d as [|b l]; [right; discriminate|]. destruct (N.eq_dec b 1) as [->|H]; [left; eauto|right; exact H]. Qed.
Lemma code_fun d c c' : code d c -> code d c' -> c = c'.
Proof. intros (l & -> & ->) (l' & E & ->). injection E as <-. reflexivity. Qed.

Lemma width_rows : forall a b k, In (a, b, k) width_table -> k = 1 \/ k = 2 \/ k = 3.
Proof.
  assert (H : forallb (fun r => let k := snd r in (k =? 1) || (k =? 2) || (k =? 3)) width_table = true) by (vm_compute; reflexivity).
  intros a b k Hin. rewrite forallb_forall in H. specialize (H _ Hin). cbn in H. lia.
Qed.
Lemma width_bounds : ascending (map (fun r => (f3 r, l3 r)) width_table).
Proof. replace (map (fun r => (f3 r, l3 r)) width_table) with (map fst width_table); [apply width_ok|]. apply map_ext. intros [[? ?] ?]. reflexivity. Qed.
Lemma class_unique j k d : in_class j d -> in_class k d -> j = k.
Proof.
  intros (c & a & b & Hc & Hi & Hx) (c' & a' & b' & Hc' & Hi' & Hx'). pose proof (code_fun _ _ _ Hc Hc') as <-.
  assert (E : (a, b, j) = (a', b', k)) by (eapply (asc_unique f3 l3 width_table c); try eassumption; exact width_bounds). congruence.
Qed.
Lemma width_of_spec d : okbytes d -> match width_of d with Some k => in_class k d /\ (k = 1 \/ k = 2 \/ k = 3) | None => forall k, ~ in_class k d end.
Proof.
  intros Hd. destruct (hd1_cases d) as [(l & ->)|H].
  - inversion Hd as [|? ? _ Hl]; subst. unfold width_of. rewrite u32_value by assumption. set (c := be_value l mod 0x100000000).
    destruct (find_spec f3 l3 width_table c width_bounds (proj2 width_ok)) as (o & Ho & Hs). rewrite Ho. destruct o as [[[a b] k]|].
    + split; [|eapply width_rows; apply Hs]. exists c, a, b. split; [exists l; auto|]. exact Hs.
    + intros k (c' & a & b & Hc & Hi & Hx). assert (c' = c) by (eapply code_fun; [exact Hc|exists l; auto]). subst c'. exact (Hs _ Hi Hx).
  - assert (E : width_of d = None). { destruct d as [|b l]; [reflexivity|]. cbn in H. unfold width_of. destruct b as [|[p|p|]]; try reflexivity. congruence. }
    rewrite E. intros k (c & a & b & (l & -> & _) & _). cbn in H. congruence.
Qed.

(** ** WIDTH *)
Fixpoint wcount (w : widths) (ds : list datum) : widths := match ds with [] => w | d :: r => wcount (width_count w d) r end.
Lemma width_feed : forall ds w pend, ds <> [] \/ pend = false -> star_feed WIDTH w pend ds = Some (wcount w ds, false, ds).
Proof.
  induction ds as [|d ds IH]; intros w pend H; [destruct H as [H| ->]; [contradiction|reflexivity]|]. cbn [star_feed star_one WIDTH st_conv width_conv]. unfold star_one. cbn [st_conv WIDTH width_conv]. rewrite IH by auto. reflexivity.
Qed.
Lemma wcount_spec : forall ds w f h a, Forall okbytes ds -> counts (in_class 2) f ds -> counts (in_class 1) h ds -> counts (in_class 3) a ds ->
  wcount w ds = mkW (w_full w + f) (w_half w + h) (w_ambi w + a).
Proof.
  induction ds as [|d ds IH]; intros w f h a Hb Hf Hh Ha.
  - inversion Hf; inversion Hh; inversion Ha; subst. rewrite !N.add_0_r. destruct w; reflexivity.
  - inversion Hb as [|? ? Hd Hds]; subst. cbn [wcount]. unfold width_count. pose proof (width_of_spec d Hd) as HW.
    assert (D : forall j k, in_class j d -> in_class k d -> j = k) by (intros; eapply class_unique; eassumption).
    destruct (width_of d) as [k|].
    + destruct HW as (HC & [-> |[-> | ->]]);
      inversion Hf as [|? f' ? F1 F2|? f' ? F1 F2]; subst; try (specialize (D _ _ HC F1); discriminate); try contradiction;
      inversion Hh as [|? h' ? G1 G2|? h' ? G1 G2]; subst; try (specialize (D _ _ HC G1); discriminate); try contradiction;
      inversion Ha as [|? a' ? A1 A2|? a' ? A1 A2]; subst; try (specialize (D _ _ HC A1); discriminate); try contradiction;
      erewrite IH by eassumption; cbn; f_equal; lia.
    + inversion Hf as [|? f' ? F1 F2|? f' ? F1 F2]; subst; [exfalso; eapply HW; exact F1|].
      inversion Hh as [|? h' ? G1 G2|? h' ? G1 G2]; subst; [exfalso; eapply HW; exact G1|].
      inversion Ha as [|? a' ? A1 A2|? a' ? A1 A2]; subst; [exfalso; eapply HW; exact A1|]. apply IH; assumption.
Qed.
Lemma counts_ex {A} (P : A -> Prop) (dec : forall x, P x \/ ~ P x) : forall l, exists n, counts P n l.
Proof. induction l as [|x l (n & IH)]; [exists 0; constructor|]. destruct (dec x); [exists (n + 1)|exists n]; constructor; assumption. Qed.
Lemma class_dec k d : okbytes d -> in_class k d \/ ~ in_class k d.
Proof.
  intros H. pose proof (width_of_spec d H) as HW. destruct (width_of d) as [j|]; [|right; apply HW]. destruct (N.eq_dec j k) as [->|Hn]; [left; apply HW|]. right. intros HC. apply Hn. eapply class_unique; [apply HW|exact HC].
Qed.
Lemma counts_fun {A} (P : A -> Prop) : forall l n m, counts P n l -> counts P m l -> n = m.
Proof. induction l as [|x l IH]; intros n m Hn Hm; inversion Hn; inversion Hm; subst; try contradiction; try reflexivity; try f_equal; eauto. Qed.

(** ** TRIM-WIDTH *)
Definition dwidth (aw : N) (d : datum) : N := match width_of d with Some 1 => 1 | Some 2 => 2 | Some 3 => aw | _ => 0 end.
Lemma dwidth_spec aw d w : okbytes d -> width_is aw d w <-> w = dwidth aw d.
Proof.
  intros Hd. pose proof (width_of_spec d Hd) as HW. unfold width_is, dwidth. destruct (width_of d) as [k|].
  - destruct HW as (HC & Hk). split.
    + intros [(H & ->)|[(H & ->)|[(H & ->)|(-> & H1 & H2 & H3)]]]; try (pose proof (class_unique _ _ _ HC H); subst k; reflexivity). destruct Hk as [-> |[-> | ->]]; contradiction.
    + intros ->. destruct Hk as [-> |[-> | ->]]; auto.
  - split; [intros [(H & _)|[(H & _)|[(H & _)|(-> & _)]]]; [exfalso; eapply HW; exact H..|reflexivity]|]. intros ->. right. right. right. auto.
Qed.
Lemma trim_w aw d : (Z.of_N (w_full (width_count (mkW 0 0 0) d)) * 2 + Z.of_N (w_half (width_count (mkW 0 0 0) d)) + Z.of_N (w_ambi (width_count (mkW 0 0 0) d)) * Z.of_N aw)%Z = Z.of_N (dwidth aw d).
Proof. unfold width_count, dwidth. destruct (width_of d) as [[|[[p|p|]|[p|p|]|]]|]; cbn [w_full w_half w_ambi]; rewrite ?N2Z.inj_add; lia. Qed.
Lemma trim_step aw n r d : st_conv TRIM_WIDTH (mkTrim (Z.of_N aw) n r) d =
  if (Z.of_N (dwidth aw d) <=? r)%Z then (mkTrim (Z.of_N aw) n (r - Z.of_N (dwidth aw d)), NEXTPHASE, [d]) else (mkTrim (Z.of_N aw) n (-1), NEXTPHASE, []).
Proof. rewrite <- trim_w. reflexivity. Qed.
(** the longest prefix that fits, by scanning *)
Fixpoint tprefix (aw : N) (r : Z) (ds : list datum) : list datum :=
  match ds with
  | [] => []
  | d :: ds' => if (Z.of_N (dwidth aw d) <=? r)%Z then d :: tprefix aw (r - Z.of_N (dwidth aw d)) ds' else []
  end.
Lemma trim_dead aw n : forall ds pend, ds <> [] \/ pend = false -> exists t, star_feed TRIM_WIDTH (mkTrim (Z.of_N aw) n (-1)) pend ds = Some (t, false, []).
Proof.
  induction ds as [|d ds IH]; intros pend H; [destruct H as [H| ->]; [contradiction|cbn; eauto]|]. cbn [star_feed]. unfold star_one. rewrite trim_step. replace (Z.of_N (dwidth aw d) <=? -1)%Z with false by lia.
  destruct (IH false (or_intror eq_refl)) as (t & ->). eauto.
Qed.
Lemma trim_feed aw n : forall ds r pend, ds <> [] \/ pend = false -> exists t, star_feed TRIM_WIDTH (mkTrim (Z.of_N aw) n r) pend ds = Some (t, false, tprefix aw r ds).
Proof.
  induction ds as [|d ds IH]; intros r pend H; [destruct H as [H| ->]; [contradiction|cbn; eauto]|]. cbn [star_feed]. unfold star_one. rewrite trim_step. cbn [tprefix]. destruct (Z.leb_spec (Z.of_N (dwidth aw d)) r) as [Hle|Hgt].
  - destruct (IH (r - Z.of_N (dwidth aw d))%Z false (or_intror eq_refl)) as (t & ->). eauto.
  - destruct (trim_dead aw n ds false (or_intror eq_refl)) as (t & ->). eauto.
Qed.
Fixpoint twidth (aw : N) (ds : list datum) : N := match ds with [] => 0 | d :: r => dwidth aw d + twidth aw r end.
Lemma twidth_spec aw ds n : Forall okbytes ds -> total_width aw ds n <-> n = twidth aw ds.
Proof.
  intros H. revert n. induction H as [|d ds Hd _ IH]; intros n; cbn.
  - split; [intros E; inversion E; reflexivity|intros ->; constructor].
  - split; [intros E; inversion E as [|? ? w m Hw Hm]; subst; apply (dwidth_spec aw d w Hd) in Hw; apply IH in Hm; subst; reflexivity|intros ->; constructor; [apply dwidth_spec; auto|apply IH; reflexivity]].
Qed.
Lemma tprefix_spec aw : forall ds r, (0 <= r)%Z -> exists rest, ds = tprefix aw r ds ++ rest /\ (Z.of_N (twidth aw (tprefix aw r ds)) <= r)%Z /\
  (forall p q, ds = p ++ q -> (Z.of_N (twidth aw p) <= r)%Z -> exists q', tprefix aw r ds = p ++ q').
Proof.
  induction ds as [|d ds IH]; intros r Hr; cbn [tprefix].
  - exists []. split; [reflexivity|]. split; [cbn; lia|]. intros p q E _. symmetry in E. apply app_eq_nil in E as (-> & ->). exists []. reflexivity.
  - destruct (Z.leb_spec (Z.of_N (dwidth aw d)) r) as [Hle|Hgt].
    + destruct (IH (r - Z.of_N (dwidth aw d))%Z ltac:(lia)) as (rest & H1 & H2 & H3). exists rest. split; [cbn; f_equal; exact H1|]. split; [cbn; lia|].
      intros [|x p] q E Hp; [exists (d :: tprefix aw (r - Z.of_N (dwidth aw d)) ds); reflexivity|]. cbn in E. injection E as <- E. cbn in Hp. destruct (H3 p q E ltac:(lia)) as (q' & ->). exists q'. reflexivity.
    + exists (d :: ds). split; [reflexivity|]. split; [cbn; lia|]. intros [|x p] q E Hp; [exists []; reflexivity|]. cbn in E. injection E as <- E. cbn in Hp. lia.
Qed.

(** ** Padding *)
Lemma ambiguous_spec l : okbytes l -> is_ambiguous l = true <-> ambiguous (1 :: l).
Proof.
  intros Hl. unfold is_ambiguous. rewrite u32_value by assumption. set (c := be_value l mod 0x100000000).
  destruct (find_spec f2 l2 ambiguous_table c) as (o & Ho & Hs); [rewrite bounds2; apply ambiguous_ok|apply ambiguous_ok|]. rewrite Ho. destruct o as [[a b]|].
  - split; [|reflexivity]. intros _. exists c. split; [exists l; auto|]. exists a, b. exact Hs.
  - split; [discriminate|]. intros (c' & Hc & a & b & Hi & Hx). assert (c' = c) by (eapply code_fun; [exact Hc|exists l; auto]). subst c'. exfalso. exact (Hs _ Hi Hx).
Qed.
Definition pads (d : datum) : bool := match d with 1 :: l => is_ambiguous l | _ => false end.
Lemma pads_spec d : okbytes d -> pads d = true <-> ambiguous d.
Proof.
  intros Hd. destruct (hd1_cases d) as [(l & ->)|H].
  - inversion Hd; subst. apply ambiguous_spec. assumption.
  - assert (E : pads d = false). { destruct d as [|b l]; [reflexivity|]. cbn in H. unfold pads. destruct b as [|[p|p|]]; try reflexivity. congruence. }
    rewrite E. split; [discriminate|]. intros (c & (l & -> & _) & _). cbn in H. congruence.
Qed.
Fixpoint pad_all (ds : list datum) : list datum := match ds with [] => [] | d :: r => (if pads d then [d; pad_datum] else [d]) ++ pad_all r end.
Lemma pad_one d : pad_conv true d = (true, NEXTPHASE, if pads d then [d; pad_datum] else [d]).
Proof. unfold pad_conv, pads. destruct d as [|b l]; [reflexivity|]. destruct b as [|[p|p|]]; try reflexivity. destruct (is_ambiguous l); reflexivity. Qed.
Lemma pad_feed : forall ds pend, ds <> [] \/ pend = false -> star_feed AMBIGUOUS_PAD true pend ds = Some (true, false, pad_all ds).
Proof.
  induction ds as [|d ds IH]; intros pend H; [destruct H as [H| ->]; [contradiction|reflexivity]|]. cbn [star_feed]. unfold star_one. cbn [st_conv AMBIGUOUS_PAD]. rewrite pad_one. rewrite IH by auto. reflexivity.
Qed.
Lemma pad_padded : forall ds, Forall okbytes ds -> padded ds (pad_all ds).
Proof.
  induction 1 as [|d ds Hd _ IH]; cbn; [constructor|]. destruct (pads d) eqn:E.
  - cbn. constructor; [apply pads_spec; assumption|assumption].
  - cbn. constructor; [|assumption]. intros H. apply pads_spec in H; [congruence|assumption].
Qed.
Lemma padded_fun : forall ds p q, padded ds p -> padded ds q -> p = q.
Proof. intros ds p q Hp. revert q. induction Hp; intros q Hq; inversion Hq; subst; try contradiction; try reflexivity; repeat f_equal; auto. Qed.

(** Reading padded text in state s=0 gives the text and s=0 again. *)
Lemma unpad_padded : forall ds, Forall unicode_datum ds -> forall pend, ds <> [] \/ pend = false -> exists p,
  star_feed AMBIGUOUS_UNPAD (mkUnpad false true) pend (pad_all ds) = Some (mkUnpad false true, p, ds) /\ p = false.
Proof.
  induction 1 as [|d ds (x & l & ->) _ IH]; intros pend H; [destruct H as [H| ->]; [contradiction|exists false; cbn; auto]|].
  cbn [pad_all pads]. destruct (is_ambiguous (x :: l)) eqn:E.
  - cbn [app star_feed]. unfold star_one. cbn [st_conv AMBIGUOUS_UNPAD unpad_conv un_s un_dopad andb]. rewrite E. cbn [andb]. unfold pad_datum. cbn [un_s un_dopad andb]. change (unpad_conv (mkUnpad true true) [1; 160]) with (mkUnpad false true, NEXTPHASE, @nil datum). cbn match.
    destruct (IH false (or_intror eq_refl)) as (p & -> & ->). exists false. split; reflexivity.
  - cbn [app star_feed]. unfold star_one. cbn [st_conv AMBIGUOUS_UNPAD unpad_conv un_s un_dopad andb]. rewrite E. cbn [andb]. destruct (IH false (or_intror eq_refl)) as (p & -> & ->). exists false. split; reflexivity.
Qed.

(** ** COUNT, PASS, SCORE *)
Lemma count_feed f : forall ds n k pend, ds <> [] \/ pend = false -> counts (fun d => accepts f d = true) k ds -> star_feed (COUNT f) n pend ds = Some (n + k, false, ds).
Proof.
  induction ds as [|d ds IH]; intros n k pend H Hk; inversion Hk as [|? m ? K1 K2|? m ? K1 K2]; subst.
  - destruct H as [H| ->]; [contradiction|]. cbn. rewrite N.add_0_r. reflexivity.
  - cbn [star_feed]. unfold star_one. cbn [st_conv COUNT]. rewrite K1. rewrite (IH _ m) by auto. do 3 f_equal. lia.
  - cbn [star_feed]. unfold star_one. cbn [st_conv COUNT]. destruct (accepts f d); [exfalso; apply K1; reflexivity|]. rewrite (IH _ k) by auto. reflexivity.
Qed.
Lemma pass_feed f limit : forall ds n, exists n', star_feed (PASS f limit) n false ds = Some (n', false, ds).
Proof.
  induction ds as [|d ds IH]; intros n; [cbn; eauto|]. cbn [star_feed]. unfold star_one. cbn [st_conv PASS].
  destruct (accepts f d); [destruct (limit =? 0); [|destruct (n <? limit)]|]; cbn [app]; match goal with |- context [star_feed _ ?x _ ds] => destruct (IH x) as (n' & ->) end; eauto.
Qed.
Fixpoint nsum (l : list N) : N := match l with [] => 0 | x :: r => x + nsum r end.
Lemma score_feed f : forall ds n, star_feed (SCORE f) n false ds = Some (n + nsum (map f ds), false, ds).
Proof.
  induction ds as [|d ds IH]; intros n; [cbn; rewrite N.add_0_r; reflexivity|]. cbn [star_feed map nsum]. unfold star_one. cbn [st_conv SCORE]. destruct (N.eqb_spec (f d) 0) as [E|E].
  - cbn [app]. rewrite IH. rewrite E, N.add_0_l. reflexivity.
  - rewrite IH. rewrite N.add_assoc. reflexivity.
Qed.

Lemma bytes_eqb_eq a b : bytes_eqb a b = true <-> a = b.
Proof. revert b. induction a as [|x a IH]; intros [|y b]; cbn; try (split; congruence). rewrite andb_true_iff, N.eqb_eq, IH. split; [intros (-> & ->); reflexivity|intros E; injection E as -> ->; auto]. Qed.

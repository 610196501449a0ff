(** NFC of texts: same full decomposition, fully composed, idempotent. *)
From Verif Require Import Base Types M_Engine M_Bsearch M_Star M_Norm M_Nfc S_Unicode S_Ranges D_Ranges S_Inter S_Norm S_Stage P_Bsearch P_Inter P_Norm T_Norm T_Flow2 S_Nfc P_Nfc.
From Coq Require Import Permutation Sorted ZifyBool ZifyN ZifyNat.
Local Open Scope N_scope.

(** ** Exchanging marks *)
Inductive sweq : list datum -> list datum -> Prop :=
| sw_refl l : sweq l l
| sw_trans a b c : sweq a b -> sweq b c -> sweq a c
| sw_swap u a b w : ccc a <> 0 -> ccc b <> 0 -> ccc a <> ccc b -> sweq (u ++ a :: b :: w) (u ++ b :: a :: w).
Lemma sw_sym a b : sweq a b -> sweq b a.
Proof. induction 1 as [l|a b c _ IH1 _ IH2|u a b w Ha Hb Hab]; [apply sw_refl|eapply sw_trans; eassumption|apply sw_swap; auto]. Qed.
Lemma sw_cons x a b : sweq a b -> sweq (x :: a) (x :: b).
Proof. induction 1 as [l|a b c _ IH1 _ IH2|u a b w Ha Hb Hab]; [apply sw_refl|eapply sw_trans; eassumption|apply (sw_swap (x :: u)); auto]. Qed.
Lemma sw_pre x a b : sweq a b -> sweq (x ++ a) (x ++ b).
Proof. intros H. induction x as [|y x IH]; [exact H|apply sw_cons; exact IH]. Qed.
Lemma sw_blocks A B Y i j : i <> 0 -> j <> 0 -> i <> j -> Forall (fun d => ccc d = i) A -> Forall (fun d => ccc d = j) B -> sweq (A ++ B ++ Y) (B ++ A ++ Y).
Proof.
  intros Hi Hj Hij HA HB. induction HA as [|a A Ha _ IH]; [apply sw_refl|]. cbn [app]. eapply sw_trans; [apply sw_cons; exact IH|].
  clear IH. induction HB as [|b B Hb _ IH]; [apply sw_refl|]. cbn [app]. eapply sw_trans; [apply (sw_swap [] a b); congruence|]. apply sw_cons. exact IH.
Qed.
Lemma split_starter (u w ms ds : list datum) a b d : u ++ a :: b :: w = ms ++ d :: ds -> Forall (fun d => ccc d <> 0) ms -> ccc d = 0 -> ccc a <> 0 -> ccc b <> 0 ->
  (exists v, ms = u ++ a :: b :: v /\ w = v ++ d :: ds) \/ (exists v, u = ms ++ d :: v /\ ds = v ++ a :: b :: w).
Proof.
  revert ms. induction u as [|x u IH]; intros ms E HM Hd Ha Hb.
  - destruct ms as [|m ms]; [injection E as -> _; congruence|]. injection E as -> E. destruct ms as [|m' ms]; [injection E as -> _; congruence|]. injection E as -> E. left. exists ms. auto.
  - destruct ms as [|m ms]; [injection E as -> <-; right; exists u; auto|]. injection E as -> E. inversion HM; subst. destruct (IH ms E) as [(v & -> & ->)|(v & -> & ->)]; auto; [left|right]; exists v; auto.
Qed.
Lemma stable_swap u a b w ns : ccc a <> ccc b -> stably_sorted (u ++ a :: b :: w) ns -> stably_sorted (u ++ b :: a :: w) ns.
Proof.
  intros Hab (H1 & H2 & H3). split; [|split; [exact H2|]].
  - eapply Permutation_trans; [|exact H1]. apply Permutation_app_head. apply perm_swap.
  - intros k. rewrite H3, !filter_app. f_equal. cbn [filter]. destruct (ccc a =? k) eqn:E1, (ccc b =? k) eqn:E2; try reflexivity. lia.
Qed.
Lemma marks_swap u (a b : datum) w : Forall (fun d => ccc d <> 0) (u ++ a :: b :: w) -> Forall (fun d => ccc d <> 0) (u ++ b :: a :: w).
Proof. rewrite !Forall_app. intros (H1 & H2). split; [exact H1|]. inversion H2 as [|? ? A1 A2]; subst. inversion A2; subst. auto. Qed.
Lemma reordered_swap u a b w : ccc a <> 0 -> ccc b <> 0 -> ccc a <> ccc b -> forall os, reordered (u ++ a :: b :: w) os -> reordered (u ++ b :: a :: w) os.
Proof.
  intros Ha Hb Hab os H. remember (u ++ a :: b :: w) as l eqn:E. revert u E. induction H as [ms ns H1 H2|ms ns d ds os H1 H2 H3 H4 IH]; intros u E.
  - subst ms. apply ro_end; [apply marks_swap; exact H1|apply stable_swap; assumption].
  - symmetry in E. destruct (split_starter _ _ _ _ _ _ _ E H1 H3 Ha Hb) as [(v & -> & ->)|(v & -> & ->)].
    + replace (u ++ b :: a :: v ++ d :: ds) with ((u ++ b :: a :: v) ++ d :: ds) by (rewrite <- app_assoc; reflexivity). apply ro_starter; [apply marks_swap; exact H1|apply stable_swap; assumption|exact H3|exact H4].
    + replace ((ms ++ d :: v) ++ b :: a :: w) with (ms ++ d :: (v ++ b :: a :: w)) by (rewrite <- app_assoc; reflexivity). apply ro_starter; auto.
Qed.
Lemma reordered_sweq xs ys : sweq xs ys -> forall os, reordered xs os -> reordered ys os.
Proof. induction 1 as [l|a b c _ IH1 _ IH2|u a b w Ha Hb Hab]; intros os Ho; auto. apply (reordered_swap u a b w); auto. Qed.
Lemma reordered_in_order ds os : reordered ds os -> in_order os.
Proof.
  assert (G : forall ns r, Forall (fun d => ccc d <> 0) ns -> StronglySorted (fun a b => ccc a <= ccc b) ns -> (r = [] \/ exists d os, r = d :: os /\ ccc d = 0 /\ in_order os) -> in_order (ns ++ r)).
  { induction ns as [|n ns IH]; intros r HZ HS Hr.
    - destruct Hr as [->|(d & os' & -> & Hd & Ho)]; intros u a b w E Hb; [destruct u; discriminate|]. destruct u as [|x u]; [injection E as -> ->; lia|]. injection E as -> E. eapply Ho; eassumption.
    - inversion HZ; subst. inversion HS as [|? ? S1 S2]; subst. intros u a b w E Hb. destruct u as [|x u].
      + injection E as -> E. destruct ns as [|m ns]; [destruct Hr as [->|(d & os' & -> & Hd & Ho)]; [discriminate|injection E as -> _; congruence]|]. injection E as -> _. inversion S2; subst. assumption.
      + injection E as -> E. eapply (IH r); eauto. }
  assert (GS : forall ms ns, Forall (fun d => ccc d <> 0) ms -> stably_sorted ms ns -> Forall (fun d => ccc d <> 0) ns /\ StronglySorted (fun a b => ccc a <= ccc b) ns).
  { intros ms ns HZ (HP & HS & _). split; [eapply Permutation_Forall; eassumption|exact HS]. }
  induction 1 as [ms ns H1 H2|ms ns d ds os H1 H2 H3 H4 IH]; destruct (GS _ _ H1 H2) as (A & B).
  - rewrite <- (app_nil_r ns). apply G; auto.
  - apply G; auto. right. eauto.
Qed.

(** ** The module keeps a property of the data *)
Section Keep.
Variable comb : datum -> datum -> option datum.
Variable Q : datum -> Prop.
Hypothesis HQ : forall a b c, comb a b = Some c -> Q c.
Definition keeps (r : nfc) : Prop := Forall Q (nf_pend r) /\ forall s, nf_starter r = SHeld s -> Q s.
Lemma keep_flush r : keeps r -> keeps (fst (nfc_flush r)) /\ Forall Q (snd (nfc_flush r)).
Proof using.
  intros (H1 & H2). unfold nfc_flush. destruct (nf_on r); [|split; [split; assumption|constructor]]. destruct (nf_starter r) as [|s|] eqn:E; cbn [fst snd]; try (split; [split; [exact H1|congruence]|constructor]).
  split; [split; [constructor|discriminate]|]. constructor; auto.
Qed.
Lemma keep_marks f : forall s k p wl, Q s -> Forall Q p -> Forall Q wl -> Q (fst (fst (nfc_marks comb f s k p wl))) /\ Forall Q (snd (nfc_marks comb f s k p wl)).
Proof using HQ.
  induction f as [|f IH]; intros s k p wl Hs Hp Hw; cbn [nfc_marks]; [auto|]. destruct wl as [|c r]; [auto|]. inversion Hw; subst.
  destruct (ccc_of c <=? k); [apply IH; auto; apply Forall_app; auto|]. destruct (comb s c) eqn:E; [apply IH; [eapply HQ; exact E|constructor|apply Forall_app; auto]|apply IH; auto; apply Forall_app; auto].
Qed.
Lemma keep_conv r d : keeps r -> (forall l, d = 1 :: l -> Q d) -> keeps (fst (fst (nfc_conv comb r d))) /\ (Q d -> Forall Q (snd (nfc_conv comb r d))).
Proof using HQ.
  intros Hr Hd0. assert (Hfl : forall k, keeps (mkNfc (nf_on r) (nf_starter r) k (nf_pend r))) by (intros k; exact Hr).
  assert (Hcase : (exists l, d = 1 :: l) \/ (forall l, d <> 1 :: l)).
  { destruct d as [|b l]; [right; discriminate|]. destruct (N.eq_dec b 1) as [->|Hb]; [left; eauto|right; intros l' E; injection E; congruence]. }
  destruct Hcase as [(l & El)|Hno].
  - pose proof (Hd0 l El) as Hd. cut (keeps (fst (fst (nfc_conv comb r d))) /\ Forall Q (snd (nfc_conv comb r d))); [tauto|]. unfold nfc_conv. rewrite El. rewrite <- El. cbv zeta. destruct Hr as (H1 & H2). destruct (nf_on r).
    + destruct (nf_starter r) as [|s|] eqn:E; cbn [fst snd]; try (split; [split; [exact H1|congruence]|constructor]). specialize (H2 s eq_refl). destruct (ccc_of d =? 0).
      * destruct (nf_pend r) as [|b p]; [destruct (comb s d) as [x|] eqn:Ec|]; cbn [fst snd]; (split; [split; [constructor|intros s1 E1; injection E1 as <-]|]); try assumption; try (constructor; auto; fail). eapply HQ; exact Ec.
      * pose proof (keep_marks (nfc_fuel (nf_pend r)) s (nf_ccc r) (nf_pend r) [d] H2 H1 ltac:(constructor; [exact Hd|constructor])) as K. destruct (nfc_marks _ _ _ _ _ _) as [[s1 k1] p1]. cbn [fst snd] in *.
        split; [split; [apply K|intros s2 E2; injection E2 as <-; apply K]|constructor].
    + destruct (ccc_of d =? 0); cbn [fst snd]; [|split; [split; assumption|constructor]]. destruct (nf_starter r) eqn:E; cbn [fst snd]; (split; [|constructor]); split; try exact H1; intros s E1; [injection E1 as <-; exact Hd|injection E1 as <-; exact Hd|congruence].
  - assert (E : nfc_conv comb r d = (fst (nfc_flush (mkNfc (nf_on r) (nf_starter r) 0 (nf_pend r))), NEXTPHASE, snd (nfc_flush (mkNfc (nf_on r) (nf_starter r) 0 (nf_pend r))) ++ [d])).
    { unfold nfc_conv. destruct d as [|b l]; [|destruct b as [|[q|q|]]; try (exfalso; apply (Hno l); reflexivity)]; destruct (nfc_flush _); reflexivity. }
    rewrite E. cbn [fst snd]. destruct (keep_flush _ (Hfl 0)) as (K1 & K2). split; [exact K1|]. intros Hd. apply Forall_app. auto.
Qed.
Lemma keep_stream : forall ds r r' out, keeps r -> Forall Q ds -> star_stream (NFC comb) r ds = Some (r', out) -> Forall Q out.
Proof using HQ.
  assert (HF : forall ds r p, keeps r -> Forall Q ds -> match star_feed (NFC comb) r p ds with Some (r', _, o) => keeps r' /\ Forall Q o | None => True end).
  { induction ds as [|d ds IH]; intros r p Hr Hd; cbn [star_feed]; [auto|]. inversion Hd as [|? ? Hd1 Hd2]; subst. unfold star_one. change (st_conv (NFC comb)) with (nfc_conv comb).
    destruct (keep_conv r d Hr (fun _ _ => Hd1)) as (K1 & K2). specialize (K2 Hd1). destruct (nfc_conv comb r d) as [[r1 st] o]; cbn [fst snd] in *. destruct st; try exact I.
    - destruct p; [exact I|]. specialize (IH r1 false K1 Hd2). destruct (star_feed _ r1 false ds) as [[[r2 p2] o2]|]; [|exact I]. split; [apply IH|]. apply Forall_app. split; [apply Forall_app; auto|apply IH].
    - specialize (IH r1 true K1 Hd2). destruct (star_feed _ r1 true ds) as [[[r2 p2] o2]|]; [|exact I]. split; [apply IH|]. apply Forall_app. split; [exact K2|apply IH].
    - specialize (IH r1 false K1 Hd2). destruct (star_feed _ r1 false ds) as [[[r2 p2] o2]|]; [|exact I]. split; [apply IH|]. apply Forall_app. split; [exact K2|apply IH]. }
  intros ds r r' out Hr Hd HS. unfold star_stream in HS. specialize (HF ds r false Hr Hd). destruct (star_feed _ r false ds) as [[[r1 p1] o1]|]; [|discriminate]. destruct HF as (F1 & F2).
  destruct p1; [|injection HS as _ <-; exact F2]. change (st_flush (NFC comb) r1) with (nfc_flush r1) in HS. destruct (keep_flush r1 F1) as (_ & F3). destruct (nfc_flush r1) as [r2 f]. injection HS as _ <-. apply Forall_app. auto.
Qed.
End Keep.

(** ** Combining classes of Hangul *)
Lemma ccc_char c : code32 c -> ccc (udatum c) = match find (fun r => (fst (fst r) <=? c) && (c <=? snd (fst r))) ccc_table with Some r => snd r | None => 0 end.
Proof.
  intros H. assert (E : be_value (be_bytes c) mod 0x100000000 = c). { rewrite <- u32_value by (apply udatum_value; exact H). apply udatum_value. exact H. }
  unfold ccc, udatum. rewrite E. reflexivity.
Qed.
Lemma no_class lo hi c : forallb (fun r => (snd (fst r) <? lo) || (hi <? fst (fst r))) ccc_table = true -> lo <= c <= hi -> code32 c -> ccc (udatum c) = 0.
Proof.
  intros HF Hc H. rewrite (ccc_char c H). destruct (find _ ccc_table) as [r|] eqn:E; [|reflexivity]. apply List.find_some in E as (E1 & E2). rewrite forallb_forall in HF. specialize (HF r E1). lia.
Qed.
Lemma syl_range l v t : l < 19 -> v < 21 -> t < 28 -> 0xAC00 <= syllable l v t <= 0xD7A3.
Proof. unfold syllable. lia. Qed.
Lemma hangul_range c : hangul c -> (0xAC00 <= c <= 0xD7A3) \/ (0x1100 <= c <= 0x11FF).
Proof.
  intros [(l & v & t & Hl & Hv & Ht & ->)|[(l & Hl & ->)|[(v & Hv & ->)|(t & Ht & ->)]]]; [left; apply syl_range; assumption|right; lia|right; lia|right; lia].
Qed.
Lemma hangul_code c : hangul c -> code32 c.
Proof. intros H. apply hangul_range in H. unfold code32. lia. Qed.
Lemma hangul_ccc c : hangul c -> ccc (udatum c) = 0.
Proof.
  intros H. pose proof (hangul_code c H) as Hc. destruct (hangul_range c H) as [R|R]; [apply (no_class 0xAC00 0xD7A3)|apply (no_class 0x1100 0x11FF)]; try exact R; try exact Hc; vm_compute; reflexivity.
Qed.
Lemma jamo_hangul l v t x : l < 19 -> v < 21 -> t < 28 -> In x (jamo l v t) -> hangul x /\ ~ precomposed x.
Proof.
  intros Hl Hv Ht Hx. assert (G : forall y, y < 0xAC00 -> ~ precomposed y) by (intros y Hy (a & b & c & Ha & Hb & Hc & E); pose proof (syl_range a b c Ha Hb Hc); lia).
  unfold jamo in Hx. apply in_app_or in Hx as [[<-|[<-|[]]]|Hx].
  - split; [right; left; exists l; auto|apply G; lia].
  - split; [right; right; left; exists v; auto|apply G; lia].
  - destruct (t =? 0) eqn:E; [destruct Hx|]. destruct Hx as [<-|[]]. split; [right; right; right; exists t; split; [lia|reflexivity]|apply G; lia].
Qed.
Lemma dec1_keep c : ~ precomposed c -> dec1 c = [c].
Proof. intros H. unfold dec1. destruct (isS c) eqn:E; [|reflexivity]. exfalso. apply H. apply isS_spec. exact E. Qed.
Lemma dec1_syl l v t : l < 19 -> v < 21 -> t < 28 -> dec1 (syllable l v t) = jamo l v t.
Proof. intros Hl Hv Ht. unfold dec1. rewrite (proj2 (isS_spec _)) by (exists l, v, t; auto). apply jamos_syl; assumption. Qed.

(** ** The tables *)
Section Tables.
Variable T : list (N * list N).
Variable P : list (N * N * N).
Hypothesis HT : normal_tables T P.
Notation comb := (pairs_of P).

Lemma pairs_spec a b z : comb a b = Some z -> exists x y c, In (x, y, c) P /\ a = udatum x /\ b = udatum y /\ z = udatum c.
Proof using.
  unfold pairs_of. destruct (find _ P) as [[[x y] c]|] eqn:E; [|discriminate]. intros H. injection H as <-. apply List.find_some in E as (E1 & E2). cbn [fst snd] in E2.
  destruct (list_eq_dec N.eq_dec (udatum x) a) as [<-|]; [|discriminate]. destruct (list_eq_dec N.eq_dec (udatum y) b) as [<-|]; [|discriminate]. exists x, y, c. auto.
Qed.
Lemma chars_ok c : code32 c -> Forall (fun b => b < 256) (udatum c).
Proof using. intros H. constructor; [lia|]. apply udatum_value. exact H. Qed.
Lemma pairs_composites : composites comb.
Proof using HT.
  constructor.
  - intros a b c H. apply pairs_spec in H as (x & y & z & H & -> & -> & ->). split; [reflexivity|]. split; [reflexivity|]. split; [reflexivity|]. apply chars_ok. apply (nt_code _ _ HT) in H. apply H.
  - intros a b c H. apply pairs_spec in H as (x & y & z & H & -> & -> & ->). eapply nt_starter; eassumption.
  - intros a b c x y H1 H2. apply pairs_spec in H1 as (x1 & y1 & z1 & H1 & -> & -> & ->). apply pairs_spec in H2 as (x2 & y2 & z2 & H2 & -> & -> & E).
    apply udatum_inj in E; [|apply (nt_code _ _ HT) in H1; apply H1|apply (nt_code _ _ HT) in H2; apply H2]. eapply (nt_second _ _ HT); [exact H1|exact H2|congruence].
Qed.
(** Full decomposition without reordering, of characters and of data. *)
Definition fdec (c : N) : list N := flat_map dec1 (mapped T c).
Definition fdecD (d : datum) : list datum :=
  let c := u32_of (tl d) in if (c <? 0x100000000) then if list_eq_dec N.eq_dec d (udatum c) then map udatum (fdec c) else [d] else [d].
Lemma fdecD_char c : code32 c -> fdecD (udatum c) = map udatum (fdec c).
Proof using.
  intros H. unfold fdecD. cbv zeta. change (tl (udatum c)) with (be_bytes c). rewrite (proj1 (udatum_value c H)). unfold code32 in H. destruct (c <? 0x100000000) eqn:E; [|lia]. destruct (list_eq_dec N.eq_dec (udatum c) (udatum c)); [reflexivity|congruence].
Qed.
Lemma fdecD_chars cps : Forall code32 cps -> flat_map fdecD (map udatum cps) = map udatum (flat_map fdec cps).
Proof using. induction 1 as [|c cps Hc _ IH]; [reflexivity|]. cbn [map flat_map]. rewrite map_app, IH, (fdecD_char c Hc). reflexivity. Qed.
Lemma syl_ccc y : ccc (udatum y) <> 0 -> ~ precomposed y.
Proof using. intros H Hp. apply H. apply hangul_ccc. left. exact Hp. Qed.
Lemma fdecD_mark d : ccc d <> 0 -> Forall (fun x => ccc x = ccc d) (fdecD d).
Proof using HT.
  intros Hd. unfold fdecD. cbv zeta. generalize (u32_of (tl d)). intros c. destruct (_ <? _); [|repeat constructor]. destruct (list_eq_dec N.eq_dec d (udatum c)) as [->|]; [|repeat constructor].
  pose proof (nt_mark _ _ HT c Hd) as HM. unfold fdec. induction HM as [|y l Hy _ IH]; [constructor|].
  cbn [flat_map]. rewrite map_app. apply Forall_app. split; [|exact IH]. rewrite dec1_keep by (apply syl_ccc; congruence). repeat constructor. exact Hy.
Qed.
Lemma equiv_sweq xs ys : equivalent comb xs ys -> sweq (flat_map fdecD xs) (flat_map fdecD ys).
Proof using HT.
  induction 1 as [ds|a b _ IH|a b c _ IH1 _ IH2|u a b w Ha Hb Hab|u a b c w Hc].
  - apply sw_refl.
  - apply sw_sym. exact IH.
  - eapply sw_trans; eassumption.
  - rewrite !flat_map_app. apply sw_pre. cbn [flat_map]. apply (sw_blocks _ _ _ (ccc a) (ccc b)); auto using fdecD_mark.
  - apply pairs_spec in Hc as (x & y & z & Hp & -> & -> & ->). rewrite !flat_map_app. cbn [flat_map]. destruct (nt_code _ _ HT _ _ _ Hp) as (C1 & C2 & C3). rewrite !fdecD_char by assumption.
    apply sw_pre. rewrite app_assoc, <- map_app. unfold fdec. rewrite <- flat_map_app, <- (nt_pair _ _ HT _ _ _ Hp). apply sw_refl.
Qed.
Lemma fdec_hangul c : hangul c -> ~ precomposed c -> fdec c = [c].
Proof using HT. intros H1 H2. unfold fdec. rewrite (nt_hangul _ _ HT c H1). cbn [flat_map]. rewrite dec1_keep by exact H2. reflexivity. Qed.
Lemma fdec_fixed c x : In x (fdec c) -> fdec x = [x].
Proof using HT.
  intros H. unfold fdec in H. apply in_flat_map in H as (y & Hy & Hx). unfold dec1 in Hx. destruct (isS y) eqn:E.
  - apply isS_spec in E as (l & v & t & Hl & Hv & Ht & ->). rewrite jamos_syl in Hx by assumption. destruct (jamo_hangul _ _ _ _ Hl Hv Ht Hx). apply fdec_hangul; assumption.
  - destruct Hx as [<-|[]]. unfold fdec. rewrite (nt_full _ _ HT c y Hy). cbn [flat_map]. unfold dec1. rewrite E. reflexivity.
Qed.
Lemma fdec_syl l v t : l < 19 -> v < 21 -> t < 28 -> fdec (syllable l v t) = jamo l v t.
Proof using HT.
  intros Hl Hv Ht. unfold fdec. rewrite (nt_hangul _ _ HT) by (left; exists l, v, t; auto). cbn [flat_map]. rewrite dec1_syl by assumption. apply app_nil_r.
Qed.
Lemma fdec_composed cs ds : composed cs ds -> flat_map fdec ds = flat_map fdec cs.
Proof using HT.
  assert (GL : forall l, l < 19 -> fdec (0x1100 + l) = [0x1100 + l]) by (intros l Hl; apply fdec_hangul; apply (jamo_hangul l 0 0); try lia; left; reflexivity).
  assert (GV : forall v, v < 21 -> fdec (0x1161 + v) = [0x1161 + v]) by (intros v Hv; apply fdec_hangul; apply (jamo_hangul 0 v 0); try lia; right; left; reflexivity).
  assert (GT : forall t, 0 < t < 28 -> fdec (0x11A7 + t) = [0x11A7 + t]).
  { intros t Ht. assert (In (0x11A7 + t) (jamo 0 0 t)) by (unfold jamo; destruct (t =? 0) eqn:E; [lia|]; right; right; left; reflexivity). apply fdec_hangul; eapply (jamo_hangul 0 0 t); try lia; assumption. }
  induction 1 as [|l v t cs ds Hl Hv Ht _ IH|l v cs ds Hl Hv Hn _ IH|c cs ds Hn _ IH]; [reflexivity| | |]; cbn [flat_map]; rewrite IH.
  - rewrite fdec_syl, GL, GV, GT by lia. unfold jamo. destruct (t =? 0) eqn:E; [lia|]. reflexivity.
  - rewrite fdec_syl, GL, GV by lia. reflexivity.
  - reflexivity.
Qed.
Lemma canonical_iff cps os : canonical_decomposition T cps os <-> reordered (map udatum (flat_map fdec cps)) (map udatum os).
Proof using.
  assert (E : flat_map dec1 (flat_map (mapped T) cps) = flat_map fdec cps).
  { induction cps as [|c cps IH]; [reflexivity|]. cbn [flat_map]. rewrite flat_map_app, IH. reflexivity. }
  unfold canonical_decomposition. split.
  - intros (ds & H1 & H2). rewrite (decomposed_det _ _ H1), E in H2. exact H2.
  - intros H. exists (flat_map fdec cps). split; [rewrite <- E; apply dec_fun|exact H].
Qed.

(** ** Hangul composition keeps the rest *)
Lemma composed_code cs ds : composed cs ds -> Forall code32 cs -> Forall code32 ds.
Proof using.
  induction 1 as [|l v t cs ds Hl Hv Ht _ IH|l v cs ds Hl Hv Hn _ IH|c cs ds Hn _ IH]; intros H; [constructor| | |]; inversion H as [|? ? H1 H2]; subst.
  - inversion H2 as [|? ? _ H3]; subst. inversion H3; subst. constructor; [apply hangul_code; left; exists l, v, t; repeat split; lia|auto].
  - inversion H2; subst. constructor; [apply hangul_code; left; exists l, v, 0; repeat split; lia|auto].
  - constructor; auto.
Qed.
Lemma composed_ord cs ds : composed cs ds -> forall k, ord k (map udatum cs) -> ord k (map udatum ds).
Proof using.
  assert (GL : forall l, l < 19 -> ccc (udatum (0x1100 + l)) = 0) by (intros l Hl; apply hangul_ccc; right; left; exists l; auto).
  assert (GV : forall v, v < 21 -> ccc (udatum (0x1161 + v)) = 0) by (intros v Hv; apply hangul_ccc; right; right; left; exists v; auto).
  assert (GT : forall t, 0 < t < 28 -> ccc (udatum (0x11A7 + t)) = 0) by (intros t Ht; apply hangul_ccc; right; right; right; exists t; auto).
  assert (GS : forall l v t, l < 19 -> v < 21 -> t < 28 -> ccc (udatum (syllable l v t)) = 0) by (intros l v t H1 H2 H3; apply hangul_ccc; left; exists l, v, t; auto).
  induction 1 as [|l v t cs ds Hl Hv Ht _ IH|l v cs ds Hl Hv Hn _ IH|c cs ds Hn _ IH]; intros k H; [exact I| | |]; cbn [map ord] in *.
  - rewrite GS by lia. rewrite GT in H by lia. split; [left; reflexivity|]. apply IH. apply H.
  - rewrite GS by lia. rewrite GV in H by lia. split; [left; reflexivity|]. apply IH. apply H.
  - split; [apply H|]. apply IH. apply H.
Qed.
Lemma composed_hangul cs ds : composed cs ds -> hangul_composed ds.
Proof using.
  assert (HD : forall cs ds, composed cs ds -> forall b w, ds = b :: w -> vowel b -> exists r, cs = b :: r).
  { intros c0 d0 HC b w E Hb. destruct HC as [|l v t cs0 ds0 Hl Hv Ht _|l v cs0 ds0 Hl Hv Hn _|c cs0 ds0 Hn _]; [discriminate| | |].
    - injection E as <- _. destruct Hb as (x & Hx & E). pose proof (syl_range l v t Hl Hv ltac:(lia)). lia.
    - injection E as <- _. destruct Hb as (x & Hx & E). pose proof (syl_range l v 0 Hl Hv ltac:(lia)). lia.
    - injection E as <- _. eauto. }
  intros HC. induction HC as [|l v t cs0 ds0 Hl Hv Ht HC IH|l v cs0 ds0 Hl Hv Hn HC IH|c cs0 ds0 Hn HC IH]; intros u a b w E Ha Hb.
  - destruct u; discriminate.
  - destruct u as [|x u]; injection E as <- E; [|eapply IH; eassumption]. destruct Ha as (x & Hx & E'). pose proof (syl_range l v t Hl Hv ltac:(lia)). lia.
  - destruct u as [|x u]; injection E as <- E; [|eapply IH; eassumption]. destruct Ha as (x & Hx & E'). pose proof (syl_range l v 0 Hl Hv ltac:(lia)). lia.
  - destruct u as [|x u]; injection E as <- E; [|eapply IH; eassumption]. destruct (HD _ _ HC b w E Hb) as (r & ->). destruct Hb as (v & Hv & ->). eapply Hn; [exact Ha|exact Hv|reflexivity].
Qed.
Lemma comb_hangul_l s c : code32 s -> hangul s -> comb (udatum s) c = None.
Proof using HT.
  intros Hs H. destruct (comb (udatum s) c) as [z|] eqn:E; [|reflexivity]. exfalso. apply pairs_spec in E as (x & y & w & Hp & E & _). apply udatum_inj in E; [|exact Hs|apply (nt_code _ _ HT) in Hp; apply Hp]. subst x. apply (nt_jamo _ _ HT) in Hp. tauto.
Qed.
Lemma comb_hangul_r s c : code32 c -> hangul c -> comb s (udatum c) = None.
Proof using HT.
  intros Hs H. destruct (comb s (udatum c)) as [z|] eqn:E; [|reflexivity]. exfalso. apply pairs_spec in E as (x & y & w & Hp & _ & E & _). apply udatum_inj in E; [|exact Hs|apply (nt_code _ _ HT) in Hp; apply Hp]. subst y. apply (nt_jamo _ _ HT) in Hp. tauto.
Qed.
Lemma composed_free s cs ds : composed cs ds -> forall q, (forall m c w, map udatum cs = m ++ c :: w -> unblocked (q ++ m) c -> comb s c = None) ->
  forall m c w, map udatum ds = m ++ c :: w -> unblocked (q ++ m) c -> comb s c = None.
Proof using HT.
  assert (GS : forall l v t q ds, l < 19 -> v < 21 -> t < 28 -> forall m c w, map udatum (syllable l v t :: ds) = m ++ c :: w -> unblocked (q ++ m) c -> comb s c = None).
  { intros l v t q ds0 Hl Hv Ht m c w E Hm. assert (HS : hangul (syllable l v t)) by (left; exists l, v, t; auto). destruct m as [|x m]; cbn [map app] in E; injection E as <- E.
    - apply comb_hangul_r; [apply hangul_code|]; exact HS.
    - exfalso. apply Forall_app in Hm as (_ & Hm). inversion Hm as [|? ? (H1 & _) _]; subst. apply H1. apply hangul_ccc. exact HS. }
  intros HC. induction HC as [|l v t cs0 ds0 Hl Hv Ht HC IH|l v cs0 ds0 Hl Hv Hn HC IH|x cs0 ds0 Hn HC IH]; intros q Hq.
  - intros m c w E. destruct m; discriminate.
  - intros m c w. apply GS; lia.
  - intros m c w. apply GS; lia.
  - intros m c w E Hm. destruct m as [|y m]; cbn [map app] in E; injection E as <- E.
    + apply (Hq [] (udatum x) (map udatum cs0) eq_refl). exact Hm.
    + refine (IH (q ++ [udatum x]) _ m c w E _); [|rewrite <- app_assoc; exact Hm]. intros m' c' w' E' Hm'. apply (Hq (udatum x :: m') c' w'); [cbn [map app]; rewrite E'; reflexivity|]. rewrite <- app_assoc in Hm'. exact Hm'.
Qed.
Lemma composed_full cs ds : composed cs ds -> full comb (map udatum cs) -> full comb (map udatum ds).
Proof using HT.
  induction 1 as [|l v t cs ds Hl Hv Ht _ IH|l v cs ds Hl Hv Hn _ IH|c cs ds Hn HC IH]; intros H; [exact I| | |]; cbn [map full] in *.
  - split; [|apply IH; apply H]. intros _ m c w _ _. assert (HS : hangul (syllable l v t)) by (left; exists l, v, t; repeat split; lia). apply comb_hangul_l; [apply hangul_code|]; exact HS.
  - split; [|apply IH; apply H]. intros _ m c w _ _. assert (HS : hangul (syllable l v 0)) by (left; exists l, v, 0; repeat split; lia). apply comb_hangul_l; [apply hangul_code|]; exact HS.
  - split; [|apply IH; apply H]. intros Hc. exact (composed_free (udatum c) cs ds HC [] (proj1 H Hc)).
Qed.

(** ** The whole *)
Definition ready (r : nfc) : Prop := nf_on r = false /\ nf_starter r = SNull /\ nf_pend r = [].
Lemma ready_same r r2 ds r' out : ready r -> ready r2 -> star_stream (NFC comb) r ds = Some (r', out) -> ready r' -> exists r2', star_stream (NFC comb) r2 ds = Some (r2', out) /\ ready r2'.
Proof using.
  intros (A1 & A2 & A3) (B1 & B2 & B3) H Hr. destruct ds as [|d ds].
  - cbn in H. injection H as <- <-. exists r2. split; [reflexivity|]. split; auto.
  - exists r'. split; [|exact Hr]. rewrite <- H. unfold star_stream. cbn [star_feed]. unfold star_one. change (st_conv (NFC comb)) with (nfc_conv comb).
    assert (E : nfc_conv comb r2 d = nfc_conv comb r d).
    { unfold nfc_conv, nfc_flush. rewrite A1, A2, A3, B1, B2, B3. reflexivity. }
    rewrite E. reflexivity.
Qed.
Definition isudatum (d : datum) : Prop := exists c, code32 c /\ d = udatum c.
Lemma udata ds : Forall isudatum ds -> exists cps, ds = map udatum cps /\ Forall code32 cps.
Proof using. induction 1 as [|d ds (c & Hc & ->) _ (cps & -> & IH)]; [exists []; auto|]. exists (c :: cps). auto. Qed.
Lemma mapped_code c : code32 c -> Forall code32 (mapped T c).
Proof using HT.
  intros Hc. pose proof (nt_map _ _ HT) as HM. clear HT. induction HM as [|[k v] T' Hx _ IHT]; cbn [mapped]; [repeat constructor; exact Hc|]. destruct (c =? k); [apply Hx|exact IHT].
Qed.
Lemma fdec_code cps : Forall code32 cps -> Forall code32 (flat_map fdec cps).
Proof using HT.
  induction 1 as [|c cps Hc _ IH]; [constructor|]. cbn [flat_map]. apply Forall_app. split; [|exact IH]. unfold fdec. pose proof (mapped_code c Hc) as HM. apply Forall_forall. intros x Hx. apply in_flat_map in Hx as (y & Hy & Hx). rewrite Forall_forall in HM. specialize (HM y Hy).
  unfold dec1 in Hx. destruct (isS y) eqn:E; [|destruct Hx as [<-|[]]; exact HM]. apply isS_spec in E as (l & v & t & Hl & Hv & Ht & ->). rewrite jamos_syl in Hx by assumption. destruct (jamo_hangul _ _ _ _ Hl Hv Ht Hx) as (H1 & _). apply hangul_code. exact H1.
Qed.
Lemma perm_chars cps ds : Forall code32 cps -> Permutation (map udatum cps) ds -> exists os, ds = map udatum os /\ Permutation cps os.
Proof using. intros H HP. destruct (Permutation_map_inv udatum cps (Permutation_sym HP)) as (os & -> & HP2). exists os. auto. Qed.
Theorem canonical_props cps os : Forall code32 cps -> canonical_decomposition T cps os -> Forall code32 os -> in_order (map udatum os) /\ reordered (map udatum os) (map udatum os) /\ flat_map fdec os = os.
Proof using HT.
  intros Hc H Ho. apply canonical_iff in H. split; [eapply reordered_in_order; exact H|]. split; [eapply reordered_idem; exact H|].
  pose proof (reordered_perm _ _ H) as HP. apply perm_chars in HP as (os' & E & HP); [|apply fdec_code; exact Hc].
  apply map_udatum_inj in E; [|exact Ho|eapply Permutation_Forall; [exact HP|apply fdec_code; exact Hc]]. subst os'.
  assert (HF : Forall (fun x => fdec x = [x]) os). { eapply Permutation_Forall; [exact HP|]. apply Forall_forall. intros x Hx. apply in_flat_map in Hx as (c & _ & Hx). eapply fdec_fixed. exact Hx. }
  clear - HF. induction HF as [|x os Hx _ IH]; [reflexivity|]. cbn [flat_map]. rewrite Hx, IH. reflexivity.
Qed.
Theorem compose_text os : Forall code32 os -> in_order (map udatum os) -> reordered (map udatum os) (map udatum os) -> flat_map fdec os = os ->
  exists ps out, (forall r, ready r -> exists r', star_stream (NFC comb) r (map udatum os) = Some (r', map udatum ps) /\ ready r') /\ Forall code32 ps /\ composed ps out /\ Forall code32 out /\
    canonical_decomposition T out os /\ in_order (map udatum out) /\ fully_composed comb (map udatum out) /\ hangul_composed out.
Proof using HT.
  intros Hc Ho Hr Hf. assert (Hk : Forall okbytes (map udatum os)) by (apply Forall_map; eapply Forall_impl; [|exact Hc]; intros c; apply chars_ok).
  destruct (nfc_stream comb pairs_composites (mkNfc false SNull 0 []) (map udatum os) eq_refl eq_refl eq_refl Hk Ho) as (r' & out & R1 & R2 & R3 & R4 & _ & R6).
  assert (HQ : Forall isudatum out).
  { eapply (keep_stream comb isudatum); [| |  |exact R1].
    - intros a b c H. apply pairs_spec in H as (x & y & z & H & -> & -> & ->). exists z. split; [apply (nt_code _ _ HT) in H; apply H|reflexivity].
    - split; [constructor|discriminate].
    - apply Forall_map. eapply Forall_impl; [|exact Hc]. intros c H. exists c. auto. }
  destruct (udata out HQ) as (ps & -> & Hps). destruct (C40_composed_exists ps) as (fin & HC & _). exists ps, fin.
  split; [intros r H; eapply ready_same; [|exact H|exact R1|exact R6]; repeat split|]. split; [exact Hps|]. split; [exact HC|]. split; [eapply composed_code; eassumption|]. split; [|split; [|split]].
  - apply canonical_iff. rewrite (fdec_composed _ _ HC), <- fdecD_chars by exact Hps. eapply reordered_sweq; [apply equiv_sweq; exact R2|]. rewrite fdecD_chars by exact Hc. rewrite Hf. exact Hr.
  - apply (in_order_ord comb). eapply composed_ord; [exact HC|]. apply (in_order_ord comb). exact R3.
  - apply full_spec. eapply composed_full; [exact HC|]. apply full_spec. exact R4.
  - eapply composed_hangul. exact HC.
Qed.
End Tables.

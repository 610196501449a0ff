(** Theorems about Hangul composition and decomposition (C40) and canonical ordering (C41), at the callback interface:
    [star_stream m s ds] is the private state and the data after the module has been given the data of a complete stream. *)
From Verif Require Import Base Types M_Engine M_Star M_Norm S_Ranges S_Unicode S_Inter S_Norm D_Ranges P_Inter P_Norm.
From Coq Require Import Permutation Sorted.
Local Open Scope N_scope.

(** C40: decomposition replaces every syllable by its jamo and leaves all other characters alone... *)
Theorem C40_decompose : forall cs ds, Forall (fun c => c < 0x100000000) cs -> decomposed cs ds ->
  star_stream HANGUL_DECOMPOSITION tt (map udatum cs) = Some (tt, map udatum ds).
Proof. intros cs ds H HD. unfold star_stream. rewrite hdecomp_feed by auto. rewrite (decomposed_det _ _ HD). reflexivity. Qed.
Print Assumptions C40_decompose.
Theorem C40_decomposed_exists : forall cs, exists ds, decomposed cs ds /\ forall es, decomposed cs es -> es = ds.
Proof. intros cs. exists (flat_map dec1 cs). split; [apply dec_fun|apply decomposed_det]. Qed.
Print Assumptions C40_decomposed_exists.
(** ... composition, after initialisation and after every earlier stream, composes exactly the sequences leading consonant,
    vowel, optional final consonant... *)
Theorem C40_compose : forall cs ds r, Forall (fun c => c < 0x100000000) cs -> hc_status r = 0 -> composed cs ds ->
  exists r', star_stream HANGUL_COMPOSITION r (map udatum cs) = Some (r', map udatum ds) /\ hc_status r' = 0.
Proof. intros cs ds r H Hr HC. rewrite (composed_comp _ _ HC). apply hstream; assumption. Qed.
Print Assumptions C40_compose.
Theorem C40_init : forall r, hc_status (hcomp_init r) = 0.
Proof. reflexivity. Qed.
Theorem C40_composed_exists : forall cs, exists ds, composed cs ds /\ forall es, composed cs es -> es = ds.
Proof. intros cs. exists (comp 0 0 cs). split; [apply (composed_fun (length cs)); lia|apply composed_comp]. Qed.
Print Assumptions C40_composed_exists.
(** ... and restores what was decomposed: for every text without bare vowel and final jamo (such a jamo would be
    swallowed by a syllable before it, which is also what Unicode demands of the composition of the same jamo). *)
Theorem C40_restores : forall cs ds r, Forall (fun c => c < 0x100000000) cs -> hc_status r = 0 -> Forall (fun c => ~ vowel c /\ ~ final c) cs ->
  star_stream HANGUL_DECOMPOSITION tt (map udatum cs) = Some (tt, map udatum ds) -> Forall (fun c => c < 0x100000000) ds ->
  exists r', star_stream HANGUL_COMPOSITION r (map udatum ds) = Some (r', map udatum cs) /\ hc_status r' = 0.
Proof.
  intros cs ds r H Hr HV HD Hd. destruct (C40_decomposed_exists cs) as (es & He & _). rewrite (C40_decompose cs es H He) in HD.
  assert (E : map udatum es = map udatum ds) by congruence.
  assert (Hes : Forall (fun c => c < 0x100000000) es).
  { apply decomposed_det in He. subst es. apply Forall_forall. intros x Hx. apply in_flat_map in Hx as (c & Hc & Hx). rewrite Forall_forall in H. specialize (H c Hc).
    unfold dec1 in Hx. destruct (isS c) eqn:ES; [|destruct Hx as [<-|[]]; assumption]. unfold isS in ES. apply isS_spec in ES as (l & v & t & Hl & Hv & Ht & ->). rewrite jamos_syl in Hx by assumption. unfold jamo in Hx. apply in_app_or in Hx.
    destruct Hx as [[<-|[<-|[]]]|Hx]; try lia. destruct (t =? 0); [destruct Hx|destruct Hx as [<-|[]]; lia]. }
  assert (Eds : es = ds).
  { clear He HD. revert ds Hd E. induction Hes as [|x es Hx _ IH]; intros [|y ds] Hd E; try discriminate; [reflexivity|]. cbn [map] in E. injection E as E1 E2. inversion Hd as [|? ? Hy Hd']; subst.
    f_equal; [|apply IH; assumption]. pose proof (proj1 (udatum_value x Hx)). pose proof (proj1 (udatum_value y Hy)). congruence. }
  subst es. apply C40_compose; auto. apply comp_decomposed; assumption.
Qed.
Print Assumptions C40_restores.
(** The decomposition of a text is the same before and after composing it (every text). *)
Theorem C40_same_decomposition : forall cs ds xs ys, composed cs ds -> decomposed cs xs -> decomposed ds ys -> xs = ys.
Proof. intros cs ds xs ys HC HX HY. apply decomposed_det in HX. apply decomposed_det in HY. subst. symmetry. apply dec_composed. exact HC. Qed.
Print Assumptions C40_same_decomposition.
(** Text in which no leading consonant stands before a vowel is not changed by composing. *)
Theorem C40_unaffected : forall cs r, Forall (fun c => c < 0x100000000) cs -> hc_status r = 0 ->
  (forall a b u w, cs = u ++ a :: b :: w -> leading a -> vowel b -> False) ->
  exists r', star_stream HANGUL_COMPOSITION r (map udatum cs) = Some (r', map udatum cs) /\ hc_status r' = 0.
Proof.
  intros cs r H Hr HN. apply C40_compose; auto. clear H Hr. induction cs as [|c cs IH]; [constructor|]. constructor.
  - intros v q HL Hv ->. eapply (HN c (0x1161 + v) [] q); [reflexivity|exact HL|]. exists v. auto.
  - apply IH. intros a b u w -> . apply (HN a b (c :: u) w). reflexivity.
Qed.
Print Assumptions C40_unaffected.
(** A datum that is not a Unicode character passes, and nothing is composed across it. *)
Theorem C40_barrier : forall cs ds d es r, Forall (fun c => c < 0x100000000) cs -> hc_status r = 0 -> composed cs ds -> hd 0 d <> 1 ->
  exists r', hc_status r' = 0 /\
  star_stream HANGUL_COMPOSITION r (map udatum cs ++ d :: es) =
    match star_stream HANGUL_COMPOSITION r' es with Some (r2, o) => Some (r2, map udatum ds ++ d :: o) | None => None end.
Proof.
  intros cs ds d es r H Hr HC Hd. rewrite (composed_comp _ _ HC). destruct (hfeed cs 0 0 r H Hr) as (r1 & st & p & o & E & Hs & Ec).
  assert (Happ : forall a b s pend, star_feed HANGUL_COMPOSITION s pend (a ++ b) =
    match star_feed HANGUL_COMPOSITION s pend a with Some (s1, p1, o1) => match star_feed HANGUL_COMPOSITION s1 p1 b with Some (s2, p2, o2) => Some (s2, p2, o1 ++ o2) | None => None end | None => None end).
  { clear. induction a as [|x a IH]; intros b s pend; cbn [app star_feed].
    - destruct (star_feed _ _ _ b) as [[[? ?] ?]|]; reflexivity.
    - destruct (star_one _ _ _ _) as [[[s1 p1] o1]|]; [|reflexivity]. rewrite IH. destruct (star_feed _ s1 p1 a) as [[[s2 p2] o2]|]; [|reflexivity].
      destruct (star_feed _ s2 p2 b) as [[[s3 p3] o3]|]; [rewrite app_assoc; reflexivity|reflexivity]. }
  assert (Hone : exists r', hc_status r' = 0 /\ star_one HANGUL_COMPOSITION r1 (busy st) d = Some (r', false, map udatum (comp st p []) ++ [d])).
  { unfold star_one. change (st_conv HANGUL_COMPOSITION) with hcomp_conv.
    assert (Ev : hcomp_conv r1 d = let '(r', o) := hcomp_flush r1 in (r', NEXTPHASE, o ++ [d])) by (destruct d as [|b l]; [reflexivity|]; cbn in Hd; unfold hcomp_conv; destruct b as [|[?|?|]]; try reflexivity; congruence).
    rewrite Ev, (hflush_st _ _ _ Hs). exists (mkHc 0 (hc_pending r1)). split; [reflexivity|]. destruct st as [|[|st]]; reflexivity. }
  destruct Hone as (r' & Hr' & E1). exists r'. split; [exact Hr'|]. unfold star_stream. rewrite Happ. cbn [busy] in E. rewrite E. cbn [star_feed]. rewrite E1.
  destruct (star_feed HANGUL_COMPOSITION r' false es) as [[[s2 p2] o2]|]; [|reflexivity]. rewrite Ec, map_app. destruct p2.
  - destruct (st_flush HANGUL_COMPOSITION s2) as [s3 f]. rewrite <- !app_assoc. reflexivity.
  - rewrite <- !app_assoc. reflexivity.
Qed.
Print Assumptions C40_barrier.
(** Two limits.  A syllable without final consonant is not composed with a final consonant after it; and decomposition
    loses data that are not Unicode characters (_NF-HANGUL-DECOMPOSITION.c:22-35 has no else branch). *)
Theorem C40_syllable_and_final_refuted : exists r', star_stream HANGUL_COMPOSITION (mkHc 0 0) (map udatum [syllable 0 0 0; 0x11A8]) = Some (r', map udatum [syllable 0 0 0; 0x11A8]).
Proof. eexists. vm_compute. reflexivity. Qed.
Theorem C40_other_data_refuted : exists d, star_stream HANGUL_DECOMPOSITION tt [d] = Some (tt, []).
Proof. exists [3; 0x41]. vm_compute. reflexivity. Qed.
Example C40_ex : decomposed [0x41; 0xD55C; 0xAE00] [0x41; 0x1112; 0x1161; 0x11AB; 0x1100; 0x1173; 0x11AF] /\
  star_stream HANGUL_DECOMPOSITION tt (map udatum [0x41; 0xD55C; 0xAE00]) = Some (tt, map udatum [0x41; 0x1112; 0x1161; 0x11AB; 0x1100; 0x1173; 0x11AF]) /\
  star_stream HANGUL_COMPOSITION (mkHc 0 0) (map udatum [0x41; 0x1112; 0x1161; 0x11AB; 0x1100; 0x1173; 0x11AF]) = Some (mkHc 0 0xAE00, map udatum [0x41; 0xD55C; 0xAE00]) /\
  Forall (fun c => ~ vowel c /\ ~ final c) [0x41; 0xD55C; 0xAE00].
Proof.
  split; [|split; [vm_compute; reflexivity|split; [vm_compute; reflexivity|]]].
  - apply (dec_fun [0x41; 0xD55C; 0xAE00]).
  - repeat constructor; intros (x & Hx & E); lia.
Qed.

(** C41: whatever the data, the output is the reordering: between starters the combining marks stably sorted by their class,
    nothing lost or invented; the module is left empty, ready for the next stream. *)
Theorem C41_order : forall ds, Forall okbytes ds -> exists os, star_stream ORDER [] ds = Some ([], os) /\ reordered ds os /\ (forall os', reordered ds os' -> os' = os) /\ Permutation ds os.
Proof.
  intros ds HB. destruct (order_feed ds [] [] HB) as (l & o & E & HR); [constructor|constructor|repeat split; constructor|]. cbn [app] in HR.
  exists (o ++ map snd l). split; [|split; [exact HR|split; [intros os' H; eapply reordered_det; eassumption|apply reordered_perm; exact HR]]].
  unfold star_stream. rewrite E. destruct l as [|x l]; [rewrite app_nil_r; reflexivity|]. reflexivity.
Qed.
Print Assumptions C41_order.
(** Reordering again changes nothing. *)
Theorem C41_idempotent : forall ds os, Forall okbytes ds -> star_stream ORDER [] ds = Some ([], os) -> star_stream ORDER [] os = Some ([], os).
Proof.
  intros ds os HB H. destruct (C41_order ds HB) as (os' & H1 & H2 & _ & HP). rewrite H1 in H. injection H as ->.
  destruct (C41_order os) as (os2 & H3 & H4 & H5 & _); [eapply Permutation_Forall; eassumption|]. rewrite H3. f_equal. f_equal. symmetry. apply H5. eapply reordered_idem. exact H2.
Qed.
Print Assumptions C41_idempotent.
(** Equivalent mark sequences become equal: swapping two neighbouring marks of different class does not change the output. *)
Theorem C41_canonical : forall u a b w os, Forall okbytes (u ++ a :: b :: w) -> ccc a <> 0 -> ccc b <> 0 -> ccc a <> ccc b ->
  star_stream ORDER [] (u ++ a :: b :: w) = Some ([], os) -> star_stream ORDER [] (u ++ b :: a :: w) = Some ([], os).
Proof.
  intros u a b w os HB Ha Hb Hab H. assert (HP : Permutation (u ++ a :: b :: w) (u ++ b :: a :: w)) by (apply Permutation_app_head; apply perm_swap).
  destruct (C41_order _ HB) as (os1 & H1 & H2 & _). rewrite H1 in H. injection H as ->.
  destruct (C41_order (u ++ b :: a :: w)) as (os2 & H3 & H4 & H5 & _); [eapply Permutation_Forall; eassumption|]. rewrite H3. do 2 f_equal. symmetry. apply H5. clear - H2 Ha Hb Hab.
  assert (G : forall u1 w1 ns, stably_sorted (u1 ++ a :: b :: w1) ns -> stably_sorted (u1 ++ b :: a :: w1) ns).
  { intros u1 w1 ns (P1 & P2 & P3). split; [|split; [exact P2|]].
    - rewrite <- P1. apply Permutation_app_head. apply perm_swap.
    - intros k. rewrite P3, !filter_app. f_equal. cbn [filter]. destruct (N.eqb_spec (ccc a) k), (N.eqb_spec (ccc b) k); try reflexivity. congruence. }
  remember (u ++ a :: b :: w) as ds eqn:E. revert u E. induction H2 as [ms ns H1 Hs|ms ns d ds os H1 Hs H3 HR IH]; intros u E; subst.
  - apply ro_end; [|apply G; exact Hs]. eapply Permutation_Forall; [|exact H1]. apply Permutation_app_head. apply perm_swap.
  - assert (Hsplit : (exists w1, ms = u ++ a :: b :: w1 /\ w = w1 ++ d :: ds) \/ (exists u1, u = ms ++ d :: u1 /\ ds = u1 ++ a :: b :: w)).
    { clear - E H3 Ha Hb. revert u E. induction ms as [|m ms IH]; intros u E.
      - destruct u as [|x u]; cbn in E; injection E as E1 E2; [congruence|]. right. exists u. subst. auto.
      - destruct u as [|x u]; cbn in E.
        + injection E as E1 E2. subst m. destruct ms as [|m2 ms]; cbn in E2; injection E2 as E2 E3; [congruence|]. subst. left. exists ms. auto.
        + injection E as E1 E2. subst x. destruct (IH u E2) as [(w1 & -> & ->)|(u1 & -> & ->)]; [left; exists w1; auto|right; exists u1; auto]. }
    destruct Hsplit as [(w1 & -> & ->)|(u1 & -> & ->)].
    + replace (u ++ b :: a :: w1 ++ d :: ds) with ((u ++ b :: a :: w1) ++ d :: ds) by (rewrite <- app_assoc; reflexivity).
      apply ro_starter; [|apply G; exact Hs|exact H3|exact HR]. eapply Permutation_Forall; [|exact H1]. apply Permutation_app_head. apply perm_swap.
    + rewrite <- app_assoc. cbn [app]. apply ro_starter; auto.
Qed.
Print Assumptions C41_canonical.
(** There is no cbinit: marks pending in a stream that was abandoned appear in the next one, even after bsdconv_init (which
    does not touch the module's state). *)
Theorem C41_abandoned_refuted : exists l o, star_feed ORDER [] false [[1; 0x03; 0x00]] = Some (l, true, o) /\
  star_stream ORDER l [[1; 0x41]] = Some ([], [[1; 0x03; 0x00]; [1; 0x41]]).
Proof. eexists _, _. split; vm_compute; reflexivity. Qed.
Example C41_ex : star_stream ORDER [] [[1; 0x61]; [1; 0x03; 0x01]; [1; 0x03; 0x16]; [1; 0x03; 0x00]; [1; 0x62]; [1; 0x03; 0x27]] =
  Some ([], [[1; 0x61]; [1; 0x03; 0x16]; [1; 0x03; 0x01]; [1; 0x03; 0x00]; [1; 0x62]; [1; 0x03; 0x27]]) /\
  ccc [1; 0x03; 0x01] = 230 /\ ccc [1; 0x03; 0x16] = 220 /\ Forall okbytes [[1; 0x61]; [1; 0x03; 0x01]; [1; 0x03; 0x16]].
Proof. split; [vm_compute; reflexivity|]. split; [reflexivity|]. split; [reflexivity|]. repeat constructor. Qed.

(** Proofs about the normalisation steps. *)
From Verif Require Import Base Types M_Engine M_Bsearch M_Star M_Norm D_Ranges S_Ranges S_Unicode S_Inter S_Norm P_Bsearch P_Filter P_Inter.
From Coq Require Import Permutation Sorted.
From Coq Require Import ZifyBool ZifyN ZifyNat.
Ltac Zify.zify_post_hook ::= Z.to_euclidean_division_equations.
Local Open Scope N_scope.

Lemma udatum_value c : c < 0x100000000 -> u32_of (be_bytes c) = c /\ Forall (fun b => b < 256) (be_bytes c).
Proof.
  intros Hc.
  assert (HB : Forall (fun b => b < 256) (be_bytes c) /\ be_value (be_bytes c) = c).
  { pose proof (N.div_mod c 0x100 ltac:(discriminate)). pose proof (N.mod_lt c 0x100 ltac:(discriminate)).
    pose proof (N.div_mod (c / 0x100) 0x100 ltac:(discriminate)). pose proof (N.mod_lt (c / 0x100) 0x100 ltac:(discriminate)).
    pose proof (N.div_mod (c / 0x100 / 0x100) 0x100 ltac:(discriminate)). pose proof (N.mod_lt (c / 0x100 / 0x100) 0x100 ltac:(discriminate)).
    assert (E : c / 0x10000 = c / 0x100 / 0x100) by (rewrite N.div_div by discriminate; reflexivity).
    assert (E2 : c / 0x1000000 = c / 0x100 / 0x100 / 0x100) by (rewrite !N.div_div by discriminate; reflexivity).
    unfold be_bytes. destruct (N.ltb_spec c 0x100); [|destruct (N.ltb_spec c 0x10000); [|destruct (N.ltb_spec c 0x1000000)]];
      (split; [repeat constructor; try rewrite E2; try rewrite E; lia|cbn -[N.div N.modulo N.mul]; change (256 ^ 0) with 1; change (256 ^ 1) with 256; change (256 ^ 2) with 65536; change (256 ^ 3) with 16777216; try rewrite E2; try rewrite E; lia]). }
  destruct HB as (HB & HV). split; [|assumption]. rewrite u32_value, HV by assumption. apply N.mod_small. lia.
Qed.
Lemma stack_S f u : stack_bytes (S f) u = if u =? 0 then [] else u mod 256 :: stack_bytes f (u / 256).
Proof. cbn [stack_bytes]. rewrite N.shiftr_div_pow2. change 0xFF with (N.ones 8). rewrite N.land_ones. reflexivity. Qed.
Lemma emit_ucs_udatum u : 0 < u < 0x100000000 -> emit_ucs u = udatum u.
Proof.
  intros Hu. unfold emit_ucs, udatum, be_bytes. f_equal.
  assert (S0 : forall f v, v = 0 -> stack_bytes f v = []) by (intros [|f] v ->; reflexivity).
  rewrite stack_S. destruct (N.eqb_spec u 0) as [->|]; [lia|].
  destruct (N.ltb_spec u 0x100) as [H|H].
  { rewrite S0 by (apply N.div_small; assumption). cbn [rev app]. rewrite N.mod_small by assumption. reflexivity. }
  rewrite stack_S. destruct (N.eqb_spec (u / 256) 0) as [E|_]; [lia|].
  destruct (N.ltb_spec u 0x10000) as [H1|H1].
  { rewrite S0 by (rewrite N.div_div by discriminate; apply N.div_small; lia). cbn [rev app]. f_equal. apply N.mod_small. lia. }
  rewrite stack_S. rewrite N.div_div by discriminate. change (256 * 256) with 0x10000. destruct (N.eqb_spec (u / 0x10000) 0) as [E|_]; [lia|].
  destruct (N.ltb_spec u 0x1000000) as [H2|H2].
  { rewrite S0 by (rewrite N.div_div by discriminate; apply N.div_small; lia). cbn [rev app]. f_equal. apply N.mod_small. lia. }
  rewrite stack_S. rewrite N.div_div by discriminate. change (0x10000 * 256) with 0x1000000. destruct (N.eqb_spec (u / 0x1000000) 0) as [E|_]; [lia|].
  rewrite S0 by (rewrite N.div_div by discriminate; apply N.div_small; lia). cbn [rev app]. f_equal. apply N.mod_small. lia.
Qed.
(** "0 <= ucs-BASE < COUNT" tests a range. *)
Lemma idiff_in u b k : u < 0x100000000 -> b < 0x80000000 -> k < 0x10000 ->
  in_range (idiff u b) (Z.of_N k) = (b <=? u) && (u <? b + k) /\ (b <= u -> u < b + k -> idiff u b = Z.of_N (u - b)).
Proof.
  intros Hu Hb Hk. unfold in_range, idiff. cbv zeta. destruct (N.le_gt_cases b u) as [H|H].
  - assert (E : (u + (0x100000000 - b)) mod 0x100000000 = u - b) by lia. rewrite E. destruct (N.ltb_spec (u - b) 0x80000000); lia.
  - assert (E : (u + (0x100000000 - b)) mod 0x100000000 = u + 0x100000000 - b) by lia. rewrite E. destruct (N.ltb_spec (u + 0x100000000 - b) 0x80000000); lia.
Qed.

Definition isL (c : N) : bool := (0x1100 <=? c) && (c <? 0x1113).
Definition isV (c : N) : bool := (0x1161 <=? c) && (c <? 0x1176).
Definition isT (c : N) : bool := (0x11A8 <=? c) && (c <? 0x11C3).
Definition isS (c : N) : bool := (0xAC00 <=? c) && (c <? 0xD7A4).
Lemma isL_spec c : isL c = true <-> leading c.
Proof. unfold isL, leading. split; [intros H; exists (c - 0x1100); lia|intros (l & H & ->); lia]. Qed.
Lemma isS_spec c : isS c = true <-> precomposed c.
Proof.
  unfold isS, precomposed, syllable. split; [|intros (l & v & t & H1 & H2 & H3 & ->); lia].
  intros H. exists ((c - 0xAC00) / 588), ((c - 0xAC00) mod 588 / 28), ((c - 0xAC00) mod 28). lia.
Qed.

(** ** Decomposition *)
Definition jamos (c : N) : list N := let i := c - 0xAC00 in jamo (i / 588) (i mod 588 / 28) (i mod 28).
Definition dec1 (c : N) : list N := if isS c then jamos c else [c].
Lemma jamos_syl l v t : l < 19 -> v < 21 -> t < 28 -> jamos (syllable l v t) = jamo l v t.
Proof.
  intros Hl Hv Ht. unfold jamos, syllable. cbv zeta. replace (0xAC00 + (l * 21 + v) * 28 + t - 0xAC00) with ((l * 21 + v) * 28 + t) by lia.
  replace (((l * 21 + v) * 28 + t) / 588) with l by lia. replace (((l * 21 + v) * 28 + t) mod 588 / 28) with v by lia.
  replace (((l * 21 + v) * 28 + t) mod 28) with t by lia. reflexivity.
Qed.
Lemma dec_fun : forall cs, decomposed cs (flat_map dec1 cs).
Proof.
  induction cs as [|c cs IH]; [constructor|]. cbn [flat_map]. unfold dec1 at 1. destruct (isS c) eqn:E.
  - pose proof E as E'. apply isS_spec in E as (l & v & t & Hl & Hv & Ht & ->). rewrite jamos_syl by assumption. constructor; assumption.
  - constructor; [|assumption]. rewrite <- isS_spec. congruence.
Qed.
Lemma decomposed_det : forall cs ds, decomposed cs ds -> ds = flat_map dec1 cs.
Proof.
  induction 1 as [|l v t cs ds Hl Hv Ht _ IH|c cs ds Hc _ IH]; [reflexivity| |]; cbn [flat_map]; unfold dec1 at 1; rewrite IH.
  - replace (isS (syllable l v t)) with true; [rewrite jamos_syl by assumption; reflexivity|]. symmetry. apply isS_spec. exists l, v, t. auto.
  - destruct (isS c) eqn:E; [apply isS_spec in E; contradiction|reflexivity].
Qed.
Lemma dh_S f u : decompose_hangul (S f) u =
  if in_range (idiff u SBase) SCount then
    decompose_hangul f (Z.to_N (Z.of_N LBase + idiff u SBase / NCount)) ++ decompose_hangul f (Z.to_N (Z.of_N VBase + (idiff u SBase mod NCount) / TCount)) ++
    (if (Z.of_N TBase + idiff u SBase mod TCount =? Z.of_N TBase)%Z then [] else decompose_hangul f (Z.to_N (Z.of_N TBase + idiff u SBase mod TCount)))
  else [emit_ucs u].
Proof. reflexivity. Qed.
Lemma dh_one u : u < 0xAC00 -> 0 < u -> decompose_hangul 1 u = [udatum u].
Proof.
  intros H H0. cbn [decompose_hangul]. cbv zeta. destruct (idiff_in u SBase 11172 ltac:(lia) ltac:(reflexivity) ltac:(lia)) as (E & _).
  change SCount with (Z.of_N 11172). rewrite E. unfold SBase. replace (0xAC00 <=? u) with false by lia. cbn [andb]. rewrite emit_ucs_udatum by lia. reflexivity.
Qed.
Lemma dh_syl c : isS c = true -> decompose_hangul 2 c = map udatum (jamos c).
Proof.
  unfold isS. intros H. rewrite dh_S.
  destruct (idiff_in c SBase 11172 ltac:(lia) ltac:(reflexivity) ltac:(lia)) as (E & E2). change SCount with (Z.of_N 11172). rewrite E, E2 by (unfold SBase in *; lia).
  replace ((SBase <=? c) && (c <? SBase + 11172)) with true by (unfold SBase; lia).
  change (Z.of_N LBase) with 0x1100%Z. change (Z.of_N VBase) with 0x1161%Z. change (Z.of_N TBase) with 0x11A7%Z. change NCount with 588%Z. change TCount with 28%Z. unfold SBase.
  unfold jamos. cbv zeta. set (i := c - 0xAC00). assert (Hi : i < 11172) by lia.
  replace (Z.to_N (0x1100 + Z.of_N i / 588)) with (0x1100 + i / 588) by lia.
  replace (Z.to_N (0x1161 + (Z.of_N i mod 588) / 28)) with (0x1161 + i mod 588 / 28) by lia.
  replace (Z.to_N (0x11A7 + Z.of_N i mod 28)) with (0x11A7 + i mod 28) by lia.
  rewrite !dh_one by lia. unfold jamo. rewrite map_app. cbn [map app]. f_equal. f_equal. destruct (N.eqb_spec (i mod 28) 0); destruct (Z.eqb_spec (0x11A7 + Z.of_N i mod 28) 0x11A7); try lia; reflexivity.
Qed.
Lemma hdecomp_one s c : c < 0x100000000 -> hdecomp_conv s (udatum c) = (s, NEXTPHASE, map udatum (dec1 c)).
Proof.
  intros Hc. unfold hdecomp_conv, udatum at 1. destruct (udatum_value c Hc) as (-> & _). destruct (idiff_in c SBase 11172 Hc ltac:(reflexivity) ltac:(lia)) as (E & _).
  change SCount with (Z.of_N 11172). rewrite E. change ((SBase <=? c) && (c <? SBase + 11172)) with (isS c). unfold dec1. destruct (isS c) eqn:ES; [|reflexivity].
  rewrite dh_syl by assumption. reflexivity.
Qed.
Lemma hdecomp_feed : forall cs pend, Forall (fun c => c < 0x100000000) cs -> cs <> [] \/ pend = false ->
  star_feed HANGUL_DECOMPOSITION tt pend (map udatum cs) = Some (tt, false, map udatum (flat_map dec1 cs)).
Proof.
  induction cs as [|c cs IH]; intros pend HF H; [destruct H as [H| ->]; [contradiction|reflexivity]|]. inversion HF as [|? ? Hc HF']; subst.
  cbn [star_feed map]. unfold star_one. change (st_conv HANGUL_DECOMPOSITION) with hdecomp_conv. rewrite hdecomp_one by assumption. rewrite IH by auto. cbn [flat_map]. rewrite map_app. reflexivity.
Qed.

(** ** Composition *)
(** The module as a function: what is pending (0 none, 1 a leading consonant, 2 a syllable without final consonant). *)
Fixpoint comp (st : nat) (p : N) (cs : list N) : list N :=
  match st, cs with
  | O, [] => []
  | O, c :: r => if isL c then comp 1 c r else c :: comp 0 0 r
  | _, [] => [p]
  | 1%nat, c :: r => if isV c then comp 2 (syllable (p - 0x1100) (c - 0x1161) 0) r else p :: (if isL c then comp 1 c r else c :: comp 0 0 r)
  | _, c :: r => if isT c then p + (c - 0x11A7) :: comp 0 0 r else p :: (if isL c then comp 1 c r else c :: comp 0 0 r)
  end.
Definition hstate (st : nat) (p : N) (r : hcomp) : Prop :=
  match st with
  | O => hc_status r = 0
  | 1%nat => r = mkHc 1 p /\ isL p = true
  | _ => r = mkHc 2 p /\ exists l v, l < 19 /\ v < 21 /\ p = syllable l v 0
  end.
Lemma comp0 p cs : comp 0 p cs = comp 0 0 cs. Proof. destruct cs; reflexivity. Qed.
Lemma hflush_st st p r : hstate st p r -> hcomp_flush r = (mkHc 0 (hc_pending r), match st with O => [] | _ => [udatum p] end).
Proof.
  destruct st as [|[|st]]; cbn.
  - intros H. unfold hcomp_flush. rewrite H. cbn. destruct r; cbn in *. subst. reflexivity.
  - intros (-> & H). unfold hcomp_flush. cbn. unfold isL in H. rewrite emit_ucs_udatum by lia. reflexivity.
  - intros (-> & l & v & Hl & Hv & ->). unfold hcomp_flush. cbn [hc_status hc_pending N.eqb]. unfold syllable. rewrite emit_ucs_udatum by lia. reflexivity.
Qed.
Lemma hrestart st p r c : hstate (S st) p r -> c < 0x100000000 ->
  if isL c then hcomp_restart r c (udatum c) = (mkHc 1 c, SUBMATCH, [udatum p])
  else exists r', hcomp_restart r c (udatum c) = (r', NEXTPHASE, [udatum p; udatum c]) /\ hstate 0 0 r'.
Proof.
  intros H Hc. unfold hcomp_restart. rewrite (hflush_st (S st) p r H). destruct (idiff_in c LBase 19 Hc ltac:(reflexivity) ltac:(lia)) as (E & _). change LCount with (Z.of_N 19). rewrite E.
  change ((LBase <=? c) && (c <? LBase + 19)) with (isL c). destruct (isL c); [reflexivity|]. eexists. split; reflexivity.
Qed.
(** One character. *)
Lemma hstep st p r c : hstate st p r -> c < 0x100000000 -> exists r' st' p' o pend',
  star_one HANGUL_COMPOSITION r (match st with O => false | _ => true end) (udatum c) = Some (r', pend', map udatum o) /\
  hstate st' p' r' /\ pend' = match st' with O => false | _ => true end /\ forall cs, comp st p (c :: cs) = o ++ comp st' p' cs.
Proof.
  intros H Hc. unfold star_one. change (st_conv HANGUL_COMPOSITION) with hcomp_conv.
  assert (Hu : u32_of (be_bytes c) = c) by (apply udatum_value; assumption).
  assert (Hcv : hcomp_conv r (udatum c) =
      match hc_status r with
      | 0 => if in_range (idiff c LBase) LCount then (mkHc 1 c, SUBMATCH, []) else (r, DEADEND, [])
      | 1 =>
          let LIndex := idiff (hc_pending r) LBase in
          let VIndex := idiff c VBase in
          if in_range VIndex VCount then
            let pending := Z.to_N ((Z.of_N SBase + (LIndex * VCount + VIndex) * TCount) mod 0x100000000)%Z in
            let SIndex := idiff pending SBase in
            if in_range SIndex SCount && (Z.rem SIndex TCount =? 0)%Z then (mkHc 2 pending, SUBMATCH, [])
            else hcomp_restart (mkHc 1 pending) c (udatum c)
          else hcomp_restart r c (udatum c)
      | 2 =>
          let TIndex := idiff c TBase in
          if ((0 <? TIndex) && (TIndex <? TCount))%Z then
            let '(r1, o) := hcomp_flush (mkHc 2 (Z.to_N ((Z.of_N (hc_pending r) + TIndex) mod 0x100000000)%Z)) in (r1, NEXTPHASE, o)
          else hcomp_restart r c (udatum c)
      | _ => (r, NOMATCH, [])
      end). { unfold hcomp_conv, udatum at 1. rewrite Hu. reflexivity. }
  destruct st as [|[|st]].
  - cbn in H. rewrite Hcv, H. destruct (idiff_in c LBase 19 Hc ltac:(reflexivity) ltac:(lia)) as (E & _). change LCount with (Z.of_N 19). rewrite E. change ((LBase <=? c) && (c <? LBase + 19)) with (isL c).
    destruct (isL c) eqn:EL.
    + exists (mkHc 1 c), 1%nat, c, [], true. split; [reflexivity|]. split; [cbn; auto|]. split; [reflexivity|]. intros cs. cbn. rewrite EL. reflexivity.
    + exists r, 0%nat, 0, [c], false. split; [reflexivity|]. split; [exact H|]. split; [reflexivity|]. intros cs. cbn. rewrite EL. reflexivity.
  - pose proof H as H0. destruct H as (-> & HL). rewrite Hcv. cbn [hc_status hc_pending]. cbv zeta. clear Hcv.
    destruct (idiff_in c VBase 21 Hc ltac:(reflexivity) ltac:(lia)) as (E & E2). change VCount with (Z.of_N 21) in *. rewrite E.
    change ((VBase <=? c) && (c <? VBase + 21)) with (isV c). destruct (isV c) eqn:EV.
    + unfold isL in HL. unfold isV in EV. destruct (idiff_in p LBase 19 ltac:(lia) ltac:(reflexivity) ltac:(lia)) as (_ & E3). unfold LBase, VBase, SBase in *. rewrite E2, E3 by lia. change TCount with (Z.of_N 28).
      set (q := syllable (p - 0x1100) (c - 0x1161) 0). assert (Hq : q < 0x100000000) by (unfold q, syllable; lia).
      replace (Z.to_N ((Z.of_N 0xAC00 + (Z.of_N (p - 0x1100) * Z.of_N 21 + Z.of_N (c - 0x1161)) * Z.of_N 28) mod 0x100000000)) with q by (unfold q, syllable; lia).
      destruct (idiff_in q 0xAC00 11172 Hq ltac:(reflexivity) ltac:(lia)) as (E4 & E5). change SCount with (Z.of_N 11172). rewrite E4, E5 by (unfold q, syllable; lia).
      replace ((0xAC00 <=? q) && (q <? 0xAC00 + 11172)) with true by (unfold q, syllable; lia).
      replace (Z.rem (Z.of_N (q - 0xAC00)) (Z.of_N 28) =? 0)%Z with true by (unfold q, syllable; lia). cbn [andb].
      exists (mkHc 2 q), 2%nat, q, [], true. split; [reflexivity|]. split; [cbn; split; [reflexivity|]; exists (p - 0x1100), (c - 0x1161); unfold q; repeat split; lia|]. split; [reflexivity|].
      intros cs. cbn [comp app]. unfold isV. rewrite EV. reflexivity.
    + pose proof (hrestart 0 p (mkHc 1 p) c H0 Hc) as HR. destruct (isL c) eqn:EL.
      * rewrite HR. exists (mkHc 1 c), 1%nat, c, [p], true. split; [reflexivity|]. split; [cbn; auto|]. split; [reflexivity|]. intros cs. cbn. rewrite EV, EL. reflexivity.
      * destruct HR as (r' & -> & Hr'). exists r', 0%nat, 0, [p; c], false. split; [reflexivity|]. split; [exact Hr'|]. split; [reflexivity|]. intros cs. cbn. rewrite EV, EL. reflexivity.
  - pose proof H as H0. destruct H as (-> & l & v & Hl & Hv & Hp). rewrite Hcv. cbn [hc_status hc_pending]. cbv zeta. clear Hcv.
    assert (Eh : hstate 2 p (mkHc 2 p)) by exact H0.
    destruct (idiff_in c TBase 28 Hc ltac:(reflexivity) ltac:(lia)) as (E & E2). change TCount with (Z.of_N 28) in *. unfold TBase in *.
    destruct (isT c) eqn:ET.
    + unfold isT in ET. rewrite E2 by lia. replace ((0 <? Z.of_N (c - 0x11A7)) && (Z.of_N (c - 0x11A7) <? Z.of_N 28))%Z with true by lia.
      replace (Z.to_N ((Z.of_N p + Z.of_N (c - 0x11A7)) mod 0x100000000)) with (p + (c - 0x11A7)) by (unfold syllable in Hp; lia).
      unfold hcomp_flush. cbn [hc_status hc_pending N.eqb]. rewrite emit_ucs_udatum by (unfold syllable in Hp; lia).
      eexists _, 0%nat, 0, [p + (c - 0x11A7)], false. split; [reflexivity|]. split; [reflexivity|]. split; [reflexivity|]. intros cs. cbn [comp app]. unfold isT. rewrite ET. reflexivity.
    + replace ((0 <? idiff c 0x11A7) && (idiff c 0x11A7 <? Z.of_N 28))%Z with false.
      2:{ unfold in_range in E. unfold isT in ET. destruct (N.eq_dec c 0x11A7) as [->|]; [reflexivity|].
          destruct (Z.ltb_spec 0 (idiff c 0x11A7)); [|reflexivity]. destruct (Z.leb_spec 0 (idiff c 0x11A7)); [|lia]. cbn [andb] in *. rewrite E. lia. }
      pose proof (hrestart 1 p (mkHc 2 p) c H0 Hc) as HR. destruct (isL c) eqn:EL.
      * rewrite HR. exists (mkHc 1 c), 1%nat, c, [p], true. split; [reflexivity|]. split; [cbn; auto|]. split; [reflexivity|]. intros cs. cbn. rewrite ET, EL. reflexivity.
      * destruct HR as (r' & -> & Hr'). exists r', 0%nat, 0, [p; c], false. split; [reflexivity|]. split; [exact Hr'|]. split; [reflexivity|]. intros cs. cbn. rewrite ET, EL. reflexivity.
Qed.
Definition busy (st : nat) : bool := match st with O => false | _ => true end.
Lemma hfeed : forall cs st p r, Forall (fun c => c < 0x100000000) cs -> hstate st p r -> exists r' st' p' o,
  star_feed HANGUL_COMPOSITION r (busy st) (map udatum cs) = Some (r', busy st', map udatum o) /\ hstate st' p' r' /\ comp st p cs = o ++ comp st' p' [].
Proof.
  induction cs as [|c cs IH]; intros st p r HF H.
  - exists r, st, p, []. auto.
  - inversion HF as [|? ? Hc HF']; subst. destruct (hstep st p r c H Hc) as (r1 & st1 & p1 & o1 & pend & E1 & H1 & -> & Hcs).
    destruct (IH st1 p1 r1 HF' H1) as (r2 & st2 & p2 & o2 & E2 & H2 & E3). exists r2, st2, p2, (o1 ++ o2).
    split; [|split; [exact H2|rewrite Hcs, E3, app_assoc; reflexivity]].
    cbn [map star_feed]. fold (busy st) in E1. fold (busy st1) in E1. rewrite E1, E2, map_app. reflexivity.
Qed.
Lemma hstream cs r : Forall (fun c => c < 0x100000000) cs -> hc_status r = 0 ->
  exists r', star_stream HANGUL_COMPOSITION r (map udatum cs) = Some (r', map udatum (comp 0 0 cs)) /\ hc_status r' = 0.
Proof.
  intros HF H. destruct (hfeed cs 0 0 r HF H) as (r1 & st & p & o & E & Hs & Ec). unfold star_stream. cbn [busy] in E. rewrite E, Ec.
  destruct st as [|st]; cbn [busy].
  - exists r1. rewrite app_nil_r. split; [reflexivity|exact Hs].
  - change (st_flush HANGUL_COMPOSITION) with hcomp_flush. rewrite (hflush_st _ _ _ Hs). eexists. split; [rewrite map_app; destruct st; reflexivity|reflexivity].
Qed.

(** The relation. *)
Lemma composed_fun : forall n cs, (length cs <= n)%nat -> composed cs (comp 0 0 cs).
Proof.
  induction n as [|n IH]; intros cs Hn; [destruct cs; [constructor|cbn in Hn; lia]|].
  destruct cs as [|c r]; [constructor|]. cbn [length] in Hn. cbn [comp]. destruct (isL c) eqn:EL.
  - destruct r as [|v r]; [cbn; constructor; [intros v r' _ _ E; discriminate|constructor]|]. cbn [length] in Hn. cbn [comp]. destruct (isV v) eqn:EV.
    + unfold isL in EL. unfold isV in EV. set (l' := c - 0x1100). set (v' := v - 0x1161).
      assert (Ec : c = 0x1100 + l') by lia. assert (Ev : v = 0x1161 + v') by lia.
      destruct r as [|t r].
      * cbn [comp]. rewrite Ec, Ev. apply cm_lv; [lia|lia|intros; discriminate|constructor].
      * cbn [length] in Hn. cbn [comp]. destruct (isT t) eqn:ET.
        -- unfold isT in ET. rewrite Ec, Ev. replace (t :: r) with (0x11A7 + (t - 0x11A7) :: r) by (f_equal; lia).
           replace (syllable l' v' 0 + (t - 0x11A7)) with (syllable l' v' (t - 0x11A7)) by (unfold syllable; lia).
           apply cm_lvt; [lia|lia|lia|apply IH; lia].
        -- rewrite Ec, Ev. apply cm_lv; [lia|lia|intros k q Hk E; assert (E' : t = 0x11A7 + k) by congruence; clear E; unfold isT in ET; lia|]. apply (IH (t :: r)). cbn [length]. lia.
    + constructor; [intros k q _ Hk E; assert (E' : v = 0x1161 + k) by congruence; clear E; unfold isV in EV; lia|]. apply (IH (v :: r)). cbn [length]. lia.
  - constructor; [|apply IH; lia]. intros v q HL. apply isL_spec in HL. congruence.
Qed.
Arguments N.add : simpl never.
Lemma composed_comp : forall cs ds, composed cs ds -> ds = comp 0 0 cs.
Proof.
  induction 1 as [|l v t cs ds Hl Hv Ht _ IH|l v cs ds Hl Hv Hn _ IH|c cs ds Hn _ IH].
  - reflexivity.
  - cbn [comp]. replace (isL (0x1100 + l)) with true by (unfold isL; lia). replace (isV (0x1161 + v)) with true by (unfold isV; lia).
    replace (isT (0x11A7 + t)) with true by (unfold isT; lia). rewrite <- IH. f_equal. unfold syllable. lia.
  - cbn [comp]. replace (isL (0x1100 + l)) with true by (unfold isL; lia). replace (isV (0x1161 + v)) with true by (unfold isV; lia).
    replace (syllable (0x1100 + l - 0x1100) (0x1161 + v - 0x1161) 0) with (syllable l v 0) by (f_equal; lia).
    destruct cs as [|x r]; [rewrite IH; reflexivity|]. cbn [comp] in *. destruct (isT x) eqn:ET; [|rewrite IH; reflexivity].
    exfalso. unfold isT in ET. apply (Hn (x - 0x11A7) r); [lia|]. f_equal. lia.
  - cbn [comp]. destruct (isL c) eqn:EL; [|rewrite IH; reflexivity]. destruct cs as [|x r]; [rewrite IH; reflexivity|]. cbn [comp] in *.
    destruct (isV x) eqn:EV; [|rewrite IH; reflexivity]. exfalso. unfold isV in EV. apply (Hn (x - 0x1161) r); [apply isL_spec; assumption|lia|]. f_equal. lia.
Qed.
Lemma composed_det cs ds es : composed cs ds -> composed cs es -> ds = es.
Proof. intros H1 H2. apply composed_comp in H1. apply composed_comp in H2. congruence. Qed.
Lemma syl_not_jamo l v t c : l < 19 -> v < 21 -> t < 28 -> c = syllable l v t -> isL c = false /\ isV c = false /\ isT c = false.
Proof. unfold syllable, isL, isV, isT. lia. Qed.
(** Composing what was decomposed. *)
Lemma comp_decomposed cs ds : decomposed cs ds -> Forall (fun c => ~ vowel c /\ ~ final c) cs -> composed ds cs.
Proof.
  assert (HV : forall c, ~ vowel c -> isV c = false). { intros c Hc. destruct (isV c) eqn:E; [|reflexivity]. exfalso. apply Hc. exists (c - 0x1161). unfold isV in E. lia. }
  assert (HT : forall c, ~ final c -> isT c = false). { intros c Hc. destruct (isT c) eqn:E; [|reflexivity]. exfalso. apply Hc. exists (c - 0x11A7). unfold isT in E. lia. }
  assert (Hhd : forall cs ds, decomposed cs ds -> Forall (fun c => ~ vowel c /\ ~ final c) cs -> match ds with [] => True | c :: _ => isV c = false /\ isT c = false end).
  { intros cs' ds' H HF. destruct H as [|l v t cs' ds' Hl Hv Ht H|c cs' ds' Hc H]; [exact I|cbn; unfold isV, isT; lia|]. inversion HF as [|? ? (H1 & H2) _]; subst. auto. }
  induction 1 as [|l v t cs ds Hl Hv Ht H IH|c cs ds Hc H IH]; intros HF; [constructor| |]; inversion HF as [|? ? (H1 & H2) HF']; subst; specialize (IH HF'); pose proof (Hhd cs ds H HF') as Hh.
  - unfold jamo. destruct (N.eqb_spec t 0) as [->|Hz]; cbn [app].
    + apply cm_lv; auto. intros t r Ht' ->. destruct Hh as (_ & Hh). unfold isT in Hh. lia.
    + apply cm_lvt; auto. lia.
  - constructor; [|assumption]. intros v r _ Hv' ->. destruct Hh as (Hh & _). unfold isV in Hh. lia.
Qed.
(** Decomposing what was composed. *)
Lemma dec_composed cs ds : composed cs ds -> flat_map dec1 ds = flat_map dec1 cs.
Proof.
  assert (HN : forall c, c < 0xAC00 -> dec1 c = [c]). { intros c Hc. unfold dec1. destruct (isS c) eqn:E; [unfold isS in E; lia|reflexivity]. }
  assert (HS : forall l v t, l < 19 -> v < 21 -> t < 28 -> dec1 (syllable l v t) = jamo l v t).
  { intros l v t Hl Hv Ht. unfold dec1. rewrite jamos_syl by assumption. replace (isS (syllable l v t)) with true; [reflexivity|]. unfold isS, syllable. lia. }
  induction 1 as [|l v t cs ds Hl Hv Ht _ IH|l v cs ds Hl Hv Hn _ IH|c cs ds Hn _ IH]; [reflexivity| | |]; cbn [flat_map]; rewrite IH.
  - rewrite HS, !HN by lia. unfold jamo. destruct (N.eqb_spec t 0); [lia|]. reflexivity.
  - rewrite HS, !HN by lia. reflexivity.
  - reflexivity.
Qed.

(** ** Ordering *)
Lemma ccc_bounds : ascending (map (fun r => (f3 r, l3 r)) ccc_table).
Proof. apply asc_b_ok. vm_compute. reflexivity. Qed.
Lemma find_in {A} (f : A -> bool) l : match find f l with Some x => In x l /\ f x = true | None => forall x, In x l -> f x = false end.
Proof. destruct (find f l) eqn:E; [apply List.find_some; assumption|]. intros x Hx. eapply List.find_none; eassumption. Qed.
Lemma ccc_of_spec d : okbytes d -> ccc_of d = ccc d.
Proof.
  intros Hd. destruct (hd1_cases d) as [(l & ->)|H].
  - inversion Hd as [|? ? _ Hl]; subst. unfold ccc_of, ccc. rewrite u32_value by assumption. set (c := be_value l mod 0x100000000).
    destruct (find_spec f3 l3 ccc_table c ccc_bounds ltac:(discriminate)) as (o & -> & Hs).
    pose proof (find_in (fun r : N * N * N => (fst (fst r) <=? c) && (c <=? snd (fst r))) ccc_table) as Hf.
    destruct (find _ ccc_table) as [r|]; destruct o as [r'|].
    + destruct Hf as (Hi & Hc). destruct Hs as (Hi' & Hc'). assert (E : r' = r). { apply (asc_unique f3 l3 ccc_table c); try assumption; [exact ccc_bounds|unfold f3, l3; lia]. } rewrite E. reflexivity.
    + destruct Hf as (Hi & Hc). exfalso. apply (Hs r Hi). unfold f3, l3. lia.
    + destruct Hs as (Hi & Hc). specialize (Hf r' Hi). unfold f3, l3 in Hc. lia.
    + reflexivity.
  - destruct d as [|b l]; [reflexivity|]. cbn in H. unfold ccc_of, ccc. destruct b as [|[p|p|]]; try reflexivity. congruence.
Qed.

(** The list of pending marks is the stable sort of the marks read. *)
Definition keyed (l : list (N * datum)) : Prop := Forall (fun x => fst x = ccc (snd x)) l.
Lemma back_spec c d : c = ccc d -> forall l, keyed l -> StronglySorted (fun a b => ccc b <= ccc a) (map snd l) ->
  keyed (order_back c d l) /\ Permutation (d :: map snd l) (map snd (order_back c d l)) /\ StronglySorted (fun a b => ccc b <= ccc a) (map snd (order_back c d l)) /\
  forall k, filter (fun x => ccc x =? k) (map snd (order_back c d l)) = filter (fun x => ccc x =? k) (d :: map snd l).
Proof.
  intros Hc. induction l as [|[c' d'] l IH]; intros HK HS.
  - cbn. repeat split; auto; repeat constructor; auto.
  - inversion HK as [|? ? E HK']; subst. cbn in E. subst c'. cbn [map snd] in HS. inversion HS as [|? ? HS' HF]; subst. cbn [order_back]. destruct (N.ltb_spec (ccc d) (ccc d')) as [Hlt|Hge].
    + destruct (IH HK' HS') as (I1 & I2 & I3 & I4). cbn [map snd]. split; [constructor; auto|]. split; [|split].
      * rewrite perm_swap. constructor. exact I2.
      * constructor; [exact I3|]. apply (Permutation_Forall I2). constructor; [lia|exact HF].
      * intros k. cbn [filter]. rewrite I4. cbn [filter]. destruct (N.eqb_spec (ccc d') k), (N.eqb_spec (ccc d) k); try reflexivity. lia.
    + cbn [map snd]. split; [constructor; [reflexivity|exact HK]|]. split; [reflexivity|]. split; [|reflexivity].
      constructor; [constructor; [exact HS'|exact HF]|]. constructor; [exact Hge|]. eapply Forall_impl; [|exact HF]. intros a Ha. cbn in Ha. lia.
Qed.
Lemma sorted_rev {A} (R : A -> A -> Prop) : forall l, StronglySorted R l -> StronglySorted (fun a b => R b a) (rev l).
Proof.
  assert (G : forall l x, StronglySorted (fun a b => R b a) l -> Forall (fun y => R x y) l -> StronglySorted (fun a b => R b a) (l ++ [x])).
  { induction l as [|y l IH]; intros x HS HF; cbn; [repeat constructor|]. inversion HS; subst. inversion HF; subst. constructor; [apply IH; assumption|].
    apply Forall_app. split; [assumption|]. repeat constructor. assumption. }
  induction l as [|x l IH]; intros H; [constructor|]. inversion H as [|? ? H1 H2]; subst. cbn [rev]. apply G; [auto|]. apply Forall_rev. exact H2.
Qed.
Lemma filter_rev {A} (f : A -> bool) l : filter f (rev l) = rev (filter f l).
Proof. induction l as [|x l IH]; [reflexivity|]. cbn. rewrite filter_app, IH. cbn. destruct (f x); [reflexivity|apply app_nil_r]. Qed.
Lemma insert_spec d l ms : keyed l -> stably_sorted ms (map snd l) -> keyed (order_insert (ccc d) d l) /\ stably_sorted (ms ++ [d]) (map snd (order_insert (ccc d) d l)).
Proof.
  intros HK (HP & HS & HF). unfold order_insert. destruct (back_spec (ccc d) d eq_refl (rev l)) as (I1 & I2 & I3 & I4).
  - apply Forall_rev. exact HK.
  - rewrite map_rev. apply (sorted_rev (fun a b => ccc a <= ccc b)). exact HS.
  - split; [apply Forall_rev; exact I1|]. rewrite map_rev. split; [|split].
    + rewrite <- Permutation_rev, <- I2, map_rev, <- Permutation_rev, <- HP. apply Permutation_app_comm.
    + apply (sorted_rev (fun a b => ccc b <= ccc a)). exact I3.
    + intros k. rewrite filter_rev, I4, filter_app, <- HF. cbn [filter]. rewrite map_rev, filter_rev. destruct (ccc d =? k); cbn [rev].
      * rewrite rev_involutive. reflexivity.
      * rewrite rev_involutive, app_nil_r. reflexivity.
Qed.
Lemma reordered_front ms ns ds os : Forall (fun d => ccc d <> 0) ms -> stably_sorted ms ns -> (exists d r r', ccc d = 0 /\ ds = d :: r /\ os = d :: r' /\ reordered r r') \/ (ds = [] /\ os = []) ->
  reordered (ms ++ ds) (ns ++ os).
Proof. intros H1 H2 [(d & r & r' & Hd & -> & -> & H)|(-> & ->)]; [constructor; assumption|rewrite !app_nil_r; constructor; assumption]. Qed.
Lemma order_feed : forall ds l ms, Forall okbytes ds -> keyed l -> Forall (fun d => ccc d <> 0) ms -> stably_sorted ms (map snd l) ->
  exists l' o, star_feed ORDER l (match ms with [] => false | _ => true end) ds = Some (l', match l' with [] => false | _ => true end, o) /\ reordered (ms ++ ds) (o ++ map snd l').
Proof.
  induction ds as [|d ds IH]; intros l ms HB HK HM HSt.
  - exists l, []. split; [|rewrite app_nil_r; constructor; assumption]. cbn. destruct HSt as (HP & _ & _). destruct ms as [|m ms]; destruct l as [|x l]; cbn in *; try reflexivity.
    + apply Permutation_nil in HP. discriminate.
    + apply Permutation_sym, Permutation_nil in HP. discriminate.
  - inversion HB as [|? ? Hd HB']; subst. cbn [star_feed]. unfold star_one. change (st_conv ORDER) with order_conv. unfold order_conv. rewrite ccc_of_spec by assumption.
    destruct (N.eqb_spec (ccc d) 0) as [Hz|Hnz].
    + destruct (IH [] [] HB') as (l' & o & E & HR); [constructor|constructor|repeat split; constructor|]. cbn [app] in HR. rewrite E. exists l', ((map snd l ++ [d]) ++ o). split; [reflexivity|].
      rewrite <- !app_assoc. cbn [app]. apply ro_starter; assumption.
    + destruct (insert_spec d l ms HK HSt) as (HK' & HS'). destruct (IH _ (ms ++ [d]) HB' HK') as (l' & o & E & HR); [apply Forall_app; auto|exact HS'|].
      replace (match ms ++ [d] with [] => false | _ :: _ => true end) with true in E by (destruct ms; reflexivity). rewrite E. exists l', o. split; [reflexivity|].
      rewrite <- app_assoc in HR. exact HR.
Qed.
(** Stable sorting determines the result. *)
Lemma sorted_unique : forall a b, StronglySorted (fun x y => ccc x <= ccc y) a -> StronglySorted (fun x y => ccc x <= ccc y) b ->
  (forall k, filter (fun d => ccc d =? k) a = filter (fun d => ccc d =? k) b) -> a = b.
Proof.
  induction a as [|x a IH]; intros b Ha Hb Hf.
  - destruct b as [|y b]; [reflexivity|]. specialize (Hf (ccc y)). cbn in Hf. rewrite N.eqb_refl in Hf. discriminate.
  - destruct b as [|y b]; [specialize (Hf (ccc x)); cbn in Hf; rewrite N.eqb_refl in Hf; discriminate|].
    inversion Ha as [|? ? Ha' HaF]; subst. inversion Hb as [|? ? Hb' HbF]; subst.
    assert (Exy : ccc x = ccc y).
    { assert (Hle : forall x a y b, (forall k, filter (fun d => ccc d =? k) (x :: a) = filter (fun d => ccc d =? k) (y :: b)) -> Forall (fun z => ccc y <= ccc z) b -> ccc y <= ccc x).
      { clear. intros x a y b Hf HF. assert (Hin : In x (filter (fun d => ccc d =? ccc x) (y :: b))) by (rewrite <- Hf; cbn; rewrite N.eqb_refl; left; reflexivity).
        apply filter_In in Hin as ([->|Hin] & _); [lia|]. rewrite Forall_forall in HF. apply HF. exact Hin. }
      apply N.le_antisymm; [eapply Hle; [symmetry; apply Hf|exact HaF]|eapply Hle; [exact Hf|exact HbF]]. }
    pose proof (Hf (ccc x)) as H0. cbn in H0. rewrite Exy, N.eqb_refl in H0. injection H0 as -> H0. f_equal. apply IH; auto.
    intros k. specialize (Hf k). cbn in Hf. destruct (ccc y =? k); [injection Hf as Hf|]; exact Hf.
Qed.
Lemma stably_det ms ns ns' : stably_sorted ms ns -> stably_sorted ms ns' -> ns = ns'.
Proof. intros (_ & S1 & F1) (_ & S2 & F2). apply sorted_unique; auto. intros k. rewrite F1, F2. reflexivity. Qed.
Lemma split_marks : forall ms d ds ms' d' ds', Forall (fun d => ccc d <> 0) ms -> Forall (fun d => ccc d <> 0) ms' -> ccc d = 0 -> ccc d' = 0 ->
  ms ++ d :: ds = ms' ++ d' :: ds' -> ms = ms' /\ d = d' /\ ds = ds'.
Proof.
  induction ms as [|m ms IH]; intros d ds ms' d' ds' H1 H2 H3 H4 E; destruct ms' as [|m' ms']; cbn in E; injection E as E1 E2.
  - auto.
  - inversion H2; subst. contradiction.
  - inversion H1; subst. contradiction.
  - subst m'. inversion H1; subst. inversion H2; subst. destruct (IH d ds ms' d' ds') as (-> & -> & ->); auto.
Qed.
Lemma reordered_det : forall ds os, reordered ds os -> forall os', reordered ds os' -> os = os'.
Proof.
  induction 1 as [ms ns H1 H2|ms ns d ds os H1 H2 H3 _ IH]; intros os' HR.
  - inversion HR as [ms' ns' G1 G2|ms' ns' d' ds' os2 G1 G2 G3 G4 E]; subst; [eapply stably_det; eassumption|].
    exfalso. apply Forall_app in H1 as (_ & H1). inversion H1; subst. contradiction.
  - inversion HR as [ms' ns' G1 G2 E|ms' ns' d' ds' os2 G1 G2 G3 G4 E]; subst.
    + exfalso. apply Forall_app in G1 as (_ & G1). inversion G1; subst. contradiction.
    + destruct (split_marks _ _ _ _ _ _ G1 H1 G3 H3 E) as (-> & -> & ->). f_equal; [eapply stably_det; eassumption|]. f_equal. apply IH. exact G4.
Qed.
(** Sorting twice changes nothing. *)
Lemma reordered_perm ds os : reordered ds os -> Permutation ds os.
Proof. induction 1 as [ms ns _ (H & _)|ms ns d ds os _ (H & _) _ _ IH]; [exact H|]. apply Permutation_app; [exact H|]. constructor. exact IH. Qed.
Lemma reordered_idem ds os : reordered ds os -> reordered os os.
Proof.
  assert (G : forall ms ns, Forall (fun d => ccc d <> 0) ms -> stably_sorted ms ns -> Forall (fun d => ccc d <> 0) ns /\ stably_sorted ns ns).
  { intros ms ns H (HP & HS & HF). split; [eapply Permutation_Forall; eassumption|]. repeat split; auto. }
  induction 1 as [ms ns H1 H2|ms ns d ds os H1 H2 H3 _ IH]; destruct (G _ _ H1 H2); constructor; assumption.
Qed.

(** C67: SCORE-TRAIN and SCORE#WITH=TRAINED: the file of trained scores. *)
From Verif Require Import Base Types M_Engine M_Output M_Create M_Callback M_UTF8 M_UTF16 M_Modules M_Bsearch M_Star M_Inter M_Stars M_Train S_Session S_Unicode S_Ranges S_Inter S_Norm S_Flow S_Train P_Inter P_Norm P_Flow P_Flow2 P_Flow3 P_Flow4 P_Flow5 T_Inter T_Unicode S_Transcode T_Flow.
From Coq Require Import ZifyBool ZifyN ZifyNat.
Local Open Scope N_scope.

(** ** The file *)
Lemma get_score f i : match file_get f i with Some v => v | None => 0 end = score_in f i.
Proof. unfold file_get, score_in. destruct (nth_error f (N.to_nat i)) as [v|] eqn:E; [symmetry; apply nth_error_nth; exact E|symmetry; apply nth_overflow, nth_error_None; exact E]. Qed.
Lemma put_len f i v : length (file_put f i v) = Nat.max (length f) (S (N.to_nat i)).
Proof. unfold file_put. rewrite app_length, firstn_length, app_length, repeat_length. cbn [length]. rewrite skipn_length. lia. Qed.
Lemma put_score f i v c : score_in (file_put f i v) c = if c =? i then v else score_in f c.
Proof.
  unfold score_in, file_put. set (k := N.to_nat i). set (g := f ++ repeat 0 (k - length f)). assert (Lg : (k <= length g)%nat) by (unfold g; rewrite app_length, repeat_length; lia).
  assert (Lf : length (firstn k g) = k) by (rewrite firstn_length; lia).
  assert (Hg : forall j, nth j g 0 = nth j f 0).
  { intros j. unfold g. destruct (Nat.lt_ge_cases j (length f)); [apply app_nth1; assumption|]. rewrite app_nth2 by assumption. rewrite (nth_overflow f) by assumption. destruct (Nat.lt_ge_cases (j - length f) (k - length f)); [apply nth_repeat|apply nth_overflow; rewrite repeat_length; assumption]. }
  destruct (N.eqb_spec c i) as [->|Hne].
  - fold k. rewrite app_nth2 by lia. rewrite Lf, Nat.sub_diag. reflexivity.
  - set (j := N.to_nat c). assert (Hj : j <> k) by (unfold j, k; lia). destruct (Nat.lt_ge_cases j k) as [H|H].
    + rewrite app_nth1 by lia. rewrite <- (Hg j). rewrite <- (firstn_skipn k g) at 2. rewrite app_nth1 by lia. reflexivity.
    + rewrite app_nth2 by lia. rewrite Lf. replace (j - k)%nat with (S (j - S k)) by lia. cbn [nth]. rewrite <- (firstn_skipn (S k) f) at 2. destruct (Nat.lt_ge_cases k (length f)) as [H1|H1].
      * rewrite app_nth2; rewrite firstn_length; [|lia]. f_equal. lia.
      * rewrite (skipn_all2 f) by lia. rewrite app_nil_r, firstn_all2 by lia. rewrite (nth_overflow f) by lia. destruct (j - S k)%nat; reflexivity.
Qed.
(** ** Reading a text *)
Lemma occurs_app c a b : occurs c (a ++ b) = occurs c a + occurs c b.
Proof. induction a as [|x a IH]; [reflexivity|]. cbn [app occurs]. rewrite IH. lia. Qed.
Lemma occurs_in c l : occurs c l = 0 <-> ~ In c l.
Proof.
  induction l as [|x l IH]; [split; [intros _ []|reflexivity]|]. cbn [occurs In]. destruct (N.eqb_spec x c) as [->|H]; [split; [lia|intros K; exfalso; apply K; auto]|].
  rewrite N.add_0_l, IH. split; [intros K [E|E]; auto|auto].
Qed.
Lemma be32_listed c : c < 0x100000000 -> be32 c = listed c.
Proof.
  intros H. unfold be32, listed. change 255 with (N.ones 8). rewrite !N.land_ones, !N.shiftr_div_pow2. change (2 ^ 24) with 0x1000000. change (2 ^ 16) with 0x10000. change (2 ^ 8) with 0x100.
  rewrite (N.mod_small (c / 0x1000000) 0x100); [reflexivity|]. apply N.div_lt_upper_bound; lia.
Qed.
Lemma train_one s c : c < 0x100000000 -> train_conv s (udatum c) =
  (mkTrain (if score_in (tr_file s) c <? 3 then file_put (tr_file s) c (score_in (tr_file s) c + 1) else tr_file s)
           (match tr_list s with Some w => if score_in (tr_file s) c =? 0 then Some (w ++ be32 c) else Some w | None => None end), NEXTPHASE, [udatum c]).
Proof. intros Hc. unfold train_conv, udatum. destruct (udatum_value c Hc) as (E & _). rewrite E, get_score. reflexivity. Qed.
Lemma train_runs f lst cps : Forall (fun c => c < 0x100000000) cps -> exists f' ms, trained_on f cps f' /\ newly_met f cps ms /\
  star_feed SCORE_TRAIN (mkTrain f lst) false (map udatum cps) = Some (mkTrain f' (option_map (fun w => w ++ flat_map listed ms) lst), false, map udatum cps).
Proof.
  assert (HA : forall a b s s1 o1 s2 o2, star_feed SCORE_TRAIN s false a = Some (s1, false, o1) -> star_feed SCORE_TRAIN s1 false b = Some (s2, false, o2) -> star_feed SCORE_TRAIN s false (a ++ b) = Some (s2, false, o1 ++ o2)).
  { induction a as [|d a IH]; intros b s s1 o1 s2 o2 H1 H2; [injection H1 as -> <-; exact H2|]. cbn [app star_feed] in *. assert (HO : exists q, star_one SCORE_TRAIN s false d = Some (q, false, [d])).
    { unfold star_one. cbn [SCORE_TRAIN st_conv]. unfold train_conv. destruct d as [|[|[p|p|]] l]; eexists; reflexivity. }
    destruct HO as (q & EO). rewrite EO in *. destruct (star_feed SCORE_TRAIN q false a) as [[[q1 p1] o]|] eqn:E; [|discriminate]. injection H1 as -> -> <-. rewrite (IH b q s1 o s2 o2 E H2). reflexivity. }
  induction cps as [|x cps IH] using rev_ind; intros HC.
  - exists f, []. split; [|split; [constructor|]].
    + split; [|split; [lia|split; [intros c []|left; reflexivity]]]. intros c. cbn [occurs]. destruct (N.ltb_spec (score_in f c) 3); lia.
    + cbn. destruct lst as [w|]; cbn; rewrite ?app_nil_r; reflexivity.
  - apply Forall_app in HC as (HC & HX). inversion HX as [|? ? Hx _]; subst. destruct (IH HC) as (f1 & ms & (T1 & T2 & T3 & T4) & HN & HR). pose proof (T1 x) as Tx.
    assert (HZ : score_in f1 x = 0 <-> score_in f x = 0 /\ ~ In x cps). { rewrite <- occurs_in, Tx. destruct (N.ltb_spec (score_in f x) 3); lia. }
    exists (if score_in f1 x <? 3 then file_put f1 x (score_in f1 x + 1) else f1), (if score_in f1 x =? 0 then ms ++ [x] else ms). split; [split; [|split; [|split]]|split].
    + intros c. rewrite occurs_app. cbn [occurs]. rewrite N.add_0_r. specialize (T1 c). destruct (N.ltb_spec (score_in f1 x) 3) as [H|H].
      * rewrite put_score. destruct (N.eqb_spec c x) as [->|Hne]; [rewrite N.eqb_refl; destruct (N.ltb_spec (score_in f x) 3); lia|]. replace (x =? c) with false by lia. rewrite N.add_0_r. exact T1.
      * destruct (N.eqb_spec x c) as [->|Hne]; [|rewrite N.add_0_r; exact T1]. destruct (N.ltb_spec (score_in f c) 3); lia.
    + destruct (score_in f1 x <? 3); [rewrite put_len; lia|lia].
    + intros c Hc Hs. apply in_app_or in Hc as [Hc|[<-|[]]].
      * specialize (T3 c Hc Hs). destruct (score_in f1 x <? 3); [rewrite put_len; lia|lia].
      * destruct (N.ltb_spec (score_in f1 x) 3) as [H|H]; [rewrite put_len; lia|]. destruct (N.lt_ge_cases x (N.of_nat (length f1))) as [H1|H1]; [exact H1|]. unfold score_in in H. rewrite nth_overflow in H by lia. lia.
    + destruct (N.ltb_spec (score_in f1 x) 3) as [H|H].
      * rewrite put_len. destruct (Nat.le_gt_cases (S (N.to_nat x)) (length f1)) as [H1|H1].
        -- rewrite Nat.max_l by lia. destruct T4 as [T4|(c & T4 & T5)]; [left; exact T4|right; exists c; split; [apply in_or_app; auto|exact T5]].
        -- right. exists x. split; [apply in_or_app; right; left; reflexivity|lia].
      * destruct T4 as [T4|(c & T4 & T5)]; [left; exact T4|right; exists c; split; [apply in_or_app; auto|exact T5]].
    + destruct (N.eqb_spec (score_in f1 x) 0) as [E|E]; [apply HZ in E as (E1 & E2); apply nm_one; assumption|]. apply nm_old; [exact HN|]. destruct (N.eq_dec (score_in f x) 0) as [E1|E1]; [|left; exact E1]. right. destruct (in_dec N.eq_dec x cps) as [H|H]; [exact H|]. exfalso. apply E, HZ. auto.
    + rewrite map_app. apply (HA _ _ _ _ _ _ _ HR). cbn [map star_feed]. unfold star_one. cbn [SCORE_TRAIN st_conv]. rewrite train_one by exact Hx. rewrite (be32_listed x Hx). cbn [tr_file tr_list app]. f_equal. f_equal. f_equal. f_equal.
      destruct lst as [w|]; [|reflexivity]. cbn [option_map]. destruct (score_in f1 x =? 0); [|reflexivity]. rewrite flat_map_app. cbn [flat_map]. rewrite app_nil_r, app_assoc. reflexivity.
Qed.
(** The text passes unchanged, its characters' numbers go up, and the list gets those met for the first time. *)
Theorem C67_train : forall f lst cps, Forall (fun c => c < 0x100000000) cps -> exists f' ms, trained_on f cps f' /\ newly_met f cps ms /\
  star_stream SCORE_TRAIN (mkTrain f lst) (map udatum cps) = Some (mkTrain f' (option_map (fun w => w ++ flat_map listed ms) lst), map udatum cps).
Proof. intros f lst cps HC. destruct (train_runs f lst cps HC) as (f' & ms & H1 & H2 & H3). exists f', ms. split; [exact H1|]. split; [exact H2|]. apply stream_of. exact H3. Qed.
(** Both results are determined. *)
Theorem C67_trained_unique : forall f cps f1 f2, trained_on f cps f1 -> trained_on f cps f2 -> f1 = f2.
Proof.
  assert (HL : forall f cps f1 f2, trained_on f cps f1 -> trained_on f cps f2 -> (length f1 <= length f2)%nat).
  { intros f cps f1 f2 (A1 & A2 & A3 & A4) (B1 & B2 & B3 & B4). destruct A4 as [->|(c & Hc & E)]; [exact B2|]. destruct (N.lt_ge_cases (score_in f c) 3) as [H|H]; [specialize (B3 c Hc H); lia|].
    destruct (N.lt_ge_cases c (N.of_nat (length f))) as [H1|H1]; [lia|]. unfold score_in in H. rewrite nth_overflow in H by lia. lia. }
  intros f cps f1 f2 HA HB. assert (EL : length f1 = length f2) by (apply Nat.le_antisymm; eauto). apply (nth_ext _ _ 0 0 EL). intros n _.
  destruct HA as (A1 & _). destruct HB as (B1 & _). specialize (A1 (N.of_nat n)). specialize (B1 (N.of_nat n)). rewrite <- B1 in A1. unfold score_in in A1. rewrite Nat2N.id in A1. exact A1.
Qed.
Theorem C67_newly_unique : forall f cps m1, newly_met f cps m1 -> forall m2, newly_met f cps m2 -> m1 = m2.
Proof.
  intros f cps m1. induction 1 as [|cps c ms H IH H0 Hn|cps c ms H IH Ho]; intros m2 H2; inversion H2 as [E1 E2|cps' c' ms' K1 K2 K3 E1 E2|cps' c' ms' K1 K2 E1 E2]; subst; try reflexivity;
    try (destruct cps; discriminate); try (destruct cps'; discriminate); apply app_inj_tail in E1 as (-> & ->).
  - rewrite (IH _ K1). reflexivity.
  - destruct K2; contradiction.
  - destruct Ho; contradiction.
  - exact (IH _ K1).
Qed.

(** ** In a conversion *)
Lemma train_good g : good_star SCORE_TRAIN None g (fun _ => True).
Proof.
  constructor; auto; intros; cbn; [|split; [exact I|constructor]]. unfold train_conv. destruct d as [|[|[p|p|]] l]; (constructor; [assumption|constructor]).
Qed.
Lemma put_get s : get_train (put_train s) = Some s. Proof. destruct s; reflexivity. Qed.
Lemma reads_u32 src c : reads src c -> c < 0x100000000. Proof. destruct src; cbn; unfold scalar; lia. Qed.
Theorem C67_train_conversion : forall src dst t8 t16 g s l cps f lst, strict_utf8 t8 -> fresh (via src [train_mod g] dst t8 t16) s -> module_state s 2 (put_train (mkTrain f lst)) ->
  chunks l (flat_map (encoded src) cps) -> Forall (reads src) cps -> Forall (writes dst) cps ->
  exists s' f' ms, streams_to s l (flat_map (encoded dst) cps) s' /\ trained_on f cps f' /\ newly_met f cps ms /\
    module_state s' 2 (put_train (mkTrain f' (option_map (fun w => w ++ flat_map listed ms) lst))).
Proof.
  intros src dst t8 t16 g s l cps f lst Hs HF HM Hc Hr Hw. destruct (C67_train f lst cps) as (f' & ms & H1 & H2 & H3); [eapply Forall_impl; [|exact Hr]; intros c Hx; exact (reads_u32 _ _ Hx)|].
  destruct (via_one put_train get_train SCORE_TRAIN false None g _ put_get (fun _ _ => eq_refl) (train_good g) src dst t8 t16 s Hs l cps _ _ cps HF Hc Hr HM H3 Hw) as (s' & R1 & R2). exists s', f', ms. auto.
Qed.
Theorem C67_train_created : forall src dst t8 t16 f lst, strict_utf8 t8 -> exists s, fresh (via src [train_mod (mkTrain f lst)] dst t8 t16) s /\ module_state s 2 (put_train (mkTrain f lst)).
Proof.
  intros src dst t8 t16 f lst Hs.
  destruct (via_created src dst t8 t16 [(train_mod (mkTrain f lst), JP put_train (fun _ => True))] Hs) as (s & HF & HM); [intros y [<-|[]]; apply star_fst_ok; auto using train_good, put_get|].
  exists s. split; [exact HF|]. exact (HM 0%nat _ eq_refl).
Qed.

(** ** SCORE#WITH=TRAINED *)
Lemma trained_good fp stale g : good_star (SCORE_TRAINED fp stale) None g (fun _ => True).
Proof.
  constructor; auto; intros; cbn [st_conv st_flush SCORE_TRAINED no_flush fst snd].
  all: try (split; [exact I|constructor]).
  all: try (destruct fp as [f|]; try (destruct d as [|[|[p|p|]] l]); cbn; try exact I; try (constructor; [assumption|constructor])).
Qed.
Lemma trained_feed f stale : forall cps n, Forall (fun c => c < N.of_nat (length f) /\ c < 0x100000000) cps ->
  star_feed (SCORE_TRAINED (Some f) stale) n false (map udatum cps) = Some (n + total f cps, false, map udatum cps).
Proof.
  induction cps as [|c cps IH]; intros n HC; [cbn; rewrite N.add_0_r; reflexivity|]. inversion HC as [|? ? (H1 & H2) HC']; subst. cbn [map star_feed]. unfold star_one. cbn [SCORE_TRAINED st_conv]. unfold udatum at 1. destruct (udatum_value c H2) as (E & _). rewrite E.
  assert (EG : file_get f c = Some (score_in f c)). { pose proof (get_score f c) as HG. unfold file_get in *. destruct (nth_error f (N.to_nat c)) as [v|] eqn:En; [subst v; reflexivity|]. apply nth_error_None in En. lia. }
  rewrite EG. rewrite (IH _ HC'). cbn [total app]. rewrite N.add_assoc. reflexivity.
Qed.
(** Text whose characters the file covers: the counter grows by the sum of their numbers, whatever the uninitialised variable holds. *)
Theorem C67_score_conversion : forall src dst t8 t16 f stale n0 s l cps n, strict_utf8 t8 -> fresh (via src [trained_mod (Some f) stale n0] dst t8 t16) s -> module_state s 2 (PNum n) ->
  chunks l (flat_map (encoded src) cps) -> Forall (reads src) cps -> Forall (writes dst) cps -> Forall (fun c => c < N.of_nat (length f)) cps ->
  exists s', streams_to s l (flat_map (encoded dst) cps) s' /\ module_state s' 2 (PNum (n + total f cps)).
Proof.
  intros src dst t8 t16 f stale n0 s l cps n Hs HF HM Hc Hr Hw Hf.
  apply (via_one PNum get_num (SCORE_TRAINED (Some f) stale) false None n0 _ (fun _ => eq_refl) (fun _ _ => eq_refl) (trained_good _ _ _) src dst t8 t16 s Hs l cps n _ cps HF Hc Hr HM); [|exact Hw]. apply stream_of, trained_feed.
  rewrite Forall_forall in *. intros c Hx. split; [apply Hf; exact Hx|exact (reads_u32 _ _ (Hr c Hx))].
Qed.
(** Training with a text prepares the file for that text: it is covered, and every character counts at least one. *)
Theorem C67_train_then_score : forall f cps f', trained_on f cps f' -> Forall (fun c => c < N.of_nat (length f') /\ 1 <= score_in f' c) cps /\ N.of_nat (length cps) <= total f' cps.
Proof.
  intros f cps f' (T1 & T2 & T3 & T4).
  assert (H : Forall (fun c => c < N.of_nat (length f') /\ 1 <= score_in f' c) cps).
  { apply Forall_forall. intros c Hc. specialize (T1 c). assert (HO : occurs c cps <> 0) by (intros E; apply occurs_in in E; contradiction). destruct (N.ltb_spec (score_in f c) 3) as [H|H].
    - split; [apply T3; assumption|lia].
    - split; [|lia]. destruct (N.lt_ge_cases c (N.of_nat (length f))) as [H1|H1]; [lia|]. unfold score_in in H. rewrite nth_overflow in H by lia. lia. }
  split; [exact H|]. clear T1 T2 T3 T4. induction H as [|c l (_ & Hc) _ IH]; [reflexivity|]. cbn [length total]. lia.
Qed.
(** A character behind the end of the file counts whatever is in memory. *)
Theorem C67_score_uncovered_refuted : ~ (forall f stale c n, exists k, star_stream (SCORE_TRAINED (Some f) stale) n [udatum c] = Some (n + k, [udatum c]) /\ k = score_in f c).
Proof. intros H. destruct (H [0; 1] (fun _ _ => 77) 65 0) as (k & H1 & H2). vm_compute in H1, H2. subst k. discriminate. Qed.
Example C67_example : trained_on [0; 2; 5] [1; 4; 1; 2; 4] [0; 3; 5; 0; 2] /\ newly_met [0; 2; 5] [1; 4; 1; 2; 4] [4] /\ total [0; 3; 5; 0; 2] [1; 4; 1; 2; 4] = 15.
Proof.
  split; [|split; [|reflexivity]].
  - destruct (train_runs [0; 2; 5] (Some []) [1; 4; 1; 2; 4]) as (f' & ms & H1 & _ & H3); [repeat (constructor; [lia|]); constructor|].
    apply (f_equal (fun r => match r with Some (s, _, _) => tr_file s | None => [] end)) in H3. cbn [tr_file] in H3. vm_compute in H3. subst f'. exact H1.
  - assert (HO : forall l c m, newly_met [0; 2; 5] l m -> score_in [0; 2; 5] c <> 0 \/ In c l -> newly_met [0; 2; 5] (l ++ [c]) m) by (intros; apply nm_old; assumption).
    apply (HO [1; 4; 1; 2] 4); [|right; cbn; auto]. apply (HO [1; 4; 1] 2); [|left; discriminate]. apply (HO [1; 4] 1); [|left; discriminate].
    apply (nm_one [0; 2; 5] [1] 4 []); [|reflexivity|intros [H|[]]; discriminate]. apply (HO [] 1); [constructor|left; discriminate].
Qed.

Print Assumptions C67_train.
Print Assumptions C67_trained_unique.
Print Assumptions C67_newly_unique.
Print Assumptions C67_train_conversion.
Print Assumptions C67_train_created.
Print Assumptions C67_score_conversion.
Print Assumptions C67_train_then_score.
Print Assumptions C67_score_uncovered_refuted.

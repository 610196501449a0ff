(** C66: the bonus modules (ZH-BONUS and the like): what they do to the text and to the counter SCORE. *)
From Verif Require Import Base Types M_Engine M_Output M_Create M_Callback M_UTF8 M_UTF16 M_Modules M_Fallback M_Star M_Inter M_Stars M_Stage M_Bonus M_Count M_Mktable D_Bonus S_Session S_Unicode S_Source S_Dict S_Table S_Convert S_Fallback S_Flow S_Transcode S_Stage S_Bonus S_Count P_Trans P_Engine1 P_Dict P_Convert P_Session3 P_Fallback P_Ascii P_Unicode P_Count4 P_Bonus P_SolveAlias T_Escape.
From Coq Require Import ZifyBool ZifyN ZifyNat.
Local Open Scope N_scope.

Lemma run_stages_app s a : forall p b ds mid out e1 e2 z1 z2, run_stages s p a ds mid e1 z1 -> run_stages s (p + length a) b mid out e2 z2 -> run_stages s p (a ++ b) ds out (e1 + e2) (z1 ++ z2).
Proof.
  induction a as [|k a IH]; intros p b ds mid out e1 e2 z1 z2 H1 H2.
  - inversion H1; subst. cbn [length] in H2. rewrite Nat.add_0_r in H2. exact H2.
  - inversion H1 as [|? ? ? ? m ? e zo oe' zs' K1 K2]; subst. cbn [app]. replace (e + oe' + e2)%nat with (e + (oe' + e2))%nat by lia. rewrite <- app_assoc. econstructor; [exact K1|]. eapply IH; [exact K2|]. cbn [length] in H2. replace (S p + length a)%nat with (p + S (length a))%nat by lia. exact H2.
Qed.

(** The stream reaches the bonus module as the data [ds]; the keys in it are replaced (scored), the module's counter goes up by their
    bonuses, and the rest of the conversion gets the result. *)
Theorem C66_conversion : forall t8 t16 before es n after s l ds mid out k e1 e2 z1 z2, strict_utf8 t8 ->
  stages_ok (before ++ SBonus es n :: after) -> fresh (staged t8 t16 (before ++ SBonus es n :: after)) s ->
  l <> [] -> Forall (fun x => lossless (snd x)) l -> byte_data (concat (inputs l)) ->
  run_stages s 1 before [concat (inputs l)] ds e1 z1 -> scored (file_dict es) (some_data ds) mid k ->
  run_stages s (S (S (length before))) after mid out e2 z2 ->
  exists m s' got, last_state s (S (length before)) (PNum m) /\
    runs_to s (stream_calls l) s' got /\ got ++ pending priv s' = concat out /\ i_ierr priv s' = i_ierr priv s /\ i_oerr priv s' = (i_oerr priv s + (e1 + e2))%nat /\
    last_state s' (S (length before)) (PNum (m + k)).
Proof.
  intros t8 t16 before es n after s l ds mid out k e1 e2 z1 z2 Hs Hc HF Hl1 Hl2 HB R1 HS R2.
  assert (Hp : nth_error (before ++ SBonus es n :: after) (length before) = Some (SBonus es n)) by (rewrite nth_error_app2, Nat.sub_diag; [reflexivity|lia]).
  destruct (stages_bonus t8 t16 _ Hs Hc s _ _ _ HF Hp) as (m & Hm). exists m.
  assert (HR : run_stages s 1 (before ++ SBonus es n :: after) [concat (inputs l)] out (e1 + (0 + e2)) (z1 ++ [(S (length before), PNum (m + k))] ++ z2)).
  { eapply run_stages_app; [exact R1|]. replace (1 + length before)%nat with (S (length before)) by lia. 
    apply (rs_cons s (S (length before)) (SBonus es n) after ds mid out 0 (Some (PNum (m + k))) e2 z2).
    - split; [reflexivity|]. exists m, k. auto.
    - exact R2. }
  destruct (stages_stream t8 t16 _ Hs Hc s l out _ _ HF Hl1 Hl2 HB HR) as (s' & got & X1 & X2 & X3 & X4 & X5). exists s', got.
  split; [exact Hm|]. split; [exact X1|]. split; [exact X2|]. split; [exact X3|]. split; [rewrite X4; lia|]. apply X5. apply in_or_app. right. left. reflexivity.
Qed.
(** The conversion exists; the counter of a new instance is 0 (as created), and no earlier use takes it away. *)
Theorem C66_created : forall t8 t16 c, strict_utf8 t8 -> stages_ok c -> exists s, fresh (staged t8 t16 c) s /\ bsdconv_init priv (staged t8 t16 c) = Some s /\
  forall p es n, nth_error c p = Some (SBonus es n) -> last_state s (S p) (PNum n).
Proof.
  intros t8 t16 c Hs Hc. destruct (stages_fresh t8 t16 c Hs Hc) as (s & HF & Hi). exists s. split; [exact HF|]. split; [exact Hi|]. intros p es n. apply stages_bonus_new with (t8 := t8) (t16 := t16) (c := c). exact Hi.
Qed.

(** What the module does is defined for every data and unique. *)
Lemma key_det es : bonus_lines (file_dict es) -> forall ds l1 r1 l2 r2, key_in (file_dict es) ds l1 r1 -> key_in (file_dict es) ds l2 r2 -> l1 = l2 /\ r1 = r2.
Proof.
  intros HB ds l1 r1 l2 r2 H1 H2. destruct (first_key es HB _ _ _ H1) as (n1 & <- & E1). destruct (first_key es HB _ _ _ H2) as (n2 & <- & E2). rewrite E1 in E2. injection E2 as -> E.
  split; [|reflexivity]. destruct H1 as (p1 & a1 & z1 & _ & _ & L1). destruct H2 as (p2 & a2 & z2 & _ & _ & L2). destruct (HB _ _ L1) as (_ & v1 & x1 & q1 & ->). destruct (HB _ _ L2) as (_ & v2 & x2 & q2 & ->).
  change (((1000 + v1) :: x1) :: map (cons 1000) q1 = ((1000 + v2) :: x2) :: map (cons 1000) q2) in E. pose proof (f_equal (fun l => hd 0 (hd [] l)) E) as E3. pose proof (f_equal (fun l => tl (hd [] l)) E) as E4. pose proof (f_equal (@tl datum) E) as E5. cbn [hd tl] in E3, E4, E5. apply N.add_cancel_l in E3. subst. f_equal. f_equal.
  clear - E5. revert q2 E5. induction q1 as [|x q1 IH]; intros [|y q2] E5; try discriminate; [reflexivity|]. injection E5 as -> E. f_equal. apply IH. exact E.
Qed.
Lemma key_dec es : bonus_lines (file_dict es) -> forall ds, (exists v o rest, key_in (file_dict es) ds ([v] :: o) rest /\ (length rest < length ds)%nat) \/ forall line rest, ~ key_in (file_dict es) ds line rest.
Proof.
  intros HB ds. destruct (S_Engine.first_match (P_Engine1.sems (bks es)) ds) as [[n o]|] eqn:E.
  - left. unfold sems, bks in E. cbn [map k_v tbonus_spec S_Engine.first_match] in E. destruct (S_Engine.scan _ [] ds None) as [[n' o']|] eqn:ES; [|discriminate].
    destruct (scan_some _ _ _ _ _ _ ES) as (line & pre & a & z & rest & -> & Ha & Hl). destruct (HB _ _ Hl) as (_ & v & x & r & ->). exists v, (x :: r), rest. split; [exists pre, a, z; auto|]. rewrite app_length. clear. change (length ((a ++ z) :: rest)) with (S (length rest)). apply Nat.lt_le_trans with (S (length rest)); [apply Nat.lt_succ_diag_r|apply Nat.le_add_l].
  - right. intros line rest H. destruct (first_key es HB _ _ _ H) as (m & _ & E2). rewrite E in E2. discriminate.
Qed.
Theorem C66_total : forall es ds, bonus_lines (file_dict es) -> exists out k, scored (file_dict es) ds out k.
Proof.
  intros es ds HB. remember (length ds) as n eqn:En. assert (Hn : (length ds <= n)%nat) by lia. clear En. revert ds Hn. induction n as [|n IH]; intros ds Hn.
  - destruct ds; [|cbn in Hn; lia]. exists [], 0. constructor.
  - destruct (key_dec es HB ds) as [(v & o & rest & Hk & Hlt)|Hno].
    + destruct (IH rest ltac:(lia)) as (out & k & H). exists (o ++ out), (v + k). econstructor; eassumption.
    + destruct ds as [|x ds]; [exists [], 0; constructor|]. destruct (IH ds ltac:(cbn in Hn; lia)) as (out & k & H). exists (x :: out), k. constructor; assumption.
Qed.
Theorem C66_unique : forall es ds out k, bonus_lines (file_dict es) -> scored (file_dict es) ds out k -> forall out' k', scored (file_dict es) ds out' k' -> out = out' /\ k = k'.
Proof.
  intros es ds out k HB. induction 1 as [|ds v o rest out k Hc H IH|x ds out k Hu H IH]; intros out' k' H'; inversion H' as [|ds2 v2 o2 rest2 out2 k2 Hc2 H2|x2 ds2 out2 k2 Hu2 H2]; subst; try (exfalso; match goal with HU : forall l r, ~ key_in _ _ l r, HK : key_in _ _ _ _ |- _ => exact (HU _ _ HK) end).
  - auto.
  - destruct Hc2 as ([|? ?] & a & z & E & _); discriminate.
  - destruct Hc as ([|? ?] & a & z & E & _); discriminate.
  - destruct (key_det es HB _ _ _ _ _ Hc Hc2) as (E1 & ->). injection E1 as -> ->. destruct (IH _ _ H2) as (-> & ->). auto.
  - destruct (IH _ _ H2) as (-> & ->). auto.
Qed.

(** ** The installed module ZH-BONUS on text *)
Definition zhd : dict := file_dict zh_bonus.
(** Characters from U+2300, U+C500 and U+FC00 on (256 each) become U+0023, U+00C5 and U+00FC; all others stay. *)
Definition bonus_char (c : N) : N := if (c / 256 =? 0x23) || (c / 256 =? 0xC5) || (c / 256 =? 0xFC) then c / 256 else c.
(** The bonus the file gives to what remains. *)
Definition bonus_of (c : N) : N := match lookup zhd (udatum (bonus_char c)) with Some ((v :: _) :: _) => v | _ => 0 end.

Definition zh_check : bool :=
  forallb (fun e => negb (has_longer zhd (fst e)) && match snd e with [[v]; x] => eqb_syms x (fst e) | _ => false end && negb (existsb (N.eqb 256) (fst e)) &&
    ((length (fst e) =? 4)%nat || (length (fst e) =? 3)%nat && (0x10 <? nth 1 (fst e) 0) || existsb (eqb_syms (fst e)) [[1; 0x23]; [1; 0xC5]; [1; 0xFC]])) zhd.
Lemma zh_checked : zh_check = true. Proof. vm_compute. reflexivity. Qed.
Lemma zh_look w line : lookup zhd w = Some line -> has_longer zhd w = false /\ (exists v, line = [[v]; w]) /\ ~ In 256 w /\
  (length w = 4%nat \/ (length w = 3%nat /\ 0x10 < nth 1 w 0) \/ w = [1; 0x23] \/ w = [1; 0xC5] \/ w = [1; 0xFC]).
Proof.
  intros H. assert (Hin : In (w, line) zhd) by (apply P_Dict.lookup_in; exact H). pose proof zh_checked as HC. unfold zh_check in HC. rewrite forallb_forall in HC. specialize (HC _ Hin). cbn [fst snd] in HC.
  apply andb_prop in HC as (HC & C4). apply andb_prop in HC as (HC & C3). apply andb_prop in HC as (C1 & C2). split; [destruct (has_longer zhd w); [discriminate|reflexivity]|].
  split. { destruct line as [|[|v [|]] [|x [|]]]; try discriminate. apply eqb_syms_true in C2. subst x. exists v. reflexivity. }
  split. { intros H3. apply negb_true_iff in C3. assert (existsb (N.eqb 256) w = true) by (apply existsb_exists; exists 256; split; [exact H3|reflexivity]). congruence. }
  apply orb_prop in C4 as [C4|C4]; [apply orb_prop in C4 as [C4|C4]|].
  - left. apply Nat.eqb_eq. exact C4.
  - right. left. apply andb_prop in C4 as (A & B). split; [apply Nat.eqb_eq; exact A|apply N.ltb_lt; exact B].
  - right. right. apply existsb_exists in C4 as (x & Hx & E). apply eqb_syms_true in E. subst x. destruct Hx as [<-|[<-|[<-|[]]]]; auto.
Qed.
Lemma zh_lines : bonus_lines zhd.
Proof. intros w line H. destruct (zh_look w line H) as (H1 & (v & ->) & _). split; [exact H1|]. exists v, w, []. reflexivity. Qed.
Lemma zh_step c ds out k : c < 0x110000 -> scored zhd ds out k -> scored zhd (udatum c :: ds) (udatum (bonus_char c) :: out) (bonus_of c + k).
Proof.
  intros Hc HS. unfold bonus_of. destruct (lookup zhd (udatum (bonus_char c))) as [line|] eqn:E.
  - destruct (zh_look _ _ E) as (_ & (v & ->) & _). apply (sc_key zhd _ v [udatum (bonus_char c)] ds out k); [|exact HS].
    assert (HZ : exists z, udatum c = udatum (bonus_char c) ++ z).
    { unfold bonus_char. destruct ((c / 256 =? 0x23) || (c / 256 =? 0xC5) || (c / 256 =? 0xFC)) eqn:E3; [|exists []; rewrite app_nil_r; reflexivity].
      exists [c mod 256]. unfold udatum, be_bytes. replace (c <? 0x100) with false by lia. replace (c <? 0x10000) with true by lia. replace (c / 256 <? 0x100) with true by lia. reflexivity. }
    destruct HZ as (z & HZ). exists [], (udatum (bonus_char c)), z. split; [rewrite HZ at 1; reflexivity|]. split; [discriminate|exact E].
  - cbn [N.add]. assert (Ec : bonus_char c = c).
    { unfold bonus_char in *. destruct ((c / 256 =? 0x23) || (c / 256 =? 0xC5) || (c / 256 =? 0xFC)) eqn:E3; [|reflexivity]. exfalso.
      assert (HX : c / 256 = 0x23 \/ c / 256 = 0xC5 \/ c / 256 = 0xFC) by lia. destruct HX as [HX|[HX|HX]]; rewrite HX in E; vm_compute in E; discriminate. }
    rewrite Ec in *. change (0 + k) with k. apply sc_other; [|exact HS]. intros line rest (pre & a & z & Eds & Ha & Hl).
    destruct (zh_look _ _ Hl) as (_ & _ & H256 & Hw). destruct pre as [|p pre].
    2:{ apply H256. cbn [app joined]. destruct (pre ++ [a]) eqn:Ep; [destruct pre; discriminate|]. apply in_or_app. right. left. reflexivity. }
    cbn [app joined] in *. injection Eds as Ea _. destruct z as [|b z]; [rewrite app_nil_r in Ea; subst a; congruence|].
    assert (HU : udatum c = a ++ b :: z) by exact Ea. clear Ea. unfold udatum, be_bytes in HU.
    assert (HL : length (1 :: (if c <? 256 then [c] else if c <? 65536 then [c / 256; c mod 256] else if c <? 16777216 then [c / 65536; c / 256 mod 256; c mod 256] else [c / 16777216; c / 65536 mod 256; c / 256 mod 256; c mod 256])) = (length a + S (length z))%nat) by (rewrite HU, app_length; reflexivity).
    replace (c <? 16777216) with true in * by lia.
    destruct Hw as [Hw|[(Hw & Hh)|Hw]].
    + destruct (c <? 256); [cbn in HL; lia|]. destruct (c <? 65536); cbn in HL; lia.
    + destruct (c <? 256); [cbn in HL; lia|]. destruct (c <? 65536); [cbn in HL; lia|]. destruct a as [|a0 [|a1 a]]; try (cbn in Hw; lia). injection HU as _ <- _. cbn [nth] in Hh. assert (c / 65536 <= 16) by lia. lia.
    + assert (HX : exists h, a = [1; h] /\ (h = 0x23 \/ h = 0xC5 \/ h = 0xFC)) by (destruct Hw as [->|[->| ->]]; eexists; split; try reflexivity; auto). destruct HX as (h & -> & Hh).
      destruct (c <? 256); [cbn in HL; lia|]. destruct (c <? 65536) eqn:E6.
      * injection HU as <- _ _. unfold bonus_char in Ec. replace ((c / 256 =? 0x23) || (c / 256 =? 0xC5) || (c / 256 =? 0xFC)) with true in Ec by lia. destruct Hh as [Hh|[Hh|Hh]]; lia.
      * injection HU as H1 _. assert (c / 65536 <= 16) by lia. lia.
Qed.
Lemma zh_text cps : Forall (fun c => c < 0x110000) cps -> scored zhd (map udatum cps) (map udatum (map bonus_char cps)) (fold_right (fun c n => bonus_of c + n) 0 cps).
Proof. induction 1 as [|c cps Hc _ IH]; [constructor|]. cbn [map fold_right]. apply zh_step; assumption. Qed.
Lemma zh_source : Forall entry_ok zh_bonus.
Proof.
  assert (H : forallb (fun e => match en_pat e with [] => false | _ => true end && forallb (fun s => match s with PByte b => b <? 256 | _ => true end) (en_pat e) && forallb (forallb (fun b => b <? 256)) (en_out e) &&
    match rev (en_out e) with [] :: _ => false | _ => true end && (length (text_entry e) <=? 1023)%nat) zh_bonus = true) by (vm_compute; reflexivity).
  rewrite forallb_forall in H. apply Forall_forall. intros e He. specialize (H e He). apply andb_prop in H as (H & H5). apply andb_prop in H as (H & H4). apply andb_prop in H as (H & H3). apply andb_prop in H as (H1 & H2). constructor.
  - destruct (en_pat e); [discriminate|discriminate].
  - rewrite forallb_forall in H2. apply Forall_forall. intros s Hs. specialize (H2 s Hs). destruct s; [apply N.ltb_lt; exact H2|exact I|exact I].
  - rewrite forallb_forall in H3. apply Forall_forall. intros d Hd. specialize (H3 d Hd). rewrite forallb_forall in H3. apply Forall_forall. intros b Hb. apply N.ltb_lt. apply H3. exact Hb.
  - intros Hn. intros HL. destruct (exists_last Hn) as (r & x & E). rewrite E in *. rewrite last_last in HL. subst x. rewrite rev_app_distr in H4. discriminate.
  - apply Nat.leb_le. exact H5.
Qed.
Definition zh_conv (src dst : charset) : list stage := [SLink (LDec src); SBonus zh_bonus 0; SLink (LEnc dst)].
Lemma zh_conv_ok src dst : stages_ok (zh_conv src dst).
Proof.
  split; [|split].
  - eexists _, _. split; [reflexivity|]. split; [reflexivity|]. constructor; [discriminate|]. constructor; [discriminate|constructor].
  - constructor; [exact I|]. constructor; [|constructor; [exact I|constructor]]. split; [exact zh_source|exact zh_lines].
  - cbn. auto 10.
Qed.
(** src:ZH-BONUS:dst on a text, however it is cut into calls: every character is written as itself, except those of the blocks U+23xx, U+C5xx
    and U+FCxx, and SCORE goes up by the bonuses. *)
Theorem C66_text : forall src dst t8 t16 s l cps, strict_utf8 t8 -> fresh (staged t8 t16 (zh_conv src dst)) s ->
  l <> [] -> Forall (fun x => lossless (snd x)) l -> byte_data (concat (inputs l)) ->
  concat (inputs l) = flat_map (encoded src) cps -> Forall character cps ->
  exists m s' got, last_state s 2 (PNum m) /\ runs_to s (stream_calls l) s' got /\
    got ++ pending priv s' = flat_map (encoded dst) (map bonus_char cps) /\ i_ierr priv s' = i_ierr priv s /\ i_oerr priv s' = i_oerr priv s /\
    last_state s' 2 (PNum (m + fold_right (fun c n => bonus_of c + n) 0 cps)).
Proof.
  intros src dst t8 t16 s l cps Hs HF Hl1 Hl2 HB HE HR0.
  assert (HU : Forall (fun c => c < 0x110000) cps) by (eapply Forall_impl; [|exact HR0]; intros c ((Hc & _) & _); exact Hc).
  assert (HR : Forall (S_Transcode.reads src) cps) by (eapply Forall_impl; [|exact HR0]; intros c ((Hc & Hc2) & Hc3); destruct src; cbn; unfold scalar; lia).
  assert (HW : Forall (writes dst) (map bonus_char cps)).
  { apply Forall_forall. intros x Hx. apply in_map_iff in Hx as (c & <- & Hc). rewrite Forall_forall in HR0. destruct (HR0 c Hc) as ((H1 & _) & H2). unfold bonus_char. destruct (_ || _) eqn:E; destruct dst; cbn; lia. }
  assert (HN : forall l, some_data (map udatum l) = map udatum l) by (intros l0; unfold some_data; induction l0 as [|c l0 IH]; [reflexivity|]; cbn; f_equal; exact IH).
  destruct (C66_conversion t8 t16 [SLink (LDec src)] zh_bonus 0 [SLink (LEnc dst)] s l (map udatum cps) (map udatum (map bonus_char cps)) (map (encoded dst) (map bonus_char cps)) (fold_right (fun c n => bonus_of c + n) 0 cps) 0%nat 0%nat [] [] Hs (zh_conv_ok src dst) HF Hl1 Hl2 HB) as (m & s' & got & X1 & X2 & X3 & X4 & X5 & X6).
  - apply (rs_cons s 1 (SLink (LDec src)) [] [concat (inputs l)] (map udatum cps) (map udatum cps) 0 None 0 []); [|constructor]. split; [reflexivity|]. split; [reflexivity|]. exists cps. split; [|split; [exact HR|reflexivity]]. cbn. rewrite app_nil_r. exact HE.
  - rewrite HN. apply zh_text. exact HU.
  - apply (rs_cons s 3 (SLink (LEnc dst)) [] (map udatum (map bonus_char cps)) (map (encoded dst) (map bonus_char cps)) (map (encoded dst) (map bonus_char cps)) 0 None 0 []); [|constructor]. split; [reflexivity|]. split; [reflexivity|]. exists (map bonus_char cps). split; [apply HN|]. split; [exact HW|reflexivity].
  - exists m, s', got. split; [exact X1|]. split; [exact X2|]. split; [rewrite X3, flat_map_concat_map; reflexivity|]. split; [exact X4|]. split; [rewrite X5; lia|exact X6].
Qed.
(** Text outside these three blocks is kept. *)
Corollary C66_text_kept : forall src dst t8 t16 s l cps, strict_utf8 t8 -> fresh (staged t8 t16 (zh_conv src dst)) s ->
  l <> [] -> Forall (fun x => lossless (snd x)) l -> byte_data (concat (inputs l)) ->
  concat (inputs l) = flat_map (encoded src) cps -> Forall character cps ->
  Forall (fun c => c / 256 <> 0x23 /\ c / 256 <> 0xC5 /\ c / 256 <> 0xFC) cps ->
  exists s' got, runs_to s (stream_calls l) s' got /\ got ++ pending priv s' = flat_map (encoded dst) cps.
Proof.
  intros src dst t8 t16 s l cps Hs HF Hl1 Hl2 HB HE HR HC.
  assert (Em : map bonus_char cps = cps). { clear - HC. induction HC as [|c cps Hc _ IH]; [reflexivity|]. cbn [map]. rewrite IH. f_equal. unfold bonus_char. replace (_ || _) with false by lia. reflexivity. }
  destruct (C66_text src dst t8 t16 s l cps Hs HF Hl1 Hl2 HB HE HR) as (m & s' & got & _ & X2 & X3 & _). rewrite Em in X3. eauto.
Qed.
(** All text is not: the Hangul syllable U+C5C0 comes out as U+00C5. *)
Lemma runs_to_det {P} (s : inst P) h s1 o1 s2 o2 : runs_to s h s1 o1 -> runs_to s h s2 o2 -> s1 = s2 /\ o1 = o2.
Proof. intros (f1 & H1) (f2 & H2). specialize (H1 (Nat.max f1 f2) (Nat.le_max_l _ _)). specialize (H2 (Nat.max f1 f2) (Nat.le_max_r _ _)). rewrite H1 in H2. injection H2 as -> ->. auto. Qed.
Theorem C66_text_kept_refuted : ~ (forall t8 t16 s l cps, strict_utf8 t8 -> fresh (staged t8 t16 (zh_conv UTF8 UTF8)) s ->
  l <> [] -> Forall (fun x => lossless (snd x)) l -> byte_data (concat (inputs l)) ->
  concat (inputs l) = flat_map (encoded UTF8) cps -> Forall character cps ->
  exists s' got, runs_to s (stream_calls l) s' got /\ got ++ pending priv s' = flat_map (encoded UTF8) cps).
Proof.
  intros H. assert (Hs : strict_utf8 tu8) by (vm_compute; auto). destruct (C66_created tu8 tu16 _ Hs (zh_conv_ok UTF8 UTF8)) as (s & HF & _ & _).
  pose proof (fun P1 P2 P3 P4 => H tu8 tu16 s [(Some [0xEC; 0x97; 0x80], OHold)] [0xC5C0] Hs HF P1 P2 P3 P4) as H1. pose proof (fun P1 P2 P3 P4 => C66_text UTF8 UTF8 tu8 tu16 s [(Some [0xEC; 0x97; 0x80], OHold)] [0xC5C0] Hs HF P1 P2 P3 P4) as H2. clear H.
  assert (K1 : [(Some [0xEC; 0x97; 0x80], OHold)] <> []) by discriminate.
  assert (K2 : Forall (fun x : option datum * omode => lossless (snd x)) [(Some [0xEC; 0x97; 0x80], OHold)]) by (constructor; [exact I|constructor]).
  assert (K3 : byte_data (concat (inputs [(Some [0xEC; 0x97; 0x80], OHold)]))) by (repeat (constructor; [lia|]); constructor).
  assert (K4 : concat (inputs [(Some [0xEC; 0x97; 0x80], OHold)]) = flat_map (encoded UTF8) [0xC5C0]) by reflexivity.
  assert (K5 : Forall character [0xC5C0]) by (constructor; [unfold character, scalar; lia|constructor]).
  destruct (H1 K1 K2 K3 K4 K5) as (s1 & g1 & R1 & E1). destruct (H2 K1 K2 K3 K4 K5) as (m & s2 & g2 & _ & R2 & E2 & _). destruct (runs_to_det _ _ _ _ _ _ R1 R2) as (<- & <-). rewrite E1 in E2. vm_compute in E2. discriminate.
Qed.
(** Such characters get the bonus as well: U+C5C0 counts 5, as U+00C5 does. *)
Example C66_example : bonus_of 0xC5C0 = 5 /\ bonus_of 0xC5 = 5 /\ bonus_char 0xC5C0 = 0xC5 /\ bonus_of 0x4E24 = 1 /\ bonus_char 0x4E24 = 0x4E24 /\ bonus_of 0x41 = 0.
Proof. vm_compute. auto 10. Qed.
(** The table of the model is the one the compiler makes of the file. *)
Example C66_compiled : mktable (text_bonus zh_bonus) = Some (calls (compiled zh_bonus)).
Proof. vm_compute. reflexivity. Qed.
(** ZH-BONUS-PHRASE is outside C66_conversion: one of its keys begins another one. *)
Theorem C66_phrase_refuted : ~ bonus_lines (file_dict zh_bonus_phrase).
Proof.
  intros H. assert (HX : lookup (file_dict zh_bonus_phrase) [0x01; 0x7D; 0x93; 256; 0x01; 0x6F; 0xDF] <> None /\ has_longer (file_dict zh_bonus_phrase) [0x01; 0x7D; 0x93; 256; 0x01; 0x6F; 0xDF] = true) by (vm_compute; split; [discriminate|reflexivity]).
  destruct HX as (H1 & H2). destruct (lookup _ _) as [o|] eqn:E; [|contradiction]. destruct (H _ _ E) as (H3 & _). congruence.
Qed.
Print Assumptions C66_conversion.
Print Assumptions C66_created.
Print Assumptions C66_total.
Print Assumptions C66_unique.
Print Assumptions C66_text.
Print Assumptions C66_text_kept.
Print Assumptions C66_text_kept_refuted.
Print Assumptions C66_phrase_refuted.

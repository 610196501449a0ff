(** The dictionary of a source file in terms of its lines. *)
From Coq Require Import ZifyBool ZifyN ZifyNat.
From Verif Require Import Base Types M_Engine M_Mktable S_Dict S_Table S_Source P_Mktable P_Mktable3 P_Mktable4.

Opaque range.
Lemma bounds_matches s c : match s with PByte b => (b < 256)%N | _ => True end -> (fst (bounds s) <= c <= snd (bounds s) /\ c <= 256)%N <-> sym_matches s c.
Proof. destruct s; cbn; lia. Qed.
Lemma words_matches : forall p w, Forall (fun s => match s with PByte b => (b < 256)%N | _ => True end) p -> In w (words (map bounds p)) <-> Forall2 sym_matches p w.
Proof.
  induction p as [|s p IH]; intros w H.
  - cbn. split; [intros [<-|[]]; constructor|]. intros HF. inversion HF. auto.
  - inversion H as [|? ? Hs Hp]; subst. cbn [map words]. destruct (bounds s) as [lo hi] eqn:Eb. pose proof (fun c => bounds_matches s c Hs) as HB. rewrite Eb in HB. cbn [fst snd] in HB. rewrite in_flat_map. split.
    + intros (c & Hc & Hw). apply in_map_iff in Hw as (x & <- & Hx). constructor; [apply (proj1 (HB c)); apply (proj1 (range_in lo hi c)); exact Hc|]. apply IH; assumption.
    + intros HF. inversion HF as [|? c ? w' H1 H2]; subst. exists c. split; [apply (proj2 (range_in lo hi c)); apply (proj2 (HB c)); exact H1|]. apply in_map. apply IH; assumption.
Qed.
Definition edict (e : sentry) : dict := map (fun w => (w, en_out e)) (words (map bounds (en_pat e))).
Lemma edict_lookup e w : entry_ok e -> (matches e w /\ lookup (edict e) w = Some (en_out e)) \/ (~ matches e w /\ lookup (edict e) w = None).
Proof.
  intros He. unfold matches. rewrite <- words_matches by apply He. unfold edict. induction (words (map bounds (en_pat e))) as [|x L IH]; [right; split; [intros []|reflexivity]|].
  cbn [map lookup]. destruct (eqb_syms x w) eqn:E.
  - apply eqb_syms_eq in E. subst x. left. split; [left; reflexivity|reflexivity].
  - destruct IH as [(H & E')|(H & E')]; [left|right]; (split; [|exact E']); [right; exact H|]. intros [->|H']; [|contradiction]. assert (eqb_syms w w = true) by (apply eqb_syms_eq; reflexivity). congruence.
Qed.
Lemma file_cons e es : file_dict (e :: es) = edict e ++ file_dict es.
Proof. reflexivity. Qed.
Lemma file_lookup w : forall es, Forall entry_ok es -> match lookup (file_dict es) w with Some o => exists e, first_match es w e /\ en_out e = o | None => Forall (fun x => ~ matches x w) es end.
Proof.
  induction 1 as [|e es He Hes IH]; [constructor|]. rewrite file_cons, lookup_app. destruct (edict_lookup e w He) as [(Hm & ->)|(Hm & ->)].
  - exists e. split; [|reflexivity]. exists [], es. auto.
  - destruct (lookup (file_dict es) w) as [o|].
    + destruct IH as (e' & (a & b & -> & H1 & H2) & H3). exists e'. split; [|exact H3]. exists (e :: a), b. auto.
    + constructor; assumption.
Qed.
Lemma first_unique es w e e' : first_match es w e -> first_match es w e' -> e = e'.
Proof.
  intros (a & b & -> & H1 & H2) (a' & b' & E & H1' & H2'). revert a' E H2'. induction a as [|x a IH]; intros [|y a'] E H2'.
  - injection E as <- _. reflexivity.
  - injection E as <- _. inversion H2'. contradiction.
  - injection E as -> _. inversion H2. contradiction.
  - injection E as _ E. inversion H2; inversion H2'; subst. eapply IH; eassumption.
Qed.
Lemma file_longer w es : Forall entry_ok es -> has_longer (file_dict es) w = true <-> extended es w.
Proof.
  intros HF. unfold has_longer. rewrite existsb_exists. split.
  - intros ((k & o) & Hin & H). unfold file_dict in Hin. apply in_flat_map in Hin as (e & He & Hin). apply in_map_iff in Hin as (x & E & Hx). injection E as -> _. cbn [fst] in H.
    apply andb_prop in H as (H1 & H2). apply is_prefix_app in H1 as (y & ->). exists e, y. split; [exact He|]. split.
    + intros ->. rewrite app_nil_r in H2. assert (eqb_syms w w = true) by (apply eqb_syms_eq; reflexivity). rewrite H in H2. discriminate.
    + apply words_matches in Hx; [exact Hx|]. rewrite Forall_forall in HF. apply (HF e He).
  - intros (e & x & He & Hx & Hm). exists (w ++ x, en_out e). split.
    + apply in_flat_map. exists e. split; [exact He|]. apply in_map_iff. exists (w ++ x). split; [reflexivity|]. apply words_matches; [|exact Hm]. rewrite Forall_forall in HF. apply (HF e He).
    + cbn [fst]. apply andb_true_iff. split; [apply is_prefix_app; eauto|]. apply negb_true_iff. destruct (eqb_syms w (w ++ x)) eqn:E; [|reflexivity]. apply eqb_syms_eq in E. destruct x; [contradiction|]. apply (f_equal (@length N)) in E. rewrite app_length in E. cbn in E. lia.
Qed.

Theorem compiled_lookup es : Forall entry_ok es -> exists tab, mktable (text_file es) = Some tab /\ forall w, w <> [] ->
  (forall e, first_match es w e -> exists off s, walk tab w = WAt off /\ read_state tab off = Some s /\ t_data s = en_out e /\
      ((extended es w /\ t_status s = SUBMATCH) \/ (~ extended es w /\ t_status s = MATCH))) /\
  (Forall (fun e => ~ matches e w) es -> extended es w -> exists off s, walk tab w = WAt off /\ read_state tab off = Some s /\ t_status s = CONTINUE) /\
  (Forall (fun e => ~ matches e w) es -> ~ extended es w -> walk tab w = WDead).
Proof.
  intros HF. destruct (mktable_implements es HF) as (tab & E & [_ HW]). exists tab. split; [exact E|]. intros w Hw. specialize (HW w Hw). pose proof (file_lookup w es HF) as HL. pose proof (file_longer w es HF) as HX. rewrite prefix_iff in HW.
  assert (HN : forall e, Forall (fun e => ~ matches e w) es -> first_match es w e -> False). { intros e HA (a & b & -> & H1 & _). apply Forall_app in HA as (_ & HA). inversion HA. contradiction. }
  destruct (lookup (file_dict es) w) as [o|].
  - destruct HL as (e0 & Hf & Ho). split; [|split; intros HA; destruct (HN e0 HA Hf)]. intros e He. rewrite (first_unique _ _ _ _ He Hf). destruct (walk tab w) as [off| |]; [|discriminate|contradiction]. destruct HW as (_ & s & H1 & H2 & H3). exists off, s. split; [reflexivity|]. split; [exact H1|]. split; [rewrite (H3 o eq_refl); symmetry; exact Ho|].
    destruct (has_longer (file_dict es) w); [left|right]; (split; [|exact H2]); [apply HX; reflexivity|]. intros H. apply HX in H. discriminate.
  - split; [intros e He; destruct (HN e HL He)|]. destruct (has_longer (file_dict es) w); cbn in HW.
    + split; [|intros _ H; destruct (H (proj1 HX eq_refl))]. intros _ _. destruct (walk tab w) as [off| |]; [|discriminate|contradiction]. destruct HW as (_ & s & H1 & H2 & _). eauto.
    + split; [intros _ H; apply HX in H; discriminate|]. intros _ _. destruct (walk tab w) as [off| |]; [destruct HW; discriminate|reflexivity|contradiction].
Qed.

(** Theorems about conversions with table codecs (C20, C22-C28). *)
From Verif Require Import Base Types M_Engine M_Output M_Mktable M_Create S_Session S_Engine S_Dict S_Table S_Source S_Convert S_Streams S_Segment P_Dict P_Convert P_Session P_Session2 P_Session3 P_Session4 P_Segment P_Pass P_Reinit2 P_Shape P_Create T_Table.

(** ** Where the hypotheses come from: sources compile to instances that implement them *)
Theorem C22_sources_compile : forall c, Forall (fun x => Forall (Forall entry_ok) (snd x)) c ->
  exists s0, create_from_sources (texts c) = Some s0 /\ implements unit s0 (meaning c).
Proof. exact create_implements. Qed.
Print Assumptions C22_sources_compile.

(** "phase by phase" determines exactly one result for every input. *)
Theorem C22_composition_is_a_function : forall c, conv_ok c -> forall input,
  exists out ie oe, run_conv c [input] out ie oe /\ forall out' ie' oe', run_conv c [input] out' ie' oe' -> out' = out /\ ie' = ie /\ oe' = oe.
Proof.
  intros c Hc input. destruct (run_conv_total c (co_types _ Hc) [input]) as (out & ie & oe & H). exists out, ie, oe. split; [exact H|]. intros out' ie' oe' H'. destruct (run_conv_det _ _ _ _ _ H _ _ _ H') as (-> & -> & ->). auto.
Qed.
Print Assumptions C22_composition_is_a_function.

(** C22: the call returns, without undefined behaviour, having produced (delivered or still waiting) exactly
    what running the phases one after the other produces, with the same error counts — from an instance with
    any past that has been initialised. *)
Theorem C22_conversion_is_composition : forall (P : Type) c (s0 s : inst P) input mode out ie oe,
  conv_ok c -> implements P s0 c -> bsdconv_init P s0 = Some s -> lossless mode ->
  run_conv c [input] out ie oe -> ie = 0 \/ one_decoder c ->
  exists s' got, runs_to s [mkCall (Some (input, [])) true mode] s' got /\
    got ++ pending P s' = concat out /\ i_ierr P s' = i_ierr P s + ie /\ i_oerr P s' = i_oerr P s + oe.
Proof.
  intros P c s0 s input mode out ie oe Hok Him Hi Hm HR He. destruct (ginit c s0 Hok Him) as (s1 & H1 & HQ). assert (s1 = s) by congruence. subst s1.
  assert (Hp : pending P s = []). { eapply init_pending; [|exact Hi]. rewrite (im_len _ _ _ Him). destruct (co_first _ Hok) as (Ds & r & ->). cbn. lia. }
  destruct (gstream c s0 Hok Him s [(Some input, mode)] out ie oe HQ) as (s' & got & R & E & I1 & O1 & _); [discriminate|repeat constructor; exact Hm|cbn; rewrite app_nil_r; exact HR| |].
  - destruct He as [He|He]; [left; exact He|right]. split; [reflexivity|]. split; [exact He|]. eapply init_queue0. exact Hi.
  - exists s', got. rewrite Hp in E. auto.
Qed.
Print Assumptions C22_conversion_is_composition.

(** ** What one phase does, inside any conversion *)
Lemma conv_split c1 ph c2 input out ie oe : run_conv (c1 ++ ph :: c2) [input] out ie oe ->
  exists mid ie1 oe1 rest e ie2 oe2, run_conv c1 [input] mid ie1 oe1 /\ run_phase (fst ph) (snd ph) (seen_by (fst ph) mid) rest e /\ run_conv c2 rest out ie2 oe2 /\
    ie = ie1 + ((match fst ph with FROM => e | _ => 0 end) + ie2) /\ oe = oe1 + ((match fst ph with TO => e | _ => 0 end) + oe2).
Proof.
  intros H. apply run_conv_app in H as (mid & i1 & o1 & i2 & o2 & H1 & H2 & -> & ->). inversion H2 as [|t Ds r ds m out' e i o Hp Hc]; subst. exists mid, i1, o1, m, e, i, o. auto.
Qed.

(** C23: whatever comes before and after it, a decoding phase cuts its bytes into segments — the longest entry
    of the first codec that has one, or one skipped byte — emits the data of the matched ones in order and
    counts one input error per skipped byte. *)
Theorem C23_decoding : forall (P : Type) c1 Ds c2 (s0 s : inst P) input mode out ie oe,
  let c := c1 ++ (FROM, Ds) :: c2 in
  conv_ok c -> implements P s0 c -> bsdconv_init P s0 = Some s -> lossless mode ->
  run_conv c [input] out ie oe -> ie = 0 \/ one_decoder c ->
  exists before ie1 oe1 segs ie2 oe2 s' got,
    run_conv c1 [input] before ie1 oe1 /\
    segmented FROM Ds (map (fun b => [b]) (concat before)) segs /\
    run_conv c2 (matched_data segs) out ie2 oe2 /\
    runs_to s [mkCall (Some (input, [])) true mode] s' got /\ got ++ pending P s' = concat out /\
    i_ierr P s' = i_ierr P s + (ie1 + misses segs + ie2) /\ i_oerr P s' = i_oerr P s + (oe1 + oe2).
Proof.
  intros P c1 Ds c2 s0 s input mode out ie oe c Hok Him Hi Hm HR He. destruct (C22_conversion_is_composition P c s0 s input mode out ie oe Hok Him Hi Hm HR He) as (s' & got & R1 & R2 & R3 & R4).
  apply conv_split in HR as (mid & ie1 & oe1 & rest & e & ie2 & oe2 & H1 & H2 & H3 & E1 & E2). cbn [fst snd seen_by] in *. apply from_segments in H2 as (segs & HS & -> & ->).
  exists mid, ie1, oe1, segs, ie2, oe2, s', got. do 5 (split; [assumption|]). split; lia.
Qed.
Print Assumptions C23_decoding.

(** C24: an intermediate phase replaces the matched segments and leaves every other datum in place. *)
Theorem C24_intermediate : forall (P : Type) c1 Ds c2 (s0 s : inst P) input mode out ie oe,
  let c := c1 ++ (INTER, Ds) :: c2 in
  conv_ok c -> implements P s0 c -> bsdconv_init P s0 = Some s -> lossless mode ->
  run_conv c [input] out ie oe -> ie = 0 \/ one_decoder c ->
  exists before ie1 oe1 segs ie2 oe2 s' got,
    run_conv c1 [input] before ie1 oe1 /\
    segmented INTER Ds (filter (fun d => match d with [] => false | _ => true end) before) segs /\
    run_conv c2 (replaced_data segs) out ie2 oe2 /\
    runs_to s [mkCall (Some (input, [])) true mode] s' got /\ got ++ pending P s' = concat out /\
    i_ierr P s' = i_ierr P s + (ie1 + ie2) /\ i_oerr P s' = i_oerr P s + (oe1 + oe2).
Proof.
  intros P c1 Ds c2 s0 s input mode out ie oe c Hok Him Hi Hm HR He. destruct (C22_conversion_is_composition P c s0 s input mode out ie oe Hok Him Hi Hm HR He) as (s' & got & R1 & R2 & R3 & R4).
  apply conv_split in HR as (mid & ie1 & oe1 & rest & e & ie2 & oe2 & H1 & H2 & H3 & E1 & E2). cbn [fst snd seen_by] in *. apply inter_segments in H2 as (_ & segs & HS & ->).
  exists mid, ie1, oe1, segs, ie2, oe2, s', got. do 5 (split; [assumption|]). split; lia.
Qed.
Print Assumptions C24_intermediate.

(** C25: an encoding phase emits the matched segments and counts one output error per datum it cannot encode,
    provided the keys of its last codec are single data (as they are in every shipped encoder table). *)
Theorem C25_encoding : forall (P : Type) c1 Ds c2 (s0 s : inst P) input mode out ie oe,
  let c := c1 ++ (TO, Ds) :: c2 in
  conv_ok c -> implements P s0 c -> bsdconv_init P s0 = Some s -> lossless mode -> single_datum_keys (last Ds []) ->
  run_conv c [input] out ie oe -> ie = 0 \/ one_decoder c ->
  exists before ie1 oe1 segs ie2 oe2 s' got,
    run_conv c1 [input] before ie1 oe1 /\
    segmented TO Ds (filter (fun d => match d with [] => false | _ => true end) before) segs /\
    run_conv c2 (matched_data segs) out ie2 oe2 /\
    runs_to s [mkCall (Some (input, [])) true mode] s' got /\ got ++ pending P s' = concat out /\
    i_ierr P s' = i_ierr P s + (ie1 + ie2) /\ i_oerr P s' = i_oerr P s + (oe1 + misses segs + oe2).
Proof.
  intros P c1 Ds c2 s0 s input mode out ie oe c Hok Him Hi Hm Hs HR He. destruct (C22_conversion_is_composition P c s0 s input mode out ie oe Hok Him Hi Hm HR He) as (s' & got & R1 & R2 & R3 & R4).
  apply conv_split in HR as (mid & ie1 & oe1 & rest & e & ie2 & oe2 & H1 & H2 & H3 & E1 & E2). cbn [fst snd seen_by] in *. apply (to_segments _ _ _ _ Hs) in H2 as (segs & HS & -> & ->).
  exists mid, ie1, oe1, segs, ie2, oe2, s', got. do 5 (split; [assumption|]). split; lia.
Qed.
Print Assumptions C25_encoding.

(** In every case the segments are the whole stream: nothing is lost or reordered. *)
Theorem C24_segments_cover : forall t Ds ds segs, segmented t Ds ds segs -> concat (map fst segs) = ds.
Proof. exact segmented_cover. Qed.
Print Assumptions C24_segments_cover.

(** C26: an input that decodes without error may be cut anywhere and fed over any number of calls (also calls
    without input), in any lossless output modes. *)
Theorem C26_chunking : forall (P : Type) c (s0 s : inst P) l l' out oe,
  conv_ok c -> implements P s0 c -> bsdconv_init P s0 = Some s ->
  l <> [] -> l' <> [] -> Forall (fun x => lossless (snd x)) (l ++ l') ->
  concat (inputs l) = concat (inputs l') -> run_conv c [concat (inputs l)] out 0 oe ->
  exists s1 got1 s2 got2, runs_to s (stream_calls l) s1 got1 /\ runs_to s (stream_calls l') s2 got2 /\
    got1 ++ pending P s1 = concat out /\ got2 ++ pending P s2 = concat out /\
    i_ierr P s1 = i_ierr P s /\ i_ierr P s2 = i_ierr P s /\ i_oerr P s1 = i_oerr P s + oe /\ i_oerr P s2 = i_oerr P s + oe.
Proof.
  intros P c s0 s l l' out oe Hok Him Hi Hl Hl' Hm E HR. apply Forall_app in Hm as (Hm & Hm'). destruct (ginit c s0 Hok Him) as (s1 & H1 & HQ). assert (s1 = s) by congruence. subst s1.
  assert (Hp : pending P s = []). { eapply init_pending; [|exact Hi]. rewrite (im_len _ _ _ Him). destruct (co_first _ Hok) as (Ds & r & ->). cbn. lia. }
  destruct (gstream c s0 Hok Him s l out 0 oe HQ Hl Hm HR (or_introl eq_refl)) as (s1 & g1 & R1 & E1 & I1 & O1 & _). rewrite E in HR.
  destruct (gstream c s0 Hok Him s l' out 0 oe HQ Hl' Hm' HR (or_introl eq_refl)) as (s2 & g2 & R2 & E2 & I2 & O2 & _).
  rewrite Hp in E1, E2. exists s1, g1, s2, g2. rewrite Nat.add_0_r in I1, I2. auto 10.
Qed.
Print Assumptions C26_chunking.

(** C27: a flush drains the conversion.  Any number of streams (each one ended by a flush) run one after the
    other without re-initialisation give the concatenation of the streams' results, and nothing of a stream
    appears after its end; only the first stream may contain decoding errors. *)
Theorem C27_flush_drains : forall (P : Type) c (s0 s : inst P) input mode out1 ie oe1 ls outs oes,
  conv_ok c -> implements P s0 c -> bsdconv_init P s0 = Some s -> lossless mode ->
  run_conv c [input] out1 ie oe1 -> ie = 0 \/ one_decoder c -> streams_ok c ls outs oes ->
  exists s1 got1 s2 got2,
    runs_to s [mkCall (Some (input, [])) true mode] s1 got1 /\ got1 ++ pending P s1 = concat out1 /\ i_ierr P s1 = i_ierr P s + ie /\ i_oerr P s1 = i_oerr P s + oe1 /\
    runs_to s1 (flat_map stream_calls ls) s2 got2 /\ got2 ++ pending P s2 = pending P s1 ++ concat outs /\ i_ierr P s2 = i_ierr P s1 /\ i_oerr P s2 = i_oerr P s1 + oes.
Proof.
  intros P c s0 s input mode out ie oe ls outs oes Hok Him Hi Hm HR He HS. destruct (ginit c s0 Hok Him) as (s1 & H1 & HQ). assert (s1 = s) by congruence. subst s1.
  assert (Hp : pending P s = []). { eapply init_pending; [|exact Hi]. rewrite (im_len _ _ _ Him). destruct (co_first _ Hok) as (Ds & r & ->). cbn. lia. }
  destruct (gstream c s0 Hok Him s [(Some input, mode)] out ie oe HQ) as (s' & got & R & E & I1 & O1 & Q1); [discriminate|repeat constructor; exact Hm|cbn; rewrite app_nil_r; exact HR| |].
  - destruct He as [He|He]; [left; exact He|right]. split; [reflexivity|]. split; [exact He|]. eapply init_queue0. exact Hi.
  - destruct (gstreams c s0 Hok Him ls s' outs oes Q1 HS) as (s2 & g2 & R2 & E2 & I2 & O2 & _). exists s', got, s2, g2. rewrite Hp in E. auto 10.
Qed.
Print Assumptions C27_flush_drains.

(** C28: for arbitrary codecs (with callbacks) whose private state is set by cbinit: after any use at all, an
    initialised instance answers every further history of calls exactly like a new one — same bytes, same
    pending output, same increase of the error counters, and the calls return (or not) together. *)
Theorem C28_reinit_isolates : forall (P : Type) (s0 s a b : inst P) h fuel,
  used s0 s -> resets s0 -> bsdconv_init P s0 = Some a -> bsdconv_init P s = Some b ->
  match run_hist P fuel a h, run_hist P fuel b h with
  | Some (a', out), Some (b', out') => out = out' /\ pending P a' = pending P b' /\
      i_ierr P a' + i_ierr P b = i_ierr P b' + i_ierr P a /\ i_oerr P a' + i_oerr P b = i_oerr P b' + i_oerr P a
  | None, None => True
  | _, _ => False
  end.
Proof. intros P s0 s a b h fuel HU HR Ha Hb. eapply reinit_isolates; [apply used_same_setup; eassumption|exact Ha|exact Hb]. Qed.
Print Assumptions C28_reinit_isolates.

(** C20: BSDCONV_PASS.  Converting with the first instance in PASS mode and then with the second one gives the
    composition of the two conversions. *)
Theorem C20_pass_composes : forall (P1 P2 : Type) c1 c2 (s01 s1 : inst P1) (s02 s2 : inst P2) input mode mid ie oe1 out oe2,
  conv_ok c1 -> implements P1 s01 c1 -> bsdconv_init P1 s01 = Some s1 ->
  conv_ok c2 -> implements P2 s02 c2 -> bsdconv_init P2 s02 = Some s2 -> lossless mode ->
  run_conv c1 [input] mid ie oe1 -> ie = 0 \/ one_decoder c1 -> run_conv c2 [concat mid] out 0 oe2 ->
  exists fuel0 s1' r1 s2' r2, forall fuel, fuel0 <= fuel ->
    bsdconv_call P1 fuel s1 (Some (input, [])) true OPass = CDone P1 s1' r1 /\
    bsdconv_call P2 fuel s2 (or_pass r1) true mode = CDone P2 s2' r2 /\
    delivered mode r2 ++ pending P2 s2' = concat out /\
    i_ierr P1 s1' = i_ierr P1 s1 + ie /\ i_oerr P1 s1' = i_oerr P1 s1 + oe1 /\
    i_ierr P2 s2' = i_ierr P2 s2 /\ i_oerr P2 s2' = i_oerr P2 s2 + oe2.
Proof.
  intros P1 P2 c1 c2 s01 s1 s02 s2 input mode mid ie oe1 out oe2 Hok1 Him1 Hi1 Hok2 Him2 Hi2 Hm HR1 He HR2.
  destruct (C22_conversion_is_composition P1 c1 s01 s1 input OPass mid ie oe1 Hok1 Him1 Hi1 I HR1 He) as (s1' & got & (f1 & R1) & E1 & I1 & O1).
  pose proof (R1 f1 (le_n _)) as Hc. cbn in Hc. destruct (bsdconv_call P1 f1 s1 (Some (input, [])) true OPass) as [sx rx| |] eqn:Ec; try discriminate. injection Hc as -> Hg. rewrite app_nil_r in Hg.
  assert (HX : delivered OPass rx = got /\ pending P1 s1' = []).
  { split; [exact Hg|]. clear -Ec. unfold bsdconv_call in Ec. destruct (bsdconv_engine P1 f1 s1 (Some (input, [])) true) as [sy| |]; try discriminate. destruct (last_phase P1 sy) as [ph|] eqn:EL; [|discriminate]. cbn [output_switch] in Ec. injection Ec as <- _. cbn [or_queue or_tail].
    unfold set_last. rewrite EL. unfold pending, last_phase, phasen in *. cbn [i_phases]. rewrite P_Engine3.list_upd_length. erewrite P_Engine3.list_upd_nth by exact EL. reflexivity. }
  destruct HX as (Hd & Hp). rewrite Hp, app_nil_r in E1.
  assert (Hp2 : pending P2 s2 = []). { eapply init_pending; [|exact Hi2]. rewrite (im_len _ _ _ Him2). destruct (co_first _ Hok2) as (Ds & r & ->). cbn. lia. }
  destruct (ginit c2 s02 Hok2 Him2) as (sq & Hq & HQ). assert (sq = s2) by congruence. subst sq.
  assert (H2 : exists f2 s2' r2, (forall fuel, f2 <= fuel -> bsdconv_call P2 fuel s2 (or_pass rx) true mode = CDone P2 s2' r2) /\ delivered mode r2 ++ pending P2 s2' = concat out /\ i_ierr P2 s2' = i_ierr P2 s2 /\ i_oerr P2 s2' = i_oerr P2 s2 + oe2).
  { cbn [delivered] in Hd. destruct (or_pass rx) as [[d ch]|] eqn:Eo.
    - assert (Eq : concat (d :: ch) = concat mid). { rewrite <- E1, <- Hd. cbn. destruct (or_len rx); reflexivity. }
      rewrite <- Eq in HR2. destruct (gmulti c2 s02 Hok2 Him2 s2 d ch mode out oe2 HQ Hm HR2) as (f2 & s2' & r2 & R & E & I2 & O2). rewrite Hp2 in E. exists f2, s2', r2. auto.
    - assert (Eq : concat mid = []). { rewrite <- E1, <- Hd. destruct (or_len rx); reflexivity. }
      rewrite Eq in HR2. destruct (gstream c2 s02 Hok2 Him2 s2 [(None, mode)] out 0 oe2 HQ) as (s2' & g2 & (f2 & R) & E & I2 & O2 & _); [discriminate|repeat constructor; exact Hm|exact HR2|left; reflexivity|].
      pose proof (R f2 (le_n _)) as Hc. cbn in Hc. destruct (bsdconv_call P2 f2 s2 None true mode) as [sy ry| |] eqn:E2; try discriminate. injection Hc as -> Hg2. rewrite app_nil_r in Hg2. exists f2, s2', ry. split; [intros fuel Hf; eapply call_mono; eassumption|]. rewrite Hp2 in E. rewrite Hg2, Nat.add_0_r in *. auto. }
  destruct H2 as (f2 & s2' & r2 & R2 & E2 & I2 & O2). exists (f1 + f2), s1', rx, s2', r2. intros fuel Hf. split; [eapply call_mono; [|exact Ec]; lia|]. split; [apply R2; lia|]. auto.
Qed.
Print Assumptions C20_pass_composes.

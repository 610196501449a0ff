(** Theorems about the mixed single/double byte EBCDIC codecs (C39). *)
From Verif Require Import Base Types M_Engine M_Mktable M_Raw M_Ebcdic S_Ebcdic P_Raw P_Ebcdic P_Ebcdic2.

(** The phase after bsdconv_init; [st] is what my_s.status held before, [i], [ba]: left over. *)
Definition ready_to (tab : table) (st : bool) (root : tstate) (i ba : nat) : bphase := fresh_phase bool TO (init_codec bool (eb_to_codec tab st)) root i ba.
Definition ready_from (tab : table) (st : bool) (root : tstate) (i ba : nat) : bphase := fresh_phase bool FROM (init_codec bool (eb_from_codec tab st)) root i ba.

(** C39, encoding: whatever the data of each call, if every datum has a code, the stream ends without errors and the bytes
    put out are the codes with SO and SI exactly at the changes between single byte and multi byte codes, ending outside. *)
Theorem C39_encoder_shifts : forall tab root st i ba kss dss, read_state tab 0 = Some root ->
  Forall2 (Forall2 (fun key code => calls_on tab key code /\ 0 < length code)) kss dss ->
  exists pv' th', streams eb_to_conv (input_phase bool) (ready_to tab st root i ba) kss pv' th' 0 0 /\
    p_queue bool pv' = [] /\ mixed false (concat dss) (concat (p_queue bool th')) /\ cur_status th' = Some false.
Proof.
  intros tab root st i ba kss dss Hr HF. destruct (enc_stream tab root (Some eb_init) i ba kss dss Hr HF) as (pv' & th' & bytes & H1 & H2 & <- & H4 & H5).
  exists pv', th'. auto.
Qed.
Print Assumptions C39_encoder_shifts.

(** C39, decoding: text written with shifts is decoded to the data of its codes, whatever its division into calls and buffers. *)
Theorem C39_decoder_shifts : forall tab root st i ba l codes datas, read_state tab 0 = Some root -> dec_shifts tab -> Forall2 (dec_entry tab) codes datas ->
  mixed false codes (concat (concat l)) ->
  exists pv' th', streams eb_from_conv (input_phase bool) (ready_from tab st root i ba) l pv' th' 0 0 /\ p_queue bool th' = datas /\ cur_status th' = Some false.
Proof. intros tab root st i ba l codes datas. exact (dec_stream tab root (Some eb_init) i ba l codes datas). Qed.
Print Assumptions C39_decoder_shifts.

(** C39, round trip: what was encoded is decoded to the original data, if the decoding table maps each code back. *)
Theorem C39_round_trip : forall etab eroot dtab droot st st' i ba i' ba' kss dss, read_state etab 0 = Some eroot -> read_state dtab 0 = Some droot ->
  Forall2 (Forall2 (fun key code => calls_on etab key code /\ 0 < length code)) kss dss -> dec_shifts dtab -> Forall2 (dec_entry dtab) (concat dss) (concat kss) ->
  exists pv' th', streams eb_to_conv (input_phase bool) (ready_to etab st eroot i ba) kss pv' th' 0 0 /\
  forall l, concat (concat l) = concat (p_queue bool th') ->
  exists pv'' th'', streams eb_from_conv (input_phase bool) (ready_from dtab st' droot i' ba') l pv'' th'' 0 0 /\ p_queue bool th'' = concat kss.
Proof.
  intros etab eroot dtab droot st st' i ba i' ba' kss dss Hr1 Hr2 HF Hs HD.
  destruct (C39_encoder_shifts etab eroot st i ba kss dss Hr1 HF) as (pv' & th' & H1 & _ & H3 & _). exists pv', th'. split; [exact H1|]. intros l Hl. rewrite <- Hl in H3.
  destruct (C39_decoder_shifts dtab droot st' i' ba' l _ _ Hr2 Hs HD H3) as (pv'' & th'' & K1 & K2 & _). eauto.
Qed.
Print Assumptions C39_round_trip.

(** A stream has one outcome, so "exists" above is also "for all". *)
Theorem C39_outcome_unique : forall cb (pv th : bphase) l pv1 th1 a1 b1 pv2 th2 a2 b2, streams cb pv th l pv1 th1 a1 b1 -> streams cb pv th l pv2 th2 a2 b2 -> pv1 = pv2 /\ th1 = th2 /\ a1 = a2 /\ b1 = b2.
Proof. intros cb. exact (streams_det cb). Qed.
Print Assumptions C39_outcome_unique.
(** The written form determines where the shifts are: codes have one mixed text. *)
Theorem C39_text_unique : forall s cs b b', mixed s cs b -> mixed s cs b' -> b = b'.
Proof.
  intros s cs b b' H. revert b'. induction H as [|c cs bs L H IH|c cs bs L H IH|c cs bs L H IH|c cs bs L H IH|]; intros b' H'; inversion H'; subst; try lia; try reflexivity; f_equal; apply IH; assumption.
Qed.
Print Assumptions C39_text_unique.

Definition hx (s : string) : list N := map N_of_ascii (list_ascii_of_string s).
Definition tabc : ascii := ascii_of_nat 9.
Definition nl : ascii := ascii_of_nat 10.
Definition line (a b : string) : string := (a ++ String tabc b ++ String nl "")%string.
(** Lines of modules/to/IBM-930.txt and modules/from/IBM-930.txt. *)
Definition ex_to : table := match mktable (hx (line "0103" "?03" ++ line "0141" "?C1" ++ line "010391" "?4161" ++ line "013042" "?4482")) with Some t => t | None => [] end.
Definition ex_from : table := match mktable (hx (line "0E" "?010E" ++ line "0F" "?010F" ++ line "03" "?0103" ++ line "C1" "?0141" ++ line "41" "?01FF61" ++ line "4161" "010391" ++ line "4482" "013042")) with Some t => t | None => [] end.
Ltac spell := repeat (eapply spl_byte; [vm_compute; reflexivity|vm_compute; reflexivity|vm_compute; discriminate|]); apply spl_end.
Lemma ex_root : exists r, read_state ex_to 0 = Some r. Proof. vm_compute. eexists. reflexivity. Qed.
Lemma ex_rootf : exists r, read_state ex_from 0 = Some r. Proof. vm_compute. eexists. reflexivity. Qed.
Ltac call := eexists _, _; split; [vm_compute; reflexivity|]; split; [discriminate|]; split; [spell|]; split; [vm_compute; auto|reflexivity].
Example C39_example_encoder : Forall2 (Forall2 (fun key code => calls_on ex_to key code /\ 0 < length code))
  [[[1; 0x41]; [1; 3; 0x91]]; [[1; 0x30; 0x42]; [1; 0x41]]]%N [[[0xC1]; [0x41; 0x61]]; [[0x44; 0x82]; [0xC1]]]%N.
Proof. repeat (apply Forall2_cons || apply Forall2_nil); (split; [call|cbn; lia]). Qed.
Example C39_example_decoder : dec_shifts ex_from /\ Forall2 (dec_entry ex_from) [[0xC1]; [0x41; 0x61]; [0x44; 0x82]; [0xC1]]%N [[1; 0x41]; [1; 3; 0x91]; [1; 0x30; 0x42]; [1; 0x41]]%N /\
  mixed false [[0xC1]; [0x41; 0x61]; [0x44; 0x82]; [0xC1]]%N [0xC1; 0x0E; 0x41; 0x61; 0x44; 0x82; 0x0F; 0xC1]%N.
Proof.
  split; [split; call|]. split.
  - repeat (apply Forall2_cons || apply Forall2_nil).
    + left. split; [reflexivity|]. split; [call|]. split; discriminate.
    + right. split; [reflexivity|]. split; [eexists _, _; split; [vm_compute; reflexivity|]; split; [discriminate|]; split; [spell|]; split; [vm_compute; auto|reflexivity]|].
      eexists _, _. split; [vm_compute; reflexivity|]. split; [spell|]. right. split; [right; reflexivity|]. eexists. split; [reflexivity|]. split; discriminate.
    + right. split; [reflexivity|]. split; [eexists _, _; split; [vm_compute; reflexivity|]; split; [discriminate|]; split; [spell|]; split; [vm_compute; auto|reflexivity]|].
      eexists _, _. split; [vm_compute; reflexivity|]. split; [spell|]. left. reflexivity.
    + left. split; [reflexivity|]. split; [call|]. split; discriminate.
  - change [0xC1; 0x0E; 0x41; 0x61; 0x44; 0x82; 0x0F; 0xC1]%N with ([0xC1] ++ 0x0E :: [0x41; 0x61] ++ [0x44; 0x82] ++ 0x0F :: [0xC1] ++ [])%N.
    apply mx_single; [reflexivity|]. apply mx_open; [cbn; lia|]. apply mx_multi; [cbn; lia|]. apply mx_multi; [cbn; lia|]. apply mx_close; [reflexivity|]. apply mx_single; [reflexivity|]. apply mx_end.
Qed.

(** Refuted for data without a code.  (a) A datum that continues a shorter entry is encoded as that entry: U+0380 gives the code of
    U+0003 and no error is counted (F_LOOPBACK, src/libbsdconv.c:866-884). *)
Definition ex_r : tstate := match read_state ex_to 0 with Some r => r | None => mkTs DEADEND [] 0%N 0%N [] end.
Lemma ex_r_ok : read_state ex_to 0 = Some ex_r. Proof. vm_compute. reflexivity. Qed.
Definition yields (l : list (list datum)) (a b : nat) (bytes : list N) : bool :=
  match srun eb_to_conv 50 (input_phase bool) (ready_to ex_to false ex_r 0 0) l with
  | Some (_, th', a', b') => (a' =? a) && (b' =? b) && (if list_eq_dec N.eq_dec (concat (p_queue bool th')) bytes then true else false)
  | None => false end.
Lemma yields_ok : forall l a b bytes, yields l a b bytes = true ->
  exists pv' th', streams eb_to_conv (input_phase bool) (ready_to ex_to false ex_r 0 0) l pv' th' a b /\ concat (p_queue bool th') = bytes.
Proof.
  intros l a b bytes. unfold yields. destruct (srun _ _ _ _ _) as [[[[pv' th'] a'] b']|] eqn:E; [|discriminate]. intros H.
  apply andb_true_iff in H as [H H3]. apply andb_true_iff in H as [H1 H2]. apply Nat.eqb_eq in H1, H2. subst a' b'.
  destruct (list_eq_dec N.eq_dec (concat (p_queue bool th')) bytes) as [H4|]; [|discriminate]. exists pv', th'. split; [exact (srun_ok _ _ _ _ _ _ _ _ _ E)|exact H4].
Qed.
Theorem C39_unmapped_refuted : exists root pv' th', read_state ex_to 0 = Some root /\
  streams eb_to_conv (input_phase bool) (ready_to ex_to false root 0 0) [[[1; 3; 0x80]]]%N pv' th' 0 0 /\ concat (p_queue bool th') = [3]%N.
Proof.
  exists ex_r. destruct (yields_ok [[[1; 3; 0x80]]]%N 0 0 [3]%N) as (pv' & th' & H1 & H2); [vm_compute; reflexivity|].
  exists pv', th'. split; [exact ex_r_ok|]. split; [exact H1|exact H2].
Qed.
Print Assumptions C39_unmapped_refuted.
(** (b) After a multi byte code a datum without a code disappears without an error, where at the start it counts as one
    (the dead end finds F_MATCH set with no match data, lines 890-908). *)
Theorem C39_silent_drop_refuted : exists root pv' th' pv2 th2, read_state ex_to 0 = Some root /\
  streams eb_to_conv (input_phase bool) (ready_to ex_to false root 0 0) [[[1; 0x30; 0x42]; [2; 1]; [1; 0x41]]]%N pv' th' 0 0 /\ concat (p_queue bool th') = [0x0E; 0x44; 0x82; 0x0F; 0xC1]%N /\
  streams eb_to_conv (input_phase bool) (ready_to ex_to false root 0 0) [[[2; 1]; [1; 0x41]]]%N pv2 th2 0 1.
Proof.
  exists ex_r. destruct (yields_ok [[[1; 0x30; 0x42]; [2; 1]; [1; 0x41]]]%N 0 0 [0x0E; 0x44; 0x82; 0x0F; 0xC1]%N) as (pv' & th' & H1 & H2); [vm_compute; reflexivity|].
  destruct (yields_ok [[[2; 1]; [1; 0x41]]]%N 0 1 [0xC1]%N) as (pv2 & th2 & K1 & K2); [vm_compute; reflexivity|].
  exists pv', th', pv2, th2. split; [exact ex_r_ok|]. split; [exact H1|]. split; [exact H2|exact K1].
Qed.
Print Assumptions C39_silent_drop_refuted.

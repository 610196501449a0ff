(** C39: whole conversions from and to the mixed single/double byte EBCDIC codecs. *)
From Verif Require Import Base Types M_Engine M_Output M_Create M_UTF8 M_UTF16 M_Modules M_Mktable M_Shift S_Session S_Unicode S_Flow S_Engine S_Ebcdic P_Engine1 P_Flow P_Flow4 P_Ebcdic P_Ebcdic2 P_Shift P_Unicode P_Flow5 P_Flow6 T_Ebcdic S_Transcode.
From Verif Require T_Escape.
From Coq Require Import ZifyBool ZifyN ZifyNat.

Definition ibm_dec_ph (tab : table) (root : tstate) (g : bool) : fph := FGen FROM [ibm_dec tab g] (dec_spec tab root g false) (fun _ => dec_rel tab root).
Definition ibm_enc_ph (tab : table) (root : tstate) (g : bool) : fph := FGen TO [ibm_enc tab g] (enc_spec tab root g) (fun _ => eden tab false []).
Lemma ibm_dec_ok tab root g : read_state tab 0 = Some root -> f_ok (ibm_dec_ph tab root g).
Proof.
  intros Hr. cbn [f_ok ibm_dec_ph]. split; [reflexivity|]. split; [apply (dec_spec_ok tab root g Hr); discriminate|]. split.
  - exists (ibm_dec tab g), []. split; [reflexivity|]. cbn [e_tab ibm_dec]. rewrite Hr. discriminate.
  - intros pv th0 th. apply (dec_start tab root g Hr). discriminate.
Qed.
Lemma ibm_enc_ok tab root g : read_state tab 0 = Some root -> f_ok (ibm_enc_ph tab root g).
Proof.
  intros Hr. cbn [f_ok ibm_enc_ph]. split; [reflexivity|]. split; [apply (enc_spec_ok tab root g Hr)|]. split.
  - exists (ibm_enc tab g), []. split; [reflexivity|]. cbn [e_tab ibm_enc]. rewrite Hr. discriminate.
  - intros pv th0 th. apply (enc_start tab root g Hr).
Qed.
Definition u8_0 : u8 := mkU8 0 (0, 0, 0, 0)%N (0, 0, 0, 0)%N false false false false false.
Definition u16_0 : u16 := mkU16 0 0 0 0 0.
Lemma from_inst tab root g dst : f_inst (gchain (ibm_dec_ph tab root g) (enc_fph dst) []) = from_ibm tab g [] dst.
Proof. unfold f_inst, from_ibm, gchain. cbn [map app f_type f_codecs ibm_dec_ph enc_fph]. rewrite enc_side_codecs. reflexivity. Qed.
Lemma to_inst tab root g src t8 t16 : f_inst (gchain (dec_fph src t8 t16) (ibm_enc_ph tab root g) []) = to_ibm src [] tab g t8 t16.
Proof. unfold f_inst, to_ibm, gchain. cbn [map app f_type f_codecs ibm_enc_ph dec_fph]. rewrite dec_side_codecs. reflexivity. Qed.
Lemma enc_fph_good dst : f_ok (enc_fph dst).
Proof. apply (enc_fph_ok dst u8_0 u16_0). repeat split. Qed.
(** The tables of the modules have a root. *)
Lemma shifts_root tab : dec_shifts tab -> exists root, read_state tab 0 = Some root.
Proof. intros [(r & _ & H & _) _]. eauto. Qed.

(** C39, decoding with the converter: "IBM-9xx:dst".  However the text was divided into calls, whatever the instance was used for
    before, and whatever memory the codec was created in. *)
Theorem C39_decode_conversion : forall tab g dst s l W codes cps, dec_shifts tab -> fresh (from_ibm tab g [] dst) s -> chunks l W ->
  mixed false codes W -> Forall2 (dec_entry tab) codes (map udatum cps) -> Forall (writes dst) cps ->
  exists s', streams_to s l (flat_map (encoded dst) cps) s'.
Proof.
  intros tab g dst s l W codes cps Hsh Hs (Hl1 & Hl2 & Hl3) Hm HF Hw. destruct (shifts_root tab Hsh) as (root & Hr). rewrite <- (from_inst tab root) in Hs.
  destruct (g_stream (ibm_dec_ph tab root g) (enc_fph dst) [] (ibm_dec_ok tab root g Hr) (enc_fph_good dst) ltac:(intros m []) eq_refl ltac:(discriminate) (or_intror (conj eq_refl eq_refl))
    s l [map udatum cps] [] (filter nonempty (map (encoded dst) cps)) Hs Hl1 Hl2) as (s' & H & _).
  - constructor.
  - destruct (g_phase _ _ _ s 0 _ Hs eq_refl) as (th & Eth & _). cbn [phase_rel ibm_dec_ph]. rewrite Eth.
    assert (Hd := dec_rel_mixed tab root Hr codes (map udatum cps) (filter nonempty (inputs l)) Hsh HF). rewrite concat_ne, Hl3 in Hd. specialize (Hd Hm).
    rewrite (P_Pair.dat_nonempty udatum (fun _ => True)) in Hd; [exact Hd|discriminate|clear; induction cps; constructor; auto].
  - apply enc_fph_rel. exact Hw.
  - exists s'. rewrite concat_ne in H. rewrite flat_map_concat_map. exact H.
Qed.
Print Assumptions C39_decode_conversion.

(** C39, encoding with the converter: "src:IBM-9xx". *)
Theorem C39_encode_conversion : forall tab g src t8 t16 s l cps codes, strict_utf8 t8 -> (exists root, read_state tab 0 = Some root) -> fresh (to_ibm src [] tab g t8 t16) s ->
  chunks l (flat_map (encoded src) cps) -> Forall (reads src) cps -> Forall2 (fun key code => calls_on tab key code /\ 0 < length code) (map udatum cps) codes ->
  exists s' W, streams_to s l W s' /\ mixed false codes W.
Proof.
  intros tab g src t8 t16 s l cps codes Hst (root & Hr) Hs (Hl1 & Hl2 & Hl3) Hrd HF. rewrite <- (to_inst tab root) in Hs.
  destruct (g_stream (dec_fph src t8 t16) (ibm_enc_ph tab root g) [] (dec_fph_ok src t8 t16 Hst) (ibm_enc_ok tab root g Hr) ltac:(intros m []) eq_refl ltac:(discriminate) (or_introl eq_refl)
    s l [map udatum cps] [] (closing false codes) Hs Hl1 Hl2) as (s' & H & _).
  - constructor.
  - apply dec_fph_rel; assumption.
  - destruct (g_phase _ _ _ s 1 _ Hs eq_refl) as (th & Eth & _). cbn [phase_rel ibm_enc_ph length plus last]. rewrite Eth. split; [reflexivity|]. split; [reflexivity|]. exists codes. split; [exact HF|reflexivity].
  - exists s', (concat (closing false codes)). split; [exact H|]. apply shifts_mixed. clear -HF. remember (map udatum cps) as ks. clear Heqks. induction HF; constructor; intuition.
Qed.
Print Assumptions C39_encode_conversion.

(** C39, round trip with the converter: "src:IBM-9xx", whose output is read, in any chunks, by "IBM-9xx:dst". *)
Theorem C39_round_trip_conversion : forall etab dtab g g' src dst t8 t16 s l cps codes s2, strict_utf8 t8 -> (exists root, read_state etab 0 = Some root) -> dec_shifts dtab ->
  Forall2 (fun key code => calls_on etab key code /\ 0 < length code) (map udatum cps) codes -> Forall2 (dec_entry dtab) codes (map udatum cps) ->
  Forall (reads src) cps -> Forall (writes dst) cps -> fresh (to_ibm src [] etab g t8 t16) s -> fresh (from_ibm dtab g' [] dst) s2 -> chunks l (flat_map (encoded src) cps) ->
  exists s' W, streams_to s l W s' /\ forall l2, chunks l2 W -> exists s2', streams_to s2 l2 (flat_map (encoded dst) cps) s2'.
Proof.
  intros etab dtab g g' src dst t8 t16 s l cps codes s2 Hst Hr Hd HE HD Hrd Hwr Hs Hs2 Hl.
  destruct (C39_encode_conversion etab g src t8 t16 s l cps codes Hst Hr Hs Hl Hrd HE) as (s' & W & H1 & H2). exists s', W. split; [exact H1|].
  intros l2 Hl2. exact (C39_decode_conversion dtab g' dst s2 l2 W codes cps Hd Hs2 Hl2 H2 HD Hwr).
Qed.
Print Assumptions C39_round_trip_conversion.

(** There are such instances. *)
Theorem C39_conversions_exist : forall tab g src dst t8 t16, strict_utf8 t8 -> (exists root, read_state tab 0 = Some root) ->
  (exists s, fresh (from_ibm tab g [] dst) s) /\ (exists s, fresh (to_ibm src [] tab g t8 t16) s).
Proof.
  intros tab g src dst t8 t16 Hst (root & Hr). split.
  - rewrite <- (from_inst tab root). destruct (g_fresh (ibm_dec_ph tab root g) (enc_fph dst) [] (ibm_dec_ok tab root g Hr) (enc_fph_good dst) ltac:(intros m [])) as (s & H & _). exists s. exact H.
  - rewrite <- (to_inst tab root). destruct (g_fresh (dec_fph src t8 t16) (ibm_enc_ph tab root g) [] (dec_fph_ok src t8 t16 Hst) (ibm_enc_ok tab root g Hr) ltac:(intros m [])) as (s & H & _). exists s. exact H.
Qed.
Print Assumptions C39_conversions_exist.

(** The hypotheses on the tables hold for lines of IBM-930 and a text with both kinds of codes. *)
Example C39_ex_conversion : let cps := [0x41; 0x391; 0x3042; 0x41]%N in let codes := [[0xC1]; [0x41; 0x61]; [0x44; 0x82]; [0xC1]]%N in
  (exists root, read_state ex_to 0 = Some root) /\ dec_shifts ex_from /\ Forall2 (fun key code => calls_on ex_to key code /\ 0 < length code) (map udatum cps) codes /\
  Forall2 (dec_entry ex_from) codes (map udatum cps) /\ Forall (reads UTF8) cps /\ Forall (writes UTF8) cps /\ mixed false codes [0xC1; 0x0E; 0x41; 0x61; 0x44; 0x82; 0x0F; 0xC1]%N.
Proof.
  cbv zeta. destruct C39_example_decoder as (D1 & D2 & D3). pose proof C39_example_encoder as E. inversion E as [|? ? ? ? E1 E2]; subst. inversion E2 as [|? ? ? ? E3 E4]; subst.
  split; [exact ex_root|]. split; [exact D1|]. split; [exact (Forall2_app E1 E3)|]. split; [exact D2|]. split; [repeat constructor; cbn; lia|]. split; [repeat constructor; cbn; lia|exact D3].
Qed.
(** Evaluated: the instances on this text, in two calls, after garbage in the private memory. *)
Example C39_ex_run : T_Escape.see (to_ibm UTF8 [] ex_to true T_Escape.tu8 T_Escape.tu16) [T_Escape.feed [0x41; 0xCE] false; T_Escape.feed [0x91; 0xE3; 0x81; 0x82; 0x41] true]%N = Some ([0xC1; 0x0E; 0x41; 0x61; 0x44; 0x82; 0x0F; 0xC1]%N, [], 0%nat, 0%nat) /\
  T_Escape.see (from_ibm ex_from true [] UTF8) [T_Escape.feed [0xC1; 0x0E; 0x41] false; T_Escape.feed [0x61; 0x44; 0x82; 0x0F; 0xC1] true]%N = Some ([0x41; 0xCE; 0x91; 0xE3; 0x81; 0x82; 0x41]%N, [], 0%nat, 0%nat).
Proof. split; vm_compute; reflexivity. Qed.

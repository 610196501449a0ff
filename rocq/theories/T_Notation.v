(** Theorems about the BSDCONV notation (C38). *)
From Verif Require Import Base Types M_Engine M_Output M_Create M_Raw M_Callback M_Modules M_Escape M_UTF8 M_UTF16 M_Notation S_Session S_Unicode S_Transcode S_Rest S_Escape S_Notation P_Raw P_Engine1 P_Callback P_CbSession P_Charset P_Unicode P_Pair P_UDA P_Escape P_Escape2 P_Notation T_Escape.
From Coq Require Import ZifyBool ZifyN ZifyNat.
Local Open Scope N_scope.

(** The FROM phase after bsdconv_init; [t0] is what the codec kept before. *)
Definition reads_as (t0 : note) (l : list (list datum)) (ds : list datum) (errors : nat) : Prop := forall t i ba, nt_init t0 = Some t ->
  exists pv' th', streams nt_conv (input_phase note) (nt_fresh t i ba) l pv' th' errors 0 /\ p_queue note th' = ds.

(** C38, reading: digits of either case, divided into calls and buffers in any way, give their bytes as one datum. *)
Theorem C38_digits_read : forall t0 l d, hex_of d (concat (concat l)) -> d <> [] -> reads_as t0 l [d] 0.
Proof.
  intros t0 l d Hd Hne t i ba Ht. apply nt_stream; [|exact Hd|exact Hne]. unfold nt_init in Ht. destruct (n_ptr t0); try discriminate; injection Ht as <-; reflexivity.
Qed.
Print Assumptions C38_digits_read.
Theorem C38_outcome_unique : forall (pv th : nphase) l pv1 th1 a1 b1 pv2 th2 a2 b2, streams nt_conv pv th l pv1 th1 a1 b1 -> streams nt_conv pv th l pv2 th2 a2 b2 -> pv1 = pv2 /\ th1 = th2 /\ a1 = a2 /\ b1 = b2.
Proof. exact (streams_det nt_conv). Qed.
Print Assumptions C38_outcome_unique.

(** C38, writing one datum: one output datum, two digits per byte. *)
Lemma hex02_is b : b < 256 -> exists h l x y, hex02 b = [x; y] /\ is_hex h x /\ is_hex l y /\ b = 16 * h + l.
Proof.
  intros H. exists (b / 16), (b mod 16), (hexc (b / 16)), (hexc (b mod 16)). split; [reflexivity|]. split; [apply hexc_is; apply N.div_lt_upper_bound; lia|]. split; [apply hexc_is; apply N.mod_lt; lia|]. apply N.div_mod. lia.
Qed.
Lemma hex_put d : Forall (fun b => b < 256) d -> hex_of d (flat_map hex02 d).
Proof. induction 1 as [|b d Hb _ IH]; [constructor|]. destruct (hex02_is b Hb) as (h & l & x & y & E & Hx & Hy & ->). cbn [flat_map]. rewrite E. cbn [app]. constructor; assumption. Qed.
Theorem C38_datum_written : forall d, Forall (fun b => b < 256) d -> exists text, nt_enc_put d = Some [text] /\ hex_of d text.
Proof. intros d H. exists (flat_map hex02 d). split; [reflexivity|]. apply hex_put. exact H. Qed.
Print Assumptions C38_datum_written.

(** C38, writing, whole conversions: bsdconv_create("src:BSDCONV"), any text, any division into calls, any earlier use. *)
Definition nt_writer (src : charset) (t8 : u8) (t16 : u16) : inst priv := new_instance priv [(FROM, decoder_of src t8 t16); (TO, [nt_enc])].
Definition nt_side : list (ecodec priv * kspec) := [(nt_enc, star_spec nt_enc_put)].
Theorem C38_text_written : forall src t8 t16 cps, strict_utf8 t8 -> Forall (reads src) cps -> exists text,
  converts true (nt_writer src t8 t16) (char_text src (fun _ => True)) (flat_map (encoded src) cps) text /\ hex_of (flat_map udatum cps) text.
Proof.
  intros src t8 t16 cps Hs Hc. exists (flat_map (fun c => flat_map hex02 (udatum c)) cps). split.
  - unfold nt_writer.
    assert (E : new_instance priv [(FROM, decoder_of src t8 t16); (TO, [nt_enc])] = cb_inst (pconv (dec_side src t8 t16) nt_side)) by (unfold cb_inst, pconv; cbn [map fst snd nt_side]; rewrite dec_side_codecs; reflexivity).
    rewrite E. destruct (dec_side_ok src t8 t16 Hs) as (D1 & D2).
    apply (pair_converts (dec_side src t8 t16) nt_side true (encoded src) udatum (fun c => flat_map hex02 (udatum c)) (fun c => reads src c /\ True)); auto; try discriminate.
    + destruct src; discriminate.
    + intros x [<-|[]]. cbn [fst snd codec_ok]. split; [apply star_ok; reflexivity|exact I].
    + intros j x Hx. left. apply nth_error_In in Hx. destruct Hx as [<-|[]]. apply star_eof.
    + intros _. apply dec_restores; [exact Hs|]. intros x [<-|[]] p. exact I.
    + intros c rest (Hr & _). replace (map (fun y => k_v (snd y)) (dec_side src t8 t16)) with (dec_csems src (u_nul t8)) by (destruct src; reflexivity). apply (side_decodes src (u_nul t8) c rest Hr).
    + intros c rest _. reflexivity.
    + eapply Forall_impl; [|exact Hc]. intros c Hr. split; [exact Hr|exact I].
  - assert (HB : forall c, reads src c -> Forall (fun b => b < 256) (udatum c)).
    { intros c Hr. unfold udatum. constructor; [lia|]. apply be_bytes_value. destruct src; cbn in Hr; unfold scalar in *; lia. }
    assert (HF : Forall (fun b => b < 256) (flat_map udatum cps)) by (induction Hc as [|c cs Hr _ IH]; [constructor|]; cbn [flat_map]; apply Forall_app; split; [apply HB; exact Hr|exact IH]).
    replace (flat_map (fun c => flat_map hex02 (udatum c)) cps) with (flat_map hex02 (flat_map udatum cps)); [apply hex_put; exact HF|].
    clear. induction cps as [|c cps IH]; [reflexivity|]. cbn [flat_map]. rewrite flat_map_app, IH. reflexivity.
Qed.
Print Assumptions C38_text_written.

(** C38, round trip of one datum of any length. *)
Theorem C38_round_trip : forall t0 d, Forall (fun b => b < 256) d -> d <> [] -> exists text, nt_enc_put d = Some [text] /\ forall l, concat (concat l) = text -> reads_as t0 l [d] 0.
Proof.
  intros t0 d Hd Hne. destruct (C38_datum_written d Hd) as (text & E & Ht). exists text. split; [exact E|]. intros l <-. apply C38_digits_read; assumption.
Qed.
Print Assumptions C38_round_trip.

Definition str (s : string) : list N := map N_of_ascii (list_ascii_of_string s).
Example C38_example : hex_of [1; 0x4E; 0x2D] (concat (concat [[str "0"; str "14"]; []; [str "e2D"]])).
Proof. cbn. apply (hx_byte 0 1); [left; lia|left; lia|]. apply (hx_byte 4 14); [left; lia|right; split; [lia|right; reflexivity]|]. apply (hx_byte 2 13); [left; lia|right; split; [lia|left; reflexivity]|]. constructor. Qed.
Example C38_example_init : nt_init (nt_create [7] NB) = Some (mkNote NNull [] NClear). Proof. reflexivity. Qed.

(** Refuted beyond that.  (a) Nothing separates data: what is written for two data is read back as one datum. *)
Theorem C38_two_data_refuted : exists d1 d2 x1 x2, nt_enc_put d1 = Some [x1] /\ nt_enc_put d2 = Some [x2] /\ forall t0, reads_as t0 [[x1; x2]] [d1 ++ d2] 0 /\ [d1 ++ d2] <> [d1; d2].
Proof.
  exists [1; 0x41], [1; 0x42], (flat_map hex02 [1; 0x41]), (flat_map hex02 [1; 0x42]). split; [reflexivity|]. split; [reflexivity|]. intros t0. split; [|discriminate].
  apply C38_digits_read; [|discriminate]. change (concat (concat [[flat_map hex02 [1; 0x41]; flat_map hex02 [1; 0x42]]])) with (flat_map hex02 [1; 0x41; 1; 0x42]). apply hex_put. repeat constructor.
Qed.
Print Assumptions C38_two_data_refuted.
(** (b) Other characters end a datum and count as one error each, but only if they come in the same buffer as the digits before
    them: "0141,0142" in one buffer gives both data, with the buffer divided before the comma the second datum is lost. *)
Definition outcome (l : list (list datum)) : option (list datum * nat * nat) :=
  match srun nt_conv 100 (input_phase note) (nt_fresh (mkNote NNull [] NClear) 0 0) l with Some (_, th, a, b) => Some (p_queue note th, a, b) | None => None end.
Lemma outcome_ok l ds a b : outcome l = Some (ds, a, b) -> exists pv' th', streams nt_conv (input_phase note) (nt_fresh (mkNote NNull [] NClear) 0 0) l pv' th' a b /\ p_queue note th' = ds.
Proof.
  unfold outcome. destruct (srun _ _ _ _ _) as [[[[pv' th'] a'] b']|] eqn:E; [|discriminate]. intros H. injection H as H1 H2 H3. subst a' b'.
  exists pv', th'. split; [exact (srun_ok _ _ _ _ _ _ _ _ _ E)|exact H1].
Qed.
Theorem C38_separated_split_refuted : exists t, nt_init (nt_create [] NClear) = Some t /\
  (exists pv' th', streams nt_conv (input_phase note) (nt_fresh t 0 0) [[str "0141,0142"]] pv' th' 1 0 /\ p_queue note th' = [[1; 0x41]; [1; 0x42]]) /\
  (exists pv' th', streams nt_conv (input_phase note) (nt_fresh t 0 0) [[str "0141"]; [str ",0142"]] pv' th' 1 0 /\ p_queue note th' = [[1; 0x41]]).
Proof.
  exists (mkNote NNull [] NClear). split; [reflexivity|]. split; apply outcome_ok; vm_compute; reflexivity.
Qed.
Print Assumptions C38_separated_split_refuted.
(** (c) bsdconv_init after digits were read frees their block but keeps the pointer: a second bsdconv_init frees it again, and so
    does a character that is no digit. *)
Theorem C38_reinit_refuted : exists t1 t2, nt_init t1 = Some t2 /\ nt_init t2 = None /\
  (exists pv' th', streams nt_conv (input_phase note) (nt_fresh (mkNote NNull [] NClear) 0 0) [[str "0141"]] pv' th' 0 0 /\ nt_get th' = Some t1) /\
  forall i ba pv' th' a b, ~ streams nt_conv (input_phase note) (nt_fresh t2 i ba) [[str ","]] pv' th' a b.
Proof.
  exists (mkNote NLive [1; 0x41] NA), (mkNote NDangling [] NClear). split; [reflexivity|]. split; [reflexivity|]. split.
  - destruct (srun nt_conv 100 (input_phase note) (nt_fresh (mkNote NNull [] NClear) 0 0) [[str "0141"]]) as [[[[pv' th'] a] b]|] eqn:E; [|vm_compute in E; discriminate].
    exists pv', th'. pose proof (srun_ok _ _ _ _ _ _ _ _ _ E) as H. assert (K : (a, b, nt_get th') = (0%nat, 0%nat, Some (mkNote NLive [1; 0x41] NA))).
    { assert (K : option_map (fun r => let '(_, th, a, b) := r in (a, b, nt_get th)) (Some (pv', th', a, b)) = Some (0%nat, 0%nat, Some (mkNote NLive [1; 0x41] NA))) by (rewrite <- E; vm_compute; reflexivity). cbn in K. injection K as -> -> K. rewrite K. reflexivity. }
    injection K as -> -> K. split; assumption.
  - intros i ba pv' th' a b (pv1 & th1 & x & y & x' & y' & Hc & _). inversion Hc as [|? ? ? ? ? ? ? ? ? ? ? ? Hr _]; subst. clear - Hr.
    inversion Hr as [? ? ? ? ? ? ? ? ? ? ? ? E1 R1|? ? ? ? ? ? ? ? ? ? ? ? E1 G1 R1|? ? ? ? ? ? ? E1]; subst; cbv -[Nat.ltb] in E1; try discriminate E1; [|destruct G1; subst; discriminate E1]. injection E1 as <- <- <- <- <-.
    inversion R1 as [? ? ? ? ? ? ? ? ? ? ? ? E2 R2|? ? ? ? ? ? ? ? ? ? ? ? E2 G2 R2|? ? ? ? ? ? ? E2]; subst; vm_compute in E2; try discriminate E2; [|destruct G2; subst; discriminate E2]. injection E2 as <- <- <- <- <-.
    inversion R2 as [? ? ? ? ? ? ? ? ? ? ? ? E3 R3|? ? ? ? ? ? ? ? ? ? ? ? E3 G3 R3|? ? ? ? ? ? ? E3]; subst; vm_compute in E3; discriminate E3.
Qed.
Print Assumptions C38_reinit_refuted.

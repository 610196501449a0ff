(** Theorems about the Unicode encodings (C31-C34). *)
From Verif Require Import Base Types M_Engine M_Output M_Mktable M_Create M_Modules M_UTF8 M_UTF16 S_Session S_Engine S_Unicode S_Transcode P_Session P_Session3 P_Create P_CbSession P_Charset P_Unicode.
Local Open Scope N_scope.

Lemma conv2_inst src dst t8 t16 : conv2 src dst t8 t16 = cb_inst (uconv src dst t8 t16).
Proof. unfold conv2, cb_inst, uconv. cbn [map fst snd]. rewrite dec_side_codecs, enc_side_codecs. reflexivity. Qed.
Lemma at_rest_quiet src dst t8 t16 s : strict_utf8 t8 -> at_rest src dst t8 t16 s -> cquiet (uconv src dst t8 t16) s.
Proof.
  intros Hs. induction 1 as [s0 s HU Hi|s l cps s' got _ IH Hne Hll Hc Hin HR].
  - rewrite conv2_inst in HU. destruct (creinit _ (uconv_ok src dst t8 t16 Hs) s0 HU (uconv_restores _ _ _ _ Hs)) as (s1 & H1 & H2 & _). congruence.
  - destruct (transcoding src dst t8 t16 s l cps Hs IH Hne Hll Hc Hin) as (s1 & got1 & H1 & _ & _ & _ & H2). destruct (runs_unique _ _ _ _ _ _ H1 HR) as (<- & _). exact H2.
Qed.

(** Initialisation always succeeds, also after any use; the result is at rest, with nothing pending. *)
Theorem C32_initialises : forall src dst t8 t16 s0, strict_utf8 t8 -> used (conv2 src dst t8 t16) s0 ->
  exists s, bsdconv_init priv s0 = Some s /\ at_rest src dst t8 t16 s /\ pending priv s = [].
Proof.
  intros src dst t8 t16 s0 Hs HU. pose proof HU as HU'. rewrite conv2_inst in HU. destruct (creinit _ (uconv_ok src dst t8 t16 Hs) s0 HU (uconv_restores _ _ _ _ Hs)) as (s1 & H1 & _ & _ & _ & H2).
  exists s1. split; [exact H1|]. split; [eapply ar_init; eassumption|exact H2].
Qed.
Print Assumptions C32_initialises.

(** C32-C34: for all pairs of encodings: however the encoded text is cut into chunks, with any lossless output
    modes, the calls return, what they deliver is the same text in the other encoding, no error is counted, and
    the instance is at rest again. *)
Theorem C32_transcoding : forall src dst t8 t16 s l cps, strict_utf8 t8 -> at_rest src dst t8 t16 s ->
  l <> [] -> Forall (fun x => lossless (snd x)) l -> Forall (fun c => reads src c /\ writes dst c) cps ->
  concat (inputs l) = text (encoded src) cps ->
  exists s' got, runs_to s (stream_calls l) s' got /\ got ++ pending priv s' = pending priv s ++ text (encoded dst) cps /\
    i_ierr priv s' = i_ierr priv s /\ i_oerr priv s' = i_oerr priv s /\ at_rest src dst t8 t16 s'.
Proof.
  intros src dst t8 t16 s l cps Hs HR Hne Hll Hc Hin.
  destruct (transcoding src dst t8 t16 s l cps Hs (at_rest_quiet _ _ _ _ _ Hs HR) Hne Hll Hc Hin) as (s' & got & H1 & H2 & H3 & H4 & _).
  exists s', got. repeat (split; [assumption|]). eapply ar_stream; eassumption.
Qed.
Print Assumptions C32_transcoding.

(** A text written in encoding [a] by one conversion and read back by another gives the original bytes. *)
Definition comes_back (a b : charset) (dom : N -> Prop) : Prop := forall t8 t16 s1 s2 l1 l2 cps,
  strict_utf8 t8 -> at_rest b a t8 t16 s1 -> at_rest a b t8 t16 s2 -> l1 <> [] -> l2 <> [] ->
  Forall (fun x => lossless (snd x)) l1 -> Forall (fun x => lossless (snd x)) l2 ->
  Forall dom cps -> concat (inputs l1) = text (encoded b) cps ->
  exists s1' got1, runs_to s1 (stream_calls l1) s1' got1 /\ got1 ++ pending priv s1' = pending priv s1 ++ text (encoded a) cps /\
    i_ierr priv s1' = i_ierr priv s1 /\ i_oerr priv s1' = i_oerr priv s1 /\
  (concat (inputs l2) = text (encoded a) cps ->
   exists s2' got2, runs_to s2 (stream_calls l2) s2' got2 /\ got2 ++ pending priv s2' = pending priv s2 ++ text (encoded b) cps /\
    i_ierr priv s2' = i_ierr priv s2 /\ i_oerr priv s2' = i_oerr priv s2).
Lemma back_ok a b (dom : N -> Prop) : (forall c, dom c -> reads a c /\ writes a c /\ reads b c /\ writes b c) -> comes_back a b dom.
Proof.
  intros H t8 t16 s1 s2 l1 l2 cps Hs R1 R2 N1 N2 L1 L2 Hc I1.
  assert (F1 : Forall (fun c => reads b c /\ writes a c) cps) by (eapply Forall_impl; [|exact Hc]; intros c Hx; apply H in Hx; tauto).
  assert (F2 : Forall (fun c => reads a c /\ writes b c) cps) by (eapply Forall_impl; [|exact Hc]; intros c Hx; apply H in Hx; tauto).
  destruct (C32_transcoding b a t8 t16 s1 l1 cps Hs R1 N1 L1 F1 I1) as (s1' & g1 & A1 & A2 & A3 & A4 & _). exists s1', g1. repeat (split; [assumption|]). intros I2.
  destruct (C32_transcoding a b t8 t16 s2 l2 cps Hs R2 N2 L2 F2 I2) as (s2' & g2 & B1 & B2 & B3 & B4 & _). exists s2', g2. auto.
Qed.
Ltac dom_tac := unfold character, scalar, reads, writes, scalar; intros; lia.

(** C32: UTF-8. *)
Theorem C32_utf8_round_trip : forall b, comes_back UTF8 b character.
Proof. intros b. apply back_ok. destruct b; dom_tac. Qed.
Print Assumptions C32_utf8_round_trip.
(** C33: UTF-16, both byte orders. *)
Theorem C33_utf16_round_trip : forall b, comes_back UTF16BE b character /\ comes_back UTF16LE b character.
Proof. intros b. split; apply back_ok; destruct b; dom_tac. Qed.
Print Assumptions C33_utf16_round_trip.
(** The form of the text: one unit below 0x10000, otherwise a high and a low surrogate. *)
Theorem C33_surrogate_pairs : forall c, character c ->
  (c < 0x10000 -> utf16be c = [c / 256; c mod 256] /\ utf16le c = [c mod 256; c / 256]) /\
  (0x10000 <= c -> exists hi lo, 0xD800 <= hi <= 0xDBFF /\ 0xDC00 <= lo <= 0xDFFF /\ c = 0x10000 + (hi - 0xD800) * 0x400 + (lo - 0xDC00) /\
     utf16be c = [hi / 256; hi mod 256; lo / 256; lo mod 256] /\ utf16le c = [hi mod 256; hi / 256; lo mod 256; lo / 256]).
Proof.
  intros c ((Hc & _) & _). unfold utf16be, utf16le, utf16_units. split; intros H.
  - replace (c <? 0x10000) with true by (symmetry; apply N.ltb_lt; exact H). split; reflexivity.
  - replace (c <? 0x10000) with false by (symmetry; apply N.ltb_ge; exact H). eexists _, _. split; [|split; [|split; [|split; reflexivity]]].
    + assert ((c - 0x10000) / 0x400 < 0x400) by (apply N.div_lt_upper_bound; lia). split; [lia|]. change 0xDBFF with (0xD800 + 0x3FF). apply N.add_le_mono_l. lia.
    + assert ((c - 0x10000) mod 0x400 < 0x400) by (apply N.mod_lt; lia). lia.
    + pose proof (N.div_mod (c - 0x10000) 0x400 ltac:(lia)). lia.
Qed.
Print Assumptions C33_surrogate_pairs.
(** C34: UTF-32, both byte orders, every code point including the surrogates. *)
Theorem C34_utf32_round_trip : forall a b, (a = UTF32BE \/ a = UTF32LE) -> (b = UTF32BE \/ b = UTF32LE) -> comes_back a b (fun c => 0 < c <= 0x10FFFF).
Proof. intros a b [->| ->] [->| ->]; apply back_ok; dom_tac. Qed.
Print Assumptions C34_utf32_round_trip.
Theorem C34_utf32_from_any : forall b, comes_back UTF32BE b character /\ comes_back UTF32LE b character.
Proof. intros b. split; apply back_ok; destruct b; dom_tac. Qed.
Print Assumptions C34_utf32_from_any.
Theorem C34_four_bytes : forall c, length (utf32be c) = 4%nat /\ length (utf32le c) = 4%nat.
Proof. intros c. split; reflexivity. Qed.

(** C31: a completed UTF-8 stream, however chunked, counts no input error exactly if it is a sequence of
    shortest-form encodings, none of a surrogate.  (The text is then converted as C32_transcoding says.) *)
Theorem C31_utf8_accepts_exactly : forall dst t8 t16 s l, strict_utf8 t8 -> at_rest UTF8 dst t8 t16 s ->
  l <> [] -> Forall (fun x => lossless (snd x)) l -> Forall (fun b => b < 256) (concat (inputs l)) ->
  ((exists s' got, runs_to s (stream_calls l) s' got /\ i_ierr priv s' = i_ierr priv s) <->
   (exists cps, Forall (fun c => 0 < c < 0x200000 /\ ~ (0xD800 <= c <= 0xDFFF)) cps /\ concat (inputs l) = text utf8 cps)).
Proof. intros dst t8 t16 s l Hs HR Hne Hll HB. apply (utf8_accepted dst t8 t16 s l Hs (at_rest_quiet _ _ _ _ _ Hs HR) Hne Hll HB). Qed.
Print Assumptions C31_utf8_accepts_exactly.
(** ... and a stream that is anything else has an error counted, in every completed conversion. *)
Corollary C31_utf8_rejects : forall dst t8 t16 s l s' got, strict_utf8 t8 -> at_rest UTF8 dst t8 t16 s ->
  l <> [] -> Forall (fun x => lossless (snd x)) l -> Forall (fun b => b < 256) (concat (inputs l)) ->
  (forall cps, Forall (fun c => 0 < c < 0x200000 /\ ~ (0xD800 <= c <= 0xDFFF)) cps -> concat (inputs l) <> text utf8 cps) ->
  runs_to s (stream_calls l) s' got -> (i_ierr priv s < i_ierr priv s')%nat.
Proof.
  intros dst t8 t16 s l s' got Hs HR Hne Hll HB Hno Hrun. pose proof Hrun as (f & Hf). pose proof (hist_ierr f _ _ _ _ (Hf f (le_n f))) as Hle.
  destruct (Nat.eq_dec (i_ierr priv s') (i_ierr priv s)) as [E|E]; [|lia]. exfalso.
  destruct (proj1 (C31_utf8_accepts_exactly dst t8 t16 s l Hs HR Hne Hll HB)) as (cps & Hc & Hin); [eauto|]. exact (Hno cps Hc Hin).
Qed.
Print Assumptions C31_utf8_rejects.

(** ** Beside the theorems: concrete conversions *)
Definition mem8 : u8 := mkU8 7 (1, 2, 3, 4) (5, 6, 7, 8) false false false false false.   (* state bytes are garbage before cbinit *)
Definition mem16 : u16 := mkU16 9 1 2 3 4.
Definition seen (src dst : charset) (h : list call) : option (list N * list N * nat * nat) :=
  match bsdconv_init priv (conv2 src dst mem8 mem16) with
  | None => None
  | Some s => option_map (fun x => (snd x, pending priv (fst x), i_ierr priv (fst x), i_oerr priv (fst x))) (run_hist priv 3000 s h)
  end.
Definition give (d : list N) (fl : bool) : call := mkCall (Some (d, [])) fl (OAuto 0).
Example C32_ex_strict : strict_utf8 mem8. Proof. repeat split. Qed.
(** "Aé中😀" cut inside every character. *)
Example C32_ex_utf8_utf16 : seen UTF8 UTF16LE [give [0x41; 0xC3] false; give [0xA9; 0xE4] false; give [0xB8] false; give [0xAD; 0xF0; 0x9F] false; give [] false; give [0x98; 0x80] true]
  = Some ([0x41; 0; 0xE9; 0; 0x2D; 0x4E; 0x3D; 0xD8; 0x00; 0xDE], [], 0%nat, 0%nat).
Proof. vm_compute. reflexivity. Qed.
Example C32_ex_text : text utf8 [0x41; 0xE9; 0x4E2D; 0x1F600] = [0x41; 0xC3; 0xA9; 0xE4; 0xB8; 0xAD; 0xF0; 0x9F; 0x98; 0x80] /\ Forall character [0x41; 0xE9; 0x4E2D; 0x1F600].
Proof. split; [reflexivity|]. repeat constructor; try discriminate; unfold scalar; lia. Qed.
Example C33_ex : seen UTF16BE UTF8 [give [0; 0x41; 0xD8] false; give [0x3D; 0xDE; 0; 0x4E] false; give [0x2D] true] = Some ([0x41; 0xF0; 0x9F; 0x98; 0x80; 0xE4; 0xB8; 0xAD], [], 0%nat, 0%nat).
Proof. vm_compute. reflexivity. Qed.
Example C34_ex : seen UTF32LE UTF32BE [give [0x41; 0; 0] false; give [0; 0; 0xD8; 0; 0; 0xFF; 0xFF; 0x10; 0] true] = Some ([0; 0; 0; 0x41; 0; 0; 0xD8; 0; 0; 0x10; 0xFF; 0xFF], [], 0%nat, 0%nat).
Proof. vm_compute. reflexivity. Qed.
(** Overlong forms, surrogates, stray and missing continuation bytes are counted. *)
Example C31_ex_errors :
  seen UTF8 UTF32BE [give [0xC1; 0x81] true] = Some ([], [], 2%nat, 0%nat) /\
  seen UTF8 UTF32BE [give [0xED; 0xA0; 0x80] true] = Some ([], [], 3%nat, 0%nat) /\
  seen UTF8 UTF32BE [give [0xAD; 0x41] true] = Some ([0; 0; 0; 0x41], [], 1%nat, 0%nat).
Proof. vm_compute. repeat split. Qed.

(** ** Where the code departs from what one would expect (all confirmed on the model by computation) *)
(** U+0000 is not in the "UTF-8" aliases: the byte 00 is an input error. *)
Theorem C32_nul_byte_refuted : seen UTF8 UTF32BE [give [0; 0x41] true] = Some ([0; 0; 0; 0x41], [], 1%nat, 0%nat).
Proof. vm_compute. reflexivity. Qed.
(** UTF-16 and UTF-32 decoders turn U+0000 into the empty value; the encoders then swallow the character that
    follows it, and count one output error. *)
Theorem C33_nul_swallows_next_refuted :
  seen UTF16BE UTF32BE [give [0; 0x41; 0; 0; 0; 0x42; 0; 0x43] true] = Some ([0; 0; 0; 0x41; 0; 0; 0; 0x43], [], 0%nat, 1%nat).
Proof. vm_compute. reflexivity. Qed.
(** Values above U+10FFFF are accepted. *)
Theorem C31_beyond_unicode_refuted : seen UTF8 UTF32BE [give [0xF4; 0x90; 0x80; 0x80] true] = Some ([0; 0x11; 0; 0], [], 0%nat, 0%nat).
Proof. vm_compute. reflexivity. Qed.
(** Lone low surrogates pass through UTF-16 and surrogates through UTF-32; the UTF-8 encoder writes them. *)
Theorem C33_lone_surrogate_refuted :
  seen UTF16BE UTF8 [give [0xDC; 0; 0; 0x41] true] = Some ([0xED; 0xB0; 0x80; 0x41], [], 0%nat, 0%nat) /\
  seen UTF32BE UTF8 [give [0; 0; 0xD8; 0; 0; 0; 0; 0x41] true] = Some ([0xED; 0xA0; 0x80; 0x41], [], 0%nat, 0%nat).
Proof. vm_compute. repeat split. Qed.
(** A stream that ends inside a character is reported as an error, but the decoder keeps its partial state while
    the engine backs up by one byte: a character that was never in the input (U+4E38) is delivered, and the
    leftover byte belongs to the following stream. *)
Theorem C31_truncated_stream_refuted :
  seen UTF8 UTF32BE [give [0xE4; 0xB8] true] = Some ([0; 0; 0x4E; 0x38], [], 1%nat, 0%nat) /\
  text utf8 [0x4E38] = [0xE4; 0xB8; 0xB8].
Proof. vm_compute. repeat split. Qed.
(** An error that spans chunks loses the valid character after it; in one chunk it is kept. *)
Theorem C31_error_across_chunks_refuted :
  seen UTF8 UTF32BE [give [0xE4; 0xB8; 0x41] true] = Some ([0; 0; 0; 0x41], [], 2%nat, 0%nat) /\
  seen UTF8 UTF32BE [give [0xE4; 0xB8] false; give [0x41] true] = Some ([], [], 1%nat, 0%nat).
Proof. vm_compute. repeat split. Qed.

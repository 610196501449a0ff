(** Theorems about escape sequences and numeric character references (C37). *)
From Verif Require Import Base Types M_Engine M_Output M_Create M_Modules M_Escape M_UTF8 M_UTF16 S_Session S_Unicode S_Transcode S_Rest S_Escape P_Engine1 P_CbSession P_Charset P_Unicode P_Pair P_UDA P_Escape P_Escape2.
From Coq Require Import ZifyBool ZifyN ZifyNat.
Local Open Scope N_scope.

(** bsdconv_create("ESCAPE:dst,BYTE"), ("HTMLENTITY:dst"), and back ("src:ESCAPE#...", "BYTE:ESCAPE#...").  [t]: memory the
    decoders leave uninitialised until bsdconv_init. *)
Definition escape_reader (dst : charset) (t : esc) : inst priv := new_instance priv [(FROM, [esc_dec t]); (TO, encoder_of dst ++ [byte_enc])].
Definition entity_reader (dst : charset) (t : ent) : inst priv := new_instance priv [(FROM, [ent_dec t]); (TO, encoder_of dst)].
Definition writer (src : charset) (t8 : u8) (t16 : u16) (args : list esc_arg) : inst priv := new_instance priv [(FROM, decoder_of src t8 t16); (TO, map esc_enc args)].
Definition byte_writer (args : list esc_arg) : inst priv := new_instance priv [(FROM, [byte_dec]); (TO, map esc_enc args)].
(** The encoder arguments of the shipped aliases (modules/to/alias:32-35) and the two other byte notations the decoder knows. *)
Definition url : list esc_arg := [mkArg [0x25; 0x75] [] ForUnicode Hex16; mkArg [0x25] [] ForByte Hex16].
Definition source : list esc_arg := [mkArg [0x5C; 0x75] [] ForUnicode Hex16].
Definition hex_html : list esc_arg := [mkArg [0x26; 0x23; 0x78] [0x3B] ForUnicode Hex16].
Definition dec_html : list esc_arg := [mkArg [0x26; 0x23] [0x3B] ForUnicode Dec10].
Definition x_bytes : list esc_arg := [mkArg [0x5C; 0x78] [] ForByte Hex16].
Definition oct_bytes : list esc_arg := [mkArg [0x5C] [] ForByte Oct8].

(** What an item gives in the output. *)
Definition delivered (dst : charset) (i : item) : list N := match i with Byte b => [b] | Char c => encoded dst c end.
Definition escape_text (W : list N) : Prop := exists its, Forall (fun a : item * list N => spells (fst a) (snd a)) its /\ W = flat_map snd its.
Definition entity_text (dst : charset) (W : list N) : Prop := exists its, Forall (fun a : N * list N => refers (fst a) (snd a) /\ writes dst (fst a)) its /\ W = flat_map snd its.
Definition char_text (src : charset) (dom : N -> Prop) (W : list N) : Prop := exists cps, Forall (fun c => reads src c /\ dom c) cps /\ W = flat_map (encoded src) cps.

(** Reading: every text made of escapes, in all their notations and in any mixture, is converted to what it spells. *)
Theorem C37_escapes_read : forall dst t its, Forall (fun a : item * list N => spells (fst a) (snd a)) its ->
  converts true (escape_reader dst t) escape_text (flat_map snd its) (flat_map (fun a => delivered dst (fst a)) its).
Proof.
  intros dst t its Hits. unfold escape_reader.
  assert (E : new_instance priv [(FROM, [esc_dec t]); (TO, encoder_of dst ++ [byte_enc])] = cb_inst (pconv (esc_side t) (mixed_side dst))) by (unfold cb_inst, pconv, mixed_side; cbn [map fst snd]; rewrite map_app, enc_side_codecs; reflexivity).
  rewrite E. destruct (esc_side_ok t) as (D1 & D2). destruct (mixed_side_ok dst) as (E1 & E2).
  apply (pair_converts (esc_side t) (mixed_side dst) true (fun a : item * list N => snd a) (fun a => internal (fst a)) (fun a => delivered dst (fst a)) (fun a => spells (fst a) (snd a))); auto; try discriminate.
  - destruct dst; discriminate.
  - intros _. apply esc_restores, mixed_calm.
  - intros [[] ?] _; discriminate.
  - apply esc_dcodes.
  - apply (mixed_ecodes dst (fun a : item * list N => fst a)). intros [i sp] H. cbn [fst snd] in H.
    inversion H as [h l x y Hx Hy|h l x y Hx Hy|a b c x y z Ha Hb Hc Hlt|m a b c d x y z w Hm Ha Hb Hc Hd Hpos]; subst; cbn [fst item_ok].
    + rewrite number2. destruct (hexv_digit _ _ Hx) as (_ & ? & _). destruct (hexv_digit _ _ Hy) as (_ & ? & _). lia.
    + rewrite number2. destruct (hexv_digit _ _ Hx) as (_ & ? & _). destruct (hexv_digit _ _ Hy) as (_ & ? & _). lia.
    + exact Hlt.
    + rewrite number4 in *. destruct (hexv_digit _ _ Ha) as (_ & ? & _). destruct (hexv_digit _ _ Hb) as (_ & ? & _). destruct (hexv_digit _ _ Hc) as (_ & ? & _). destruct (hexv_digit _ _ Hd) as (_ & ? & _).
      unfold encodable, u8_put_value. destruct dst; lia.
Qed.
Print Assumptions C37_escapes_read.
(** ... and every text made of numeric character references. *)
Theorem C37_references_read : forall dst t its, Forall (fun a : N * list N => refers (fst a) (snd a) /\ writes dst (fst a)) its ->
  converts true (entity_reader dst t) (entity_text dst) (flat_map snd its) (flat_map (fun a => encoded dst (fst a)) its).
Proof.
  intros dst t its Hits. unfold entity_reader.
  assert (E : new_instance priv [(FROM, [ent_dec t]); (TO, encoder_of dst)] = cb_inst (pconv (ent_side t) (enc_side dst))) by (unfold cb_inst, pconv; cbn [map fst snd]; rewrite enc_side_codecs; reflexivity).
  rewrite E. destruct (ent_side_ok t) as (D1 & D2). destruct (enc_side_ok dst) as (E1 & E2).
  apply (pair_converts (ent_side t) (enc_side dst) true (fun a : N * list N => snd a) (fun a => udatum (fst a)) (fun a => encoded dst (fst a)) (fun a => refers (fst a) (snd a) /\ writes dst (fst a))); auto using enc_side_ne; try discriminate.
  - intros _. apply ent_restores, enc_calm.
  - intros a rest (Ha & _). apply (ent_dcodes t a rest Ha).
  - apply (enc_ecodes dst (fun a : N * list N => fst a)). intros a (_ & Ha). exact Ha.
Qed.
Print Assumptions C37_references_read.

(** Writing. *)
Lemma write_gen src t8 t16 args (dom : N -> Prop) (out : N -> list N) : strict_utf8 t8 -> args <> [] -> (forall c, dom c -> first_put args (udatum c) = Some [out c]) ->
  forall cps, Forall (fun c => reads src c /\ dom c) cps -> converts true (writer src t8 t16 args) (char_text src dom) (flat_map (encoded src) cps) (flat_map out cps).
Proof.
  intros Hs Hne Hp cps Hc. unfold writer.
  assert (E : new_instance priv [(FROM, decoder_of src t8 t16); (TO, map esc_enc args)] = cb_inst (pconv (dec_side src t8 t16) (esc_enc_side args))) by (unfold cb_inst, pconv, esc_enc_side; cbn [map fst snd]; rewrite dec_side_codecs, map_map; reflexivity).
  rewrite E. destruct (dec_side_ok src t8 t16 Hs) as (D1 & D2). destruct (esc_enc_side_ok args) as (E1 & E2).
  apply (pair_converts (dec_side src t8 t16) (esc_enc_side args) true (encoded src) udatum out (fun c => reads src c /\ dom c)); auto; try discriminate.
  - destruct src; discriminate.
  - destruct args; [contradiction|discriminate].
  - intros _. apply dec_restores; [exact Hs|apply esc_enc_calm].
  - intros c rest (Hr & _). replace (map (fun y => k_v (snd y)) (dec_side src t8 t16)) with (dec_csems src (u_nul t8)) by (destruct src; reflexivity). apply (side_decodes src (u_nul t8) c rest Hr).
  - intros c rest (_ & Hd). unfold udatum. rewrite star_first by lia. fold (udatum c). rewrite (Hp c Hd). reflexivity.
Qed.
Lemma byte_write_gen args (out : N -> list N) : args <> [] -> (forall b, b < 256 -> first_put args [3; b] = Some [out b]) ->
  forall bs, Forall (fun b => b < 256) bs -> converts true (byte_writer args) (Forall (fun b => b < 256)) bs (flat_map out bs).
Proof.
  intros Hne Hp bs Hb. unfold byte_writer.
  assert (E : new_instance priv [(FROM, [byte_dec]); (TO, map esc_enc args)] = cb_inst (pconv byte_side (esc_enc_side args))) by (unfold cb_inst, pconv, esc_enc_side; cbn [map fst snd]; rewrite map_map; reflexivity).
  rewrite E. destruct byte_side_ok as (D1 & D2). destruct (esc_enc_side_ok args) as (E1 & E2). clear E.
  assert (Hid : forall l : list N, flat_map (fun b => [b]) l = l) by (induction l as [|x l IH]; [reflexivity|cbn; f_equal; exact IH]).
  assert (NE : esc_enc_side args <> []) by (destruct args; [contradiction|discriminate]).
  assert (HE : ecodes (map (fun y => k_v (snd y)) (esc_enc_side args)) (fun b => [3; b]) out (fun b => b < 256)) by (intros c rest Hd; rewrite star_first by lia; rewrite (Hp c Hd); reflexivity).
  assert (HP : forall xs, Forall (fun b => b < 256) xs -> S_Engine.pipeline (cb_pipe (pconv byte_side (esc_enc_side args))) xs = (map out xs, 0%nat, 0%nat)).
  { intros xs Hx. assert (N3 : forall b : N, b < 256 -> [3; b] <> []) by discriminate. pose proof (pair_pipe _ _ _ _ _ (fun b => b < 256) N3 byte_dcodes HE xs Hx) as H. rewrite Hid in H. exact H. }
  rewrite flat_map_concat_map. apply converts_by; [apply pconv_ok; auto; discriminate|intros _; apply byte_restores, esc_enc_calm| |exact Hb|apply HP; exact Hb].
  intros W HW. eexists _, _. apply HP. exact HW.
Qed.
Lemma udatum_tail c : c < 0x100000000 -> exists x l, be_bytes c = x :: l.
Proof. intros H. destruct (be_bytes_value c H) as (_ & _ & _ & Hn). destruct (be_bytes c) as [|x l]; [contradiction|eauto]. Qed.
Definition spelled (f : N -> item) (xs : list N) (W : list N) : Prop := exists ws, Forall2 (fun x w => spells (f x) w) xs ws /\ W = concat ws.
Definition referred (cps : list N) (W : list N) : Prop := exists ws, Forall2 refers cps ws /\ W = concat ws.
Lemma spelled_map (f : N -> item) (out : N -> list N) (dom : N -> Prop) xs : (forall x, dom x -> spells (f x) (out x)) -> Forall dom xs -> spelled f xs (flat_map out xs).
Proof. intros H HF. exists (map out xs). split; [|apply flat_map_concat_map]. induction HF; constructor; auto. Qed.
Lemma referred_map (out : N -> list N) (dom : N -> Prop) xs : (forall x, dom x -> refers x (out x)) -> Forall dom xs -> referred xs (flat_map out xs).
Proof. intros H HF. exists (map out xs). split; [|apply flat_map_concat_map]. induction HF; constructor; auto. Qed.

(** Characters from U+0100 to U+FFFF written by the URL and SOURCE encoders are spelled by %uXXXX and \uXXXX. *)
Definition four_digits (c : N) : Prop := 0x100 <= c < 0x10000.
Theorem C37_characters_written : forall src t8 t16 args cps, strict_utf8 t8 -> (args = url \/ args = source) -> Forall (fun c => reads src c /\ four_digits c) cps ->
  exists W, spelled Char cps W /\ converts true (writer src t8 t16 args) (char_text src four_digits) (flat_map (encoded src) cps) W.
Proof.
  intros src t8 t16 args cps Hs Ha Hc. set (m := if list_eq_dec N.eq_dec (match args with a :: _ => ea_prefix a | [] => [] end) [0x25; 0x75] then 0x25 else 0x5C).
  assert (Hm : (args = url -> m = 0x25) /\ (args = source -> m = 0x5C)) by (split; intros ->; reflexivity).
  exists (flat_map (fun c => [m; 0x75] ++ flat_map hex02 (be_bytes c)) cps). split.
  - apply (spelled_map Char _ four_digits); [|eapply Forall_impl; [|exact Hc]; tauto]. intros c H. apply u_char; [destruct Ha as [Ha|Ha]; [left; apply Hm; exact Ha|right; apply Hm; exact Ha]|exact H].
  - apply write_gen; [exact Hs|destruct Ha; subst; discriminate| |exact Hc]. intros c H. unfold four_digits in H. unfold udatum. destruct (udatum_tail c ltac:(lia)) as (x & l & E). rewrite E.
    destruct Ha as [->| ->]; destruct Hm as (M1 & M2); [rewrite M1 by reflexivity|rewrite M2 by reflexivity]; cbn [first_put url source es_put ea_for ea_mode ea_prefix ea_suffix]; rewrite !app_nil_r; reflexivity.
Qed.
Print Assumptions C37_characters_written.
(** Bytes: %XX, \xXX, \OOO. *)
Theorem C37_bytes_written : forall args bs, (args = url \/ args = x_bytes \/ args = oct_bytes) -> Forall (fun b => b < 256) bs ->
  exists W, spelled Byte bs W /\ converts true (byte_writer args) (Forall (fun b => b < 256)) bs W.
Proof.
  intros args bs [->|[->| ->]] Hb.
  - exists (flat_map (fun b => [0x25] ++ hex02 b) bs). split; [apply (spelled_map Byte _ (fun b => b < 256) bs percent_byte Hb)|]. apply byte_write_gen; [discriminate|reflexivity|exact Hb].
  - exists (flat_map (fun b => [0x5C; 0x78] ++ hex02 b) bs). split; [apply (spelled_map Byte _ (fun b => b < 256) bs x_byte Hb)|]. apply byte_write_gen; [discriminate|reflexivity|exact Hb].
  - exists (flat_map (fun b => [0x5C] ++ oct3 b) bs). split; [apply (spelled_map Byte _ (fun b => b < 256) bs oct_byte Hb)|]. apply byte_write_gen; [discriminate|reflexivity|exact Hb].
Qed.
Print Assumptions C37_bytes_written.
(** Every character but U+0000 is written as a reference, in hexadecimal and in decimal. *)
Definition not_nul (c : N) : Prop := 0 < c < 0x100000000.
Theorem C37_references_written : forall src t8 t16 args cps, strict_utf8 t8 -> (args = hex_html \/ args = dec_html) -> Forall (fun c => reads src c /\ not_nul c) cps ->
  exists W, referred cps W /\ converts true (writer src t8 t16 args) (char_text src not_nul) (flat_map (encoded src) cps) W.
Proof.
  intros src t8 t16 args cps Hs [->| ->] Hc; assert (Hn : Forall not_nul cps) by (eapply Forall_impl; [|exact Hc]; intros c Hx; exact (proj2 Hx)).
  - exists (flat_map (fun c => [0x26; 0x23; 0x78] ++ flat_map hex02 (be_bytes c) ++ [0x3B]) cps). split; [apply (referred_map _ not_nul cps hex_ref Hn)|].
    apply write_gen; [exact Hs|discriminate| |exact Hc]. intros c H. unfold not_nul in H. unfold udatum. destruct (udatum_tail c ltac:(lia)) as (x & l & E). rewrite E. reflexivity.
  - exists (flat_map (fun c => [0x26; 0x23] ++ dec_chars c ++ [0x3B]) cps). split; [apply (referred_map _ not_nul cps dec_ref Hn)|].
    apply write_gen; [exact Hs|discriminate| |exact Hc]. intros c H. unfold not_nul in H. unfold udatum. destruct (udatum_tail c ltac:(lia)) as (x & l & E).
    destruct (be_bytes_value c ltac:(lia)) as (_ & _ & Hv & _). rewrite <- Hv at 2. rewrite E. reflexivity.
Qed.
Print Assumptions C37_references_written.

(** Round trips: writing and reading back gives the text (in any encoding), the bytes, the characters. *)
Lemma read_spelled dst t (f : N -> item) xs W : spelled f xs W -> converts true (escape_reader dst t) escape_text W (flat_map (fun x => delivered dst (f x)) xs).
Proof.
  intros (ws & HF & ->). assert (H : exists its, Forall (fun a : item * list N => spells (fst a) (snd a)) its /\ flat_map snd its = concat ws /\ flat_map (fun a => delivered dst (fst a)) its = flat_map (fun x => delivered dst (f x)) xs).
  { induction HF as [|x w xs ws Hx _ (its & H1 & H2 & H3)]; [exists []; auto|]. exists ((f x, w) :: its). split; [constructor; assumption|]. cbn. rewrite H2, H3. auto. }
  destruct H as (its & H1 & <- & <-). apply C37_escapes_read. exact H1.
Qed.
Lemma read_referred dst t cps W : referred cps W -> Forall (writes dst) cps -> converts true (entity_reader dst t) (entity_text dst) W (flat_map (encoded dst) cps).
Proof.
  intros (ws & HF & ->) Hw. assert (H : exists its, Forall (fun a : N * list N => refers (fst a) (snd a) /\ writes dst (fst a)) its /\ flat_map snd its = concat ws /\ flat_map (fun a => encoded dst (fst a)) its = flat_map (encoded dst) cps).
  { induction HF as [|x w xs ws Hx _ IH]; [exists []; auto|]. inversion Hw as [|? ? Hwx Hwr]; subst. destruct (IH Hwr) as (its & H1 & H2 & H3). exists ((x, w) :: its). split; [constructor; auto|]. cbn. rewrite H2, H3. auto. }
  destruct H as (its & H1 & <- & <-). apply C37_references_read. exact H1.
Qed.
Theorem C37_character_round_trip : forall src dst t8 t16 t args cps, strict_utf8 t8 -> (args = url \/ args = source) -> Forall (fun c => reads src c /\ four_digits c) cps ->
  exists W, converts true (writer src t8 t16 args) (char_text src four_digits) (flat_map (encoded src) cps) W /\
            converts true (escape_reader dst t) escape_text W (flat_map (encoded dst) cps).
Proof.
  intros src dst t8 t16 t args cps Hs Ha Hc. destruct (C37_characters_written src t8 t16 args cps Hs Ha Hc) as (W & H1 & H2). exists W. split; [exact H2|]. exact (read_spelled dst t Char cps W H1).
Qed.
Print Assumptions C37_character_round_trip.
Theorem C37_byte_round_trip : forall dst t args bs, (args = url \/ args = x_bytes \/ args = oct_bytes) -> Forall (fun b => b < 256) bs ->
  exists W, converts true (byte_writer args) (Forall (fun b => b < 256)) bs W /\ converts true (escape_reader dst t) escape_text W bs.
Proof.
  intros dst t args bs Ha Hb. destruct (C37_bytes_written args bs Ha Hb) as (W & H1 & H2). exists W. split; [exact H2|].
  pose proof (read_spelled dst t Byte bs W H1) as H. cbn [delivered] in H. assert (Hid : forall l : list N, flat_map (fun b => [b]) l = l) by (induction l as [|x l IH]; [reflexivity|cbn; f_equal; exact IH]). rewrite Hid in H. exact H.
Qed.
Print Assumptions C37_byte_round_trip.
Theorem C37_reference_round_trip : forall src dst t8 t16 t args cps, strict_utf8 t8 -> (args = hex_html \/ args = dec_html) -> Forall (fun c => reads src c /\ writes dst c /\ c <> 0) cps ->
  exists W, converts true (writer src t8 t16 args) (char_text src not_nul) (flat_map (encoded src) cps) W /\
            converts true (entity_reader dst t) (entity_text dst) W (flat_map (encoded dst) cps).
Proof.
  intros src dst t8 t16 t args cps Hs Ha Hc.
  assert (Hc1 : Forall (fun c => reads src c /\ not_nul c) cps) by (eapply Forall_impl; [|exact Hc]; intros c (H1 & H2 & H3); split; [exact H1|]; unfold not_nul, writes in *; destruct dst; lia).
  destruct (C37_references_written src t8 t16 args cps Hs Ha Hc1) as (W & H1 & H2). exists W. split; [exact H2|]. apply read_referred; [exact H1|]. eapply Forall_impl; [|exact Hc]. intros c Hx; exact (proj1 (proj2 Hx)).
Qed.
Print Assumptions C37_reference_round_trip.

(** ** Beside the theorems: concrete conversions *)
Definition see (i : inst priv) (h : list call) : option (list N * list N * nat * nat) :=
  match bsdconv_init priv i with
  | None => None
  | Some s => option_map (fun x => (snd x, pending priv (fst x), i_ierr priv (fst x), i_oerr priv (fst x))) (run_hist priv 5000 s h)
  end.
Definition feed (d : list N) (fl : bool) : call := mkCall (Some (d, [])) fl (OAuto 0).
Definition tesc : esc := mkEsc 99 1 2.
Definition tent : ent := mkEnt 10 77.
Definition tu8 : u8 := mkU8 7 (1, 2, 3, 4) (5, 6, 7, 8) false false false false false.
Definition tu16 : u16 := mkU16 9 1 2 3 4.
(** "%u4E2D\x41%7e\101\u00e9" in three chunks *)
Example C37_ex_read : see (escape_reader UTF8 tesc) [feed [0x25; 0x75; 0x34; 0x45; 0x32; 0x44; 0x5C] false; feed [0x78; 0x34; 0x31; 0x25; 0x37; 0x65; 0x5C; 0x31] false; feed [0x30; 0x31; 0x5C; 0x75; 0x30; 0x30; 0x65; 0x39] true]
  = Some ([0xE4; 0xB8; 0xAD; 0x41; 0x7E; 0x41; 0xC3; 0xA9], [], 0%nat, 0%nat).
Proof. vm_compute. reflexivity. Qed.
(** "&#20013;&#x1f600;&#065;" *)
Example C37_ex_refs : see (entity_reader UTF8 tent) [feed [0x26; 0x23; 0x32; 0x30; 0x30] false; feed [0x31; 0x33; 0x3B; 0x26] false; feed [0x23; 0x78; 0x31; 0x66; 0x36; 0x30; 0x30; 0x3B; 0x26; 0x23; 0x30; 0x36; 0x35; 0x3B] true]
  = Some ([0xE4; 0xB8; 0xAD; 0xF0; 0x9F; 0x98; 0x80; 0x41], [], 0%nat, 0%nat).
Proof. vm_compute. reflexivity. Qed.
Example C37_ex_write : see (writer UTF8 tu8 tu16 url) [feed [0xE4; 0xB8] false; feed [0xAD] true] = Some ([0x25; 0x75; 0x34; 0x45; 0x32; 0x44], [], 0%nat, 0%nat) /\
  see (writer UTF8 tu8 tu16 dec_html) [feed [0xF0; 0x9F; 0x98; 0x80; 0x41] true] = Some ([0x26; 0x23; 0x31; 0x32; 0x38; 0x35; 0x31; 0x32; 0x3B; 0x26; 0x23; 0x36; 0x35; 0x3B], [], 0%nat, 0%nat) /\
  see (byte_writer url) [feed [0; 0xFF] true] = Some ([0x25; 0x30; 0x30; 0x25; 0x46; 0x46], [], 0%nat, 0%nat).
Proof. vm_compute. repeat split. Qed.
Example C37_ex_digits : spells (Char 0x4E2D) [0x5C; 0x75; 0x34; 0x65; 0x32; 0x44] /\ refers 65 [0x26; 0x23; 0x30; 0x36; 0x35; 0x3B].
Proof.
  split.
  - change 0x4E2D with (number 16 [4; 14; 2; 13]). apply sp_u; [right; reflexivity|unfold is_hex; lia|unfold is_hex; lia|unfold is_hex; lia|unfold is_hex; lia|reflexivity].
  - change 65 with (number 10 [0; 6; 5]). change [0x26; 0x23; 0x30; 0x36; 0x35; 0x3B] with ([0x26; 0x23] ++ [0x30; 0x36; 0x35] ++ [0x3B]). apply rf_dec; [|discriminate|cbn; lia]. repeat (apply Forall2_cons; [split; [lia|reflexivity]|]). apply Forall2_nil.
Qed.

(** ** Where the code departs from the property *)
(** The URL and SOURCE encoders write as many digits as the internal form has bytes: two for characters below U+0100, so that
    the digits are not read back (here U+00E9, then U+0041: nothing comes back, and errors are counted) ... *)
Theorem C37_below_100_refuted :
  see (writer UTF8 tu8 tu16 url) [feed [0xC3; 0xA9; 0x41] true] = Some ([0x25; 0x75; 0x45; 0x39; 0x25; 0x75; 0x34; 0x31], [], 0%nat, 0%nat) /\
  exists out p ie oe, see (escape_reader UTF8 tesc) [feed [0x25; 0x75; 0x45; 0x39; 0x25; 0x75; 0x34; 0x31] true] = Some (out, p, ie, oe) /\ out <> [0xC3; 0xA9; 0x41] /\ (0 < ie)%nat.
Proof. split; [vm_compute; reflexivity|]. do 4 eexists. split; [vm_compute; reflexivity|]. split; [discriminate|lia]. Qed.
(** ... and six above U+FFFF, of which the decoder reads four: another character comes back, and two digits are errors. *)
Theorem C37_above_ffff_refuted :
  see (writer UTF8 tu8 tu16 source) [feed [0xF0; 0x9F; 0x98; 0x80] true] = Some ([0x5C; 0x75; 0x30; 0x31; 0x46; 0x36; 0x30; 0x30], [], 0%nat, 0%nat) /\
  see (escape_reader UTF32BE tesc) [feed [0x5C; 0x75; 0x30; 0x31; 0x46; 0x36; 0x30; 0x30] true] = Some ([0; 0; 0x01; 0xF6], [], 2%nat, 0%nat).
Proof. vm_compute. repeat split. Qed.
(** The octal check compares with 377 in decimal: \571 is read as the byte 0x79, while \572 is rejected. *)
Theorem C37_octal_limit_refuted :
  see (escape_reader UTF8 tesc) [feed [0x5C; 0x35; 0x37; 0x31] true] = Some ([0x79], [], 0%nat, 0%nat) /\
  see (escape_reader UTF8 tesc) [feed [0x5C; 0x35; 0x37; 0x32] true] = Some ([], [], 4%nat, 0%nat).
Proof. vm_compute. repeat split. Qed.
(** "&#x;" is accepted as U+0000, and a character reference to U+0000 can swallow the character that follows it. *)
Theorem C37_zero_reference_refuted :
  see (entity_reader UTF8 tent) [feed [0x26; 0x23; 0x78; 0x3B; 0x26; 0x23; 0x36; 0x35; 0x3B; 0x26; 0x23; 0x36; 0x36; 0x3B] true] = Some ([0x41; 0x42], [], 0%nat, 1%nat) /\
  see (entity_reader UTF16BE tent) [feed [0x26; 0x23; 0x78; 0x3B; 0x26; 0x23; 0x36; 0x35; 0x3B; 0x26; 0x23; 0x36; 0x36; 0x3B] true] = Some ([0; 0x42], [], 0%nat, 1%nat).
Proof. vm_compute. repeat split. Qed.

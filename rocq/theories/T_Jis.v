(** C56: the ISO-2022-JP decoder. *)
From Verif Require Import Base Types M_Engine M_Output M_Create M_Callback M_UTF8 M_UTF16 M_Modules M_Mktable M_Jis S_Jis S_Session S_Unicode S_Flow S_Engine P_Engine1 P_Flow P_Flow4 P_Ebcdic2 P_Machine P_Byte P_Unicode P_Flow5 P_Flow6 S_Transcode.
From Verif Require T_Escape T_Ebcdic.
From Verif Require Import T_Shift P_Session2.
From Coq Require Import ZifyBool ZifyN ZifyNat.

Definition mnum (m : jmode) : N := match m with Ascii => 0 | Jis0201 => 1 | Jis0208 => 2 | Jis0212 => 3 end%N.
Section J.
Variables t1 t8 t12 : table.
Definition jtab (m : jmode) : table := match m with Ascii => [] | Jis0201 => t1 | Jis0208 => t8 | Jis0212 => t12 end.
Lemma jis_tab_mnum m : m <> Ascii -> jis_tab t1 t8 t12 (mnum m) = jtab m. Proof. destruct m; [congruence|reflexivity..]. Qed.
Lemma mnum_0 m : m <> Ascii -> (mnum m =? 0)%N = false. Proof. destruct m; [congruence|reflexivity..]. Qed.
Notation k := (jis_byte t1 t8 t12).
Lemma jis_cb_k p d i sd b : nth_error d i = Some b -> jis_cb t1 t8 t12 p d i sd = mkCb priv (fst (fst (k p b))) i (snd (fst (k p b))) (snd (k p b)).
Proof. intros H. unfold jis_cb. rewrite H. destruct (k p b) as [[? ?] ?]. reflexivity. Qed.
Definition aroot : tstate := match read_state (compiled ascii_from_src) 0 with Some s => s | None => mkTs DEADEND [] 0 0 [] end.
Lemma aroot_ok : read_state (e_tab ascii_dec) 0 = Some aroot. Proof. vm_compute. reflexivity. Qed.
Definition fallb_code (b : N) : bool := match fallb ascii_dec aroot b with Some [[a; c]] => (a =? 1)%N && (c =? b)%N | _ => false end.
Lemma fallb_ascii b : (1 <= b < 128)%N -> fallb ascii_dec aroot b = Some [udatum b].
Proof.
  intros Hb. assert (H : fallb_code b = true).
  { assert (A : forallb fallb_code (map N.of_nat (seq 1 127)) = true) by (vm_compute; reflexivity). rewrite forallb_forall in A. apply A. apply in_map_iff. exists (N.to_nat b). split; [lia|]. apply in_seq. lia. }
  unfold fallb_code in H. destruct (fallb ascii_dec aroot b) as [[|[|a [|c [|? ?]]] [|? ?]]|]; try discriminate. apply andb_true_iff in H as [H1 H2]. apply N.eqb_eq in H1, H2. subst.
  unfold udatum. f_equal. f_equal. f_equal. symmetry. unfold be_bytes. replace (b <? 256)%N with true by lia. reflexivity.
Qed.
Notation tr := (btr ascii_dec aroot k).
Definition ready (m : jmode) (c : tstate) : Prop := m = Ascii \/ read_state (jtab m) 0 = Some c.
Lemma run_app : forall a b x x1 o1 x2 o2, run tr x a = Some (x1, o1) -> run tr x1 b = Some (x2, o2) -> run tr x (a ++ b) = Some (x2, o1 ++ o2).
Proof.
  induction a as [|v a IH]; intros b x x1 o1 x2 o2 H1 H2; cbn [run app] in *; [injection H1 as <- <-; exact H2|].
  destruct (tr x v) as [[y p]|]; [|discriminate]. destruct (run tr y a) as [[y2 p2]|] eqn:E; [|discriminate]. injection H1 as <- <-. rewrite (IH _ _ _ _ _ _ E H2), app_assoc. reflexivity.
Qed.
Lemma code_step m s b s' n : m <> Ascii -> b <> 0x1B%N -> get_offset s b = Some (S n) -> read_state (jtab m) (S n) = Some s' ->
  k (PJis (mnum m) 0 s) b = match t_status s' with
     | MATCH => match read_state (jtab m) 0 with Some r => (PJis (mnum m) 0 r, NEXTPHASE, t_data s') | None => (PJis (mnum m) 0 s, NOMATCH, []) end
     | x => (PJis (mnum m) 0 s', x, []) end.
Proof. intros Hm Hb Hg Hs. unfold jis_byte. replace (0 =? 0)%N with true by reflexivity. replace (b =? 0x1B)%N with false by lia. rewrite (mnum_0 m Hm), Hg, (jis_tab_mnum m Hm), Hs. reflexivity. Qed.
Lemma run_code m : m <> Ascii -> forall w d s z, code_of (jtab m) s w d -> Forall (fun b => b < 256 /\ b <> 0x1B)%N w -> forall root, read_state (jtab m) 0 = Some root ->
  run tr (PJis (mnum m) 0 s, z) w = Some ((PJis (mnum m) 0 root, true), d).
Proof.
  intros Hm w d s z H. revert z. induction H as [s b n s' Hg Hs' Ht|s b n s' w d Hg Hs' Ht _ IH]; intros z HF root Hr; inversion HF as [|? ? [Hb1 Hb2] HF']; subst; cbn [run]; unfold btr at 1; cbn [fst snd];
    replace (b <? 256)%N with true by lia; rewrite (code_step m s b s' n Hm Hb2 Hg Hs'), Ht.
  - rewrite Hr. cbn [run]. rewrite app_nil_r. reflexivity.
  - rewrite (IH false HF' root Hr). reflexivity.
Qed.
Hypothesis roots : forall m, m <> Ascii -> exists r, read_state (jtab m) 0 = Some r.
Lemma enter m p : m <> Ascii -> exists c, read_state (jtab m) 0 = Some c /\ jis_enter t1 t8 t12 (mnum m) p = (PJis (mnum m) 0 c, NEXTPHASE, []).
Proof. intros Hm. destruct (roots m Hm) as (r & Hr). exists r. split; [exact Hr|]. unfold jis_enter. rewrite (jis_tab_mnum m Hm), Hr. reflexivity. Qed.
Lemma run_escape e m1 : escape e m1 -> forall m c z, exists c', ready m1 c' /\ run tr (PJis (mnum m) 0 c, z) e = Some ((PJis (mnum m1) 0 c', true), []).
Proof.
  intros He m c z. assert (H : m1 = Ascii \/ m1 <> Ascii) by (destruct m1; [left; reflexivity|right; discriminate..]). destruct H as [->|Hm1].
  - inversion He; subst. exists c. split; [left; reflexivity|]. reflexivity.
  - destruct (enter m1 (PJis (mnum m) 0 c) Hm1) as (c' & H1 & _). exists c'. split; [right; exact H1|]. destruct He; cbn [run]; unfold btr; cbn [fst snd jis_byte N.ltb N.eqb N.compare Pos.compare Pos.compare_cont Pos.eqb orb run app]; unfold jis_enter, jis_tab; cbn [N.eqb Pos.eqb jtab mnum] in *; try congruence; rewrite H1; reflexivity.
Qed.
Lemma run_text m bs cs m' : jis_text jtab m bs cs m' -> forall c, ready m c -> exists c', ready m' c' /\ run tr (PJis (mnum m) 0 c, true) bs = Some ((PJis (mnum m') 0 c', true), map udatum cs).
Proof.
  induction 1 as [m|m e m1 bs cs m' He _ IH|b bs cs m' Hb Hb2 _ IH|m w d bs cs m' Hm Hc _ IH]; intros c Hr.
  - exists c. split; [exact Hr|reflexivity].
  - destruct (run_escape e m1 He m c true) as (c1 & H1 & H2). destruct (IH c1 H1) as (c' & H3 & H4). exists c'. split; [exact H3|]. exact (run_app _ _ _ _ _ _ _ H2 H4).
  - destruct (IH c (or_introl eq_refl)) as (c' & H3 & H4). exists c'. split; [exact H3|]. cbn [run mnum]. unfold btr at 1. cbn [fst snd]. replace (b <? 256)%N with true by lia. assert (HK : k (PJis 0 0 c) b = (PJis 0 0 c, DEADEND, [])) by (unfold jis_byte; replace (0 =? 0)%N with true by reflexivity; replace (b =? 0x1B)%N with false by lia; reflexivity). rewrite HK.
    rewrite (fallb_ascii b Hb). cbn [mnum] in H4. rewrite H4. reflexivity.
  - destruct Hc as (root & R1 & R2 & R3). destruct Hr as [->|Hr]; [congruence|]. assert (root = c) by congruence. subst root.
    destruct (IH c (or_intror R1)) as (c' & H3 & H4). exists c'. split; [exact H3|]. pose proof (run_code m Hm w _ c true R2 R3 c R1) as H5. exact (run_app _ _ _ _ _ _ _ H5 H4).
Qed.

Definition jis_ph (g : tstate) : fph := FGen FROM [jis_dec t1 t8 t12 g; ascii_dec] (byte_spec (jis_dec t1 t8 t12 g) ascii_dec aroot k false) (byte_rel ascii_dec aroot k).
Lemma jis_ph_ok g : f_ok (jis_ph g).
Proof. unfold jis_ph. apply (byte_f_ok (jis_dec t1 t8 t12 g) ascii_dec aroot k (jis_cb t1 t8 t12)); [reflexivity|reflexivity|exact jis_cb_k|exact aroot_ok|discriminate]. Qed.
Lemma jis_inst g dst : f_inst (gchain (jis_ph g) (enc_fph dst) []) = jis_conv t1 t8 t12 g dst.
Proof. unfold f_inst, jis_conv, gchain. cbn [map app f_type f_codecs jis_ph enc_fph]. rewrite enc_side_codecs. reflexivity. Qed.
(** The decoder of the instance stands between characters in the set [m]. *)
Definition stands_in (s : inst priv) (m : jmode) : Prop :=
  exists th cd r c, nth_error (i_phases priv s) 1 = Some th /\ p_codecs th = cd :: r /\ e_priv cd = PJis (mnum m) 0 c /\ (m = Ascii \/ read_state (jtab m) 0 = Some c).
End J.

(** C56: "JIS:dst" reads a text in ISO-2022-JP, escape sequences and all, in whatever set the decoder stands, however the text is
    divided into calls (also within an escape sequence or a code), and whatever the instance was used for before. *)
Theorem C56_decode_conversion : forall t1 t8 t12 g dst s l m W cps m', (forall x, x <> Ascii -> exists r, read_state (jtab t1 t8 t12 x) 0 = Some r) ->
  fresh (jis_conv t1 t8 t12 g dst) s -> stands_in t1 t8 t12 s m -> chunks l W -> jis_text (jtab t1 t8 t12) m W cps m' -> Forall (writes dst) cps ->
  exists s', streams_to s l (flat_map (encoded dst) cps) s'.
Proof.
  intros t1 t8 t12 g dst s l m W cps m' Hroots Hs Hst (Hl1 & Hl2 & Hl3) Ht Hw. rewrite <- jis_inst in Hs.
  destruct (g_stream (jis_ph t1 t8 t12 g) (enc_fph dst) [] (jis_ph_ok t1 t8 t12 g) (enc_fph_good dst) ltac:(intros ? []) eq_refl ltac:(discriminate) (or_intror (conj eq_refl eq_refl))
    s l [map udatum cps] [] (filter nonempty (map (encoded dst) cps)) Hs Hl1 Hl2) as (s' & H & _).
  - constructor.
  - destruct Hst as (th & cd & r & c & E1 & E2 & E3 & E4). cbn [phase_rel jis_ph]. rewrite E1, E2. cbn [map byte_rel hd]. rewrite E3.
    split; [reflexivity|]. split; [reflexivity|]. destruct (run_text t1 t8 t12 Hroots m W cps m' Ht c E4) as (c' & _ & HR). cbn [app]. rewrite concat_ne, Hl3. eexists _, _. split; [exact HR|]. split; [reflexivity|].
    symmetry. apply (P_Pair.dat_nonempty udatum (fun _ => True)); [discriminate|clear; induction cps; constructor; auto].
  - apply enc_fph_rel. exact Hw.
  - exists s'. rewrite concat_ne in H. rewrite flat_map_concat_map. exact H.
Qed.
Print Assumptions C56_decode_conversion.
(** bsdconv_create and bsdconv_init give an instance that stands in ASCII. *)
Theorem C56_created : forall t1 t8 t12 g dst, exists s, bsdconv_init priv (jis_conv t1 t8 t12 g dst) = Some s /\ fresh (jis_conv t1 t8 t12 g dst) s /\ stands_in t1 t8 t12 s Ascii.
Proof.
  intros t1 t8 t12 g dst. destruct (g_fresh (jis_ph t1 t8 t12 g) (enc_fph dst) [] (jis_ph_ok t1 t8 t12 g) (enc_fph_good dst) ltac:(intros ? [])) as (s & H1 & H2). rewrite jis_inst in H1, H2. exists s. split; [exact H2|]. split; [exact H1|].
  unfold bsdconv_init, jis_conv in H2. cbn [new_instance map i_phases fst snd obind init_phase] in H2.
  destruct (fold_right _ _ _) as [r|] eqn:Er; cbn [obind] in H2; [|discriminate]. apply init_rest_spec in Er. inversion Er as [|? th ? r' Hth _ E1 E2]. subst. injection H2 as <-.
  destruct (jis_dec t1 t8 t12 g) as [tb cv fl ic pr] eqn:Ej. assert (Ei : ic = None /\ pr = PJis 0 0 g /\ tb = star_table) by (injection Ej; auto). destruct Ei as (-> & -> & ->).
  assert (Hi := init_two _ th _ _ s0 Hth eq_refl star_root). rewrite Hi. eexists _, _, _, g. split; [reflexivity|]. split; [reflexivity|]. split; [reflexivity|left; reflexivity].
Qed.
Print Assumptions C56_created.

(** ** Lines of the three tables, and the text "A", hiragana A, halfwidth katakana A, hanzi 4E02, "B" *)
Import T_Ebcdic T_Escape.
Definition ex_of (s : string) : table := match mktable (hx s) with Some t => t | None => [] end.
Definition ex1 : table := ex_of (line "5C" "01A5" ++ line "B1" "01FF71" ++ line "31" "01FF71").
Definition ex8 : table := ex_of (line "2421" "013041" ++ line "2422" "013042" ++ line "3021" "014E9C").
Definition ex12 : table := ex_of (line "3021" "014E02" ++ line "3022" "014E04").
Definition ex_text : list N := [0x41; 0x1B; 0x24; 0x42; 0x24; 0x22; 0x1B; 0x28; 0x49; 0x31; 0x1B; 0x28; 0x24; 0x44; 0x30; 0x21; 0x1B; 0x28; 0x42; 0x42]%N.
Example C56_ex_roots : forall x, x <> Ascii -> exists r, read_state (jtab ex1 ex8 ex12 x) 0 = Some r.
Proof. intros [] H; [congruence|..]; vm_compute; eexists; reflexivity. Qed.
Fixpoint codef (tab : table) (s : tstate) (w : list N) : option (list datum) :=
  match w with
  | [] => None
  | b :: r => match get_offset s b with
              | Some (S n) => match read_state tab (S n) with
                              | Some s' => match t_status s', r with MATCH, [] => Some (t_data s') | CONTINUE, _ => codef tab s' r | _, _ => None end
                              | None => None end
              | _ => None end
  end.
Lemma codef_ok tab : forall w s d, codef tab s w = Some d -> code_of tab s w d.
Proof.
  induction w as [|b r IH]; intros s d H; cbn [codef] in H; [discriminate|]. destruct (get_offset s b) as [[|n]|] eqn:E1; [discriminate| |discriminate]. destruct (read_state tab (S n)) as [s'|] eqn:E2; [|discriminate].
  destruct (t_status s') eqn:E3; try (destruct r; discriminate).
  - apply (co_more tab s b n s' r d E1 E2 E3). apply IH. destruct r; exact H.
  - destruct r; [|discriminate]. injection H as <-. apply (co_last tab s b n s' E1 E2 E3).
Qed.
Lemma char_code_of tab w c root : read_state tab 0 = Some root -> codef tab root w = Some [udatum c] -> forallb (fun b => (b <? 256)%N && negb (b =? 0x1B)%N) w = true -> char_code tab w c.
Proof.
  intros H1 H2 H3. exists root. split; [exact H1|]. split; [apply codef_ok; exact H2|]. apply Forall_forall. rewrite forallb_forall in H3. intros b Hb. specialize (H3 b Hb). lia.
Qed.
Example C56_ex_text : jis_text (jtab ex1 ex8 ex12) Ascii ex_text [0x41; 0x3042; 0xFF71; 0x4E02; 0x42]%N Ascii.
Proof.
  unfold ex_text. apply jt_ascii; [lia|discriminate|]. apply (jt_escape _ _ [0x1B; 0x24; 0x42]%N Jis0208); [constructor|].
  apply (jt_code _ Jis0208 [0x24; 0x22]%N); [discriminate|eapply char_code_of; vm_compute; reflexivity|].
  apply (jt_escape _ _ [0x1B; 0x28; 0x49]%N Jis0201); [constructor|]. apply (jt_code _ Jis0201 [0x31]%N); [discriminate|eapply char_code_of; vm_compute; reflexivity|].
  apply (jt_escape _ _ [0x1B; 0x28; 0x24; 0x44]%N Jis0212); [constructor|]. apply (jt_code _ Jis0212 [0x30; 0x21]%N); [discriminate|eapply char_code_of; vm_compute; reflexivity|].
  apply (jt_escape _ _ [0x1B; 0x28; 0x42]%N Ascii); [constructor|]. apply jt_ascii; [lia|discriminate|]. apply jt_end.
Qed.
Example C56_ex_run : see (jis_conv ex1 ex8 ex12 (mkTs DEADEND [] 7 7 []) UTF8) [feed (firstn 2 ex_text) false; feed (firstn 3 (skipn 2 ex_text)) false; feed (skipn 5 ex_text) true]
  = Some ([0x41; 0xE3; 0x81; 0x82; 0xEF; 0xBD; 0xB1; 0xE4; 0xB8; 0x82; 0x42]%N, [], 0, 0).
Proof. vm_compute. reflexivity. Qed.
Definition see_again (i : inst priv) (h h2 : list call) : option (list N * nat) :=
  match bsdconv_init priv i with
  | None => None
  | Some s => match run_hist priv 5000 s h with
              | None => None
              | Some (s1, _) => match bsdconv_init priv s1 with None => None | Some s2 => option_map (fun x => (snd x, i_ierr priv (fst x))) (run_hist priv 5000 s2 h2) end
              end
  end.
(** The decoder has no cbinit: after bsdconv_init it still stands in the set the last text ended in, so the ASCII text 24 22 is
    read as a hiragana. *)
Theorem C56_reinit_refuted : jis_text (jtab ex1 ex8 ex12) Ascii [0x24; 0x22]%N [0x24; 0x22]%N Ascii /\
  see_again (jis_conv ex1 ex8 ex12 (mkTs DEADEND [] 7 7 []) UTF8) [feed [0x1B; 0x24; 0x42]%N true] [feed [0x24; 0x22]%N true] = Some ([0xE3; 0x81; 0x82]%N, 0).
Proof. split; [|vm_compute; reflexivity]. do 2 (apply jt_ascii; [lia|discriminate|]). apply jt_end. Qed.
Print Assumptions C56_reinit_refuted.
(** Half a double byte code before an escape sequence is dropped and no error is counted. *)
Theorem C56_half_character_refuted : see (jis_conv ex1 ex8 ex12 (mkTs DEADEND [] 7 7 []) UTF8) [feed [0x1B; 0x24; 0x42; 0x24; 0x1B; 0x28; 0x42; 0x41]%N true] = Some ([0x41]%N, [], 0, 0).
Proof. vm_compute. reflexivity. Qed.
Print Assumptions C56_half_character_refuted.

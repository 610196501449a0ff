(** UTF-8: the encoder gives the standard form, and the decoder accepts nothing else. *)
From Verif Require Import Base Types M_Engine M_Callback M_UTF8 S_Engine S_Unicode P_Trans P_Engine1 P_Engine2 P_Engine5 P_Callback P_UTF8.
From Coq Require Import ZifyBool ZifyN ZifyNat.
Local Open Scope N_scope.
Ltac Zify.zify_post_hook ::= Z.div_mod_to_equations.

(** ** Encoder *)
Lemma g_80 b : b < 256 -> (N.land b 0x80 =? 0) = (b <? 128).
Proof. intros H. apply eqb_prop. revert b H. apply (all1 (fun b => eqb (N.land b 0x80 =? 0) (b <? 128)) 256). vm_compute. reflexivity. Qed.
Lemma g_F8 b : b < 256 -> (N.land b 0xF8 =? 0) = (b <? 8).
Proof. intros H. apply eqb_prop. revert b H. apply (all1 (fun b => eqb (N.land b 0xF8 =? 0) (b <? 8)) 256). vm_compute. reflexivity. Qed.
Lemma g_E0 b : b < 256 -> (N.land b 0xE0 =? 0) = (b <? 32).
Proof. intros H. apply eqb_prop. revert b H. apply (all1 (fun b => eqb (N.land b 0xE0 =? 0) (b <? 32)) 256). vm_compute. reflexivity. Qed.
Lemma g_t b : b < 256 -> N.lor 0x80 (N.land b 0x3F) = 0x80 + b mod 64.
Proof. intros H. apply N.eqb_eq. revert b H. apply (all1 (fun b => N.lor 0x80 (N.land b 0x3F) =? 0x80 + b mod 64) 256). vm_compute. reflexivity. Qed.
Lemma g_l2 b : b < 256 -> N.lor 0xC0 (N.land (N.shiftr b 6) 0x03) = 0xC0 + b / 64.
Proof. intros H. apply N.eqb_eq. revert b H. apply (all1 (fun b => N.lor 0xC0 (N.land (N.shiftr b 6) 0x03) =? 0xC0 + b / 64) 256). vm_compute. reflexivity. Qed.
Lemma g_l22 a b : a < 8 -> b < 256 -> N.lor (N.lor 0xC0 (N.land (N.shiftl a 2) 0x1C)) (N.land (N.shiftr b 6) 0x03) = 0xC0 + a * 4 + b / 64.
Proof. intros H H2. apply N.eqb_eq. revert a b H H2. apply (all2 (fun a b => N.lor (N.lor 0xC0 (N.land (N.shiftl a 2) 0x1C)) (N.land (N.shiftr b 6) 0x03) =? 0xC0 + a * 4 + b / 64) 8 256). vm_compute. reflexivity. Qed.
Lemma g_l3 b : b < 256 -> N.lor 0xE0 (N.land (N.shiftr b 4) 0x0F) = 0xE0 + b / 16.
Proof. intros H. apply N.eqb_eq. revert b H. apply (all1 (fun b => N.lor 0xE0 (N.land (N.shiftr b 4) 0x0F) =? 0xE0 + b / 16) 256). vm_compute. reflexivity. Qed.
Lemma g_m3 a b : a < 256 -> b < 256 -> N.lor (N.lor 0x80 (N.land (N.shiftl a 2) 0x3C)) (N.land (N.shiftr b 6) 0x03) = 0x80 + a mod 16 * 4 + b / 64.
Proof. intros H H2. apply N.eqb_eq. revert a b H H2. apply (all2 (fun a b => N.lor (N.lor 0x80 (N.land (N.shiftl a 2) 0x3C)) (N.land (N.shiftr b 6) 0x03) =? 0x80 + a mod 16 * 4 + b / 64) 256 256). vm_compute. reflexivity. Qed.
Lemma g_l4 b : b < 32 -> N.lor 0xF0 (N.land (N.shiftr b 2) 0x07) = 0xF0 + b / 4.
Proof. intros H. apply N.eqb_eq. revert b H. apply (all1 (fun b => N.lor 0xF0 (N.land (N.shiftr b 2) 0x07) =? 0xF0 + b / 4) 32). vm_compute. reflexivity. Qed.
Lemma g_m4 a b : a < 32 -> b < 256 -> N.lor (N.lor 0x80 (N.land (N.shiftl a 4) 0x30)) (N.land (N.shiftr b 4) 0x0F) = 0x80 + a mod 4 * 16 + b / 16.
Proof. intros H H2. apply N.eqb_eq. revert a b H H2. apply (all2 (fun a b => N.lor (N.lor 0x80 (N.land (N.shiftl a 4) 0x30)) (N.land (N.shiftr b 4) 0x0F) =? 0x80 + a mod 4 * 16 + b / 16) 32 256). vm_compute. reflexivity. Qed.

Theorem u8_put_ok c : 0x80 <= c < 0x200000 -> u8_put (udatum c) = Some [utf8 c].
Proof.
  intros (Hlo & Hhi). unfold u8_put, udatum, be_bytes, utf8. replace (c <? 128) with false by lia.
  destruct (N.ltb_spec c 256) as [H1|H1].
  - cbn [tl]. rewrite g_80, g_l2, g_t by lia. replace (c <? 128) with false by lia. replace (c <? 2048) with true by lia. reflexivity.
  - destruct (N.ltb_spec c 65536) as [H2|H2].
    + cbn [tl]. assert (Ha : c / 256 < 256) by lia. assert (Hb : c mod 256 < 256) by lia. rewrite g_F8 by exact Ha. destruct (N.ltb_spec (c / 256) 8) as [H3|H3].
      * replace (c <? 2048) with true by lia. rewrite g_l22, g_t by assumption. do 2 f_equal. f_equal; [|f_equal]; lia.
      * replace (c <? 2048) with false by lia. rewrite g_l3, g_m3, g_t by assumption. do 2 f_equal. f_equal; [|f_equal; [|f_equal]]; lia.
    + replace (c <? 16777216) with true by lia. replace (c <? 2048) with false by lia. cbn [tl]. assert (Ha : c / 65536 < 32) by lia. assert (Hb : c / 256 mod 256 < 256) by lia. assert (Hc : c mod 256 < 256) by lia.
      rewrite g_E0 by lia. replace (c / 65536 <? 32) with true by lia. rewrite g_l4, g_m4, g_m3, g_t by assumption. do 2 f_equal. f_equal; [|f_equal; [|f_equal; [|f_equal]]]; lia.
Qed.

(** ** Decoder, converse *)
(** The states reached by an incomplete sequence. *)
Inductive partial : list N -> N -> ucs_t -> Prop :=
  | pt2 a : 2 <= a < 32 -> partial [0xC0 + a] 21 (0, 0, a / 4, a mod 4 * 64)
  | pt3 a : a < 16 -> partial [0xE0 + a] 31 (0, 0, a * 16, 0)
  | pt32 a b : a < 16 -> b < 64 ->((a =? 0) && (b <? 32)) = false -> partial [0xE0 + a; 0x80 + b] 32 (0, 0, a * 16 + b / 4, b mod 4 * 64)
  | pt4 a : a < 8 -> partial [0xF0 + a] 41 (0, a * 4, 0, 0)
  | pt42 a b : a < 8 -> b < 64 -> ((a =? 0) && (b <? 16)) = false -> partial [0xF0 + a; 0x80 + b] 42 (0, a * 4 + b / 16, b mod 16 * 16, 0)
  | pt43 a b e : a < 8 -> b < 64 -> ((a =? 0) && (b <? 16)) = false -> e < 64 -> partial [0xF0 + a; 0x80 + b; 0x80 + e] 43 (0, a * 4 + b / 16, b mod 16 * 16 + e / 4, e mod 4 * 64).

Definition byte (d : N) : Prop := d < 256.
Lemma lead_cases d : d < 256 -> (d < 0xC0 \/ 0xF8 <= d) \/ (exists a, a < 32 /\ d = 0xC0 + a) \/ (exists a, a < 16 /\ d = 0xE0 + a) \/ (exists a, a < 8 /\ d = 0xF0 + a).
Proof.
  intros H. destruct (N.ltb_spec d 0xC0); [left; lia|]. destruct (N.ltb_spec d 0xE0); [right; left; exists (d - 0xC0); lia|]. destruct (N.ltb_spec d 0xF0); [right; right; left; exists (d - 0xE0); lia|].
  destruct (N.ltb_spec d 0xF8); [right; right; right; exists (d - 0xF0); lia|left; lia].
Qed.
Lemma partial_st R st u : partial R st u -> st = 21 \/ st = 31 \/ st = 32 \/ st = 41 \/ st = 42 \/ st = 43.
Proof. intros []; auto 8. Qed.

Lemma emit_judge nul u : let '(_, r) := emit nul u in match r with Some (NEXTPHASE, o) => o = [u_pass u] /\ ~ (0xD800 <= be32 u <= 0xDFFF) | Some (DEADEND, _) => True | _ => False end.
Proof. unfold emit. destruct (_ || _) eqn:E; cbn; [exact I|]. split; [reflexivity|]. lia. Qed.

(** One more byte after an incomplete sequence. *)
Lemma partial_next nul R st u d : partial R st u -> byte d ->
  (u8_step (S1 nul st u) d = dead nul) \/
  (exists st' u', u8_step (S1 nul st u) d = (S1 nul st' u', None) /\ partial (R ++ [d]) st' u') \/
  (exists u', u8_step (S1 nul st u) d = emit nul u' /\ R ++ [d] = utf8 (be32 u') /\ 0x80 <= be32 u' < 0x200000 /\ u_pass u' = udatum (be32 u')).
Proof.
  intros HP Hd. destruct (N.land d 0xC0 =? 0x80) eqn:Ec; [|left; apply not_cont; [eapply partial_st; exact HP|exact Ec]].
  destruct (cont_byte d Ec Hd) as (x & Hx & ->). destruct HP as [a Ha|a Ha|a b Ha Hb Ho|a Ha|a b Ha Hb Ho|a b e Ha Hb Ho He].
  - right; right. exists (0, 0, a / 4, a mod 4 * 64 + x). rewrite trail by auto. cbn [orb3]. rewrite f_or64 by lia. split; [reflexivity|]. rewrite pass_udatum by lia. cbn [be32].
    replace (0 * 16777216 + 0 * 65536 + a / 4 * 256 + (a mod 4 * 64 + x)) with (a * 64 + x) by lia. split; [|split; [lia|f_equal; lia]].
    unfold utf8. replace (a * 64 + x <? 128) with false by lia. replace (a * 64 + x <? 2048) with true by lia. cbn [app]. f_equal; [|f_equal]; lia.
  - rewrite mid31 by assumption. destruct ((a =? 0) && (x <? 32)) eqn:Eo; [left; reflexivity|]. right; left. eexists _, _. split; [reflexivity|]. constructor; auto.
  - right; right. exists (0, 0, a * 16 + b / 4, b mod 4 * 64 + x). rewrite trail by auto. cbn [orb3]. rewrite f_or64 by lia. split; [reflexivity|]. rewrite pass_udatum by lia. cbn [be32].
    replace (0 * 16777216 + 0 * 65536 + (a * 16 + b / 4) * 256 + (b mod 4 * 64 + x)) with (a * 4096 + b * 64 + x) by lia. split; [|split; [lia|f_equal; lia]].
    unfold utf8. replace (a * 4096 + b * 64 + x <? 128) with false by lia. replace (a * 4096 + b * 64 + x <? 2048) with false by lia. replace (a * 4096 + b * 64 + x <? 65536) with true by lia. cbn [app]. f_equal; [|f_equal; [|f_equal]]; lia.
  - rewrite mid41 by assumption. destruct ((a =? 0) && (x <? 16)) eqn:Eo; [left; reflexivity|]. right; left. eexists _, _. split; [reflexivity|]. constructor; auto.
  - rewrite mid42 by lia. right; left. eexists _, _. split; [reflexivity|]. constructor; auto.
  - right; right. exists (0, a * 4 + b / 16, b mod 16 * 16 + e / 4, e mod 4 * 64 + x). rewrite trail by auto. cbn [orb3]. rewrite f_or64 by lia. split; [reflexivity|]. rewrite pass_udatum by lia. cbn [be32].
    replace (0 * 16777216 + (a * 4 + b / 16) * 65536 + (b mod 16 * 16 + e / 4) * 256 + (e mod 4 * 64 + x)) with (a * 262144 + b * 4096 + e * 64 + x) by lia. split; [|split; [lia|f_equal; lia]].
    unfold utf8. set (c := a * 262144 + b * 4096 + e * 64 + x). assert (65536 <= c) by lia. replace (c <? 128) with false by lia. replace (c <? 2048) with false by lia. replace (c <? 65536) with false by lia. unfold c. cbn [app]. f_equal; [|f_equal; [|f_equal; [|f_equal]]]; lia.
Qed.

Lemma after_partial nul : forall R, Forall byte R -> forall q, after u8_step (strict nul) R = Some q -> (R = [] /\ q = strict nul) \/ exists st u, q = S1 nul st u /\ partial R st u.
Proof.
  intros R. induction R as [|d R IH] using rev_ind; intros HB q H; [left; injection H as <-; auto|]. right. apply Forall_app in HB as (HB & Hd). inversion Hd as [|? ? Hd' _]; subst. rewrite after_app in H. destruct (after u8_step (strict nul) R) as [q1|] eqn:E; [|discriminate].
  rewrite after_strict_step in H. destruct (IH HB _ eq_refl) as [(-> & ->)|(st & u & -> & HP)].
  - destruct (lead_cases d Hd') as [Hc|[(a & Ha & ->)|[(a & Ha & ->)|(a & Ha & ->)]]].
    + rewrite lead_bad in H by assumption. discriminate.
    + rewrite lead2 in H by assumption. destruct (N.ltb_spec a 2); [discriminate|]. injection H as <-. eexists _, _. split; [reflexivity|]. constructor. lia.
    + rewrite lead3 in H by assumption. injection H as <-. eexists _, _. split; [reflexivity|]. constructor. lia.
    + rewrite lead4 in H by assumption. injection H as <-. eexists _, _. split; [reflexivity|]. constructor. lia.
  - destruct (partial_next nul R st u d HP Hd') as [Hs|[(st' & u' & Hs & HP')|(u' & Hs & _)]]; rewrite Hs in H.
    + discriminate.
    + injection H as <-. eauto.
    + pose proof (emit_judge nul u') as He. destruct (emit nul u') as [q' [[[] o]|]]; try contradiction; discriminate.
Qed.

Theorem u8_accepts_only nul R d q o : Forall byte R -> byte d -> after u8_step (strict nul) R = Some q -> judge u8_step q d = VMatch o ->
  exists c, u8_dom c /\ R ++ [d] = utf8 c /\ o = [udatum c].
Proof.
  intros HB Hd HA HJ. destruct (after_partial nul R HB q HA) as [(-> & ->)|(st & u & -> & HP)]; unfold judge in HJ.
  - destruct (lead_cases d Hd) as [Hc|[(a & Ha & ->)|[(a & Ha & ->)|(a & Ha & ->)]]].
    + rewrite lead_bad in HJ by assumption. discriminate.
    + rewrite lead2 in HJ by assumption. destruct (a <? 2); discriminate.
    + rewrite lead3 in HJ by assumption. discriminate.
    + rewrite lead4 in HJ by assumption. discriminate.
  - destruct (partial_next nul R st u d HP Hd) as [Hs|[(st' & u' & Hs & HP')|(u' & Hs & H1 & H2 & H3)]]; rewrite Hs in HJ; [discriminate|discriminate|].
    pose proof (emit_judge nul u') as He. destruct (emit nul u') as [q' [[[] o']|]]; try contradiction; try discriminate. destruct He as (-> & He). injection HJ as <-. exists (be32 u'). split; [split; [exact H2|exact He]|]. split; [exact H1|]. f_equal. exact H3.
Qed.

(** Decoders and encoders of the Unicode encodings. *)
From Verif Require Import Base Types M_Engine M_Mktable M_Callback M_UTF8 M_UTF16 M_Modules S_Source S_Dict S_Table S_Unicode S_Engine P_Trans P_Engine1 P_Engine2 P_Engine5 P_Callback P_UTF8 P_UTF8b P_UTF16 P_Dict P_Mktable4 P_Ascii.
From Coq Require Import ZifyBool ZifyN ZifyNat.
Local Open Scope N_scope.

(** ** The character sets *)
Definition strict0 (t : u8) : Prop := u_cesu t = false /\ u_loose t = false /\ u_over t = false /\ u_super t = false.
Definition u8dec_sem (nul : bool) : csem := dec_sem u8_step (strict nul).

Ltac Zify.zify_post_hook ::= Z.div_mod_to_equations.
Lemma utf8_hd c : c < 0x200000 -> okhd (utf8 c) = true.
Proof.
  intros H. unfold utf8. destruct (N.ltb_spec c 128); [unfold okhd; apply N.ltb_lt; lia|]. destruct (N.ltb_spec c 2048); [|destruct (N.ltb_spec c 65536)]; unfold okhd; apply N.ltb_lt; lia.
Qed.
Lemma utf8_hd_big c : 128 <= c -> exists b r, utf8 c = b :: r /\ 128 <= b.
Proof.
  intros H. unfold utf8. destruct (N.ltb_spec c 128); [lia|]. destruct (N.ltb_spec c 2048); [|destruct (N.ltb_spec c 65536)]; eexists _, _; (split; [reflexivity|]); lia.
Qed.

Ltac Zify.zify_post_hook ::= idtac.
Definition u8_value (c : N) : Prop := 0 < c < 0x200000 /\ ~ (0xD800 <= c <= 0xDFFF).
Lemma utf8_decodes nul : decodes [ascii_from_sem; u8dec_sem nul] utf8 u8_value.
Proof.
  intros c rest ((H0 & H1) & H2). destruct (N.ltb_spec c 128) as [Hc|Hc].
  - unfold utf8. replace (c <? 128) with true by lia. cbn [byt map app first_match]. rewrite ascii_from_scan. replace ((1 <=? c) && (c <? 128)) with true by lia. unfold udatum, be_bytes. replace (c <? 256) with true by lia. reflexivity.
  - assert (Hd : decodes [u8dec_sem nul] utf8 u8_dom). { apply dec_decodes. intros x Hx. split; [apply utf8_hd, Hx|]. apply u8_accepts. exact Hx. }
    cbn [first_match]. destruct (utf8_hd_big c Hc) as (b & r & E & Hb). rewrite E at 1. cbn [byt map app]. rewrite ascii_from_scan. replace ((1 <=? b) && (b <? 128)) with false by lia.
    exact (Hd c rest (conj (conj Hc H1) H2)).
Qed.
Definition u8_put_value (c : N) : Prop := 0 < c < 0x200000.
Lemma utf8_encodes : encodes [uni_sem u8_put; ascii_to_sem] utf8 u8_put_value.
Proof.
  intros c rest (H0 & H1). destruct (N.ltb_spec c 128) as [Hc|Hc].
  - unfold utf8. replace (c <? 128) with true by lia. unfold udatum, be_bytes. replace (c <? 256) with true by lia. cbn [first_match scan app]. unfold uni_sem at 1. cbn [app N.eqb Pos.eqb andb].
    replace (c <? 257) with true by lia. unfold u8_put. cbn [tl]. rewrite g_80 by lia. replace (c <? 128) with true by lia. rewrite ascii_to_verdict by lia. reflexivity.
  - assert (He : encodes [uni_sem u8_put] utf8 (fun c => 128 <= c < 0x200000)). { apply uni_encodes. intros x Hx. split; [lia|]. apply u8_put_ok. exact Hx. }
    pose proof (He c rest (conj Hc H1)) as E. cbn [first_match] in *. destruct (scan (uni_sem u8_put) [] (udatum c :: rest) None); [exact E|discriminate].
Qed.
Lemma okhd_mod x l : okhd (x mod 256 :: l) = true.
Proof. unfold okhd. apply N.ltb_lt. pose proof (N.mod_lt x 256 ltac:(discriminate)). lia. Qed.
Lemma okhd_div x k l : k <> 0 -> x < k * 256 -> okhd (x / k :: l) = true.
Proof. intros Hk H. unfold okhd. apply N.ltb_lt. pose proof (N.div_lt_upper_bound x k 256 Hk H). lia. Qed.
Lemma utf16_hd (le : bool) c : c < 0x110000 -> okhd ((if le then utf16le else utf16be) c) = true.
Proof.
  intros H. assert (Hu : exists u r, utf16_units c = u :: r /\ u < 256 * 256).
  { unfold utf16_units. destruct (N.ltb_spec c 0x10000); eexists _, _; (split; [reflexivity|]); [lia|]. pose proof (N.div_lt_upper_bound (c - 0x10000) 0x400 0x400 ltac:(discriminate) ltac:(lia)). lia. }
  destruct Hu as (u & r & E & Hu). destruct le; unfold utf16le, utf16be; rewrite E; cbn [flat_map app]; [apply okhd_mod|apply okhd_div; [discriminate|exact Hu]].
Qed.
Lemma utf16_decodes (le : bool) : decodes [dec_sem (nstep16 le) w0] (if le then utf16le else utf16be) (fun c => scalar c /\ 0 < c).
Proof.
  apply dec_decodes. intros c (Hs & H0). split; [apply utf16_hd, Hs|]. pose proof (u16_accepts le c Hs H0) as H. destruct le; exact H.
Qed.
Lemma utf16_encodes (le : bool) : encodes [uni_sem (u16_put le)] (if le then utf16le else utf16be) (fun c => c < 0x110000).
Proof. apply uni_encodes. intros c Hc. split; [lia|]. rewrite u16_put_ok by exact Hc. destruct le; reflexivity. Qed.
Lemma utf32_decodes (le : bool) : decodes [dec_sem (nstep32 le) w0] (if le then utf32le else utf32be) (fun c => 0 < c < 0x100000000).
Proof.
  apply dec_decodes. intros c Hc. split.
  - destruct le; unfold utf32le, utf32be; cbn [rev app]; [apply okhd_mod|apply okhd_div; [discriminate|exact (proj2 Hc)]].
  - pose proof (u32_accepts le c Hc) as H. destruct le; exact H.
Qed.
Lemma utf32_encodes (le : bool) : encodes [uni_sem (u32_put le)] (if le then utf32le else utf32be) (fun c => c < 0x100000000).
Proof. apply uni_encodes. intros c Hc. split; [exact Hc|]. rewrite u32_put_ok by exact Hc. destruct le; reflexivity. Qed.

(** ** Strictness of UTF-8 *)
Lemma dec_scan_inv {Q} (step : Q -> N -> Q * option (status * list datum)) q0 : forall W pre q n o, after step q0 (concat pre) = Some q ->
  scan (dec_sem step q0) pre (byt W) None = Some (n, o) ->
  exists R b qr, firstn (n - length pre) W = R ++ [b] /\ n = (length pre + length (R ++ [b]))%nat /\ after step q R = Some qr /\ judge step qr b = VMatch o.
Proof.
  induction W as [|b W IH]; intros pre q n o Hq H; [discriminate|]. rewrite byt_cons in H. cbn [scan] in H. destruct (okhd (concat pre ++ [b])) eqn:Eo.
  2:{ unfold dec_sem at 1 in H. rewrite concat_app in H. cbn [concat] in H. rewrite app_nil_r, Eo in H. discriminate. }
  rewrite dec_sem_snoc, Hq in H by exact Eo. destruct (judge step q b) eqn:Ej; try discriminate.
  - assert (Ha : exists q1, after step q [b] = Some q1) by (unfold judge in Ej; cbn; destruct (step q b) as [q1 [[[] ?]|]]; try discriminate; eauto). destruct Ha as (q1 & Ha).
    assert (Hq1 : after step q0 (concat (pre ++ [[b]])) = Some q1) by (rewrite concat_app; cbn [concat]; rewrite app_nil_r, after_app, Hq; exact Ha).
    destruct (IH _ q1 n o Hq1 H) as (R & y & qr & E & Hn & H1 & H2). rewrite !app_length in Hn. cbn [length] in Hn. exists (b :: R), y, qr. split; [|split; [|split; [|exact H2]]].
    + replace (n - length pre)%nat with (S (n - length (pre ++ [[b]]))) by (rewrite app_length; cbn [length]; lia). cbn [firstn app]. f_equal. exact E.
    + cbn [app length]. rewrite app_length. cbn [length]. lia.
    + cbn in Ha |- *. destruct (step q b) as [q2 [[[] ?]|]]; try discriminate; injection Ha as ->; exact H1.
  - exfalso. unfold judge in Ej. destruct (step q b) as [q1 [[[] ?]|]]; discriminate.
  - injection H as <- <-. exists [], b, q. split; [cbn [app]; rewrite Nat.sub_succ_l by (apply Nat.le_refl); rewrite Nat.sub_diag; reflexivity|]. split; [cbn [app length]; rewrite Nat.add_1_r; reflexivity|]. split; [reflexivity|exact Ej].
Qed.

Lemma utf8_scan_inv nul W n o : Forall byte W -> scan (u8dec_sem nul) [] (byt W) None = Some (n, o) -> exists c, u8_dom c /\ firstn n W = utf8 c /\ o = [udatum c].
Proof.
  intros HB Es. destruct (dec_scan_inv u8_step (strict nul) W [] (strict nul) n o eq_refl Es) as (R & y & qr & E & Hn & H1 & H2). rewrite Nat.sub_0_r in E.
  assert (HBR : Forall byte (R ++ [y])). { rewrite <- E. apply Forall_forall. intros z Hz. rewrite Forall_forall in HB. apply HB. rewrite <- (firstn_skipn n W). apply in_or_app. left. exact Hz. }
  apply Forall_app in HBR as (HBR & HBy). pose proof (Forall_inv HBy) as HBy'. destruct (u8_accepts_only nul R y qr o HBR HBy' H1 H2) as (c & Hc & E2 & E3). exists c. split; [exact Hc|]. split; [rewrite E; exact E2|exact E3].
Qed.
Lemma utf8_one b : 0 < b < 128 -> u8_value b /\ [b] = utf8 b /\ [[1; b]] = [udatum b].
Proof.
  intros H. split; [split; [lia|]|]. { intros (A & _). lia. } split; [unfold utf8; replace (b <? 128) with true by lia; reflexivity|]. unfold udatum, be_bytes; replace (b <? 256) with true by lia; reflexivity.
Qed.
Lemma u8_dom_value c : u8_dom c -> u8_value c.
Proof. intros ((H1 & H2) & H3). split; [|exact H3]. split; [|exact H2]. eapply N.lt_le_trans; [|exact H1]. reflexivity. Qed.
Lemma first_match2 (a b : csem) W : first_match [a; b] W = match scan a [] W None with Some r => Some r | None => scan b [] W None end.
Proof. cbn [first_match]. destruct (scan a [] W None); [reflexivity|]. destruct (scan b [] W None); reflexivity. Qed.
Lemma utf8_first_inv nul W n o : Forall byte W -> first_match [ascii_from_sem; u8dec_sem nul] (byt W) = Some (n, o) -> exists c, u8_value c /\ firstn n W = utf8 c /\ o = [udatum c].
Proof.
  intros HB H. rewrite first_match2 in H. destruct W as [|b W]; [discriminate|]. assert (Ea : scan ascii_from_sem [] (byt (b :: W)) None = if (1 <=? b) && (b <? 128) then Some (1%nat, [[1; b]]) else None) by (rewrite byt_cons; apply ascii_from_scan). rewrite Ea in H. clear Ea. destruct ((1 <=? b) && (b <? 128)) eqn:Eb.
  - inversion H; subst n o. exists b. apply andb_prop in Eb as (E1 & E2). apply N.leb_le in E1. apply N.ltb_lt in E2. destruct (utf8_one b) as (A & B & C); [lia|]. split; [exact A|]. split; [exact B|exact C].
  - destruct (utf8_scan_inv nul (b :: W) n o HB H) as (c & Hc & E2 & E3). exists c. split; [apply u8_dom_value, Hc|]. split; assumption.
Qed.
Lemma byt_skip n W : skipn n (byt W) = byt (skipn n W).
Proof. revert W. induction n as [|n IH]; intros [|b W]; try reflexivity. cbn. apply IH. Qed.
Theorem utf8_trans_inv nul : forall k W o, (length W <= k)%nat -> Forall byte W -> trans KFrom [ascii_from_sem; u8dec_sem nul] (byt W) = (o, 0%nat) -> exists cps, Forall u8_value cps /\ W = text utf8 cps /\ o = map udatum cps.
Proof.
  induction k as [|k IH]; intros W o Hk HB HT.
  - destruct W; [|cbn in Hk; lia]. exists []. rewrite trans_nil in HT. injection HT as <-. auto.
  - destruct W as [|b W']; [exists []; rewrite trans_nil in HT; injection HT as <-; auto|]. set (W := b :: W') in *.
    destruct (first_match [ascii_from_sem; u8dec_sem nul] (byt W)) as [[n o1]|] eqn:E.
    + pose proof (first_match_bound _ _ _ _ E) as Hn. rewrite byt_len in Hn. rewrite (trans_match _ _ _ _ _ E) in HT. rewrite byt_skip in HT. destruct (trans KFrom _ (byt (skipn n W))) as [o2 e2] eqn:E2. injection HT as <- He. subst e2.
      destruct (utf8_first_inv nul W n o1 HB E) as (c & Hc & E3 & ->). destruct (IH (skipn n W) o2) as (cps & Hcps & E4 & ->); [rewrite skipn_length; lia| |exact E2|].
      * rewrite <- (firstn_skipn n W) in HB. apply Forall_app in HB. tauto.
      * exists (c :: cps). split; [constructor; assumption|]. split; [|reflexivity]. rewrite <- (firstn_skipn n W), E3, E4. reflexivity.
    + unfold W in E, HT. rewrite byt_cons in E, HT. pose proof (trans_fail_from _ _ _ E) as X. pose proof (eq_trans (eq_sym X) HT) as Y. destruct (trans KFrom [ascii_from_sem; u8dec_sem nul] (byt W')) as [o' e'] eqn:E2. cbv beta iota zeta in Y. injection Y. discriminate.
Qed.

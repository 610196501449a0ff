(** Theorems about the algorithmic ranges of GB18030 (C35). *)
From Verif Require Import Base Types M_Engine M_Callback M_GB18030 S_Unicode S_GB18030 P_GB18030.
Local Open Scope N_scope.

(** Encoder: every supplementary character (and every character of the sequential BMP ranges) gets exactly the
    four-byte code GB 18030 assigns to it; that code is unique. *)
Theorem C35_encode : forall c, supplementary c -> exists b, gb_put (udatum c) = Val (Some [b]) /\ stands_for b c /\
  forall b', stands_for b' c -> b' = b.
Proof.
  intros c Hc. unfold supplementary in Hc. destruct (u32_udatum c ltac:(lia)) as (H1 & H2).
  destruct (put_in (be_bytes c) c (0x10000, 0x10FFFF, 1876218) H1 H2) as (b & E & Hf & Hn); [vm_compute; tauto|cbn; lia|].
  assert (HS : stands_for b c) by (split; [assumption|rewrite Hn; cbn; lia]).
  exists b. split; [assumption|]. split; [assumption|]. intros b' (F1 & F2). apply number_inj; [assumption|assumption|]. destruct HS as (_ & HS). congruence.
Qed.
Print Assumptions C35_encode.
Theorem C35_encode_ranges : forall c, 0 < c < 0x110000 ->
  (exists b, gb_put (udatum c) = Val (Some [b]) /\ in_sequence b c) \/ (gb_put (udatum c) = Val None /\ forall b, ~ in_sequence b c).
Proof.
  intros c Hc. destruct (u32_udatum c ltac:(lia)) as (H1 & H2).
  destruct (existsb (fun r => (fst (fst r) <=? c) && (c <=? snd (fst r))) runs) eqn:E.
  - left. apply existsb_exists in E as ([[lo hi] n] & Hin & E). cbn in E. apply andb_prop in E as (E1 & E2). apply N.leb_le in E1, E2.
    destruct (all3_in _ _ _ _ tables_agree) as (_ & _ & H3). destruct (H3 _ Hin) as (x & y & _ & Hy & HR). apply row_facts in HR as (R1 & R2 & R3 & R4 & R5 & R6 & R7 & R8 & R9).
    cbn in R4, R5, R6. destruct (put_in (be_bytes c) c y H1 H2 Hy ltac:(lia)) as (b & Hp & Hf & Hn). exists b. split; [assumption|]. split; [assumption|]. exists lo, hi, n. repeat split; try assumption. lia.
  - right. assert (Hno : forall r, In r runs -> ~ (fst (fst r) <= c <= snd (fst r))).
    { intros r Hr Hx. assert (existsb (fun r => (fst (fst r) <=? c) && (c <=? snd (fst r))) runs = true); [|congruence].
      apply existsb_exists. exists r. split; [assumption|]. apply andb_true_intro. rewrite !N.leb_le. assumption. }
    split; [apply (put_out (be_bytes c) c H1 H2 Hno)|]. intros b (_ & lo & hi & n & Hin & Hx & _). apply (Hno _ Hin). exact Hx.
Qed.
Print Assumptions C35_encode_ranges.

(** Decoder: the code of a character is read back as that character, however many of its bytes ([k]: 0 to 3) the
    table has matched before the callback takes over and however the rest is cut into calls; the decoder is back in
    its initial state. *)
Theorem C35_decode : forall b c k calls chunk r t, in_sequence b c -> (k <= 3)%nat -> g_st t = 0%nat ->
  calls = (firstn k b, chunk) :: r -> concat (map snd calls) = skipn k b -> behind k calls ->
  exists t', gb_calls t calls = Some (t', [udatum c]) /\ g_st t' = 0%nat.
Proof. exact decode_calls. Qed.
Print Assumptions C35_decode.
(** A four-byte code outside the ranges is rejected, and the decoder is back in its initial state. *)
Theorem C35_reject : forall b t, four b -> (forall c, ~ in_sequence b c) -> g_st t = 0%nat ->
  exists t', byte_loop (gb_step []) t b 0 = (t', 3%nat, DEADEND, []) /\ g_st t' = 0%nat.
Proof.
  intros b t Hf Hn Ht. pose proof Hf as Hf'. destruct b as [|a0 [|a1 [|a2 [|a3 [|]]]]]; cbn in Hf'; try contradiction.
  change [a0; a1; a2; a3] with ([a0; a1; a2] ++ [a3]). rewrite (loop_last [] [a0; a1; a2] [] t 0 a3 eq_refl); [|split; [exact Ht|auto]|cbn; lia].
  cbn [app length]. rewrite (char_reject _ Hf Hn). eexists. split; reflexivity.
Qed.
Print Assumptions C35_reject.
(** Encoding then decoding gives the character back; decoding then encoding gives the code back. *)
Theorem C35_round_trip : forall c t, supplementary c -> g_st t = 0%nat -> exists b t',
  gb_put (udatum c) = Val (Some [b]) /\ byte_loop (gb_step []) t b 0 = (t', 3%nat, NEXTPHASE, [udatum c]) /\ g_st t' = 0%nat.
Proof.
  intros c t Hc Ht. destruct (C35_encode c Hc) as (b & E & (Hf & Hn) & _). exists b.
  assert (HI : in_sequence b c) by (split; [assumption|]; exists 0x10000, 0x10FFFF, 189000; split; [vm_compute; tauto|]; unfold supplementary in Hc; split; assumption).
  pose proof Hf as Hf'. destruct b as [|a0 [|a1 [|a2 [|a3 [|]]]]]; cbn in Hf'; try contradiction. eexists. split; [assumption|].
  change [a0; a1; a2; a3] with ([a0; a1; a2] ++ [a3]). rewrite (loop_last [] [a0; a1; a2] [] t 0 a3 eq_refl); [|split; [exact Ht|auto]|cbn; lia].
  cbn [app length]. rewrite (char_in _ _ HI). split; reflexivity.
Qed.
Print Assumptions C35_round_trip.
Theorem C35_round_trip_code : forall b t, four b -> 189000 <= number b <= 189000 + 0xFFFFF -> g_st t = 0%nat -> exists c t',
  supplementary c /\ byte_loop (gb_step []) t b 0 = (t', 3%nat, NEXTPHASE, [udatum c]) /\ gb_put (udatum c) = Val (Some [b]).
Proof.
  intros b t Hf Hn Ht. set (c := 0x10000 + (number b - 189000)). assert (Hc : supplementary c) by (subst c; unfold supplementary; lia).
  destruct (C35_encode c Hc) as (b' & E & HS & _). assert (b' = b). { destruct HS as (F1 & F2). apply number_inj; [assumption|assumption|]. rewrite F2. subst c. lia. } subst b'.
  destruct (C35_round_trip c t Hc Ht) as (b2 & t' & E2 & D & _). assert (b2 = b) by congruence. subst b2. exists c, t'. auto.
Qed.
Print Assumptions C35_round_trip_code.
(** The codes of the supplementary planes are those from 90308130 to E3329A35. *)
Theorem C35_bounds : number [0x90; 0x30; 0x81; 0x30] = 189000 /\ number [0xE3; 0x32; 0x9A; 0x35] = 189000 + 0xFFFFF.
Proof. vm_compute. auto. Qed.
Print Assumptions C35_bounds.
(** The decoder does not check the ranges of the bytes: other byte strings are read as characters, too. *)
Theorem C35_bytes_unchecked_refuted : exists b, ~ four b /\ exists t', byte_loop (gb_step []) (mkGb 0 0) b 0 = (t', 3%nat, NEXTPHASE, [udatum 0x1000A]).
Proof. exists [0x90; 0x30; 0x81; 0x3A]. split; [cbn; lia|]. eexists. vm_compute. reflexivity. Qed.
Print Assumptions C35_bytes_unchecked_refuted.

Example C35_smiley : gb_put (udatum 0x1F600) = Val (Some [[0x94; 0x39; 0xFC; 0x36]]) /\
  gb_calls (mkGb 0 7) [([0x94], [0x39]); ([0x94], [0xFC]); ([0x94], [0x36])] = Some (mkGb 0 1939194, [udatum 0x1F600]).
Proof. vm_compute. auto. Qed.
Example C35_hyps : stands_for [0x94; 0x39; 0xFC; 0x36] 0x1F600 /\ behind 1 [([0x94], [0x39]); ([0x94], [0xFC; 0x36])].
Proof. split; [split; [cbn; lia|vm_compute; reflexivity]|]. cbn. repeat split; (lia || discriminate). Qed.

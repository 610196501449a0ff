(** C37, the encoder with any arguments: ESCAPE#FOR=...&MODE=...&PREFIX=...&SUFFIX=... (modules/to/ESCAPE.c). *)
From Verif Require Import Base Types M_Engine M_Create M_Callback M_UTF8 M_UTF16 M_Modules M_Escape S_Session S_Unicode S_Transcode S_Rest S_Escape P_Convert P_Unicode P_Escape P_Escape2 T_Escape.
From Coq Require DecimalN DecimalFacts.
From Coq Require Import ZifyBool ZifyN ZifyNat.
Local Open Scope N_scope.

(** A number in upper-case hexadecimal by whole bytes, as few as possible; in decimal without leading zeros; in three octal digits. *)
Definition upper_hex (n : N) (w : list N) : Prop :=
  exists vs, Forall2 is_hex vs w /\ number 16 vs = n /\ Forall (fun x => x <= 70) w /\ Nat.even (length w) = true /\ w <> [] /\ (firstn 2 w = [48; 48] -> length w = 2%nat).
Definition decimal (n : N) (w : list N) : Prop := exists vs, Forall2 is_dec vs w /\ number 10 vs = n /\ w <> [] /\ (hd 0 w = 48 -> w = [48]).
Definition octal3 (n : N) (w : list N) : Prop := exists vs, Forall2 is_oct vs w /\ number 8 vs = n /\ length w = 3%nat.
Definition in_mode (m : esc_mode) : N -> list N -> Prop := match m with Hex16 => upper_hex | Dec10 => decimal | Oct8 => octal3 end.
(** Every number between the prefix and the suffix. *)
Definition shown (a : esc_arg) (ns : list N) (W : list N) : Prop :=
  exists ws, Forall2 (fun n w => exists d, in_mode (ea_mode a) n d /\ w = ea_prefix a ++ d ++ ea_suffix a) ns ws /\ W = concat ws.

Lemma hexc_upper v : v < 16 -> hexc v <= 70 /\ (hexc v = 48 -> v = 0).
Proof. unfold hexc. intros H. destruct (N.ltb_spec v 10); lia. Qed.
Lemma hex02_upper l : Forall (fun b => b < 256) l -> l <> [] -> (hd 0 l = 0 -> length l = 1%nat) ->
  Forall (fun x => x <= 70) (flat_map hex02 l) /\ Nat.even (length (flat_map hex02 l)) = true /\ flat_map hex02 l <> [] /\ (firstn 2 (flat_map hex02 l) = [48; 48] -> length (flat_map hex02 l) = 2%nat).
Proof.
  intros HF Hn H0. assert (HH : forall b, b < 256 -> hexc (b / 16) <= 70 /\ hexc (b mod 16) <= 70 /\ (hexc (b / 16) = 48 -> hexc (b mod 16) = 48 -> b = 0)).
  { intros b Hb. destruct (byte_div b Hb) as (A1 & A2 & A3). rewrite number2 in A3. destruct (hexc_upper _ A1) as (B1 & B2). destruct (hexc_upper _ A2) as (C1 & C2). split; [exact B1|]. split; [exact C1|]. intros E1 E2. specialize (B2 E1). specialize (C2 E2). lia. }
  split; [|split; [|split]].
  - clear - HF HH. induction HF as [|b l Hb _ IH]; [constructor|]. destruct (HH b Hb) as (B1 & B2 & _). cbn [flat_map hex02 app]. constructor; [exact B1|]. constructor; [exact B2|exact IH].
  - clear. induction l as [|b l IH]; [reflexivity|]. cbn [flat_map hex02 app length Nat.even]. exact IH.
  - destruct l; [contradiction|discriminate].
  - destruct l as [|b l]; [contradiction|]. cbn [flat_map hex02 app firstn]. intros E. injection E as E1 E2. inversion HF as [|? ? Hb ?]; subst. destruct (HH b Hb) as (_ & _ & H3). cbn [hd] in H0. specialize (H0 (H3 E1 E2)). destruct l; [reflexivity|discriminate].
Qed.
Lemma hex_shown l n : Forall (fun b => b < 256) l -> l <> [] -> (hd 0 l = 0 -> length l = 1%nat) -> fold_left (fun n b => n * 256 + b) l 0 = n -> upper_hex n (flat_map hex02 l).
Proof.
  intros HF Hn H0 E. destruct (hex_bytes l HF) as (vs & F1 & F2). destruct (hex02_upper l HF Hn H0) as (H1 & H2 & H3 & H4). exists vs. split; [exact F1|]. split; [unfold number; rewrite F2; exact E|]. auto.
Qed.
Lemma dec_shown n : decimal n (dec_chars n).
Proof.
  unfold dec_chars. pose proof (uvals_chars (N.to_uint n)) as F. assert (E : number 10 (uvals (N.to_uint n)) = n) by (rewrite uvals_value; apply DecimalN.Unsigned.of_to).
  assert (EU : N.to_uint n = Decimal.unorm (N.to_uint n)) by (rewrite <- DecimalN.Unsigned.to_of, DecimalN.Unsigned.of_to; reflexivity).
  exists (uvals (N.to_uint n)). split; [exact F|]. split; [exact E|]. split.
  - intros E0. destruct (N.to_uint n) eqn:EN; discriminate.
  - intros H48. unfold Decimal.unorm in EU. destruct (N.to_uint n) eqn:EN; try discriminate. cbn [uint_chars] in *. destruct (Decimal.nzhead (Decimal.D0 u)) eqn:EZ; try discriminate.
    + injection EU as ->. reflexivity.
    + exfalso. exact (DecimalFacts.nzhead_nonzero _ _ EZ).
Qed.
Lemma oct_shown b : b < 256 -> octal3 b (oct3 b).
Proof.
  intros H. exists [b / 64; b / 8 mod 8; b mod 8]. split; [|split; [|reflexivity]].
  - unfold oct3. repeat (apply Forall2_cons; [split; [|reflexivity]; first [apply N.mod_lt; lia|apply N.div_lt_upper_bound; lia]|]). constructor.
  - rewrite number3. change 64 with (8 * 8). rewrite <- N.div_div by lia. pose proof (N.div_mod (b / 8) 8). pose proof (N.div_mod b 8). lia.
Qed.
Lemma shown_map a (out : N -> list N) (dom : N -> Prop) ns : (forall n, dom n -> exists d, in_mode (ea_mode a) n d /\ out n = ea_prefix a ++ d ++ ea_suffix a) -> Forall dom ns -> shown a ns (flat_map out ns).
Proof. intros H HF. exists (map out ns). split; [|apply flat_map_concat_map]. induction HF; constructor; auto. Qed.

(** Bytes, in all three modes. *)
Theorem C37_any_bytes : forall a bs, ea_for a = ForByte -> Forall (fun b => b < 256) bs ->
  exists W, shown a bs W /\ converts true (byte_writer [a]) (Forall (fun b => b < 256)) bs W.
Proof.
  intros a bs Ha Hb. set (dg := fun b : N => match ea_mode a with Hex16 => hex02 b | Dec10 => dec_chars b | Oct8 => oct3 b end).
  exists (flat_map (fun b => ea_prefix a ++ dg b ++ ea_suffix a) bs). split.
  - apply (shown_map a _ (fun b => b < 256)); [|exact Hb]. intros b H. exists (dg b). split; [|reflexivity]. unfold dg. destruct (ea_mode a); cbn [in_mode].
    + replace (hex02 b) with (flat_map hex02 [b]) by reflexivity. apply hex_shown; [constructor; [exact H|constructor]|discriminate|reflexivity|cbn; lia].
    + apply dec_shown.
    + apply oct_shown. exact H.
  - apply byte_write_gen; [discriminate| |exact Hb]. intros b H. cbn [first_put]. unfold es_put. rewrite Ha. unfold dg. destruct (ea_mode a); reflexivity.
Qed.
(** Characters, in hexadecimal and decimal. *)
Theorem C37_any_characters : forall src t8 t16 a cps, strict_utf8 t8 -> ea_for a = ForUnicode -> ea_mode a <> Oct8 -> Forall (fun c => reads src c /\ not_nul c) cps ->
  exists W, shown a cps W /\ converts true (writer src t8 t16 [a]) (char_text src not_nul) (flat_map (encoded src) cps) W.
Proof.
  intros src t8 t16 a cps Hs Ha Hm Hc. set (dg := fun c : N => match ea_mode a with Hex16 => flat_map hex02 (be_bytes c) | Dec10 => dec_chars c | Oct8 => oct3 c end).
  exists (flat_map (fun c => ea_prefix a ++ dg c ++ ea_suffix a) cps). split.
  - apply (shown_map a _ not_nul); [|eapply Forall_impl; [|exact Hc]; intros c Hx; exact (proj2 Hx)]. intros c H. exists (dg c). split; [|reflexivity]. unfold dg. destruct (ea_mode a); cbn [in_mode]; [| |contradiction].
    + destruct (be_bytes_value c ltac:(unfold not_nul in H; lia)) as (H1 & H2 & _ & H4). apply hex_shown; [exact H1|exact H4| |exact H2]. unfold not_nul in H. unfold be_bytes.
      destruct (N.ltb_spec c 256); [reflexivity|]. destruct (N.ltb_spec c 65536); [|destruct (N.ltb_spec c 16777216)]; cbn [hd]; intros E; exfalso; apply N.div_small_iff in E; lia.
    + apply dec_shown.
  - apply write_gen; [exact Hs|discriminate| |exact Hc]. intros c H. unfold not_nul in H. unfold udatum. destruct (udatum_tail c ltac:(lia)) as (x & l & E). destruct (be_bytes_value c ltac:(lia)) as (_ & _ & Hv & _).
    cbn [first_put]. unfold es_put. rewrite Ha, E. unfold dg. destruct (ea_mode a); [rewrite E; reflexivity| |contradiction]. rewrite <- E, Hv. reflexivity.
Qed.
Print Assumptions C37_any_bytes.
Print Assumptions C37_any_characters.
Example C37_any_ex : shown (mkArg [60] [62] ForByte Dec10) [7; 205] [60; 55; 62; 60; 50; 48; 53; 62].
Proof. exists [[60; 55; 62]; [60; 50; 48; 53; 62]]. split; [|reflexivity]. apply Forall2_cons; [exists [55]; split; [exact (dec_shown 7)|reflexivity]|]. apply Forall2_cons; [exists [50; 48; 53]; split; [exact (dec_shown 205)|reflexivity]|]. constructor. Qed.
Example C37_any_not : ~ decimal 205 [67; 68].
Proof. intros (vs & F & _). inversion F as [|? ? ? ? (H & E) _]; subst. lia. Qed.

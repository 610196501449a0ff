(** UTF-16 and UTF-32: decoders and encoders meet the standard. *)
From Verif Require Import Base Types M_Engine M_Callback M_UTF16 S_Engine S_Unicode P_Trans P_Engine1 P_Engine2 P_Engine5 P_Callback P_UTF8.
From Coq Require Import ZifyBool ZifyN ZifyNat.
Local Open Scope N_scope.
Ltac Zify.zify_post_hook ::= Z.div_mod_to_equations.

Ltac leq := repeat match goal with |- _ :: _ = _ :: _ => apply f_equal2; [lia|] end; try reflexivity.
Definition w0 : u16 := mkU16 0 0 0 0 0.
(** The bytes of the buffer that will be read again. *)
Definition norm16 (le : bool) (t : u16) : u16 :=
  match w_st t with
  | 0 => w0
  | 1 => if le then mkU16 1 0 (w_1 t) 0 0 else mkU16 1 (w_0 t) 0 0 0
  | 2 => mkU16 2 (w_0 t) (w_1 t) 0 0
  | 3 => if le then mkU16 3 (w_0 t) (w_1 t) 0 (w_3 t) else mkU16 3 (w_0 t) (w_1 t) (w_2 t) 0
  | _ => t
  end.
Definition norm32 (le : bool) (t : u16) : u16 :=
  match w_st t with
  | 0 => w0
  | 1 => if le then mkU16 1 0 0 0 (w_3 t) else mkU16 1 (w_0 t) 0 0 0
  | 2 => if le then mkU16 2 0 0 (w_2 t) (w_3 t) else mkU16 2 (w_0 t) (w_1 t) 0 0
  | 3 => if le then mkU16 3 0 (w_1 t) (w_2 t) (w_3 t) else mkU16 3 (w_0 t) (w_1 t) (w_2 t) 0
  | _ => t
  end.
Definition nstep16 le (q : u16) (b : N) := let '(q', r) := u16_step le q b in (norm16 le q', r).
Definition nstep32 le (q : u16) (b : N) := let '(q', r) := u32_step le q b in (norm32 le q', r).
Definition inv16 (t : u16) : Prop := w_st t < 4.

Lemma st_cases t : inv16 t -> w_st t = 0 \/ w_st t = 1 \/ w_st t = 2 \/ w_st t = 3.
Proof. unfold inv16. lia. Qed.
Lemma inv_w0 : inv16 w0. Proof. reflexivity. Qed.

Lemma sim16 (le : bool) w b : inv16 w -> let '(w', r) := u16_step le w b in inv16 w' /\ nstep16 le (norm16 le w) b = (norm16 le w', r).
Proof.
  intros Hw. destruct w as [st a0 a1 a2 a3]. pose proof (st_cases _ Hw) as HC; unfold inv16, nstep16, u16_step, norm16 in *. cbn [w_st] in *. destruct HC as [H|[H|[H|H]]]; cbn [w_st] in H; subst st; destruct le; cbn; unfold inv16; cbn;
  repeat match goal with |- context [if ?x then _ else _] => destruct x; cbn end; (split; [reflexivity|reflexivity]).
Qed.
Lemma sim32 (le : bool) w b : inv16 w -> let '(w', r) := u32_step le w b in inv16 w' /\ nstep32 le (norm32 le w) b = (norm32 le w', r).
Proof.
  intros Hw. destruct w as [st a0 a1 a2 a3]. pose proof (st_cases _ Hw) as HC; unfold inv16, nstep32, u32_step, norm32 in *. cbn [w_st] in *. destruct HC as [H|[H|[H|H]]]; cbn [w_st] in H; subst st; destruct le; cbn; unfold inv16; cbn; (split; [reflexivity|reflexivity]).
Qed.
Lemma step_ok16 (le : bool) q b : inv16 q -> let '(q', r) := nstep16 le q b in
  match r with None => inv16 q' | Some (NEXTPHASE, _) => q' = w0 | Some (DEADEND, o) => q' = w0 /\ o = [] | Some (CONTINUE, o) => inv16 q' /\ o = [] | _ => False end.
Proof.
  intros Hw. destruct q as [st a0 a1 a2 a3]. pose proof (st_cases _ Hw) as HC; unfold inv16, nstep16, u16_step, norm16 in *. cbn [w_st] in *. destruct HC as [H|[H|[H|H]]]; cbn [w_st] in H; subst st; destruct le; cbn; unfold inv16; cbn;
  repeat match goal with |- context [if ?x then _ else _] => destruct x; cbn end; auto; reflexivity.
Qed.
Lemma step_ok32 (le : bool) q b : inv16 q -> let '(q', r) := nstep32 le q b in
  match r with None => inv16 q' | Some (NEXTPHASE, _) => q' = w0 | Some (DEADEND, o) => q' = w0 /\ o = [] | Some (CONTINUE, o) => inv16 q' /\ o = [] | _ => False end.
Proof.
  intros Hw. destruct q as [st a0 a1 a2 a3]. pose proof (st_cases _ Hw) as HC; unfold inv16, nstep32, u32_step, norm32 in *. cbn [w_st] in *. destruct HC as [H|[H|[H|H]]]; cbn [w_st] in H; subst st; destruct le; cbn; unfold inv16; cbn; auto; reflexivity.
Qed.

Lemma strip_keep a l : a <> 0 -> strip0 (a :: l) = a :: l.
Proof. intros H. cbn. destruct a; [contradiction|reflexivity]. Qed.
Lemma strip_0 l : strip0 (0 :: l) = strip0 l. Proof. reflexivity. Qed.
Lemma emit4 a b c d : a < 256 -> b < 256 -> c < 256 -> d < 256 -> 0 < a * 0x1000000 + b * 0x10000 + c * 0x100 + d -> w_emit [a; b; c; d] = udatum (a * 0x1000000 + b * 0x10000 + c * 0x100 + d).
Proof.
  intros Ha Hb Hc Hd H0. unfold w_emit, udatum, be_bytes. set (x := a * 0x1000000 + b * 0x10000 + c * 0x100 + d) in *. f_equal.
  destruct (N.eqb_spec a 0) as [Ea|Ea].
  - subst a. rewrite strip_0. destruct (N.eqb_spec b 0) as [Eb|Eb].
    + subst b. rewrite strip_0. destruct (N.eqb_spec c 0) as [Ec|Ec].
      * subst c. rewrite strip_0. replace (x <? 256) with true by lia. rewrite strip_keep by lia. reflexivity.
      * rewrite strip_keep by exact Ec. replace (x <? 256) with false by lia. replace (x <? 65536) with true by lia. f_equal; [|f_equal]; lia.
    + rewrite strip_keep by exact Eb. replace (x <? 256) with false by lia. replace (x <? 65536) with false by lia. replace (x <? 16777216) with true by lia. f_equal; [|f_equal; [|f_equal]]; lia.
  - rewrite strip_keep by exact Ea. replace (x <? 256) with false by lia. replace (x <? 65536) with false by lia. replace (x <? 16777216) with false by lia. f_equal; [|f_equal; [|f_equal; [|f_equal]]]; lia.
Qed.
Lemma emit3 b c d : b < 256 -> c < 256 -> d < 256 -> 0 < b * 0x10000 + c * 0x100 + d -> w_emit [b; c; d] = udatum (b * 0x10000 + c * 0x100 + d).
Proof. intros Hb Hc Hd H0. pose proof (emit4 0 b c d) as H. change (w_emit [0; b; c; d]) with (w_emit [b; c; d]) in H. rewrite H by lia. f_equal. Qed.
Lemma emit2 c d : c < 256 -> d < 256 -> 0 < c * 0x100 + d -> w_emit [c; d] = udatum (c * 0x100 + d).
Proof. intros Hc Hd H0. pose proof (emit4 0 0 c d) as H. change (w_emit [0; 0; c; d]) with (w_emit [c; d]) in H. rewrite H by lia. f_equal. Qed.

(** ** UTF-32 *)
Theorem u32_accepts (le : bool) c : 0 < c < 0x100000000 -> exists R b qr, (if le then utf32le c else utf32be c) = R ++ [b] /\ after (nstep32 le) w0 R = Some qr /\ judge (nstep32 le) qr b = VMatch [udatum c].
Proof.
  intros Hc. assert (HE : w_emit [c / 0x1000000; c / 0x10000 mod 0x100; c / 0x100 mod 0x100; c mod 0x100] = udatum c) by (rewrite emit4 by lia; f_equal; lia).
  destruct le.
  - exists [c mod 0x100; c / 0x100 mod 0x100; c / 0x10000 mod 0x100], (c / 0x1000000). eexists. split; [reflexivity|]. split; [reflexivity|]. unfold judge. cbn -[w_emit N.div N.modulo]. rewrite HE. reflexivity.
  - exists [c / 0x1000000; c / 0x10000 mod 0x100; c / 0x100 mod 0x100], (c mod 0x100). eexists. split; [reflexivity|]. split; [reflexivity|]. unfold judge. cbn -[w_emit N.div N.modulo]. rewrite HE. reflexivity.
Qed.
Theorem u32_put_ok (le : bool) c : c < 0x100000000 -> u32_put le (udatum c) = Some [if le then utf32le c else utf32be c].
Proof.
  intros Hc. unfold u32_put, udatum, utf32le. cbn [tl].
  assert (HP : pad_to 4 (be_bytes c) = utf32be c /\ (4 <? N.of_nat (length (be_bytes c))) = false).
  { unfold be_bytes, utf32be. destruct (N.ltb_spec c 256); [split; [|reflexivity]; cbn -[N.div N.modulo]; leq|]. destruct (N.ltb_spec c 65536); [split; [|reflexivity]; cbn -[N.div N.modulo]; leq|]. destruct (N.ltb_spec c 16777216); (split; [|reflexivity]); cbn -[N.div N.modulo]; leq. }
  destruct HP as (-> & ->). destruct le; reflexivity.
Qed.

(** ** UTF-16 *)
Lemma h_fc x : x < 256 -> (N.land x 0xFC =? 0xD8) = ((0xD8 <=? x) && (x <? 0xDC)).
Proof. intros H. apply eqb_prop. revert x H. apply (all1 (fun x => eqb (N.land x 0xFC =? 0xD8) ((0xD8 <=? x) && (x <? 0xDC))) 256). vm_compute. reflexivity. Qed.
Lemma h_fd x : x < 256 -> (N.land x 0xFC =? 0xDC) = ((0xDC <=? x) && (x <? 0xE0)).
Proof. intros H. apply eqb_prop. revert x H. apply (all1 (fun x => eqb (N.land x 0xFC =? 0xDC) ((0xDC <=? x) && (x <? 0xE0))) 256). vm_compute. reflexivity. Qed.
Lemma h_b0 a b : a < 4 -> b < 256 -> N.lor (N.land (N.shiftl (N.land (0xD8 + a) 3) 2) 0xFF) (N.land (N.shiftr b 6) 3) + 1 = a * 4 + b / 64 + 1.
Proof. intros H1 H2. f_equal. apply N.eqb_eq. revert a b H1 H2. apply (all2 (fun a b => N.lor (N.land (N.shiftl (N.land (0xD8 + a) 3) 2) 0xFF) (N.land (N.shiftr b 6) 3) =? a * 4 + b / 64) 4 256). vm_compute. reflexivity. Qed.
Lemma h_b1 b a : b < 256 -> a < 4 -> N.lor (N.land (N.shiftl b 2) 0xFC) (N.land (0xDC + a) 3) = b mod 64 * 4 + a.
Proof. intros H1 H2. apply N.eqb_eq. revert b a H1 H2. apply (all2 (fun b a => N.lor (N.land (N.shiftl b 2) 0xFC) (N.land (0xDC + a) 3) =? b mod 64 * 4 + a) 256 4). vm_compute. reflexivity. Qed.

Definition pairbytes (v : N) : list N := [0xD8 + v / 0x40000; v / 0x400 mod 0x100; 0xDC + v / 0x100 mod 4; v mod 0x100].
Lemma utf16be_supp c : 0x10000 <= c < 0x110000 -> utf16be c = pairbytes (c - 0x10000).
Proof. intros H. unfold utf16be, utf16_units, pairbytes. replace (c <? 65536) with false by lia. cbn [flat_map app]. leq. Qed.
Lemma utf16le_supp c : 0x10000 <= c < 0x110000 -> utf16le c = match pairbytes (c - 0x10000) with [a; b; e; f] => [b; a; f; e] | l => l end.
Proof. intros H. unfold utf16le, utf16_units, pairbytes. replace (c <? 65536) with false by lia. cbn [flat_map app]. leq. Qed.

Lemma supp_value v : v < 0x100000 ->
  w_emit [N.lor (N.land (N.shiftl (N.land (0xD8 + v / 0x40000) 3) 2) 0xFF) (N.land (N.shiftr (v / 0x400 mod 0x100) 6) 3) + 1;
          N.lor (N.land (N.shiftl (v / 0x400 mod 0x100) 2) 0xFC) (N.land (0xDC + v / 0x100 mod 4) 3); v mod 0x100] = udatum (v + 0x10000).
Proof. intros H. rewrite h_b0, h_b1 by lia. rewrite emit3 by lia. f_equal. lia. Qed.

Theorem u16_accepts (le : bool) c : scalar c -> 0 < c -> exists R b qr, (if le then utf16le c else utf16be c) = R ++ [b] /\ after (nstep16 le) w0 R = Some qr /\ judge (nstep16 le) qr b = VMatch [udatum c].
Proof.
  intros (Hc & Hs) H0. destruct (N.ltb_spec c 0x10000) as [H1|H1].
  - assert (HE : w_emit [c / 0x100; c mod 0x100] = udatum c) by (rewrite emit2 by lia; f_equal; lia).
    assert (HF : (N.land (c / 0x100) 0xFC =? 0xD8) = false) by (rewrite h_fc by lia; lia).
    unfold utf16le, utf16be, utf16_units. replace (c <? 65536) with true by lia. cbn [flat_map app]. destruct le.
    + exists [c mod 0x100], (c / 0x100). eexists. split; [reflexivity|]. split; [reflexivity|]. unfold judge, nstep16, u16_step. cbn -[w_emit N.div N.modulo N.land N.eqb]. rewrite HF, HE. reflexivity.
    + exists [c / 0x100], (c mod 0x100). eexists. split; [reflexivity|]. split; [reflexivity|]. unfold judge, nstep16, u16_step. cbn -[w_emit N.div N.modulo N.land N.eqb]. rewrite HF, HE. reflexivity.
  - rewrite utf16be_supp, utf16le_supp by lia. set (v := c - 0x10000). assert (Hv : v < 0x100000) by lia. pose proof (supp_value v Hv) as HE. replace (v + 0x10000) with c in HE by lia. unfold pairbytes.
    set (p0 := 0xD8 + v / 0x40000) in *. set (p1 := v / 0x400 mod 0x100) in *. set (p2 := 0xDC + v / 0x100 mod 4) in *. set (p3 := v mod 0x100) in *.
    assert (HF : (N.land p0 0xFC =? 0xD8) = true) by (rewrite h_fc by lia; lia). assert (HG : (N.land p2 0xFC =? 0xDC) = true) by (rewrite h_fd by lia; lia).
    clearbody p0 p1 p2 p3. destruct le.
    + exists [p1; p0; p3], p2. eexists. split; [reflexivity|]. split.
      * cbn [after nstep16]. unfold nstep16, u16_step. cbn -[N.land N.shiftl N.shiftr N.lor N.eqb]. rewrite HF. reflexivity.
      * unfold judge, nstep16, u16_step. cbn -[w_emit N.land N.shiftl N.shiftr N.lor N.add N.eqb]. rewrite HG. cbn -[w_emit N.land N.shiftl N.shiftr N.lor N.add N.eqb]. rewrite HE. reflexivity.
    + exists [p0; p1; p2], p3. eexists. split; [reflexivity|]. split.
      * cbn [after nstep16]. unfold nstep16, u16_step. cbn -[N.land N.shiftl N.shiftr N.lor N.eqb]. rewrite HF. reflexivity.
      * unfold judge, nstep16, u16_step. cbn -[w_emit N.land N.shiftl N.shiftr N.lor N.add N.eqb]. rewrite HG. cbn -[w_emit N.land N.shiftl N.shiftr N.lor N.add N.eqb]. rewrite HE. reflexivity.
Qed.

Lemma k_0 a : a < 16 -> N.lor 0xD8 (N.land (N.shiftr a 2) 3) = 0xD8 + a / 4.
Proof. intros H. apply N.eqb_eq. revert a H. apply (all1 (fun a => N.lor 0xD8 (N.land (N.shiftr a 2) 3) =? 0xD8 + a / 4) 16). vm_compute. reflexivity. Qed.
Lemma k_1 a b : a < 16 -> b < 256 -> N.lor (N.land (N.shiftl a 6) 0xC0) (N.land (N.shiftr b 2) 0x3F) = a mod 4 * 64 + b / 4.
Proof. intros H1 H2. apply N.eqb_eq. revert a b H1 H2. apply (all2 (fun a b => N.lor (N.land (N.shiftl a 6) 0xC0) (N.land (N.shiftr b 2) 0x3F) =? a mod 4 * 64 + b / 4) 16 256). vm_compute. reflexivity. Qed.
Lemma k_2 b : b < 256 -> N.lor 0xDC (N.land b 3) = 0xDC + b mod 4.
Proof. intros H. apply N.eqb_eq. revert b H. apply (all1 (fun b => N.lor 0xDC (N.land b 3) =? 0xDC + b mod 4) 256). vm_compute. reflexivity. Qed.
Theorem u16_put_ok (le : bool) c : c < 0x110000 -> u16_put le (udatum c) = Some [if le then utf16le c else utf16be c].
Proof.
  intros Hc. unfold u16_put, udatum. cbn [tl]. destruct (N.ltb_spec c 0x10000) as [H1|H1].
  - unfold be_bytes, utf16be, utf16le, utf16_units. replace (c <? 65536) with true by lia. destruct (N.ltb_spec c 256); cbn -[N.div N.modulo]; [|destruct le; reflexivity].
    replace (c / 256) with 0 by lia. replace (c mod 256) with c by lia. destruct le; reflexivity.
  - rewrite utf16be_supp, utf16le_supp by lia. unfold be_bytes, pairbytes. replace (c <? 256) with false by lia. replace (c <? 65536) with false by lia. replace (c <? 16777216) with true by lia. cbv zeta.
    set (a1 := (c / 65536 + 255) mod 256). assert (Ha1 : a1 = c / 65536 - 1) by lia. assert (Ha : a1 < 16) by lia. rewrite k_0, k_1, k_2 by lia.
    replace (216 + a1 / 4) with (216 + (c - 65536) / 262144) by lia. replace (a1 mod 4 * 64 + c / 256 mod 256 / 4) with ((c - 65536) / 1024 mod 256) by lia. replace (220 + c / 256 mod 256 mod 4) with (220 + (c - 65536) / 256 mod 4) by lia. replace ((c - 65536) mod 256) with (c mod 256) by lia. destruct le; reflexivity.
Qed.
Theorem ucs2_put_ok (le : bool) c : c < 0x10000 -> ucs2_put le (udatum c) = Some [if le then utf16le c else utf16be c].
Proof.
  intros Hc. unfold ucs2_put, udatum, be_bytes, utf16be, utf16le, utf16_units. replace (c <? 65536) with true by lia. destruct (N.ltb_spec c 256); cbn -[N.div N.modulo]; [|destruct le; reflexivity].
  replace (c / 256) with 0 by lia. replace (c mod 256) with c by lia. destruct le; reflexivity.
Qed.
Theorem ucs2_put_reject (le : bool) c : 0x10000 <= c -> ucs2_put le (udatum c) = None.
Proof.
  intros Hc. unfold ucs2_put, udatum, be_bytes. replace (c <? 256) with false by lia. replace (c <? 65536) with false by lia. destruct (c <? 16777216); reflexivity.
Qed.

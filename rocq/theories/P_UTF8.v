(** The UTF-8 decoder and encoder callbacks meet the standard. *)
From Verif Require Import Base Types M_Engine M_Callback M_UTF8 S_Engine S_Unicode P_Trans P_Engine1 P_Engine2 P_Engine5 P_Callback.
From Coq Require Import ZifyBool ZifyN ZifyNat.
Local Open Scope N_scope.

(** ** Checking a property of all small numbers by computation *)
Definition upto (n : nat) : list N := map N.of_nat (seq 0 n).
Lemma upto_in n x : x < N.of_nat n -> In x (upto n).
Proof. intros H. unfold upto. apply in_map_iff. exists (N.to_nat x). split; [lia|]. apply in_seq. lia. Qed.
Lemma all1 (f : N -> bool) n : forallb f (upto n) = true -> forall x, x < N.of_nat n -> f x = true.
Proof. intros H x Hx. rewrite forallb_forall in H. apply H, upto_in, Hx. Qed.
Lemma all2 (f : N -> N -> bool) n m : forallb (fun x => forallb (f x) (upto m)) (upto n) = true -> forall x y, x < N.of_nat n -> y < N.of_nat m -> f x y = true.
Proof. intros H x y Hx Hy. rewrite forallb_forall in H. specialize (H x (upto_in _ _ Hx)). cbv beta in H. rewrite forallb_forall in H. apply H, upto_in, Hy. Qed.

(** ** The strict decoder *)
Definition strict (nul : bool) : u8 := mkU8 0 ucs0 ucs0 false false nul false false.
Definition sinv (nul : bool) (q : u8) : Prop :=
  u_lead q = ucs0 /\ u_cesu q = false /\ u_loose q = false /\ u_nul q = nul /\ u_over q = false /\ u_super q = false.

Lemma u8_step_cases t d : u8_step t d = u_dead t [] \/ (exists st u, u8_step t d = u_go t st u) \/ exists u, u8_step t d = u_commit (u_set t (u_st t) (u_lead t) u).
Proof.
  unfold u8_step. cbv zeta. remember (u_st t) as st. destruct st as [|p].
  - repeat match goal with |- context [if ?b then _ else _] => destruct b end; eauto.
  - do 7 (try destruct p as [p|p|]); auto;
    repeat match goal with |- context [if ?b then _ else _] => destruct b end; eauto.
Qed.

Definition sflags (nul : bool) (q : u8) : Prop := u_cesu q = false /\ u_loose q = false /\ u_nul q = nul /\ u_over q = false /\ u_super q = false.
Lemma u_set_strict nul q : sflags nul q -> u_set q 0 ucs0 ucs0 = strict nul.
Proof. intros (H2 & H3 & H4 & H5 & H6). unfold u_set, strict. rewrite H2, H3, H4, H5, H6. reflexivity. Qed.
Lemma u_dead_strict nul q o : sflags nul q -> u_dead q o = (strict nul, Some (DEADEND, o)).
Proof. intros H. unfold u_dead. rewrite (u_set_strict nul) by exact H. reflexivity. Qed.

(** COMMIT in strict mode. *)
Lemma u_commit_strict nul q : sflags nul q -> u_lead q = ucs0 ->
  u_commit q = if ((0xD800 <=? be32 (u_ucs q)) && (be32 (u_ucs q) <=? 0xDFFF)) || (is0 (u_ucs q) && negb nul) then (strict nul, Some (DEADEND, []))
               else (strict nul, Some (NEXTPHASE, [u_pass (u_ucs q)])).
Proof.
  intros HF HL. pose proof HF as (H2 & H3 & H4 & H5 & H6). unfold u_commit. cbv zeta.
  set (t := u_set q 0 (u_lead q) (u_ucs q)). assert (Ht : sflags nul t) by exact HF. assert (Hl : u_lead t = ucs0) by exact HL. assert (Hu : u_ucs t = u_ucs q) by reflexivity. pose proof Ht as (T2 & T3 & T4 & _).
  rewrite T2, T3, Hl, Hu. cbn [is0 ucs0 N.eqb andb negb]. unfold with_pass. rewrite T4. rewrite !(u_dead_strict nul t) by exact Ht.
  destruct ((55296 <=? be32 (u_ucs q)) && (be32 (u_ucs q) <=? 56319)) eqn:E1; [replace ((55296 <=? be32 (u_ucs q)) && (be32 (u_ucs q) <=? 57343)) with true by lia; reflexivity|].
  destruct ((56320 <=? be32 (u_ucs q)) && (be32 (u_ucs q) <=? 57343)) eqn:E2; [replace ((55296 <=? be32 (u_ucs q)) && (be32 (u_ucs q) <=? 57343)) with true by lia; reflexivity|].
  replace ((55296 <=? be32 (u_ucs q)) && (be32 (u_ucs q) <=? 57343)) with false by lia. cbn [orb]. destruct (is0 (u_ucs q) && negb nul); [reflexivity|]. change (0, 0, 0, 0) with ucs0. rewrite (u_set_strict nul) by exact Ht. reflexivity.
Qed.

Lemma strict_step_ok nul q b : sinv nul q -> let '(q', r) := u8_step q b in
  match r with
  | None => sinv nul q'
  | Some (NEXTPHASE, _) => q' = strict nul
  | Some (DEADEND, o) => q' = strict nul /\ o = []
  | Some (CONTINUE, o) => sinv nul q' /\ o = []
  | _ => False
  end.
Proof.
  intros (H1 & HF). destruct (u8_step_cases q b) as [->|[(st & u & ->)|(u & ->)]].
  - rewrite (u_dead_strict nul) by exact HF. auto.
  - cbn. split; [exact H1|exact HF].
  - rewrite (u_commit_strict nul) by (exact HF || exact H1). destruct (_ || _); auto.
Qed.
Lemma strict_inv nul : sinv nul (strict nul). Proof. split; [reflexivity|]. repeat split. Qed.

(** ** What a byte does in each state *)
Definition S1 (nul : bool) (st : N) (u : ucs_t) : u8 := mkU8 st ucs0 u false false nul false false.
Lemma cont_byte d : (N.land d 0xC0 =? 0x80) = true -> d < 256 -> exists b, b < 64 /\ d = 0x80 + b.
Proof.
  intros H Hd. exists (d - 128).
  assert (C : forall x, x < 256 -> implb (N.land x 0xC0 =? 0x80) ((128 <=? x) && (x - 128 <? 64)) = true) by (apply (all1 _ 256); vm_compute; reflexivity).
  specialize (C d Hd). rewrite H in C. cbn [implb] in C. lia.
Qed.
Lemma is_cont b : b < 64 -> (N.land (0x80 + b) 0xC0 =? 0x80) = true.
Proof. revert b. apply (all1 (fun b => N.land (0x80 + b) 0xC0 =? 0x80) 64). vm_compute. reflexivity. Qed.

(** two-byte sequences: lead C0+a, a<32; trail 80+b *)
Lemma lead2 nul a : a < 32 -> u8_step (strict nul) (0xC0 + a) = if a <? 2 then (strict nul, Some (DEADEND, [])) else (S1 nul 21 (0, 0, a / 4, a mod 4 * 64), None).
Proof.
  intros Ha. assert (C : In a (upto 32)) by (apply upto_in; lia). cbn in C. destruct nul; repeat (destruct C as [<-|C]; [vm_compute; reflexivity|]); destruct C.
Qed.
Lemma lead3 nul a : a < 16 -> u8_step (strict nul) (0xE0 + a) = (S1 nul 31 (0, 0, a * 16, 0), None).
Proof.
  intros Ha. assert (C : In a (upto 16)) by (apply upto_in; lia). cbn in C. destruct nul; repeat (destruct C as [<-|C]; [vm_compute; reflexivity|]); destruct C.
Qed.
Lemma lead4 nul a : a < 8 -> u8_step (strict nul) (0xF0 + a) = (S1 nul 41 (0, a * 4, 0, 0), None).
Proof.
  intros Ha. assert (C : In a (upto 8)) by (apply upto_in; lia). cbn in C. destruct nul; repeat (destruct C as [<-|C]; [vm_compute; reflexivity|]); destruct C.
Qed.
Lemma lead_bad nul d : d < 256 -> d < 0xC0 \/ 0xF8 <= d -> u8_step (strict nul) d = (strict nul, Some (DEADEND, [])).
Proof.
  intros Ha Hb. apply (ext_in_map (f := fun x => u8_step (strict nul) x) (g := fun _ => (strict nul, Some (DEADEND, [])))  (l := filter (fun x => (x <? 0xC0) || (0xF8 <=? x)) (upto 256))).
  - destruct nul; vm_compute; reflexivity.
  - apply filter_In. split; [apply upto_in; lia|lia].
Qed.

Ltac chk1 n := let H := fresh in intros; match goal with |- ?l = ?r => idtac end; apply N.eqb_eq.
Lemma f_63 b : b < 64 -> N.land (0x80 + b) 0x3F = b.
Proof. intros H. apply N.eqb_eq. revert b H. apply (all1 (fun b => N.land (0x80 + b) 0x3F =? b) 64). vm_compute. reflexivity. Qed.
Lemma f_l6 b : b < 64 -> N.land (N.shiftl (0x80 + b) 6) 0xC0 = b mod 4 * 64.
Proof. intros H. apply N.eqb_eq. revert b H. apply (all1 (fun b => N.land (N.shiftl (0x80 + b) 6) 0xC0 =? b mod 4 * 64) 64). vm_compute. reflexivity. Qed.
Lemma f_or64 k b : k < 4 -> b < 64 -> N.lor (k * 64) b = k * 64 + b.
Proof. intros H1 H2. apply N.eqb_eq. revert k b H1 H2. apply (all2 (fun k b => N.lor (k * 64) b =? k * 64 + b) 4 64). vm_compute. reflexivity. Qed.
Lemma f_8 a b : a < 16 -> b < 64 -> (N.lor (a * 16) (N.land (N.shiftr (0x80 + b) 2) 8) =? 0) = (a =? 0) && (b <? 32).
Proof. intros H1 H2. apply eqb_prop. revert a b H1 H2. apply (all2 (fun a b => eqb (N.lor (a * 16) (N.land (N.shiftr (0x80 + b) 2) 8) =? 0) ((a =? 0) && (b <? 32))) 16 64). vm_compute. reflexivity. Qed.
Lemma f_7 a b : a < 16 -> b < 64 -> N.lor (N.lor (a * 16) (N.land (N.shiftr (0x80 + b) 2) 8)) (N.land (N.shiftr (0x80 + b) 2) 7) = a * 16 + b / 4.
Proof. intros H1 H2. apply N.eqb_eq. revert a b H1 H2. apply (all2 (fun a b => N.lor (N.lor (a * 16) (N.land (N.shiftr (0x80 + b) 2) 8)) (N.land (N.shiftr (0x80 + b) 2) 7) =? a * 16 + b / 4) 16 64). vm_compute. reflexivity. Qed.
Lemma f_3 a b : a < 8 -> b < 64 -> N.lor (a * 4) (N.land (N.shiftr (0x80 + b) 4) 3) = a * 4 + b / 16.
Proof. intros H1 H2. apply N.eqb_eq. revert a b H1 H2. apply (all2 (fun a b => N.lor (a * 4) (N.land (N.shiftr (0x80 + b) 4) 3) =? a * 4 + b / 16) 8 64). vm_compute. reflexivity. Qed.
Lemma f_F0 b : b < 64 -> N.land (N.shiftl (0x80 + b) 4) 0xF0 = b mod 16 * 16.
Proof. intros H. apply N.eqb_eq. revert b H. apply (all1 (fun b => N.land (N.shiftl (0x80 + b) 4) 0xF0 =? b mod 16 * 16) 64). vm_compute. reflexivity. Qed.
Lemma f_0F k b : k < 16 -> b < 64 -> N.lor (k * 16) (N.land (N.shiftr (0x80 + b) 2) 0x0F) = k * 16 + b / 4.
Proof. intros H1 H2. apply N.eqb_eq. revert k b H1 H2. apply (all2 (fun k b => N.lor (k * 16) (N.land (N.shiftr (0x80 + b) 2) 0x0F) =? k * 16 + b / 4) 16 64). vm_compute. reflexivity. Qed.

Definition dead (nul : bool) : ures := (strict nul, Some (DEADEND, [])).
Definition emit (nul : bool) (u : ucs_t) : ures :=
  if ((0xD800 <=? be32 u) && (be32 u <=? 0xDFFF)) || (is0 u && negb nul) then dead nul else (strict nul, Some (NEXTPHASE, [u_pass u])).
Lemma S1_flags nul st u : sflags nul (S1 nul st u). Proof. repeat split. Qed.
Lemma S1_dead nul st u : u_dead (S1 nul st u) [] = dead nul.
Proof. apply u_dead_strict, S1_flags. Qed.
Lemma S1_commit nul st u : u_commit (S1 nul st u) = emit nul u.
Proof. rewrite (u_commit_strict nul) by (apply S1_flags || reflexivity). reflexivity. Qed.

Ltac step_start := unfold u8_step; cbv zeta; cbn [S1 u_st u_ucs u_lead]; rewrite ?is_cont by assumption.
Lemma trail nul st u b : st = 21 \/ st = 32 \/ st = 43 -> b < 64 -> u8_step (S1 nul st u) (0x80 + b) = emit nul (orb3 u b).
Proof.
  intros Hst Hb. rewrite <- S1_commit with (st := st). destruct Hst as [->|[-> | ->]]; step_start; rewrite f_63 by exact Hb; reflexivity.
Qed.
Lemma mid31 nul a b : a < 16 -> b < 64 -> u8_step (S1 nul 31 (0, 0, a * 16, 0)) (0x80 + b) =
  if (a =? 0) && (b <? 32) then dead nul else (S1 nul 32 (0, 0, a * 16 + b / 4, b mod 4 * 64), None).
Proof.
  intros Ha Hb. step_start. unfold overlong. cbn [S1 u_over negb andb orb2 is0 N.eqb]. rewrite andb_true_r, (f_8 a b) by assumption. fold (S1 nul 31 (0, 0, a * 16, 0)). rewrite S1_dead. destruct ((a =? 0) && (b <? 32)); [reflexivity|].
  cbn [orb2 orb3]. rewrite (f_7 a b), f_l6 by assumption. reflexivity.
Qed.
Lemma mid41 nul a b : a < 8 -> b < 64 -> u8_step (S1 nul 41 (0, a * 4, 0, 0)) (0x80 + b) =
  if (a =? 0) && (b <? 16) then dead nul else (S1 nul 42 (0, a * 4 + b / 16, b mod 16 * 16, 0), None).
Proof.
  intros Ha Hb. step_start. unfold overlong. cbn [S1 u_over negb andb orb1 is0 N.eqb]. rewrite !andb_true_r, (f_3 a b) by assumption. fold (S1 nul 41 (0, a * 4, 0, 0)). rewrite S1_dead.
  replace (a * 4 + b / 16 =? 0) with ((a =? 0) && (b <? 16)). 2:{ assert (b / 16 = 0 <-> b < 16) by (rewrite N.div_small_iff by lia; tauto). lia. }
  destruct ((a =? 0) && (b <? 16)); [reflexivity|]. cbn [orb2]. rewrite f_F0 by assumption. reflexivity.
Qed.
Lemma mid42 nul x k b : k < 16 -> b < 64 -> u8_step (S1 nul 42 (0, x, k * 16, 0)) (0x80 + b) = (S1 nul 43 (0, x, k * 16 + b / 4, b mod 4 * 64), None).
Proof. intros Hk Hb. step_start. cbn [orb2 orb3]. rewrite (f_0F k b), f_l6 by assumption. reflexivity. Qed.
Lemma not_cont nul st u d : st = 21 \/ st = 31 \/ st = 32 \/ st = 41 \/ st = 42 \/ st = 43 -> (N.land d 0xC0 =? 0x80) = false -> u8_step (S1 nul st u) d = dead nul.
Proof. intros Hst Hd. rewrite <- (S1_dead nul st u). destruct Hst as [->|[->|[->|[->|[-> | ->]]]]]; unfold u8_step; cbv zeta; cbn [S1 u_st]; rewrite Hd; reflexivity. Qed.

(** ** Encodings are accepted *)
Definition u8_dom (c : N) : Prop := 0x80 <= c < 0x200000 /\ ~ (0xD800 <= c <= 0xDFFF).
Lemma is0_be32 u : is0 u = (be32 u =? 0).
Proof. destruct u as [[[a b] c] d]. cbn. lia. Qed.
Lemma emit_ok nul c u : 0 < c -> ~ (0xD800 <= c <= 0xDFFF) -> be32 u = c -> emit nul u = (strict nul, Some (NEXTPHASE, [u_pass u])).
Proof. intros H0 H1 H2. unfold emit. rewrite is0_be32, H2. replace ((0xD800 <=? c) && (c <=? 0xDFFF) || (c =? 0) && negb nul) with false by lia. reflexivity. Qed.
Lemma pass_udatum a b c : a < 256 -> b < 256 -> c < 256 -> u_pass (0, a, b, c) = udatum (a * 0x10000 + b * 0x100 + c).
Proof.
  intros Ha Hb Hc. unfold u_pass, udatum, be_bytes. set (x := a * 0x10000 + b * 0x100 + c). cbn [N.eqb negb]. f_equal.
  destruct (N.eqb_spec a 0) as [->|Ha0]; cbn [negb].
  - destruct (N.eqb_spec b 0) as [->|Hb0]; cbn [negb].
    + replace (x <? 256) with true by lia. reflexivity.
    + replace (x <? 256) with false by lia. replace (x <? 65536) with true by lia. assert (E1 : x / 256 = b) by (symmetry; apply N.div_unique with c; lia).
      assert (E2 : x mod 256 = c) by (symmetry; apply N.mod_unique with b; lia). rewrite E1, E2. reflexivity.
  - replace (x <? 256) with false by lia. replace (x <? 65536) with false by lia. replace (x <? 16777216) with true by lia.
    assert (E1 : x / 65536 = a) by (symmetry; apply N.div_unique with (b * 256 + c); lia).
    assert (E2 : x / 256 = a * 256 + b) by (symmetry; apply N.div_unique with c; lia).
    assert (E3 : x mod 256 = c) by (symmetry; apply N.mod_unique with (a * 256 + b); lia).
    rewrite E1, E2, E3. f_equal. f_equal. apply N.mod_unique with a; lia.
Qed.

Lemma after_strict_step q d : after u8_step q [d] = match u8_step q d with (q', None) | (q', Some (CONTINUE, _)) => Some q' | _ => None end.
Proof. cbn. destruct (u8_step q d) as [q' [[[] o]|]]; reflexivity. Qed.

Theorem u8_accepts nul c : u8_dom c -> exists R b qr, utf8 c = R ++ [b] /\ after u8_step (strict nul) R = Some qr /\ judge u8_step qr b = VMatch [udatum c].
Proof.
  intros ((Hlo & Hhi) & Hs). unfold utf8. replace (c <? 128) with false by lia.
  destruct (N.ltb_spec c 0x800) as [H2|H2]; [|destruct (N.ltb_spec c 0x10000) as [H3|H3]].
  - set (a := c / 64). set (b := c mod 64). assert (Hb : b < 64) by (apply N.mod_lt; lia). assert (Hc : c = 64 * a + b) by (apply N.div_mod; lia). assert (Ha : 2 <= a < 32) by lia.
    exists [0xC0 + a], (0x80 + b). eexists. split; [reflexivity|]. split.
    + rewrite after_strict_step, lead2 by lia. replace (a <? 2) with false by lia. reflexivity.
    + unfold judge. rewrite trail by auto. cbn [orb3]. pose proof (N.mod_lt a 4 ltac:(lia)). pose proof (N.div_mod a 4 ltac:(lia)) as Ea. rewrite f_or64 by assumption.
      rewrite (emit_ok nul c) by (cbn; lia). rewrite pass_udatum by lia. do 3 f_equal. lia.
  - set (a := c / 0x1000). set (m := c / 64). set (b := m mod 64). set (e := c mod 64). assert (Hb : b < 64) by (apply N.mod_lt; lia). assert (He : e < 64) by (apply N.mod_lt; lia).
    assert (Hc : c = 64 * m + e) by (apply N.div_mod; lia). assert (Hm : m = 64 * a + b). { unfold a. replace 0x1000 with (64 * 64) by reflexivity. rewrite <- N.div_div by lia. apply N.div_mod. lia. } assert (Ha : a < 16) by lia.
    exists [0xE0 + a; 0x80 + b], (0x80 + e). eexists. split; [reflexivity|]. split.
    + change ([0xE0 + a; 0x80 + b]) with ([0xE0 + a] ++ [0x80 + b]). rewrite after_app, after_strict_step, lead3 by lia. rewrite after_strict_step, mid31 by lia. replace ((a =? 0) && (b <? 32)) with false by lia. reflexivity.
    + unfold judge. rewrite trail by auto. cbn [orb3]. pose proof (N.mod_lt b 4 ltac:(lia)). pose proof (N.div_mod b 4 ltac:(lia)) as Eb. rewrite f_or64 by assumption.
      rewrite (emit_ok nul c) by (cbn; lia). rewrite pass_udatum by lia. do 3 f_equal. lia.
  - set (a := c / 0x40000). set (l := c / 0x1000). set (m := c / 64). set (b := l mod 64). set (e := m mod 64). set (g := c mod 64).
    assert (Hb : b < 64) by (apply N.mod_lt; lia). assert (He : e < 64) by (apply N.mod_lt; lia). assert (Hg : g < 64) by (apply N.mod_lt; lia).
    assert (Hc : c = 64 * m + g) by (apply N.div_mod; lia). assert (Hm : m = 64 * l + e). { unfold l. replace 0x1000 with (64 * 64) by reflexivity. rewrite <- N.div_div by lia. apply N.div_mod. lia. }
    assert (Hl : l = 64 * a + b). { unfold a, b, l. replace 0x40000 with (0x1000 * 64) by reflexivity. rewrite <- N.div_div by lia. apply N.div_mod. lia. } assert (Ha : a < 8) by lia.
    exists [0xF0 + a; 0x80 + b; 0x80 + e], (0x80 + g). eexists. split; [reflexivity|]. split.
    + change ([0xF0 + a; 0x80 + b; 0x80 + e]) with ([0xF0 + a] ++ [0x80 + b] ++ [0x80 + e]). rewrite after_app, after_strict_step, lead4 by lia. rewrite after_app, after_strict_step, mid41 by lia. replace ((a =? 0) && (b <? 16)) with false by lia.
      rewrite after_strict_step, mid42 by (try apply N.mod_lt; lia). reflexivity.
    + unfold judge. rewrite trail by auto. cbn [orb3]. pose proof (N.mod_lt e 4 ltac:(lia)). pose proof (N.div_mod e 4 ltac:(lia)) as Ee. pose proof (N.mod_lt b 16 ltac:(lia)). pose proof (N.div_mod b 16 ltac:(lia)) as Eb. rewrite f_or64 by assumption.
      rewrite (emit_ok nul c) by (cbn; lia). rewrite pass_udatum by lia. do 3 f_equal. lia.
Qed.

(** The escape decoders and encoders. *)
From Verif Require Import Base Types M_Engine M_Output M_Mktable M_Create M_Callback M_Modules M_Escape M_UTF8 M_UTF16 S_Session S_Source S_Dict S_Table S_Unicode S_Transcode S_Engine S_Escape P_Trans P_Engine1 P_Engine2 P_Engine5 P_Callback P_CbSession P_Dict P_Mktable4 P_Ascii P_Charset P_Unicode P_Pair P_UDA P_Prefix.
From Coq Require Import ZifyBool ZifyN ZifyNat.
Local Open Scope N_scope.

(** ** from/ESCAPE *)
Definition eq0 : esc := mkEsc 0 0 0.
Definition keep0 (st : N) : bool := (st =? 21) || (st =? 31) || (st =? 32) || (st =? 41) || (st =? 42) || (st =? 43).
Definition enorm (w : esc) : esc := mkEsc (es_st w) (if keep0 (es_st w) then es_0 w else 0) (if es_st w =? 43 then es_1 w else 0).
Definition estep (q : esc) (b : N) : esc * option (status * list datum) := let '(q', r) := es_step q b in (enorm q', r).
Definition einv (w : esc) : Prop := In (es_st w) [0; 10; 11; 20; 21; 31; 32; 40; 41; 42; 43].
Ltac ecases H := cbn [es_st] in H; repeat (destruct H as [H|H]; [subst|]); try contradiction.
Lemma estep_ok q b : einv q -> let '(q', r) := estep q b in
  match r with
  | None => einv q'
  | Some (NEXTPHASE, _) => q' = eq0
  | Some (DEADEND, o) => q' = eq0 /\ o = []
  | Some (CONTINUE, o) => einv q' /\ o = []
  | _ => False
  end.
Proof.
  destruct q as [st a c]. unfold einv. intros H. ecases H; unfold estep, es_step; cbn [es_st es_0 es_1 es_to es_dead];
  repeat match goal with |- context [match hexv b with _ => _ end] => destruct (hexv b) | |- context [match octv b with _ => _ end] => destruct (octv b) | |- context [if b =? ?x then _ else _] => destruct (b =? x) | |- context [if 377 <? ?x then _ else _] => destruct (377 <? x) end;
  cbn; try (split; reflexivity); try reflexivity; tauto.
Qed.
Lemma esim w b : einv w -> let '(w', r) := es_step w b in einv w' /\ estep (enorm w) b = (enorm w', r).
Proof.
  destruct w as [st a c]. unfold einv. intros H. ecases H; unfold estep;
  (match goal with |- context [es_step (enorm (mkEsc ?s a c)) b] => let x := eval cbv in (enorm (mkEsc s a c)) in change (enorm (mkEsc s a c)) with x end);
  unfold es_step; cbn [es_st es_0 es_1 es_to es_dead];
  repeat match goal with |- context [match hexv b with _ => _ end] => destruct (hexv b) | |- context [match octv b with _ => _ end] => destruct (octv b) | |- context [if b =? ?x then _ else _] => destruct (b =? x) | |- context [if 377 <? ?x then _ else _] => destruct (377 <? x) end;
  (split; [cbn; tauto|reflexivity]).
Qed.
Definition esc_spec : kspec := dec_spec PEsc einv enorm estep eq0.
Lemma esc_ok t : from_ok (esc_dec t) esc_spec.
Proof. apply (dec_ok PEsc get_esc (fun q => eq_refl) es_step einv enorm estep eq0 einv ltac:(left; reflexivity) estep_ok esim); reflexivity. Qed.

Lemma hexv_digit v x : is_hex v x -> hexv x = Some v /\ v < 16 /\ x <> 0x75 /\ x < 128 /\ x <> 0x78 /\ x <> 0x3B.
Proof.
  intros [(H & ->)|(H & [->| ->])]; unfold hexv.
  - replace ((48 <=? 48 + v) && (48 + v <=? 57)) with true by lia. split; [f_equal; lia|lia].
  - replace ((48 <=? 55 + v) && (55 + v <=? 57)) with false by lia. replace ((97 <=? 55 + v) && (55 + v <=? 102)) with false by lia. replace ((65 <=? 55 + v) && (55 + v <=? 70)) with true by lia. split; [f_equal; lia|lia].
  - replace ((48 <=? 87 + v) && (87 + v <=? 57)) with false by lia. replace ((97 <=? 87 + v) && (87 + v <=? 102)) with true by lia. split; [f_equal; lia|lia].
Qed.
Lemma octv_digit v x : is_oct v x -> octv x = Some v /\ v < 8 /\ x <> 0x75 /\ x <> 0x78 /\ x < 128.
Proof. intros (H & ->). unfold octv. replace ((48 <=? 48 + v) && (48 + v <=? 55)) with true by lia. split; [f_equal; lia|lia]. Qed.
Lemma decv_digit v x : is_dec v x -> decv x = Some v /\ v < 10 /\ x <> 0x3B /\ x <> 0x78 /\ x < 128.
Proof. intros (H & ->). unfold decv. replace ((48 <=? 48 + v) && (48 + v <=? 57)) with true by lia. split; [f_equal; lia|lia]. Qed.
Lemma number2 B h l : number B [h; l] = h * B + l. Proof. cbn. lia. Qed.
Lemma number3 B a b c : number B [a; b; c] = (a * B + b) * B + c. Proof. cbn. lia. Qed.
Lemma number4 B a b c d : number B [a; b; c; d] = ((a * B + b) * B + c) * B + d. Proof. cbn. lia. Qed.

Definition ereads (q : esc) (x : N) (q' : esc) : Prop := estep q x = (q', None).
Lemma ejudge q x q' d : estep q x = (q', Some (NEXTPHASE, [d])) -> judge estep q x = VMatch [d].
Proof. intros H. unfold judge. rewrite H. reflexivity. Qed.
Lemma esc_reads i sp : spells i sp -> okhd sp = true /\ exists R b qr, sp = R ++ [b] /\ after estep eq0 R = Some qr /\ judge estep qr b = VMatch [internal i].
Proof.
  assert (S10 : forall h x, is_hex h x -> estep (mkEsc 10 0 0) x = (mkEsc 21 h 0, None)).
  { intros h x H. destruct (hexv_digit _ _ H) as (E & _ & Hn & _). unfold estep, es_step. cbn [es_st]. destruct (N.eqb_spec x 0x75); [contradiction|]. rewrite E. reflexivity. }
  assert (S20 : forall h x, is_hex h x -> estep (mkEsc 20 0 0) x = (mkEsc 21 h 0, None)).
  { intros h x H. destruct (hexv_digit _ _ H) as (E & _). unfold estep, es_step. cbn [es_st]. rewrite E. reflexivity. }
  assert (S21 : forall h l y, h < 16 -> is_hex l y -> judge estep (mkEsc 21 h 0) y = VMatch [[3; number 16 [h; l]]]).
  { intros h l y Hh H. destruct (hexv_digit _ _ H) as (E & Hl & _). unfold judge, estep, es_step. cbn [es_st es_0]. rewrite E. rewrite N.mod_small by lia. rewrite number2. reflexivity. }
  destruct 1 as [h l x y Hx Hy|h l x y Hx Hy|a b c x y z Ha Hb Hc Hlt|m a b c d x y z w Hm Ha Hb Hc Hd Hpos].
  - split; [reflexivity|]. exists [0x25; x], y, (mkEsc 21 h 0). split; [reflexivity|]. destruct (hexv_digit _ _ Hx) as (_ & Hh & _). split; [|apply S21; assumption].
    cbn [after]. change (estep eq0 0x25) with (mkEsc 10 0 0, @None (status * list datum)). cbv iota beta. rewrite (S10 _ _ Hx). reflexivity.
  - split; [reflexivity|]. exists [0x5C; 0x78; x], y, (mkEsc 21 h 0). split; [reflexivity|]. destruct (hexv_digit _ _ Hx) as (_ & Hh & _). split; [|apply S21; assumption].
    cbn [after]. change (estep eq0 0x5C) with (mkEsc 11 0 0, @None (status * list datum)). cbv iota beta. change (estep (mkEsc 11 0 0) 0x78) with (mkEsc 20 0 0, @None (status * list datum)). cbv iota beta. rewrite (S20 _ _ Hx). reflexivity.
  - split; [reflexivity|]. destruct (octv_digit _ _ Ha) as (Ea & La & Na & Na' & _). destruct (octv_digit _ _ Hb) as (Eb & Lb & _). destruct (octv_digit _ _ Hc) as (Ec & Lc & _). rewrite number3 in Hlt.
    exists [0x5C; x; y], z, (mkEsc 32 (a * 8 + b) 0). split; [reflexivity|]. split.
    + cbn [after]. change (estep eq0 0x5C) with (mkEsc 11 0 0, @None (status * list datum)). cbv iota beta.
      assert (E1 : estep (mkEsc 11 0 0) x = (mkEsc 31 a 0, None)) by (unfold estep, es_step; cbn [es_st]; destruct (N.eqb_spec x 0x75); [contradiction|]; destruct (N.eqb_spec x 0x78); [contradiction|]; rewrite Ea; reflexivity). rewrite E1.
      assert (E2 : estep (mkEsc 31 a 0) y = (mkEsc 32 (a * 8 + b) 0, None)) by (unfold estep, es_step; cbn [es_st es_0 es_1]; rewrite Eb, N.mod_small by lia; reflexivity). rewrite E2. reflexivity.
    + unfold judge, estep, es_step. cbn [es_st es_0 es_1]. rewrite Ec. cbv zeta. replace (377 <? (a * 8 + b) * 8 + c) with false by lia. rewrite N.mod_small by lia. cbn [internal]. rewrite number3. reflexivity.
  - destruct (hexv_digit _ _ Ha) as (Ea & La & _). destruct (hexv_digit _ _ Hb) as (Eb & Lb & _). destruct (hexv_digit _ _ Hc) as (Ec & Lc & _). destruct (hexv_digit _ _ Hd) as (Ed & Ld & _).
    split; [destruct Hm; subst; reflexivity|]. exists [m; 0x75; x; y; z], w, (mkEsc 43 (a * 16 + b) c). split; [reflexivity|]. split.
    + assert (E0 : exists st, estep eq0 m = (mkEsc st 0 0, None) /\ estep (mkEsc st 0 0) 0x75 = (mkEsc 40 0 0, None)) by (destruct Hm as [->| ->]; [exists 10|exists 11]; split; reflexivity).
      destruct E0 as (st & E0 & E1). cbn [after]. rewrite E0, E1.
      assert (E2 : estep (mkEsc 40 0 0) x = (mkEsc 41 a 0, None)) by (unfold estep, es_step; cbn [es_st es_1]; rewrite Ea; reflexivity). rewrite E2.
      assert (E3 : estep (mkEsc 41 a 0) y = (mkEsc 42 (a * 16 + b) 0, None)) by (unfold estep, es_step; cbn [es_st es_0 es_1]; rewrite Eb, N.mod_small by lia; reflexivity). rewrite E3.
      assert (E4 : estep (mkEsc 42 (a * 16 + b) 0) z = (mkEsc 43 (a * 16 + b) c, None)) by (unfold estep, es_step; cbn [es_st es_0 es_1]; rewrite Ec; reflexivity). rewrite E4. reflexivity.
    + unfold judge, estep, es_step. cbn [es_st es_0 es_1]. rewrite Ed. cbv zeta. rewrite N.mod_small by lia. cbn [internal]. rewrite number4 in *. set (e := a * 16 + b) in *. replace ((e * 16 + c) * 16 + d) with (256 * e + (c * 16 + d)) in * by lia. set (f := c * 16 + d) in *.
      assert (He : e < 256) by lia. assert (Hf : f < 256) by lia. unfold udatum, be_bytes. destruct (N.eqb_spec e 0) as [->|Hne].
      * replace (256 * 0 + f <? 256) with true by lia. destruct (N.eqb_spec f 0); [lia|]. reflexivity.
      * replace (256 * e + f <? 256) with false by lia. replace (256 * e + f <? 65536) with true by lia. replace ((256 * e + f) / 256) with e by (apply N.div_unique with f; lia). replace ((256 * e + f) mod 256) with f by (apply N.mod_unique with e; lia). reflexivity.
Qed.

(** ** from/ASCII-NUMERIC-HTML-ENTITY *)
Definition nq0 : ent := mkEnt 0 0.
Definition nnorm (w : ent) : ent := if en_b w =? 0 then nq0 else w.
Definition nstep (q : ent) (b : N) : ent * option (status * list datum) := let '(q', r) := en_step q b in (nnorm q', r).
Lemma nstep_ok q b : True -> let '(q', r) := nstep q b in
  match r with
  | None => True
  | Some (NEXTPHASE, _) => q' = nq0
  | Some (DEADEND, o) => q' = nq0 /\ o = []
  | Some (CONTINUE, o) => True /\ o = []
  | _ => False
  end.
Proof.
  intros _. unfold nstep, en_step. cbv zeta. destruct ((b =? 0x3B) && negb (en_b q =? 0)); [reflexivity|]. destruct (en_b q =? 0).
  - destruct (b =? 0x78); [exact I|]. destruct (decv b); [exact I|]. split; reflexivity.
  - destruct (if en_b q =? 16 then hexv b else decv b); [exact I|]. split; reflexivity.
Qed.
Lemma nsim w b : True -> let '(w', r) := en_step w b in True /\ nstep (nnorm w) b = (nnorm w', r).
Proof.
  intros _. destruct (en_b w =? 0) eqn:E; [|unfold nnorm at 1; rewrite E; unfold nstep; destruct (en_step w b); auto].
  unfold nstep, nnorm at 1. rewrite E. unfold en_step. rewrite E. cbn [nq0 en_b en_i]. change (0 =? 0) with true. cbv zeta. cbn [negb]. rewrite andb_false_r.
  destruct (b =? 0x78); [split; [exact I|reflexivity]|]. destruct (decv b); split; try exact I; reflexivity.
Qed.
Definition ent_spec : kspec := pre_spec PEnt (fun _ => True) nnorm nstep nq0.
Lemma ent_ok t : from_ok (ent_dec t) ent_spec.
Proof. apply (prefix_ok PEnt get_ent (fun q => eq_refl) en_step (fun _ => True) nnorm nstep nq0 (fun _ => True) I nstep_ok nsim); reflexivity. Qed.

Lemma strip0s_ne x l : x <> 0 -> strip0s (x :: l) = x :: l. Proof. intros H. destruct x; [contradiction|reflexivity]. Qed.
Lemma strip0s_0 l : strip0s (0 :: l) = strip0s l. Proof. reflexivity. Qed.
Lemma be32_bytes n : 0 < n < 0x100000000 -> M_Escape.be32 n = be_bytes n.
Proof.
  intros Hn. unfold M_Escape.be32, be_bytes.
  assert (Hs : forall k, n < k -> n / k mod 256 = 0) by (intros k Hk; rewrite N.div_small by exact Hk; reflexivity).
  destruct (N.ltb_spec n 256).
  { rewrite !Hs by lia. rewrite ?strip0s_0. rewrite N.mod_small by assumption. apply strip0s_ne. lia. }
  destruct (N.ltb_spec n 65536).
  { rewrite (Hs 0x1000000), (Hs 0x10000) by lia. rewrite ?strip0s_0. pose proof (N.div_lt_upper_bound n 256 256 ltac:(discriminate) ltac:(lia)). rewrite (N.mod_small (n / 0x100)) by assumption. apply strip0s_ne. pose proof (N.div_str_pos n 256). lia. }
  destruct (N.ltb_spec n 16777216).
  { rewrite (Hs 0x1000000) by lia. rewrite ?strip0s_0. pose proof (N.div_lt_upper_bound n 0x10000 256 ltac:(discriminate) ltac:(lia)). rewrite (N.mod_small (n / 0x10000)) by assumption. apply strip0s_ne. pose proof (N.div_str_pos n 0x10000). lia. }
  pose proof (N.div_lt_upper_bound n 0x1000000 256 ltac:(discriminate) ltac:(lia)). rewrite (N.mod_small (n / 0x1000000)) by assumption. apply strip0s_ne. pose proof (N.div_str_pos n 0x1000000). lia.
Qed.
Lemma number_ge B : 1 <= B -> forall vs n, n <= fold_left (fun n v => n * B + v) vs n.
Proof. intros HB. induction vs as [|v vs IH]; intros n; cbn; [lia|]. etransitivity; [|apply IH]. nia. Qed.
Lemma ent_digits B (dig : N -> N -> Prop) : (B = 10 \/ B = 16) -> (forall v x, dig v x -> x <> 0x3B /\ (if B =? 16 then hexv x else decv x) = Some v) ->
  forall vs xs, Forall2 dig vs xs -> forall n, fold_left (fun n v => n * B + v) vs n < 0x100000000 -> after nstep (mkEnt B n) xs = Some (mkEnt B (fold_left (fun n v => n * B + v) vs n)).
Proof.
  intros HB Hd. induction 1 as [|v x vs xs Hx HF IH]; intros n Hn; [reflexivity|]. cbn [after fold_left] in *. destruct (Hd _ _ Hx) as (Hne & Hv).
  assert (E : nstep (mkEnt B n) x = (mkEnt B (n * B + v), None)).
  { unfold nstep, en_step. cbn [en_b en_i]. destruct (N.eqb_spec x 0x3B); [contradiction|]. cbn [andb]. replace (B =? 0) with false by lia. rewrite Hv. rewrite N.mod_small.
    - unfold nnorm. cbn [en_b]. replace (B =? 0) with false by lia. reflexivity.
    - pose proof (number_ge B ltac:(lia) vs (n * B + v)). lia. }
  rewrite E. apply IH. exact Hn.
Qed.
Lemma ent_end B n : (B = 10 \/ B = 16) -> judge nstep (mkEnt B n) 0x3B = VMatch [1 :: M_Escape.be32 n].
Proof. intros HB. unfold judge, nstep, en_step. cbn [en_b en_i]. replace (B =? 0) with false by lia. reflexivity. Qed.
Lemma ent_reads c sp rest : refers c sp -> scan (pre_sem nstep nq0) [] (byt sp ++ rest) None = Some (length sp, [udatum c]).
Proof.
  intros [vs xs HF Hne Hv|vs xs HF Hv].
  - destruct HF as [|v x vs xs Hx HF]; [contradiction|]. destruct (decv_digit _ _ Hx) as (E & Hlt & N1 & N2 & N3).
    rewrite (pre_first nstep nq0 (x :: xs) 0x3B (mkEnt 10 (number 10 (v :: vs))) [udatum (number 10 (v :: vs))] rest); [reflexivity| | |].
    + cbn [app okhd]. lia.
    + cbn [after]. assert (E1 : nstep nq0 x = (mkEnt 10 v, None)). { unfold nstep, en_step. cbn [nq0 en_b en_i]. cbn [negb]. change (0 =? 0) with true. rewrite andb_false_r. destruct (N.eqb_spec x 0x78); [contradiction|]. rewrite E. reflexivity. }
      rewrite E1. unfold number in *. cbn [fold_left] in *. rewrite N.mul_0_l, N.add_0_l in *. apply (ent_digits 10 is_dec); [auto| |exact HF|lia]. intros v' x' H'. destruct (decv_digit _ _ H') as (A1 & _ & A2 & _). split; [exact A2|exact A1].
    + rewrite ent_end by auto. rewrite be32_bytes by exact Hv. reflexivity.
  - change ([0x26; 0x23; 0x78] ++ xs ++ [0x3B]) with ([0x26; 0x23] ++ (0x78 :: xs) ++ [0x3B]).
    rewrite (pre_first nstep nq0 (0x78 :: xs) 0x3B (mkEnt 16 (number 16 vs)) [udatum (number 16 vs)] rest); [reflexivity|reflexivity| |].
    + cbn [after]. change (nstep nq0 0x78) with (mkEnt 16 0, @None (status * list datum)). cbv iota beta. apply (ent_digits 16 is_hex); [auto| |exact HF|apply Hv]. intros v' x' H'. destruct (hexv_digit _ _ H') as (A1 & _ & _ & _ & _ & A2). split; [exact A2|exact A1].
    + rewrite ent_end by auto. rewrite be32_bytes by exact Hv. reflexivity.
Qed.

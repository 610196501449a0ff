(** Codecs with callbacks meet the engine's interface. *)
From Verif Require Import Base Types M_Engine M_Mktable M_Callback S_Engine P_Trans P_Engine1 P_Engine2 P_Engine5.
From Coq Require Import ZifyBool ZifyN ZifyNat.

Lemma star_compiled : mktable [42; 9; 63; 10]%N = Some star_table.
Proof. vm_compute. reflexivity. Qed.
Lemma star_compiled2 : mktable [42; 9; 9; 63; 10]%N = Some star_table.
Proof. vm_compute. reflexivity. Qed.
Lemma uni_compiled : mktable [48; 49; 42; 9; 63; 10]%N = Some uni_table.
Proof. vm_compute. reflexivity. Qed.

Lemma nth_error_repeat {A} (x : A) : forall n k, k < n -> nth_error (repeat x n) k = Some x.
Proof. induction n; intros [|k] H; cbn; try lia; [reflexivity|apply IHn; lia]. Qed.

Definition sub1 : tstate := mkTs SUBROUTINE [] 65535 0 [].
Lemma get_offset_none s v : t_beg s = 65535%N -> t_end s = 0%N -> get_offset s v = Some 0.
Proof. intros H1 H2. unfold get_offset. rewrite H1, H2. destruct ((65535 <=? v)%N && (v <? 0)%N) eqn:E; [lia|reflexivity]. Qed.
Lemma get_offset_all s v k : t_beg s = 0%N -> t_end s = 257%N -> t_kids s = repeat k 257 -> (v < 257)%N -> get_offset s v = Some k.
Proof.
  intros H1 H2 H3 H. unfold get_offset. rewrite H1, H2, H3. replace ((0 <=? v)%N && (v <? 257)%N) with true by lia. apply nth_error_repeat. lia.
Qed.
Definition star_root : tstate := mkTs DEADEND [] 0 257 (repeat 1 257).
Definition kids_all (k : nat) (s : tstate) : Prop := t_beg s = 0%N /\ t_end s = 257%N /\ t_kids s = repeat k 257.
Definition kids_none (s : tstate) : Prop := t_beg s = 65535%N /\ t_end s = 0%N.

Lemma feed1_all tab s off lb v k s' : kids_all (S k) s -> (v < 257)%N -> read_state tab (S k) = Some s' -> feed1 tab s off lb v = Some (s', S k).
Proof. intros (H1 & H2 & H3) Hv Hr. unfold feed1. rewrite (get_offset_all s v (S k)) by assumption. rewrite Hr. reflexivity. Qed.
Lemma feed1_none tab s off v s' : kids_none s -> read_state tab off = Some s' -> feed1 tab s off true v = Some (s', off).
Proof. intros (H1 & H2) Hr. unfold feed1. rewrite get_offset_none by assumption. rewrite Hr. reflexivity. Qed.

Definition bytes_ok (d : datum) : Prop := Forall (fun b => (b < 256)%N) d.

(** ** Decoders *)
Section Decoder.
Context {P W Q : Type}.
Notation ecodec := (ecodec P).
(** [W]: the private state as stored; [Q]: what matters of it ([abs]). *)
Variables (inj : W -> P) (prj : P -> option W).
Hypothesis prj_inj : forall q, prj (inj q) = Some q.
Variable wstep : W -> N -> W * option (status * list datum).
Variable winv : W -> Prop.
Variable abs : W -> Q.
Variable step : Q -> N -> Q * option (status * list datum).
Variable q0 : Q.
Variable inv : Q -> Prop.
Hypothesis inv0 : inv q0.
Hypothesis step_ok : forall q b, inv q -> let '(q', r) := step q b in
  match r with
  | None => inv q'
  | Some (NEXTPHASE, _) => q' = q0
  | Some (DEADEND, o) => q' = q0 /\ o = []
  | Some (CONTINUE, o) => inv q' /\ o = []
  | _ => False
  end.

Hypothesis sim : forall w b, winv w -> let '(w', r) := wstep w b in winv w' /\ step (abs w) b = (abs w', r).

(** The state after reading bytes that all continue. *)
Fixpoint after (q : Q) (bs : list N) : option Q :=
  match bs with
  | [] => Some q
  | b :: r => match step q b with
              | (q', None) | (q', Some (CONTINUE, _)) => after q' r
              | _ => None
              end
  end.
(** The verdict on a byte string. *)
Definition judge (q : Q) (b : N) : verdict :=
  match step q b with
  | (_, None) | (_, Some (CONTINUE, _)) => VCont
  | (_, Some (NEXTPHASE, o)) => VMatch o
  | _ => VDead
  end.
Definition okhd (w : list N) : bool := match w with x :: _ => (x <? 257)%N | [] => true end.
Definition dec_sem : csem := fun pre =>
  let w := concat pre in
  if negb (okhd w) then VDead else
  match rev w with
  | [] => VDead
  | b :: r => match after q0 (rev r) with Some q => judge q b | None => VDead end
  end.
Lemma dec_sem_snoc pre b : okhd (concat pre ++ [b]) = true -> dec_sem (pre ++ [[b]]) = match after q0 (concat pre) with Some q => judge q b | None => VDead end.
Proof. intros H. unfold dec_sem. rewrite concat_app. cbn [concat]. rewrite app_nil_r, H, rev_app_distr. cbn. rewrite rev_involutive. reflexivity. Qed.
Lemma okhd_app a b c : okhd (a ++ b) = true -> a <> [] -> okhd (a ++ c) = true.
Proof. destruct a; [contradiction|auto]. Qed.
Lemma okhd_pre a b : okhd (a ++ b) = true -> okhd a = true.
Proof. destruct a; auto. Qed.
Lemma after_app q a b : after q (a ++ b) = match after q a with Some q' => after q' b | None => None end.
Proof. revert q. induction a as [|x a IH]; intros q; cbn; [reflexivity|]. destruct (step q x) as [q' [[[] o]|]]; auto. Qed.
Lemma after_inv : forall bs q q', inv q -> after q bs = Some q' -> inv q'.
Proof.
  induction bs as [|b bs IH]; intros q q' Hq; cbn; [intros E; injection E as <-; exact Hq|]. pose proof (step_ok q b Hq) as H. destruct (step q b) as [q1 [[[] o]|]]; try discriminate; eauto. intros E. eapply IH; [|exact E]. apply H.
Qed.

Definition dec_St : StT := fun pre s off lb p =>
  exists w, p = inj w /\ winv w /\ after q0 (concat pre) = Some (abs w) /\
    match pre with
    | [] => kids_all 1 s /\ lb = false
    | _ => kids_none s /\ off = 1 /\ lb = true /\ concat pre <> [] /\ okhd (concat pre) = true
    end.
Definition dec_spec : codec_spec (P:=P) := mkKs dec_sem (fun p => exists w, p = inj w /\ winv w /\ abs w = q0) dec_St.

Lemma loop_spec : forall bs q i, inv q -> let '(q', i', st, o) := byte_loop step q bs i in
  match st with
  | DEADEND => o = [] /\ q' = q0 /\ exists R y R2, bs = R ++ y :: R2 /\ after q R <> None /\ match after q R with Some qr => judge qr y = VDead | None => False end
  | NEXTPHASE => q' = q0 /\ exists R y, i' = i + length R /\ bs = R ++ y :: skipn (S (length R)) bs /\ match after q R with Some qr => judge qr y = VMatch o | None => False end
  | CONTINUE => o = [] /\ exists R, after q R = Some q' /\ bs = R ++ skipn (S i' - i) bs /\ i <= i' /\ (bs <> [] -> R <> [])
  | _ => False
  end.
Proof.
  induction bs as [|b bs IH]; intros q i Hq; cbn [byte_loop].
  - split; [reflexivity|]. exists []. cbn. rewrite skipn_nil. auto with arith.
  - pose proof (step_ok q b Hq) as H. destruct (step q b) as [q1 [[st o]|]] eqn:E.
    + destruct st; try contradiction.
      * destruct H as (H & ->). split; [reflexivity|]. exists [b]. cbn [after]. rewrite E. split; [reflexivity|]. replace (S i - i) with 1 by lia. cbn. split; [reflexivity|]. split; [lia|discriminate].
      * destruct H as (-> & ->). split; [reflexivity|]. split; [reflexivity|]. exists [], b, bs. cbn. split; [reflexivity|]. split; [discriminate|]. unfold judge. rewrite E. reflexivity.
      * subst. split; [reflexivity|]. exists [], b. cbn. split; [lia|]. split; [reflexivity|]. unfold judge. rewrite E. reflexivity.
    + specialize (IH q1 (S i) H). destruct (byte_loop step q1 bs (S i)) as [[[q' i'] st] o]. destruct st; try contradiction.
      * destruct IH as (-> & R & H1 & H2 & H3 & H4). split; [reflexivity|]. exists (b :: R). cbn [after]. rewrite E. split; [exact H1|]. split; [|split; [lia|discriminate]]. replace (S i' - i) with (S (S i' - S i)) by lia. cbn [skipn app]. f_equal. exact H2.
      * destruct IH as (-> & -> & R & y & R2 & H1 & H2 & H3). split; [reflexivity|]. split; [reflexivity|]. exists (b :: R), y, R2. cbn [after app]. rewrite E. rewrite H1. auto.
      * destruct IH as (-> & R & y & H1 & H2 & H3). split; [reflexivity|]. exists (b :: R), y. cbn [after length]. rewrite E. split; [lia|]. split; [|exact H3]. cbn [skipn app]. f_equal. exact H2.
Qed.

Lemma loop_sim : forall bs w i, winv w -> let '(w', i', st, o) := byte_loop wstep w bs i in winv w' /\ byte_loop step (abs w) bs i = (abs w', i', st, o).
Proof.
  induction bs as [|b bs IH]; intros w i Hw; cbn [byte_loop]; [auto|]. pose proof (sim w b Hw) as H. destruct (wstep w b) as [w1 [[st o]|]]; destruct H as (H1 & H2); rewrite H2; [auto|]. apply IH. exact H1.
Qed.

Lemma conts_after : forall R pre q qr, okhd (concat pre ++ R) = true -> after q0 (concat pre) = Some q -> after q R = Some qr -> conts dec_sem pre (byt R).
Proof.
  induction R as [|b R IH]; intros pre q qr H0 H1 H2; cbn; [constructor|]. cbn in H2.
  assert (H0' : okhd (concat pre ++ [b]) = true) by (destruct (concat pre); exact H0). constructor.
  - rewrite dec_sem_snoc, H1 by exact H0'. unfold judge. destruct (step q b) as [q1 [[[] o]|]]; try discriminate; reflexivity.
  - assert (H3 : exists q1, after q [b] = Some q1 /\ after q1 R = Some qr) by (cbn; destruct (step q b) as [q1 [[[] o]|]]; try discriminate; eauto).
    destruct H3 as (q1 & H3 & H4). apply (IH _ q1 qr); [| |exact H4].
    + rewrite concat_app. cbn [concat]. rewrite app_nil_r, <- app_assoc. exact H0.
    + rewrite concat_app. cbn [concat]. rewrite app_nil_r. rewrite after_app, H1. exact H3.
Qed.

Lemma concat_byt R : concat (byt R) = R.
Proof. induction R as [|b R IH]; [reflexivity|]. cbn. f_equal. exact IH. Qed.

Lemma byt_cons b l : byt (b :: l) = [b] :: byt l. Proof. reflexivity. Qed.
Theorem dec_ok (c : ecodec) : e_tab P c = star_table -> e_conv P c = Some (loop_cb inj prj wstep) -> from_ok c dec_spec.
Proof.
  intros Ht Hc. constructor.
  - exists star_root. rewrite Ht. split; [reflexivity|]. intros off p (w & -> & Hw & Ha). exists w. rewrite Ha. cbn. unfold kids_all. auto 10.
  - intros pre s off lb p d i b (w & -> & Hw & Ha & Hs) Hi. pose proof (skipn_nth _ _ _ Hi) as Hsk.
    destruct (okhd (concat pre ++ [b])) eqn:Hh.
    2:{ destruct pre as [|x pre]; [|destruct Hs as (_ & _ & _ & Hs1 & Hs2); destruct (concat (x :: pre)); [contradiction|cbn in *; congruence]].
      cbn in Hh, Ha. injection Ha as Ha. destruct Hs as ((K1 & K2 & K3) & ->). unfold fread, feed1, get_offset. rewrite K1, K2. replace ((0 <=? b)%N && (b <? 257)%N) with false by lia. rewrite Ht. cbn [read_state star_table nth_error t_status].
      do 6 eexists. split; [reflexivity|]. cbn [t_status]. exists []. split; [constructor|]. split; [reflexivity|]. split; [exists w; auto|]. exists [b], (byt (skipn (S i) d)). split; [rewrite Hsk; reflexivity|].
      cbn [k_v dec_spec app]. unfold dec_sem. cbn [concat app okhd]. replace (b <? 257)%N with false by lia. reflexivity. }
    assert (Hf : feed1 (e_tab P c) s off lb b = Some (sub1, 1)).
    { rewrite Ht. destruct pre as [|x pre]; [apply feed1_all; [apply Hs|cbn in Hh; lia|reflexivity]|]. destruct Hs as (Hs & -> & -> & _). apply feed1_none; [exact Hs|reflexivity]. }
    unfold fread. rewrite Hf. cbn [t_status sub1]. rewrite Hc. unfold loop_cb. rewrite prj_inj.
    set (q := abs w) in *. assert (Hq : inv q) by (eapply after_inv; [exact inv0|exact Ha]).
    pose proof (loop_spec (skipn i d) q i Hq) as HL. pose proof (loop_sim (skipn i d) w i Hw) as HS. destruct (byte_loop wstep w (skipn i d) i) as [[[w' i'] st] o]. destruct HS as (Hw' & HS). change (abs w) with q in HS. rewrite HS in HL. clear HS.
    do 6 eexists. split; [reflexivity|]. cbn [cb_status cb_priv cb_i cb_out with_status t_status].
    assert (HOK : forall R R2, skipn i d = R ++ R2 -> okhd (concat pre ++ R) = true).
    { intros R R2 E. rewrite Hsk in E. destruct R as [|r R]; [rewrite app_nil_r; eapply okhd_pre; exact Hh|]. injection E as <- _. destruct (concat pre); exact Hh. }
    destruct st; try contradiction.
    + destruct HL as (-> & R & H1 & H2 & H3 & H4). exists (byt R). split; [eapply conts_after; [|eassumption|eassumption]; eapply HOK; exact H2|].
      assert (HR : R <> []) by (apply H4; rewrite Hsk; discriminate).
      split; [reflexivity|]. split; [destruct R; [contradiction|discriminate]|]. split; [exact H3|]. split.
      * rewrite H2 at 1. rewrite byt_app. f_equal. f_equal. rewrite skipn_skipn. f_equal. lia.
      * exists w'. split; [reflexivity|]. split; [exact Hw'|]. rewrite concat_app, concat_byt, after_app, Ha. split; [exact H1|].
        destruct (pre ++ byt R) eqn:E.
        -- apply app_eq_nil in E as (-> & E). apply byt_nil in E. contradiction.
        -- split; [split; reflexivity|]. split; [reflexivity|]. split; [reflexivity|]. split; [|eapply HOK; exact H2]. intros E0. apply app_eq_nil in E0 as (_ & E0). contradiction.
    + destruct HL as (-> & Hq0 & R & y & R2 & H1 & H2 & H3). destruct (after q R) as [qr|] eqn:Er; [|contradiction]. exists (byt R). split; [eapply conts_after; [|eassumption|eassumption]; eapply HOK; exact H1|].
      split; [reflexivity|]. split; [exists w'; auto|]. exists [y], (byt R2). split; [rewrite H1, byt_app; reflexivity|].
      cbn [k_v dec_spec]. rewrite app_assoc, dec_sem_snoc; rewrite concat_app, concat_byt; [rewrite after_app, Ha, Er; exact H3|]. rewrite <- app_assoc. apply (HOK _ R2). rewrite <- app_assoc. exact H1.
    + destruct HL as (Hq0 & R & y & -> & H2 & H3). destruct (after q R) as [qr|] eqn:Er; [|contradiction]. exists (byt R). split; [eapply conts_after; [|eassumption|eassumption]; eapply HOK; exact H2|].
      assert (HL : i + length R < length d). { assert (E : length (skipn i d) = length (R ++ y :: skipn (S (length R)) (skipn i d))) by (rewrite <- H2; reflexivity). rewrite app_length in E. cbn [length] in E. rewrite skipn_length in E. lia. }
      split; [exists w'; auto|]. split; [lia|]. exists [y]. split.
      * rewrite H2 at 1. rewrite byt_app. f_equal. rewrite byt_cons. f_equal. rewrite skipn_skipn. f_equal. f_equal. lia.
      * cbn [k_v dec_spec]. rewrite app_assoc, dec_sem_snoc; rewrite concat_app, concat_byt; [rewrite after_app, Ha, Er; exact H3|]. rewrite <- app_assoc. apply (HOK _ (skipn (S (length R)) (skipn i d))). rewrite <- app_assoc. exact H2.
Qed.

Lemma dec_no_sub : no_sub dec_sem.
Proof.
  intros w d. unfold dec_sem. destruct (negb _); [discriminate|]. destruct (rev (concat w)); [discriminate|]. destruct (after q0 _); [|discriminate]. unfold judge. destruct (step _ _) as [? [[[] o]|]]; discriminate.
Qed.

(** What the decoder makes of a complete encoding. *)
Lemma dec_scan : forall R b q pre qr o, okhd (concat pre ++ R ++ [b]) = true -> after q0 (concat pre) = Some q -> after q R = Some qr -> judge qr b = VMatch o ->
  forall rest, scan dec_sem pre (byt (R ++ [b]) ++ rest) None = Some (length pre + length (R ++ [b]), o).
Proof.
  induction R as [|x R IH]; intros b q pre qr o H0 H1 H2 H3 rest; cbn [app].
  - rewrite byt_cons. cbn [app scan]. cbn in H2. injection H2 as <-. rewrite dec_sem_snoc, H1, H3 by exact H0. cbn [length app]. f_equal. f_equal. rewrite Nat.add_comm. reflexivity.
  - rewrite byt_cons. cbn [app scan]. rewrite dec_sem_snoc, H1 by (destruct (concat pre); exact H0).
    assert (H4 : exists q1, after q [x] = Some q1 /\ after q1 R = Some qr /\ judge q x = VCont) by (cbn in *; unfold judge; destruct (step q x) as [q1 [[[] o1]|]]; try discriminate; eauto).
    destruct H4 as (q1 & H4 & H5 & ->). rewrite (IH b q1 _ qr o); auto.
    + rewrite !app_length. cbn [length app]. f_equal. f_equal. rewrite <- Nat.add_assoc. f_equal. cbn. rewrite ?app_length. reflexivity.
    + rewrite concat_app. cbn [concat]. rewrite app_nil_r, <- app_assoc. exact H0.
    + rewrite concat_app. cbn [concat]. rewrite app_nil_r, after_app, H1. exact H4.
Qed.
Lemma dec_first R b qr o rest : okhd (R ++ [b]) = true -> after q0 R = Some qr -> judge qr b = VMatch o ->
  scan dec_sem [] (byt (R ++ [b]) ++ rest) None = Some (length (R ++ [b]), o).
Proof. intros H1 H2 H3. apply (dec_scan R b q0 [] qr o); auto. Qed.
End Decoder.

(** ** Encoders and intermediate codecs that look at one datum *)
Section Encoder.
Context {P : Type}.
Notation ecodec := (ecodec P).
Variable f : datum -> option (list datum).
Definition no_state : P -> Prop := fun _ => True.

(** for the table "*" *)
Definition star_sem : csem := fun pre =>
  match pre with
  | [x :: d] => if (x <? 257)%N then match f (x :: d) with Some o => VMatch o | None => VDead end else VDead
  | _ => VDead
  end.
Definition star_spec : codec_spec (P:=P) := mkKs star_sem no_state (fun pre s off lb p => pre = [] /\ kids_all 1 s /\ lb = false).

Lemma bl_stay tab off s' : read_state tab off = Some s' -> t_status s' = SUBROUTINE -> kids_none s' -> forall d s, kids_none s -> 
  bl tab s off true d = Some (match d with [] => s | _ => s' end, off, true, false).
Proof.
  intros Hr Hst Hk. induction d as [|b d IH]; intros s Hs; [reflexivity|]. cbn [bl]. rewrite (feed1_none _ _ _ _ _ Hs Hr), Hst. rewrite (IH s' Hk). destruct d; reflexivity.
Qed.

Theorem star_ok to (c : ecodec) : e_tab P c = star_table -> e_conv P c = Some (datum_cb f) -> data_ok to c star_spec.
Proof.
  intros Ht Hc. constructor.
  - exists star_root. rewrite Ht. split; [reflexivity|]. intros off p _. split; [reflexivity|]. unfold kids_all. cbn. auto 10.
  - intros pre s off lb p x (H1 & H2 & H3). split; [exact H1|]. split; [exact H2|exact H3].
  - intros pre s off lb p d Hd (-> & Hk & ->). destruct d as [|x d]; [contradiction|]. cbn [app k_v star_spec star_sem k_clean]. cbn [bl].
    destruct (N.ltb_spec x 257) as [Hx|Hx].
    + rewrite (feed1_all _ _ _ _ _ 0 sub1 Hk) by (rewrite ?Ht; auto). cbn [sub1 t_status]. rewrite (bl_stay _ _ sub1) by (rewrite ?Ht; try reflexivity; split; reflexivity).
      assert (Ed : (match d with [] => sub1 | _ => sub1 end) = sub1) by (destruct d; reflexivity). change (mkTs SUBROUTINE [] 65535 0 []) with sub1. rewrite Ed. cbn [sub1 t_status]. exists (datum_cb f). split; [exact Hc|]. split; [exact I|]. unfold datum_cb. destruct (f (x :: d)); cbn; auto.
    + destruct Hk as (K1 & K2 & K3). unfold feed1, get_offset. rewrite K1, K2. replace ((0 <=? x)%N && (x <? 257)%N) with false by lia. rewrite Ht. cbn [read_state star_table nth_error t_status]. split; [reflexivity|exact I].
Qed.

(** for the table "01*" *)
Definition uni_sem : csem := fun pre =>
  match pre with
  | [y :: x :: d] => if (y =? 1)%N && (x <? 257)%N then match f (y :: x :: d) with Some o => VMatch o | None => VDead end else VDead
  | [[y]] => if (y =? 1)%N then VCont else VDead
  | _ => VDead
  end.
Definition kids_one (s : tstate) : Prop := t_beg s = 1%N /\ t_end s = 2%N /\ t_kids s = [1].
Definition uni_spec : codec_spec (P:=P) := mkKs uni_sem no_state (fun pre s off lb p => lb = false /\ ((pre = [] /\ kids_one s) \/ (pre = [[1%N]] /\ kids_none s))).
Definition cont1 : tstate := mkTs CONTINUE [] 0 257 (repeat 2 257).

Theorem uni_ok to (c : ecodec) : e_tab P c = uni_table -> e_conv P c = Some (datum_cb f) -> data_ok to c uni_spec.
Proof.
  intros Ht Hc. constructor.
  - exists (mkTs DEADEND [] 1 2 [1]). rewrite Ht. split; [reflexivity|]. intros off p _. split; [reflexivity|]. left. split; [reflexivity|]. unfold kids_one. auto.
  - intros pre s off lb p x (H1 & [(H2 & H3)|(H2 & H3)]); (split; [exact H1|]); [left|right]; (split; [exact H2|exact H3]).
  - intros pre s off lb p d Hd (-> & [(-> & K1 & K2 & K3)|(-> & K)]); (destruct d as [|y d]; [contradiction|]).
    + cbn [app k_v uni_spec k_clean bl]. destruct (N.eqb_spec y 1) as [->|Hy].
      * assert (E : feed1 (e_tab P c) s off false 1 = Some (cont1, 1)) by (unfold feed1, get_offset; rewrite K1, K2, K3, Ht; reflexivity). rewrite E. cbn [cont1 t_status].
        destruct d as [|x d].
        -- cbn [bl t_status]. assert (E2 : forall l, feed1 (e_tab P c) cont1 1 l 256 = Some (sub1, 2)) by (intros l; rewrite Ht; apply feed1_all; [unfold kids_all; cbn; auto|lia|reflexivity]).
           destruct to; cbv zeta; rewrite E2; (split; [reflexivity|]); (split; [reflexivity|]); right; (split; [reflexivity|split; reflexivity]).
        -- cbn [bl]. destruct (N.ltb_spec x 257) as [Hx|Hx].
           ++ assert (E2 : feed1 (e_tab P c) cont1 1 false x = Some (sub1, 2)) by (rewrite Ht; apply feed1_all; [unfold kids_all; cbn; auto|exact Hx|reflexivity]). rewrite E2. cbn [sub1 t_status]. rewrite (bl_stay _ _ sub1) by (rewrite ?Ht; try reflexivity; split; reflexivity).
              assert (Ed : (match d with [] => sub1 | _ => sub1 end) = sub1) by (destruct d; reflexivity). change (mkTs SUBROUTINE [] 65535 0 []) with sub1. rewrite Ed. cbn [sub1 t_status]. exists (datum_cb f). split; [exact Hc|]. split; [exact I|]. unfold datum_cb. cbn [uni_sem]. replace (1 =? 1)%N with true by reflexivity. replace (x <? 257)%N with true by lia. cbn [andb]. destruct (f (1%N :: x :: d)); cbn; auto.
           ++ unfold feed1, get_offset. cbn [cont1 t_beg t_end]. replace ((0 <=? x)%N && (x <? 257)%N) with false by lia. rewrite Ht. cbn [read_state uni_table nth_error t_status]. split; [|exact I]. cbn [uni_sem]. replace (x <? 257)%N with false by lia. rewrite andb_false_r. reflexivity.
      * unfold feed1, get_offset. rewrite K1, K2. replace ((1 <=? y)%N && (y <? 2)%N) with false by lia. rewrite Ht. cbn [read_state uni_table nth_error t_status]. split; [|exact I]. cbn [uni_sem]. destruct (N.eqb_spec y 1); [contradiction|]. destruct d; reflexivity.
    + cbn [app k_v uni_spec k_clean bl]. unfold feed1. rewrite get_offset_none by apply K. rewrite Ht. cbn [read_state uni_table nth_error t_status]. split; [reflexivity|exact I].
Qed.
Lemma star_eof : eof_clean star_spec. Proof. intros pre s off lb p _ _. exact I. Qed.
Lemma uni_eof : eof_clean uni_spec. Proof. intros pre s off lb p _ _. exact I. Qed.
End Encoder.

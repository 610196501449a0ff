(** Decoders with a callback behind the fixed prefix "&#" (table [ent_table]) meet the engine's interface. *)
From Verif Require Import Base Types M_Engine M_Mktable M_Callback M_Escape S_Engine S_Dict P_Trans P_Engine1 P_Engine2 P_Engine5 P_Callback.
From Coq Require Import ZifyBool ZifyN ZifyNat.

Lemma ent_compiled : mktable [50; 54; 50; 51; 42; 9; 63; 10]%N = Some ent_table.
Proof. vm_compute. reflexivity. Qed.

Section Prefix.
Context {P W Q : Type}.
Notation ecodec := (ecodec P).
Variables (inj : W -> P) (prj : P -> option W).
Hypothesis prj_inj : forall q, prj (inj q) = Some q.
Variable wstep : W -> N -> W * option (status * list datum).
Variable winv : W -> Prop.
Variable abs : W -> Q.
Variable step : Q -> N -> Q * option (status * list datum).
Variable q0 : Q.
Variable inv : Q -> Prop.
Hypothesis inv0 : inv q0.
Hypothesis step_ok : forall q b, inv q -> let '(q', r) := step q b in
  match r with
  | None => inv q'
  | Some (NEXTPHASE, _) => q' = q0
  | Some (DEADEND, o) => q' = q0 /\ o = []
  | Some (CONTINUE, o) => inv q' /\ o = []
  | _ => False
  end.
Hypothesis sim : forall w b, winv w -> let '(w', r) := wstep w b in winv w' /\ step (abs w) b = (abs w', r).

(** The verdict: the two bytes of the prefix continue, behind them the decoder's own. *)
Definition pre_verdict (w : list N) : verdict :=
  match w with
  | a :: r =>
      if negb (a =? 0x26)%N then VDead else
      match r with
      | [] => VCont
      | b :: r' => if negb (b =? 0x23)%N then VDead else match r' with [] => VCont | _ => dec_sem step q0 [r'] end
      end
  | [] => VDead
  end.
Definition pre_sem : csem := fun pre => pre_verdict (concat pre).
Definition pre_St : StT := fun pre s off lb p =>
  exists w, p = inj w /\ winv w /\
   ((pre = [] /\ t_beg s = 0x26%N /\ t_end s = 0x27%N /\ t_kids s = [1] /\ lb = false /\ abs w = q0) \/
    (concat pre = [0x26%N] /\ t_beg s = 0x23%N /\ t_end s = 0x24%N /\ t_kids s = [2] /\ lb = false /\ abs w = q0) \/
    (concat pre = [0x26%N; 0x23%N] /\ kids_all 3 s /\ lb = false /\ abs w = q0) \/
    (exists V, concat pre = 0x26%N :: 0x23%N :: V /\ V <> [] /\ okhd V = true /\ after step q0 V = Some (abs w) /\ kids_none s /\ off = 3 /\ lb = true)).
Definition pre_spec : codec_spec (P:=P) := mkKs pre_sem (fun p => exists w, p = inj w /\ winv w /\ abs w = q0) pre_St.

Lemma pv_in V b : okhd (V ++ [b]) = true -> pre_verdict (0x26%N :: 0x23%N :: V ++ [b]) = match after step q0 V with Some q => judge step q b | None => VDead end.
Proof.
  intros H. assert (E : forall l, l <> [] -> pre_verdict (0x26%N :: 0x23%N :: l) = dec_sem step q0 [l]) by (intros [|x l] Hl; [contradiction|reflexivity]).
  rewrite E by (destruct V; discriminate). pose proof (dec_sem_snoc step q0 [V] b) as Hd. cbn [concat app] in Hd. rewrite app_nil_r in Hd. rewrite <- (Hd H).
  unfold dec_sem. cbn [concat app]. rewrite !app_nil_r. reflexivity.
Qed.
Lemma pre_conts : forall R pre V q qr, concat pre = 0x26%N :: 0x23%N :: V -> okhd (V ++ R) = true -> after step q0 V = Some q -> after step q R = Some qr -> conts pre_sem pre (byt R).
Proof.
  induction R as [|b R IH]; intros pre V q qr E H0 H1 H2; cbn; [constructor|]. cbn in H2.
  assert (H0' : okhd (V ++ [b]) = true) by (destruct V; exact H0).
  assert (E' : concat (pre ++ [[b]]) = 0x26%N :: 0x23%N :: V ++ [b]) by (rewrite concat_app, E; cbn [concat]; rewrite app_nil_r; reflexivity).
  constructor.
  - change (pre_verdict (concat (pre ++ [[b]])) = VCont). rewrite E', pv_in, H1 by exact H0'. unfold judge. destruct (step q b) as [q1 [[[] o]|]]; try discriminate; reflexivity.
  - assert (H3 : exists q1, after step q [b] = Some q1 /\ after step q1 R = Some qr) by (cbn; destruct (step q b) as [q1 [[[] o]|]]; try discriminate; eauto).
    destruct H3 as (q1 & H3 & H4). apply (IH _ (V ++ [b]) q1 qr E'); [| |exact H4].
    + rewrite <- app_assoc. exact H0.
    + rewrite after_app, H1. exact H3.
Qed.

Theorem prefix_ok (c : ecodec) : e_tab P c = ent_table -> e_conv P c = Some (loop_cb inj prj wstep) -> from_ok c pre_spec.
Proof.
  intros Ht Hc. constructor.
  - exists (mkTs DEADEND [] 0x26 0x27 [1]). rewrite Ht. split; [reflexivity|]. intros off p (w & -> & Hw & Ha). exists w. split; [reflexivity|]. split; [exact Hw|]. left. cbn. auto 10.
  - intros pre s off lb p d i b (w & -> & Hw & Hs) Hi. pose proof (skipn_nth _ _ _ Hi) as Hsk.
    assert (Hdead : concat pre = [] \/ concat pre = [0x26%N] \/ (exists V, concat pre = 0x26%N :: 0x23%N :: V) -> abs w = q0 -> pre_verdict (concat pre ++ [b]) = VDead -> feed1 (e_tab P c) s off lb b = Some (mkTs DEADEND [] 0x26 0x27 [1], 0) ->
       exists s' off' lb' p' i' out, fread c s off lb (inj w) d i b = Some (s', off', lb', p', i', out) /\
        exists R, conts (k_v pre_spec) pre R /\ match t_status s' with
          | DEADEND => out = [] /\ k_clean pre_spec p' /\ exists y R2, byt (skipn i d) = R ++ y :: R2 /\ k_v pre_spec (pre ++ R ++ [y]) = VDead
          | MATCH => k_clean pre_spec p' /\ S i' <= length d /\ exists y, byt (skipn i d) = R ++ y :: byt (skipn (S i') d) /\ k_v pre_spec (pre ++ R ++ [y]) = VMatch (out ++ t_data s')
          | NEXTPHASE => k_clean pre_spec p' /\ S i' <= length d /\ exists y, byt (skipn i d) = R ++ y :: byt (skipn (S i') d) /\ k_v pre_spec (pre ++ R ++ [y]) = VMatch out
          | SUBMATCH => R = [] /\ out = [] /\ i' = i /\ t_data s' <> [] /\ k_v pre_spec (pre ++ [[b]]) = VSub (t_data s') /\ k_St pre_spec (pre ++ [[b]]) s' off' lb' p'
          | CONTINUE => out = [] /\ R <> [] /\ i <= i' /\ byt (skipn i d) = R ++ byt (skipn (S i') d) /\ k_St pre_spec (pre ++ R) s' off' lb' p'
          | _ => False end).
    { intros _ Ha Hv Hf. unfold fread. rewrite Hf. cbn [t_status]. do 6 eexists. split; [reflexivity|]. cbn [t_status]. exists []. split; [constructor|]. split; [reflexivity|]. split; [exists w; auto|].
      exists [b], (byt (skipn (S i) d)). split; [rewrite Hsk; reflexivity|]. cbn [k_v pre_spec app]. unfold pre_sem. rewrite concat_app. cbn [concat]. rewrite app_nil_r. exact Hv. }
    assert (Hcont : forall s', feed1 (e_tab P c) s off lb b = Some (s', off) \/ True -> True) by auto. clear Hcont.
    destruct Hs as [(-> & K1 & K2 & K3 & -> & Ha)|[(Ec & K1 & K2 & K3 & -> & Ha)|Hs]].
    + destruct (N.eqb_spec b 0x26) as [->|Hb].
      * assert (Hf : feed1 (e_tab P c) s off false 0x26 = Some (mkTs CONTINUE [] 0x23 0x24 [2], 1)) by (unfold feed1, get_offset; rewrite K1, K2, K3, Ht; reflexivity).
        unfold fread. rewrite Hf. cbn [t_status]. do 6 eexists. split; [reflexivity|]. cbn [t_status]. exists [[0x26%N]]. split; [constructor; [reflexivity|constructor]|]. split; [reflexivity|]. split; [discriminate|]. split; [lia|]. split; [rewrite Hsk; reflexivity|].
        exists w. split; [reflexivity|]. split; [exact Hw|]. right. left. cbn. auto 10.
      * apply Hdead; auto.
        -- cbn [concat app pre_verdict]. destruct (N.eqb_spec b 0x26); [contradiction|reflexivity].
        -- unfold feed1, get_offset. rewrite K1, K2. replace ((0x26 <=? b)%N && (b <? 0x27)%N) with false by lia. rewrite Ht. reflexivity.
    + destruct (N.eqb_spec b 0x23) as [->|Hb].
      * assert (Hf : feed1 (e_tab P c) s off false 0x23 = Some (mkTs CONTINUE [] 0 257 (repeat 3 257), 2)) by (unfold feed1, get_offset; rewrite K1, K2, K3, Ht; reflexivity).
        assert (E' : concat (pre ++ [[0x23%N]]) = [0x26%N; 0x23%N]) by (rewrite concat_app, Ec; reflexivity).
        unfold fread. rewrite Hf. cbn [t_status]. do 6 eexists. split; [reflexivity|]. cbn [t_status]. exists [[0x23%N]]. split; [constructor; [change (pre_verdict (concat (pre ++ [[0x23%N]])) = VCont); rewrite E'; reflexivity|constructor]|]. split; [reflexivity|]. split; [discriminate|]. split; [lia|]. split; [rewrite Hsk; reflexivity|].
        exists w. split; [reflexivity|]. split; [exact Hw|]. right. right. left. split; [exact E'|]. unfold kids_all. cbn. auto 10.
      * apply Hdead; auto.
        -- rewrite Ec. cbn [app pre_verdict N.eqb Pos.eqb negb]. destruct (N.eqb_spec b 0x23); [contradiction|reflexivity].
        -- unfold feed1, get_offset. rewrite K1, K2. replace ((0x23 <=? b)%N && (b <? 0x24)%N) with false by lia. rewrite Ht. reflexivity.
    + (* behind the prefix *)
      assert (HV : exists V, concat pre = 0x26%N :: 0x23%N :: V /\ after step q0 V = Some (abs w) /\ (okhd (V ++ [b]) = true -> feed1 (e_tab P c) s off lb b = Some (sub1, 3)) /\
                 (okhd (V ++ [b]) = false -> V = [] /\ abs w = q0 /\ feed1 (e_tab P c) s off lb b = Some (mkTs DEADEND [] 0x26 0x27 [1], 0))).
      { destruct Hs as [(Ec & K & -> & Ha)|(V & Ec & Hne & Hh & Haf & K & -> & ->)].
        - exists []. split; [exact Ec|]. split; [cbn; rewrite Ha; reflexivity|]. split.
          + intros Hh. cbn in Hh. rewrite Ht. apply feed1_all; [exact K|lia|reflexivity].
          + intros Hh. cbn in Hh. split; [reflexivity|]. split; [exact Ha|]. destruct K as (K1 & K2 & K3). unfold feed1, get_offset. rewrite K1, K2. replace ((0 <=? b)%N && (b <? 257)%N) with false by lia. rewrite Ht. reflexivity.
        - exists V. split; [exact Ec|]. split; [exact Haf|]. split; [intros _; apply feed1_none; [exact K|rewrite Ht; reflexivity]|]. intros H. destruct V; [contradiction|]. cbn in *. congruence. }
      destruct HV as (V & Ec & Haf & Hf1 & Hf2). destruct (okhd (V ++ [b])) eqn:Hh.
      2:{ destruct (Hf2 eq_refl) as (-> & Ha & Hf). apply Hdead; eauto. rewrite Ec. cbn [app pre_verdict N.eqb Pos.eqb negb]. unfold dec_sem. cbn [concat]. rewrite app_nil_r. cbn in Hh. cbn [okhd app]. rewrite Hh. reflexivity. }
      specialize (Hf1 eq_refl). clear Hf2 Hdead Hs. unfold fread. rewrite Hf1. cbn [t_status sub1]. rewrite Hc. unfold loop_cb. rewrite prj_inj.
      set (q := abs w) in *. assert (Hq : inv q) by (eapply (after_inv step q0 inv step_ok); [exact inv0|exact Haf]).
      pose proof (loop_spec wstep winv abs step q0 inv step_ok sim (skipn i d) q i Hq) as HL. pose proof (loop_sim wstep winv abs step sim (skipn i d) w i Hw) as HS. destruct (byte_loop wstep w (skipn i d) i) as [[[w' i'] st] o]. destruct HS as (Hw' & HS). change (abs w) with q in HS. rewrite HS in HL. clear HS.
      do 6 eexists. split; [reflexivity|]. cbn [cb_status cb_priv cb_i cb_out with_status t_status].
      assert (HOK : forall R R2, skipn i d = R ++ R2 -> okhd (V ++ R) = true).
      { intros R R2 E. rewrite Hsk in E. destruct R as [|r R]; [rewrite app_nil_r; destruct V; [reflexivity|exact Hh]|]. injection E as <- _. destruct V; exact Hh. }
      assert (EA : forall R, concat (pre ++ byt R) = 0x26%N :: 0x23%N :: V ++ R) by (intros R; rewrite concat_app, concat_byt, Ec; reflexivity).
      assert (EB : forall R y, concat (pre ++ byt R ++ [[y]]) = 0x26%N :: 0x23%N :: (V ++ R) ++ [y]) by (intros R y; rewrite app_assoc, concat_app, EA; cbn [concat]; rewrite app_nil_r; reflexivity).
      destruct st; try contradiction.
      * destruct HL as (-> & R & H1 & H2 & H3 & H4). exists (byt R). split; [eapply pre_conts; [exact Ec|eapply HOK; exact H2|exact Haf|exact H1]|].
        assert (HR : R <> []) by (apply H4; rewrite Hsk; discriminate).
        split; [reflexivity|]. split; [destruct R; [contradiction|discriminate]|]. split; [exact H3|]. split.
        -- rewrite H2 at 1. rewrite byt_app. f_equal. f_equal. rewrite skipn_skipn. f_equal. lia.
        -- exists w'. split; [reflexivity|]. split; [exact Hw'|]. right. right. right. exists (V ++ R). split; [apply EA|]. split; [intros E0; apply app_eq_nil in E0 as (_ & E0); contradiction|]. split; [eapply HOK; exact H2|].
           split; [rewrite after_app, Haf; exact H1|]. split; [split; reflexivity|]. auto.
      * destruct HL as (-> & Hq0 & R & y & R2 & H1 & H2 & H3). destruct (after step q R) as [qr|] eqn:Er; [|contradiction]. exists (byt R). split; [eapply pre_conts; [exact Ec|eapply HOK; exact H1|exact Haf|exact Er]|].
        split; [reflexivity|]. split; [exists w'; auto|]. exists [y], (byt R2). split; [rewrite H1, byt_app; reflexivity|].
        cbn [k_v pre_spec]. change (pre_sem (pre ++ byt R ++ [[y]])) with (pre_verdict (concat (pre ++ byt R ++ [[y]]))). rewrite EB, pv_in; [rewrite after_app, Haf, Er; exact H3|]. rewrite <- app_assoc. apply (HOK _ R2). rewrite <- app_assoc. exact H1.
      * destruct HL as (Hq0 & R & y & -> & H2 & H3). destruct (after step q R) as [qr|] eqn:Er; [|contradiction]. exists (byt R). split; [eapply pre_conts; [exact Ec|eapply HOK; exact H2|exact Haf|exact Er]|].
        assert (HL : i + length R < length d). { assert (E : length (skipn i d) = length (R ++ y :: skipn (S (length R)) (skipn i d))) by (rewrite <- H2; reflexivity). rewrite app_length in E. cbn [length] in E. rewrite skipn_length in E. lia. }
        split; [exists w'; auto|]. split; [lia|]. exists [y]. split.
        -- rewrite H2 at 1. rewrite byt_app. f_equal. rewrite byt_cons. f_equal. rewrite skipn_skipn. f_equal. f_equal. lia.
        -- cbn [k_v pre_spec]. change (pre_sem (pre ++ byt R ++ [[y]])) with (pre_verdict (concat (pre ++ byt R ++ [[y]]))). rewrite EB, pv_in; [rewrite after_app, Haf, Er; exact H3|]. rewrite <- app_assoc. apply (HOK _ (skipn (S (length R)) (skipn i d))). rewrite <- app_assoc. exact H2.
Qed.
Lemma pre_no_sub : no_sub pre_sem.
Proof.
  intros w d. unfold pre_sem, pre_verdict. destruct (concat w) as [|a r]; [discriminate|]. destruct (negb _); [discriminate|]. destruct r as [|b r]; [discriminate|]. destruct (negb _); [discriminate|]. destruct r; [discriminate|]. apply dec_no_sub.
Qed.
(** A complete code behind the prefix. *)
Lemma pre_scan : forall R b q pre V qr o, concat pre = 0x26%N :: 0x23%N :: V -> okhd (V ++ R ++ [b]) = true -> after step q0 V = Some q -> after step q R = Some qr -> judge step qr b = VMatch o ->
  forall rest, scan pre_sem pre (byt (R ++ [b]) ++ rest) None = Some (length pre + length (R ++ [b]), o).
Proof.
  induction R as [|x R IH]; intros b q pre V qr o E H0 H1 H2 H3 rest; cbn [app].
  - rewrite byt_cons. cbn [app scan]. cbn in H2. injection H2 as <-. unfold pre_sem at 1. rewrite concat_app, E. cbn [concat]. rewrite app_nil_r. cbn [app]. rewrite pv_in, H1, H3 by exact H0. cbn [length app]. f_equal. f_equal. rewrite Nat.add_comm. reflexivity.
  - rewrite byt_cons. cbn [app scan]. unfold pre_sem at 1. rewrite concat_app, E. cbn [concat]. rewrite app_nil_r. cbn [app]. rewrite pv_in, H1 by (destruct V; exact H0).
    assert (H4 : exists q1, after step q [x] = Some q1 /\ after step q1 R = Some qr /\ judge step q x = VCont) by (cbn in *; unfold judge; destruct (step q x) as [q1 [[[] o1]|]]; try discriminate; eauto).
    destruct H4 as (q1 & H4 & H5 & ->). rewrite (IH b q1 _ (V ++ [x]) qr o); auto.
    + rewrite !app_length. cbn [length app]. f_equal. f_equal. rewrite <- Nat.add_assoc. f_equal. cbn. rewrite ?app_length. reflexivity.
    + rewrite concat_app, E. cbn [concat]. rewrite app_nil_r. reflexivity.
    + rewrite <- app_assoc. exact H0.
    + rewrite after_app, H1. exact H4.
Qed.
Lemma pre_first R b qr o rest : okhd (R ++ [b]) = true -> after step q0 R = Some qr -> judge step qr b = VMatch o ->
  scan pre_sem [] (byt ([0x26%N; 0x23%N] ++ R ++ [b]) ++ rest) None = Some (length ([0x26%N; 0x23%N] ++ R ++ [b]), o).
Proof.
  intros H1 H2 H3. rewrite byt_app, <- app_assoc. cbn [byt map]. cbn [app scan].
  change (pre_sem [[0x26%N]]) with VCont. cbv iota. change (pre_sem ([[0x26%N]] ++ [[0x23%N]])) with VCont. cbv iota. cbn [app].
  rewrite (pre_scan R b q0 [[0x26%N]; [0x23%N]] [] qr o); auto.
Qed.
End Prefix.

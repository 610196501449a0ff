(** Local progress of one phase: dead ends. *)
From Verif Require Import Base Types M_Engine S_Engine P_Trans P_Engine1.

Section E.
Context {P : Type}.
Notation ecodec := (ecodec P). Notation ephase := (ephase P). Notation inst := (inst P).

Arguments p_type {P}. Arguments p_codecs {P}. Arguments p_index {P}. Arguments p_curr {P}. Arguments p_i {P}.
Arguments p_bak {P}. Arguments p_headlen {P}. Arguments p_match_data {P}. Arguments p_state {P}. Arguments p_offset {P}.
Arguments p_fmatch {P}. Arguments p_fpending {P}. Arguments p_floop {P}. Arguments p_queue {P}. Arguments p_tail {P}.
Arguments e_tab {P}. Arguments e_conv {P}. Arguments e_flush {P}. Arguments e_init {P}. Arguments e_priv {P}.
Arguments cb_priv {P}. Arguments cb_i {P}. Arguments cb_status {P}. Arguments cb_out {P}.
Arguments local_step {P}. Arguments from_step {P}. Arguments data_step {P}. Arguments LRes {P}. Arguments LUB {P}.
Arguments set_priv {P}. Arguments this_codec {P}. Arguments reset {P}. Arguments listfree {P}. Arguments app_tail {P}.
Arguments feed {P}. Arguments bytes_loop {P}. Arguments codecn {P}. Arguments is_to {P}.
Arguments k_v {P}. Arguments k_clean {P}. Arguments k_St {P}.

Arguments read_state : simpl never. Arguments Nat.ltb : simpl never. Arguments Nat.sub : simpl never.
Lemma byt_app a b : byt (a ++ b) = byt a ++ byt b.
Proof. apply map_app. Qed.
Lemma byt_skipn n a : skipn n (byt a) = byt (skipn n a).
Proof. unfold byt. symmetry. revert n. induction a as [|x a IH]; intros [|n]; cbn; auto. Qed.
Lemma byt_nil a : byt a = [] -> a = [].
Proof. destruct a; [reflexivity|discriminate]. Qed.
Lemma byt_length a : length (byt a) = length a.
Proof. apply map_length. Qed.

Lemma skipn_skipn {A} : forall a b (l : list A), skipn a (skipn b l) = skipn (b + a) l.
Proof. intros a b. induction b as [|b IH]; intros l; [reflexivity|]. destruct l; cbn; [apply skipn_nil|apply IH]. Qed.
Lemma skipn_nth {A} : forall n (l : list A) x, nth_error l n = Some x -> skipn n l = x :: skipn (S n) l.
Proof. induction n as [|n IH]; intros [|y l] x H; cbn in *; try discriminate; [injection H as ->; reflexivity|apply IH; exact H]. Qed.

Lemma app_tail_queue (t : ephase) ds : p_tail t = length (p_queue t) ->
  p_queue (app_tail t ds) = p_queue t ++ ds /\ p_tail (app_tail t ds) = length (p_queue t ++ ds).
Proof.
  intros H. unfold app_tail. destruct ds as [|d ds]; cbn.
  - rewrite app_nil_r. auto.
  - rewrite H, firstn_all. split; [reflexivity|]. rewrite app_length. cbn. lia.
Qed.

Lemma lsteps_app pv th pc pv1 th1 a b pc1 pv' th' a' b' g :
  lsteps pv th pc pv1 th1 a b (Stay pc1) -> lsteps (P:=P) pv1 th1 pc1 pv' th' a' b' g ->
  lsteps pv th pc pv' th' (a + a') (b + b') g.
Proof.
  remember (Stay pc1) as g0. induction 1 as [? ? ? ? ? ? ? ? H|? ? ? ? ? ? ? ? ? ? ? ? ? H H2 IH]; intros HH.
  - subst. eapply ls_more; eassumption.
  - rewrite <- !Nat.add_assoc. eapply ls_more; [exact H|]. apply IH; assumption.
Qed.

(** the hypothesis under which a decoding error is handled as specified *)
Definition err_ok (fin : bool) (pv th : ephase) (ks : list codec_spec) (B : list datum) : Prop :=
  p_type th = FROM -> length (p_queue pv) <= 1 \/ exists Y, alw fin Y /\ snd (trans KFrom (sems (P:=P) ks) (B ++ Y)) = 0.

(** [E]: errors are only to be detected. *)
Definition err_okE (E : bool) (fin : bool) (pv th : ephase) (ks : list codec_spec) (B : list datum) : Prop := E = true \/ err_ok fin pv th ks B.
Definition fails (pv th : ephase) (pc : lpc) : Prop := exists pv' th' ie oe g, lsteps (P:=P) pv th pc pv' th' ie oe g /\ 1 <= ie.

(** State at a dead end. *)
Record dinv (fin : bool) (pv th : ephase) (ks : list codec_spec) (B : list datum) : Prop := {
  di_tail : p_tail pv = length (p_queue pv);
  di_codecs : Forall2 (codec_ok (p_type th)) (p_codecs th) ks;
  di_clean : forall j c k, nth_error (p_codecs th) j = Some c -> nth_error ks j = Some k -> k_clean k (e_priv c);
  di_scan : exists k best, nth_error ks (p_index th) = Some k /\
      (forall Y, alw fin Y -> scan (k_v k) [] (B ++ Y) None = best) /\
      (p_type th = TO -> best = None -> forall Y, alw fin Y -> examined (k_v k) [] (B ++ Y) = length (filter nonempty (firstn (p_curr th) (p_queue pv)))) /\
      match best with
      | None => p_fmatch th = false
      | Some (nb, d) => p_fmatch th = true /\ p_match_data th = d /\ d <> [] /\ 1 <= nb <= length B
      end /\
      match best, p_type th with
      | None, _ => True
      | Some (nb, _), FROM => exists m n dm, p_bak th = S m /\ p_curr th = S n /\ m <= n /\ nth_error (p_queue pv) m = Some dm /\
          p_headlen th <= length dm /\ skipn nb B = byt (skipn (p_headlen th) dm ++ concat (skipn (S m) (p_queue pv)))
      | Some (nb, _), _ => exists m, p_bak th = S m /\ m < length (p_queue pv) /\
          nb = length (filter nonempty (firstn m (p_queue pv))) /\ filter nonempty (firstn m (p_queue pv)) = firstn nb B
      end;
  di_prev : forall j k, j < p_index th -> nth_error ks j = Some k -> forall Y, alw fin Y -> scan (k_v k) [] (B ++ Y) None = None;
  di_B : B <> [];
  di_pos : match p_type th with
    | FROM =>
        p_headlen pv = 0 /\
        (p_fmatch th = false -> B = byt (skipn (p_headlen th) (concat (p_queue pv))) /\ p_headlen th <= length (hd [] (p_queue pv))) /\
        exists n d, p_curr th = S n /\ nth_error (p_queue pv) n = Some d
    | _ => p_curr th <= length (p_queue pv) /\ B = filter nonempty (p_queue pv) /\ filter nonempty (firstn (p_curr th) (p_queue pv)) <> []
    end
}.

Lemma pinv_start fin mid (pv th : ephase) ks B c k :
  p_tail pv = length (p_queue pv) ->
  Forall2 (codec_ok (p_type th)) (p_codecs th) ks ->
  (forall j c k, nth_error (p_codecs th) j = Some c -> nth_error ks j = Some k -> k_clean k (e_priv c)) ->
  nth_error (p_codecs th) (p_index th) = Some c -> nth_error ks (p_index th) = Some k ->
  read_state (e_tab c) 0 = Some (p_state th) -> p_floop th = false -> p_fmatch th = false -> p_fpending th = false -> p_curr th = 0 ->
  (forall j k, j < p_index th -> nth_error ks j = Some k -> forall Y, alw fin Y -> scan (k_v k) [] (B ++ Y) None = None) ->
  (p_index th = 0 \/ B <> []) ->
  match p_type th with
  | FROM => p_headlen pv = 0 /\ B = byt (skipn (p_headlen th) (concat (p_queue pv))) /\ p_headlen th <= length (hd [] (p_queue pv))
  | _ => B = filter nonempty (p_queue pv)
  end ->
  pinv fin mid pv th ks B [].
Proof.
  intros Ht Hc Hcl Ec Ek Hr Hl Hm Hp Hcu Hprev H0 Hpos.
  constructor; auto.
  - intros j c' k' _ E1 E2. eapply Hcl; eassumption.
  - exists c, k, None. repeat split; auto; [|constructor].
    assert (Hok : codec_ok (p_type th) c k).
    { clear -Hc Ec Ek. revert Ec Ek. generalize (p_index th). induction Hc; intros [|n] E1 E2; cbn in *; try discriminate.
      - congruence.
      - eapply IHHc; eassumption. }
    destruct (codec_ok_root _ _ _ Hok) as (s0 & Hs0 & H). rewrite Hr in Hs0. injection Hs0 as <-. rewrite Hl.
    apply H. eapply Hcl; eassumption.
  - destruct (p_type th); rewrite Hcu; cbn [firstn]; repeat split; auto; try lia; try (apply Hpos); intros _; apply Hpos.
Qed.

Lemma Forall2_nth {A B} (R : A -> B -> Prop) l1 l2 n a b :
  Forall2 R l1 l2 -> nth_error l1 n = Some a -> nth_error l2 n = Some b -> R a b.
Proof.
  intros H. revert n. induction H; intros [|n] E1 E2; cbn in *; try discriminate.
  - congruence.
  - eapply IHForall2; eassumption.
Qed.
Lemma Forall2_len {A B} (R : A -> B -> Prop) l1 l2 : Forall2 R l1 l2 -> length l1 = length l2.
Proof. induction 1; cbn; congruence. Qed.
Lemma Forall2_get {A B} (R : A -> B -> Prop) l1 l2 n b : Forall2 R l1 l2 -> nth_error l2 n = Some b -> exists a, nth_error l1 n = Some a /\ R a b.
Proof.
  intros H. revert n. induction H; intros [|n] E; cbn in *; try discriminate.
  - injection E as <-. eauto.
  - eauto.
Qed.

Lemma lex_irr_eq (a a' b b' c c' : nat) : 
  a' < a \/ (a' = a /\ (b' < b \/ (b' = b /\ c' < c))) -> lex [a'; b'; c'] [a; b; c].
Proof.
  intros [H|[-> [H|[-> H]]]]; repeat (first [apply lex_here; [assumption|reflexivity] | apply lex_next]).
Qed.

Lemma filter_firstn_skipn {A} (f : A -> bool) n l : filter f l = filter f (firstn n l) ++ filter f (skipn n l).
Proof. rewrite <- filter_app, firstn_skipn. reflexivity. Qed.

Lemma sems_nth (ks : list (codec_spec (P:=P))) j w : nth_error (sems ks) j = Some w -> exists k, nth_error ks j = Some k /\ w = k_v k.
Proof.
  unfold sems. revert j. induction ks as [|k ks IH]; intros [|j] H; cbn in *; try discriminate.
  - injection H as <-. eauto.
  - eauto.
Qed.
Lemma sems_nth' (ks : list (codec_spec (P:=P))) j k : nth_error ks j = Some k -> nth_error (sems ks) j = Some (k_v k).
Proof. intros H. unfold sems. exact (map_nth_error k_v j ks H). Qed.

Lemma last_nth {A} (l : list A) d x : nth_error l (length l - 1) = Some x -> last l d = x.
Proof.
  induction l as [|a l IH]; intros H; [discriminate|]. destruct l as [|b l]; [cbn in *; rewrite Nat.sub_diag in H; cbn in H; congruence|].
  cbn [last]. apply IH. cbn [length] in *. replace (S (S (length l)) - 1) with (S (length l)) in H by lia. cbn in H.
  replace (S (length l) - 1) with (length l) by lia. exact H.
Qed.

Lemma dead_first fin (pv th : ephase) ks B k best : dinv fin pv th ks B -> nth_error ks (p_index th) = Some k ->
  (forall Y, alw fin Y -> scan (k_v k) [] (B ++ Y) None = best) ->
  forall Y, alw fin Y ->
  match best with
  | Some r => first_match (sems ks) (B ++ Y) = Some r
  | None => p_index th = length ks - 1 -> first_match (sems ks) (B ++ Y) = None
  end.
Proof.
  intros [] Hk Hs Y HY. 
  assert (Hp : forall j w, j < p_index th -> nth_error (sems ks) j = Some w -> scan w [] (B ++ Y) None = None).
  { intros j w Hj Hw. apply sems_nth in Hw. destruct Hw as (kk & Hkk & ->). eapply di_prev0; eassumption. }
  destruct best as [r|].
  - eapply first_match_hit; [exact Hp|apply sems_nth'; exact Hk|apply Hs; exact HY].
  - intros Hi. apply first_match_none. intros j w Hw.
    assert (Hj : j < length ks). { assert (HH : nth_error (sems ks) j <> None) by congruence. apply nth_error_Some in HH. unfold sems in HH. rewrite map_length in HH. exact HH. }
    destruct (Nat.eq_dec j (p_index th)) as [->|Hne]; [|apply Hp with j; [lia|exact Hw]].
    apply sems_nth in Hw. destruct Hw as (kk & Hkk & ->). rewrite Hk in Hkk. injection Hkk as <-. apply Hs; exact HY.
Qed.

Lemma reset_ok (th : ephase) c k ks : Forall2 (codec_ok (p_type th)) (p_codecs th) (k :: ks) -> nth_error (p_codecs th) 0 = Some c ->
  exists s, read_state (e_tab c) 0 = Some s /\ reset th = Some (set_state P (set_offset P (set_index P th 0) 0) s).
Proof.
  intros H E. unfold reset. destruct (p_codecs th) as [|c' cs]; [discriminate|]. cbn in E. injection E as ->.
  inversion H; subst. destruct (codec_ok_root _ _ _ H3) as (s0 & Hs & _). exists s0. rewrite Hs. auto.
Qed.

Lemma trans_hit k cs B Y n d : first_match cs (B ++ Y) = Some (n, d) -> n <= length B ->
  trans k cs (B ++ Y) = (d ++ fst (trans k cs (skipn n B ++ Y)), 0 + snd (trans k cs (skipn n B ++ Y))).
Proof.
  intros H Hn. rewrite (trans_match _ _ _ _ _ H). rewrite skipn_app. replace (n - length B) with 0 by lia. cbn [skipn].
  destruct (trans k cs (skipn n B ++ Y)). reflexivity.
Qed.

(** A dead end of the last codec is counted. *)
Lemma from_fail (pv th : ephase) c0 cs' s0 n : p_type th = FROM -> p_fmatch th = false -> codecn th <= p_index th -> p_curr th = S n ->
  p_codecs th = c0 :: cs' -> read_state (e_tab c0) 0 = Some s0 -> fails pv th LDead.
Proof.
  intros Hty Hb Hge Hcur Ecs Hs0. destruct th; cbn in *; subst. do 5 eexists. split; [apply ls_one|].
  { unfold local_step, from_step, from_dead, codecn, this_codec, reset in *. cbn in *.
    rewrite (proj2 (Nat.ltb_ge _ _) Hge). cbn. rewrite Hs0. cbn. reflexivity. }
  lia.
Qed.

Lemma from_dead_progressE E fin (pv th : ephase) ks B : p_type th = FROM -> p_tail th = length (p_queue th) ->
  dinv fin pv th ks B -> err_okE E fin pv th ks B -> achieves3 fin pv th ks B LDead \/ (E = true /\ fails pv th LDead).
Proof.
  intros Hty Htl HD Herr.
  pose proof HD as HD0. destruct HD as [Dt Dc Dcl (k & best & Hk & Hs & _ & Hb & Hbp) Dp DB Dpos].
  rewrite Hty in Dpos, Hbp. destruct Dpos as (Hhl & HposB & n & dcur & Hcur & Hdcur).
  destruct (Forall2_get _ _ _ _ _ Dc Hk) as (c & Hc & Hok).
  destruct ks as [|k0 ks']; [destruct (p_index th); discriminate|].
  destruct (p_codecs th) as [|c0 cs'] eqn:Ecs; [inversion Dc|].
  assert (Hok0 : codec_ok FROM c0 k0) by (rewrite <- Hty; inversion Dc; assumption).
  destruct (codec_ok_root _ _ _ Hok0) as (s0 & Hs0 & Hroot0).
  assert (HY0 : alw fin []) by (intros _; reflexivity).
  destruct best as [[nb d]|].
  - (* recorded match *)
    destruct Hb as (Hfm & Hmd & Hdn & Hnb). destruct Hbp as (m & n' & dm & Hbak & Hcur' & Hmn & Hdm & Hhlm & HB').
    set (pv' := set_queue P pv (skipn m (p_queue pv)) (p_tail pv - m)).
    set (tha := app_tail (set_flags P th true false false) d).
    set (th' := set_state P (set_offset P (set_index P (set_flags P (set_i P (set_curr P (set_bak P tha 0) 0) (p_headlen th)) false false false) 0) 0) s0).
    assert (Htha : p_queue tha = p_queue th ++ d /\ p_tail tha = length (p_queue th ++ d)).
    { unfold tha. apply (app_tail_queue (set_flags P th true false false) d). exact Htl. }
    assert (Hst : p_type tha = p_type th /\ p_headlen tha = p_headlen th /\ p_codecs tha = p_codecs th).
    { unfold tha, app_tail. destruct d; cbn; auto. }
    destruct Hst as (E1 & E2 & E3).
    assert (Hstep : local_step pv th LDead = LRes pv' th' 0 0 GBegin).
    { clear -Hty Hfm Hmd Hdn Hbak Ecs Hs0. unfold th', tha, pv'. destruct th; cbn in *; subst. unfold local_step, from_step, from_dead, reset. cbn.
      destruct d as [|d1 d2]; [congruence|]. cbn. rewrite Hs0. reflexivity. }
    left. exists pv', th', 0, 0, GBegin. split; [apply ls_one; exact Hstep|].
    split; [reflexivity|]. split; [unfold same_static; cbn; rewrite E1, E3, E2; auto|].
    exists d, d, 0, (skipn nb B), [], false.
    split; [exact (proj1 Htha)|]. split; [reflexivity|]. split; [cbn; rewrite (proj2 Htha), (proj1 Htha); reflexivity|].
    split; [|split; [|split; [|split; [|split; [|reflexivity]]]]].
    + apply (pinv_start fin false pv' th' _ _ c0 k0); cbn; rewrite ?E1, ?E3, ?Ecs; auto; try (exact Hs0).
      * rewrite skipn_length. lia.
      * intros. lia.
      * rewrite Hty. split; [exact Hhl|]. rewrite E2. rewrite (skipn_nth _ _ _ Hdm). cbn [concat hd].
        split; [|exact Hhlm]. rewrite skipn_app. replace (p_headlen th - length dm) with 0 by lia. exact HB'.
    + intros Y HY. rewrite Hty. apply trans_hit; [|exact (proj2 Hnb)].
      exact (dead_first fin pv th _ B k _ HD0 Hk Hs Y HY).
    + rewrite Hty. reflexivity.
    + apply lex_irr_eq. left. rewrite skipn_length. lia.
    + intros _. cbn. rewrite skipn_length. lia.
  - destruct (Nat.ltb_spec (p_index th) (codecn th)) as [Hlt|Hge].
    + (* next codec *)
      unfold codecn in Hlt. rewrite Ecs in Hlt.
      pose proof (Forall2_len _ _ _ Dc) as Hlen.
      destruct (nth_error (c0 :: cs') (S (p_index th))) as [c1|] eqn:Ec1.
      2:{ apply nth_error_None in Ec1. lia. }
      destruct (nth_error (k0 :: ks') (S (p_index th))) as [k1|] eqn:Ek1.
      2:{ apply nth_error_None in Ek1. cbn [length] in *. lia. }
      pose proof (Forall2_nth _ _ _ _ _ _ Dc Ec1 Ek1) as Hok1. destruct (codec_ok_root _ _ _ Hok1) as (s1 & Hs1 & _).
      set (th' := set_i P (set_curr P (set_state P (set_index P (set_flags P th false false false) (S (p_index th))) s1) 0) (p_headlen th)).
      assert (Hstep : local_step pv th LDead = LRes pv th' 0 0 (Stay LInner)).
      { clear -Hty Hb Ecs Hs1 Hlt Ec1. unfold th'. destruct th; cbn in *; subst. unfold local_step, from_step, from_dead, codecn, this_codec. cbn in *.
        rewrite (proj2 (Nat.ltb_lt _ _) Hlt). cbn. rewrite Ec1. cbn. rewrite Hs1. reflexivity. }
      left. exists pv, th', 0, 0, (Stay LInner). split; [apply ls_one; exact Hstep|].
      split; [destruct pv; reflexivity|]. split; [unfold same_static; cbn; auto|].
      exists [], [], 0, B, [], true.
      split; [cbn; rewrite app_nil_r; reflexivity|]. split; [reflexivity|]. split; [exact Htl|].
      split; [|split; [|split; [|split; [|split; [|exact Hty]]]]].
      * apply (pinv_start fin true pv th' _ _ c1 k1); cbn; rewrite ?Ecs; auto.
        -- intros j kk Hj Hkk Y HY. destruct (Nat.eq_dec j (p_index th)) as [->|].
           ++ assert (kk = k) by congruence. subst kk. exact (Hs Y HY).
           ++ apply Dp with j; [lia|exact Hkk|exact HY].
        -- rewrite Hty. destruct (HposB Hb). auto.
      * intros Y HY. cbn. destruct (trans _ _ _). reflexivity.
      * rewrite Hty. reflexivity.
      * apply lex_irr_eq. right. split; [reflexivity|]. cbn. rewrite Hb. right. split; [reflexivity|]. rewrite Ecs. cbn [length] in *. lia.
      * auto.
    + (* error *)
      pose proof (Forall2_len _ _ _ Dc) as Hlen.
      assert (Hfirst : forall Y, alw fin Y -> first_match (sems (k0 :: ks')) (B ++ Y) = None).
      { intros Y HY. apply (dead_first fin pv th _ B k None HD0 Hk Hs Y HY).
        assert (Hl : p_index th < length (k0 :: ks')) by (apply nth_error_Some; congruence). unfold codecn in Hge. rewrite Ecs in Hge. lia. }
      destruct (HposB Hb) as (HB & Hhdl).
      destruct B as [|x B1]; [congruence|].
      destruct Herr as [HE|Herr]; [right; split; [exact HE|]; rewrite <- Ecs in *; eapply from_fail; eassumption|].
      destruct (Herr Hty) as [HQ|(Y & HY & HYz)].
      2:{ exfalso. cbn [app] in HYz. rewrite trans_fail_from in HYz; [|exact (Hfirst Y HY)].
          destruct (trans KFrom _ (B1 ++ Y)). cbn in HYz. lia. }
      assert (Hn0 : n = 0). { assert (n < length (p_queue pv)) by (apply nth_error_Some; congruence). lia. } subst n.
      destruct (p_queue pv) as [|q0 q'] eqn:EQ; [discriminate|]. cbn in Hdcur. injection Hdcur as ->. destruct q'; [|cbn in HQ; lia].
      cbn [concat hd] in HB, Hhdl. rewrite app_nil_r in HB.
      assert (Hhl2 : S (p_headlen th) <= length dcur /\ x = [nth (p_headlen th) dcur 0%N] /\ B1 = byt (skipn (S (p_headlen th)) dcur)).
      { destruct (nth_error dcur (p_headlen th)) as [b|] eqn:Eb.
        - rewrite (skipn_nth _ _ _ Eb) in HB. cbn [byt map] in HB. injection HB as -> ->.
          assert (p_headlen th < length dcur) by (apply nth_error_Some; congruence). 
          rewrite (nth_error_nth _ _ _ Eb). auto.
        - exfalso. apply nth_error_None in Eb. rewrite skipn_all2 in HB by lia. discriminate. }
      destruct Hhl2 as (Hhl2 & _ & HB1).
      set (pv' := set_queue P pv [dcur] (p_tail pv - 0)).
      set (tha := set_state P (set_offset P (set_index P (set_flags P th false false false) 0) 0) s0).
      set (th' := set_i P (set_headlen P (set_curr P (set_bak P tha 0) 0) (S (p_headlen th))) (S (p_headlen th))).
      assert (Hstep : local_step pv th LDead = LRes pv' th' 1 0 (Stay LInner)).
      { clear -Hty Hb Ecs Hs0 Hge Hcur EQ. unfold th', tha, pv'. destruct th; cbn in *; subst. unfold local_step, from_step, from_dead, codecn, this_codec, reset in *. cbn in *.
        rewrite (proj2 (Nat.ltb_ge _ _) Hge). cbn. rewrite Hs0. cbn. rewrite EQ. reflexivity. }
      left. exists pv', th', 1, 0, (Stay LInner). split; [apply ls_one; exact Hstep|].
      split; [reflexivity|]. split; [unfold same_static; cbn; split; [auto|split; [congruence|auto]]|].
      exists [], [], 1, B1, [], true.
      split; [cbn; rewrite app_nil_r; reflexivity|]. split; [reflexivity|]. split; [exact Htl|].
      split; [|split; [|split; [|split; [|split; [|exact Hty]]]]].
      * apply (pinv_start fin true pv' th' _ _ c0 k0); cbn; rewrite ?Ecs; auto.
        -- rewrite Dt. reflexivity.
        -- intros. lia.
        -- rewrite Hty, app_nil_r. repeat split; auto.
      * intros Y HY. rewrite Hty. cbn [app kind_of]. rewrite trans_fail_from; [|exact (Hfirst Y HY)].
        destruct (trans KFrom _ (B1 ++ Y)). reflexivity.
      * rewrite Hty. reflexivity.
      * apply lex_irr_eq. left. cbn. lia.
      * cbn. rewrite EQ. auto.
Qed.

Lemma firstn_filter_len {A} (f : A -> bool) m l : firstn (length (filter f (firstn m l))) (filter f l) = filter f (firstn m l).
Proof. rewrite (filter_firstn_skipn f m l). rewrite firstn_app, Nat.sub_diag. cbn [firstn]. rewrite firstn_all, app_nil_r. reflexivity. Qed.
Lemma skipn_filter_len {A} (f : A -> bool) m l : skipn (length (filter f (firstn m l))) (filter f l) = filter f (skipn m l).
Proof. rewrite (filter_firstn_skipn f m l). rewrite skipn_app, Nat.sub_diag. cbn [skipn]. rewrite skipn_all. reflexivity. Qed.
Lemma filter_len_firstn_le {A} (f : A -> bool) m l : length (filter f (firstn m l)) <= length (filter f l).
Proof. rewrite (filter_firstn_skipn f m l), app_length. lia. Qed.

Lemma data_dead_progress fin (pv th : ephase) ks B : p_type th = INTER \/ p_type th = TO -> p_tail th = length (p_queue th) ->
  dinv fin pv th ks B -> achieves3 fin pv th ks B LDead.
Proof.
  intros Hty Htl HD.
  pose proof HD as HD0. destruct HD as [Dt Dc Dcl (k & best & Hk & Hs & Hex & Hb & Hbp) Dp DB Dpos].
  assert (Dpos' : p_curr th <= length (p_queue pv) /\ B = filter nonempty (p_queue pv) /\ filter nonempty (firstn (p_curr th) (p_queue pv)) <> []).
  { destruct Hty as [E|E]; rewrite E in Dpos; exact Dpos. } clear Dpos.
  assert (Hpos3 : forall (X : Prop) Y, match p_type th with FROM => Y | _ => X end = X) by (intros; destruct Hty as [E|E]; rewrite E; reflexivity).
  destruct Dpos' as (Hcur & HB & Hne).
  destruct (Forall2_get _ _ _ _ _ Dc Hk) as (c & Hc & Hok).
  destruct ks as [|k0 ks']; [destruct (p_index th); discriminate|].
  destruct (p_codecs th) as [|c0 cs'] eqn:Ecs; [inversion Dc|].
  assert (Hok0 : codec_ok (p_type th) c0 k0) by (inversion Dc; assumption).
  destruct (codec_ok_root _ _ _ Hok0) as (s0 & Hs0 & Hroot0).
  assert (HlsD : forall pv th, p_type th = INTER \/ p_type th = TO -> local_step pv th LDead = data_dead P pv th).
  { clear. intros pv th [E|E]; unfold local_step; rewrite E; reflexivity. }
  assert (HnF : p_type th <> FROM) by (destruct Hty as [E|E]; rewrite E; discriminate).
  destruct best as [[nb d]|].
  - (* recorded match *)
    destruct Hb as (Hfm & Hmd & Hdn & Hnb).
    assert (Hbp' : exists m, p_bak th = S m /\ m < length (p_queue pv) /\
          nb = length (filter nonempty (firstn m (p_queue pv))) /\ filter nonempty (firstn m (p_queue pv)) = firstn nb B)
     by (destruct Hty as [E|E]; rewrite E in Hbp; exact Hbp). clear Hbp.
    destruct Hbp' as (m & Hbak & Hmlt & Hnbm & HB').
    set (pv' := set_queue P pv (skipn m (p_queue pv)) (p_tail pv - m)).
    set (tha := app_tail (set_flags P th true false false) d).
    set (th' := set_state P (set_offset P (set_index P (set_flags P (set_curr P (set_bak P tha 0) 0) false false false) 0) 0) s0).
    assert (Htha : p_queue tha = p_queue th ++ d /\ p_tail tha = length (p_queue th ++ d)).
    { unfold tha. apply (app_tail_queue (set_flags P th true false false) d). exact Htl. }
    assert (Hst : p_type tha = p_type th /\ p_headlen tha = p_headlen th /\ p_codecs tha = p_codecs th).
    { unfold tha, app_tail. destruct d; cbn; auto. }
    destruct Hst as (E1 & E2 & E3).
    assert (Hstep : local_step pv th LDead = LRes pv' th' 0 0 (if is_to th then GNext else GBegin)).
    { rewrite HlsD by assumption. clear -Hfm Hmd Hdn Hbak Ecs Hs0. unfold th', tha, pv'. destruct th; cbn in *; subst. unfold data_dead, reset, is_to. cbn.
      destruct d as [|d1 d2]; [congruence|]. cbn. rewrite Hs0. reflexivity. }
    exists pv', th', 0, 0, (if is_to th then GNext else GBegin). split; [apply ls_one; exact Hstep|].
    split; [reflexivity|]. split; [unfold same_static; cbn; rewrite E1, E3, E2; auto|].
    exists d, d, 0, (skipn nb B), [], false.
    split; [exact (proj1 Htha)|]. split; [reflexivity|]. split; [cbn; rewrite (proj2 Htha), (proj1 Htha); reflexivity|].
    split; [|split; [|split; [|split; [|split; [|destruct (is_to th); reflexivity]]]]].
    + apply (pinv_start fin false pv' th' _ _ c0 k0); cbn; rewrite ?E1, ?E3, ?Ecs; auto; try (exact Hs0).
      * rewrite skipn_length. lia.
      * intros. lia.
      * rewrite Hpos3. rewrite Hnbm, HB. apply skipn_filter_len.
    + intros Y HY. apply trans_hit; [|exact (proj2 Hnb)].
      exact (dead_first fin pv th _ B k _ HD0 Hk Hs Y HY).
    + destruct Hty as [E|E]; rewrite E; reflexivity.
    + apply lex_irr_eq. left. rewrite skipn_length. lia.
    + intros E. congruence.
  - destruct (Nat.ltb_spec (p_index th) (codecn th)) as [Hlt|Hge].
    + (* next codec *)
      unfold codecn in Hlt. rewrite Ecs in Hlt.
      pose proof (Forall2_len _ _ _ Dc) as Hlen.
      destruct (nth_error (c0 :: cs') (S (p_index th))) as [c1|] eqn:Ec1.
      2:{ apply nth_error_None in Ec1. lia. }
      destruct (nth_error (k0 :: ks') (S (p_index th))) as [k1|] eqn:Ek1.
      2:{ apply nth_error_None in Ek1. cbn [length] in *. lia. }
      pose proof (Forall2_nth _ _ _ _ _ _ Dc Ec1 Ek1) as Hok1. destruct (codec_ok_root _ _ _ Hok1) as (s1 & Hs1 & _).
      set (th' := set_curr P (set_state P (set_index P (set_flags P th false false false) (S (p_index th))) s1) 0).
      assert (Hstep : local_step pv th LDead = LRes pv th' 0 0 (Stay LOuter)).
      { rewrite HlsD by assumption. clear -Hb Ecs Hs1 Hlt Ec1. unfold th'. destruct th; cbn in *; subst. unfold data_dead, codecn, this_codec. cbn in *.
        rewrite (proj2 (Nat.ltb_lt _ _) Hlt). cbn. rewrite Ec1. cbn. rewrite Hs1. reflexivity. }
      exists pv, th', 0, 0, (Stay LOuter). split; [apply ls_one; exact Hstep|].
      split; [destruct pv; reflexivity|]. split; [unfold same_static; cbn; auto|].
      exists [], [], 0, B, [], false.
      split; [cbn; rewrite app_nil_r; reflexivity|]. split; [reflexivity|]. split; [exact Htl|].
      split; [|split; [|split; [|split; [|split; [|reflexivity]]]]].
      * apply (pinv_start fin false pv th' _ _ c1 k1); cbn; rewrite ?Ecs; auto.
        -- intros j kk Hj Hkk Y HY. destruct (Nat.eq_dec j (p_index th)) as [->|].
           ++ assert (kk = k) by congruence. subst kk. exact (Hs Y HY).
           ++ apply Dp with j; [lia|exact Hkk|exact HY].
        -- rewrite Hpos3. exact HB.
      * intros Y HY. cbn. destruct (trans _ _ _). reflexivity.
      * destruct Hty as [E|E]; rewrite E; reflexivity.
      * apply lex_irr_eq. right. split; [reflexivity|]. cbn. rewrite Hb. right. split; [reflexivity|]. rewrite Ecs. cbn [length] in *. lia.
      * auto.
    + (* no codec matches *)
      pose proof (Forall2_len _ _ _ Dc) as Hlen.
      assert (Hidx : p_index th = length (k0 :: ks') - 1).
      { assert (Hl : p_index th < length (k0 :: ks')) by (apply nth_error_Some; congruence). unfold codecn in Hge. rewrite Ecs in Hge. lia. }
      assert (Hfirst : forall Y, alw fin Y -> first_match (sems (k0 :: ks')) (B ++ Y) = None).
      { intros Y HY. apply (dead_first fin pv th _ B k None HD0 Hk Hs Y HY). exact Hidx. }
      unfold codecn in Hge. rewrite Ecs in Hge.
      destruct Hty as [Hty|Hty].
      * (* INTER: the first datum moves on *)
        destruct (p_queue pv) as [|x q'] eqn:EQ.
        { rewrite firstn_nil in Hne. cbn in Hne. congruence. }
        set (pv' := set_queue P pv q' (p_tail pv - 1)).
        set (tha := app_tail (set_curr P (set_bak P (set_flags P th false false false) 0) 0) [x]).
        set (th' := set_state P (set_offset P (set_index P tha 0) 0) s0).
        assert (Htha : p_queue tha = p_queue th ++ [x] /\ p_tail tha = length (p_queue th ++ [x])).
        { unfold tha. apply (app_tail_queue (set_curr P (set_bak P (set_flags P th false false false) 0) 0) [x]). exact Htl. }
        assert (Hstep : local_step pv th LDead = LRes pv' th' 0 0 GNext).
        { rewrite HlsD by auto. clear -Hty Hb Ecs Hs0 Hge EQ. unfold th', tha, pv'. destruct th; cbn in *; subst. unfold data_dead, codecn, this_codec, is_to. cbn in *.
          rewrite (proj2 (Nat.ltb_ge _ _) Hge). cbn. rewrite EQ. cbn. unfold reset. cbn. rewrite Hs0. reflexivity. }
        exists pv', th', 0, 0, GNext. split; [apply ls_one; exact Hstep|].
        split; [reflexivity|]. split; [unfold same_static; cbn; auto|].
        assert (HBc : (x = [] /\ B = filter nonempty q') \/ (x <> [] /\ B = x :: filter nonempty q')).
        { cbn in HB. destruct x; cbn in HB; [left|right]; split; auto; discriminate. }
        exists [x], (match x with [] => [] | _ => [x] end), 0, (filter nonempty q'), [], false.
        split; [exact (proj1 Htha)|]. split; [destruct x; reflexivity|]. split; [change (p_tail tha = length (p_queue tha)); rewrite (proj2 Htha), (proj1 Htha); reflexivity|].
        split; [|split; [|split; [|split; [|split; [|reflexivity]]]]].
        -- apply (pinv_start fin false pv' th' _ _ c0 k0); cbn; rewrite ?Ecs; auto; try exact Hs0.
           ++ rewrite Dt. cbn [length]. lia.
           ++ intros; lia.
           ++ rewrite Hty. reflexivity.
        -- intros Y HY. rewrite Hty. destruct HBc as [[-> ->]|[Hx HBx]]; cbn [app kind_of].
           ++ destruct (trans _ _ _). reflexivity.
           ++ rewrite HBx in *. cbn [app]. rewrite trans_fail_inter; [|exact (Hfirst Y HY)].
              match goal with |- context [trans ?a ?b ?c] => destruct (trans a b c) end. destruct x; [congruence|reflexivity].
        -- rewrite Hty. reflexivity.
        -- apply lex_irr_eq. destruct HBc as [[-> HBx]|[Hx HBx]]; rewrite HBx.
           ++ right. split; [reflexivity|]. left. cbn. rewrite Hb, EQ. cbn. lia.
           ++ left. cbn. lia.
        -- congruence.
      * (* TO: drop what was examined *)
        set (pv' := set_queue P pv (skipn (p_curr th) (p_queue pv)) (p_tail pv - p_curr th)).
        set (tha := set_state P (set_offset P (set_index P (set_flags P th false false false) 0) 0) s0).
        set (th' := set_curr P (set_bak P tha 0) 0).
        assert (Hstep : local_step pv th LDead = LRes pv' th' 0 1 (Stay LOuter)).
        { rewrite HlsD by auto. clear -Hty Hb Ecs Hs0 Hge. unfold th', tha, pv'. destruct th; cbn in *; subst. unfold data_dead, codecn, this_codec, is_to. cbn in *.
          rewrite (proj2 (Nat.ltb_ge _ _) Hge). cbn. unfold reset. cbn. rewrite Hs0. reflexivity. }
        exists pv', th', 0, 1, (Stay LOuter). split; [apply ls_one; exact Hstep|].
        split; [reflexivity|]. split; [unfold same_static; cbn; auto|].
        exists [], [], 1, (filter nonempty (skipn (p_curr th) (p_queue pv))), [], false.
        split; [cbn; rewrite app_nil_r; reflexivity|]. split; [reflexivity|]. split; [exact Htl|].
        assert (HBs : length (filter nonempty (firstn (p_curr th) (p_queue pv))) <= length B) by (rewrite HB; apply filter_len_firstn_le).
        split; [|split; [|split; [|split; [|split; [|reflexivity]]]]].
        -- apply (pinv_start fin false pv' th' _ _ c0 k0); cbn; rewrite ?Ecs; auto; try exact Hs0.
           ++ rewrite Dt, skipn_length. reflexivity.
           ++ intros; lia.
           ++ rewrite Hty. reflexivity.
        -- intros Y HY. rewrite Hty. cbn [kind_of].
           rewrite trans_fail_to; [|destruct B; [congruence|discriminate]|exact (Hfirst Y HY)].
           rewrite (last_nth (sems (k0 :: ks')) _ (k_v k)).
           2:{ unfold sems. rewrite map_length. rewrite <- Hidx. exact (sems_nth' _ _ _ Hk). }
           rewrite (Hex Hty eq_refl Y HY).
           rewrite skipn_app.
           match goal with |- context [skipn (?a - ?b) Y] => replace (a - b) with 0 by (lia) end. cbn [skipn].
           rewrite HB, skipn_filter_len.
           destruct (trans KTo _ _). reflexivity.
        -- rewrite Hty. reflexivity.
        -- apply lex_irr_eq. left. rewrite HB. rewrite (filter_firstn_skipn nonempty (p_curr th) (p_queue pv)), app_length.
           clear -Hne. destruct (filter nonempty (firstn (p_curr th) (p_queue pv))); [congruence|]. cbn. lia.
        -- congruence.
Qed.

Lemma dead_progressE E fin (pv th : ephase) ks B : p_tail th = length (p_queue th) ->
  dinv fin pv th ks B -> err_okE E fin pv th ks B -> achieves3 fin pv th ks B LDead \/ (E = true /\ fails pv th LDead).
Proof.
  intros Ht HD He. destruct (p_type th) eqn:Ety.
  - apply from_dead_progressE; assumption.
  - left. apply data_dead_progress; auto.
  - left. apply data_dead_progress; auto.
  - exfalso. destruct HD as [_ Hc _ (k & best & Hk & _) _ _ _]. destruct (Forall2_get _ _ _ _ _ Hc Hk) as (c & _ & Hok). rewrite Ety in Hok. exact Hok.
  - exfalso. destruct HD as [_ Hc _ (k & best & Hk & _) _ _ _]. destruct (Forall2_get _ _ _ _ _ Hc Hk) as (c & _ & Hok). rewrite Ety in Hok. exact Hok.
Qed.
Lemma dead_progress fin (pv th : ephase) ks B : p_tail th = length (p_queue th) ->
  dinv fin pv th ks B -> err_ok fin pv th ks B -> achieves3 fin pv th ks B LDead.
Proof. intros Ht HD He. destruct (dead_progressE false fin pv th ks B Ht HD (or_intror He)) as [H|(H & _)]; [exact H|discriminate]. Qed.
End E.

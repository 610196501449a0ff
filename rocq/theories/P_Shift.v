(** The mixed EBCDIC codecs as phases of a conversion. *)
From Verif Require Import Base Types M_Engine M_Output M_Create M_Modules M_Raw M_Shift S_Session S_Engine S_Ebcdic P_Trans P_Engine1 P_Engine2 P_Engine3 P_Flow P_Raw P_Ebcdic P_Ebcdic2 P_Machine P_Shape P_Flow4.
Arguments p_type {P}. Arguments p_codecs {P}. Arguments p_index {P}. Arguments p_curr {P}. Arguments p_i {P}.
Arguments p_bak {P}. Arguments p_headlen {P}. Arguments p_match_data {P}. Arguments p_state {P}. Arguments p_offset {P}.
Arguments p_fmatch {P}. Arguments p_fpending {P}. Arguments p_floop {P}. Arguments p_queue {P}. Arguments p_tail {P}.
Arguments local_step {P}. Arguments from_step {P}. Arguments LRes {P}. Arguments LUB {P}.
Notation ph := (ephase priv).

(** One phase right after bsdconv_init. *)
Lemma init_one (th0 th : ph) b r : init_phase priv false th0 = Some th -> p_codecs th0 = [b] -> read_state (e_tab priv (init_codec priv b)) 0 = Some r ->
  th = mkEp priv (p_type th0) [init_codec priv b] 0 0 (p_i th0) (p_bak th0) 0 [] r 0 false false false [] 0.
Proof.
  destruct th0 as [ty cs ix cu i ba hl md st off fm fp fl q tl]. cbn [p_codecs p_type p_i p_bak]. intros H -> Hr. unfold init_phase, reset in H. cbn -[read_state init_codec] in H. rewrite Hr in H. cbn -[init_codec] in H. injection H as <-. reflexivity.
Qed.

(** ** The decoder *)
Section Dec.
Variables (tab : table) (root : tstate) (g : bool).
Hypothesis Hroot : read_state tab 0 = Some root.
Let c (st : bool) : ecodec priv := set_priv priv (ibm_dec tab g) (PShift st).

Definition dtr (x : ebst) (b : N) : option (ebst * list datum) := match eb_tr tab root x b with Some (x', o, _) => Some (x', o) | None => None end.
Definition drep (x : ebst) (q : list (list N)) (R : list N) (th : ph) : Prop :=
  match x with
  | EIdle st => exists cu i ba hl md out tl, th = mkEp priv FROM [c st] 0 cu i ba hl md root 0 false false false out tl
  | EMid st s => exists cu i ba hl md s' off fm fp fl out tl, th = mkEp priv FROM [c st] 0 cu i ba hl md s' off fm fp fl out tl /\ (forall v, get_offset s' v = get_offset s v)
  end.
Definition dacc (x : ebst) : Prop := match x with EIdle _ => True | EMid _ _ => False end.

Lemma d_feed st i ba hl md s0 off fm fp fl out tl (pv : ph) m d b s : nth_error (p_queue pv) m = Some d -> nth_error d i = Some b ->
  next_state tab s0 b = Some s -> exists off', local_step pv (mkEp priv FROM [c st] 0 (S m) i ba hl md s0 off fm fp fl out tl) LInner =
    LRes pv (mkEp priv FROM [c st] 0 (S m) i ba hl md s off' fm fp fl out tl) 0 0 (Stay LX).
Proof.
  intros Hm Hi Hn. unfold next_state in Hn. destruct (get_offset s0 b) as [[|n]|] eqn:Eg; try discriminate. exists (S n).
  unfold local_step. cbn [p_type p_state]. unfold from_step, curr_len, curr_node, this_codec. cbn [p_curr p_i p_codecs p_index nth_error]. rewrite Hm. cbn [option_map].
  assert (Hlt : i < length d) by (apply nth_error_Some; congruence). apply Nat.ltb_lt in Hlt. rewrite Hlt, Hi. unfold feed. cbn [p_state]. rewrite Eg. cbn [c e_tab ibm_dec set_priv]. rewrite Hn. reflexivity.
Qed.
Lemma d_commit (st : bool) i ba hl md s off fm fp fl out (pv : ph) m (ds : list datum) :
  from_commit priv pv (mkEp priv FROM [c st] 0 (S m) i ba hl md s off fm fp fl out (length out)) ds =
    LRes (set_queue priv pv (skipn m (p_queue pv)) (p_tail pv - m)) (mkEp priv FROM [c st] 0 0 i 0 (S i) [] root 0 false false false (out ++ ds) (length (out ++ ds))) 0 0 GNext.
Proof.
  unfold from_commit. rewrite app_tail_end by reflexivity. cbn -[reset app]. unfold reset. cbn -[read_state app]. rewrite Hroot. reflexivity.
Qed.

(** ways to go on *)
Lemma d_go_commit st' s off fm fp fl ba hl md out i (pv th : ph) m d ds : p_tail pv = length (p_queue pv) -> nth_error (p_queue pv) m = Some d ->
  p_type th = FROM -> length (p_codecs th) = 1 -> p_queue th = out ->
  lsteps pv th LInner pv (mkEp priv FROM [c st'] 0 (S m) i ba hl md s off fm fp fl out (length out)) 0 0 (Stay LX) ->
  (t_status s = MATCH /\ ds = t_data s) \/ (t_status s = NEXTPHASE /\ ds = []) ->
  steps_on drep pv th ds (EIdle st') (rest_at (p_queue pv) (S m) (S i)) LInner.
Proof.
  intros Ht Hm Hty Hlc Hqt Hls Hs. destruct (after_commit (p_queue pv) m d i Hm) as [Hne HU].
  exists (set_queue priv pv (skipn m (p_queue pv)) (p_tail pv - m)), (mkEp priv FROM [c st'] 0 0 i 0 (S i) [] root 0 false false false (out ++ ds) (length (out ++ ds))), GNext.
  assert (E : local_step pv (mkEp priv FROM [c st'] 0 (S m) i ba hl md s off fm fp fl out (length out)) LX =
    LRes (set_queue priv pv (skipn m (p_queue pv)) (p_tail pv - m)) (mkEp priv FROM [c st'] 0 0 i 0 (S i) [] root 0 false false false (out ++ ds) (length (out ++ ds))) 0 0 GNext).
  { unfold local_step. cbn [p_type p_state from_step]. destruct Hs as [[Hs ->]|[Hs ->]]; rewrite Hs; apply d_commit. }
  split; [|split; [|split; [|split; [|split; [|split; [|split; [|split; [|split; [|split; [|split]]]]]]]]]].
  - refine (lsteps_app _ _ _ _ _ 0 0 _ _ _ 0 0 _ _ _); [exact Hls|]. apply ls_one. exact E.
  - unfold same_ctl. destruct pv; reflexivity.
  - split; [rewrite Hty; reflexivity|]. split; [rewrite Hty; congruence|rewrite Hlc; reflexivity].
  - cbn. rewrite skipn_length, Ht. reflexivity.
  - exact Hne.
  - cbn. lia.
  - exact I.
  - exact HU.
  - eexists _, _, _, _, _, _, _. reflexivity.
  - cbn. rewrite Hqt. reflexivity.
  - reflexivity.
  - auto.
Qed.
Lemma d_go_on st s s' off fm fp fl ba hl md out i (pv th : ph) m d : p_tail pv = length (p_queue pv) -> nth_error (p_queue pv) m = Some d ->
  p_type th = FROM -> length (p_codecs th) = 1 -> p_queue th = out ->
  lsteps pv th LInner pv (mkEp priv FROM [c st] 0 (S m) (S i) ba hl md s' off fm fp fl out (length out)) 0 0 (Stay LInner) ->
  (forall v, get_offset s' v = get_offset s v) ->
  steps_on drep pv th [] (EMid st s) (rest_at (p_queue pv) (S m) (S i)) LInner.
Proof.
  intros Ht Hm Hty Hlc Hqt Hls Hs. assert (Hlt : m < length (p_queue pv)) by (apply nth_error_Some; congruence).
  eexists pv, _, (Stay LInner). split; [exact Hls|]. split; [apply same_ctl_refl|]. split; [split; [rewrite Hty; reflexivity|]; split; [rewrite Hty; congruence|rewrite Hlc; reflexivity]|].
  split; [exact Ht|]. split; [intros E; rewrite E in Hlt; cbn in Hlt; lia|]. split; [cbn; lia|]. split; [cbn; lia|]. split; [reflexivity|].
  split; [eexists _, _, _, _, _, _, _, _, _, _, _, _; split; [reflexivity|exact Hs]|]. split; [cbn; rewrite Hqt, app_nil_r; reflexivity|]. split; [reflexivity|auto].
Qed.

Lemma d_step : forall x b x' o, dtr x b = Some (x', o) -> forall (pv th : ph) m i d, p_tail pv = length (p_queue pv) -> p_headlen pv = 0 -> p_tail th = length (p_queue th) ->
  drep x (p_queue pv) (b :: rest_at (p_queue pv) (S m) (S i)) th -> p_curr th = S m -> p_i th = i -> nth_error (p_queue pv) m = Some d -> nth_error d i = Some b ->
  steps_on drep pv th o x' (rest_at (p_queue pv) (S m) (S i)) LInner.
Proof.
  intros x b x' o HT pv th m i d Ht Hh Htl Hr Hc Hi Hm Hb. unfold dtr in HT.
  destruct x as [st|st s].
  - destruct Hr as (cu & i0 & ba & hl & md & out & tl & ->). cbn [p_curr p_i p_tail p_queue] in Hc, Hi, Htl. subst cu i0 tl. cbn [eb_tr] in HT.
    destruct (next_state tab root b) as [s|] eqn:En; [|discriminate].
    destruct (d_feed st i ba hl md root 0 false false false out (length out) pv m d b s Hm Hb En) as (off & Ef).
    destruct (is_callb s) eqn:Ec.
    + destruct (t_data s) as [|dd ds] eqn:Ed; [discriminate|].
      set (cbr := ibm_from_cb (PShift st) d i (t_data s)).
      assert (Ecall : local_step pv (mkEp priv FROM [c st] 0 (S m) i ba hl md s off false false false out (length out)) LX =
         LRes pv (mkEp priv FROM [set_priv priv (ibm_dec tab g) (cb_priv priv cbr)] 0 (S m) i ba hl md (with_status s (cb_status priv cbr)) off false false true out (length out)) 0 0 (Stay LX)).
      { unfold local_step. cbn [p_type]. unfold from_step. cbn [p_state]. 
        assert (Eo : cb_out priv cbr = [] /\ cb_i priv cbr = i).
        { subst cbr. unfold ibm_from_cb. rewrite Ed. walk; split; reflexivity. }
        assert (E : call_cb priv pv (mkEp priv FROM [c st] 0 (S m) i ba hl md s off false false false out (length out)) =
          Some (mkEp priv FROM [set_priv priv (ibm_dec tab g) (cb_priv priv cbr)] 0 (S m) i ba hl md (with_status s (cb_status priv cbr)) off false false false out (length out))).
        { unfold call_cb, this_codec, curr_node. cbn [p_codecs p_index nth_error c set_priv ibm_dec e_conv p_curr p_state p_i e_priv]. rewrite Hm. fold cbr. destruct Eo as (Eo & Ei). rewrite Eo, Ei. reflexivity. }
        rewrite E. unfold is_callb in Ec. destruct (t_status s); try discriminate; reflexivity. }
      assert (Hls : lsteps pv (mkEp priv FROM [c st] 0 (S m) i ba hl md root 0 false false false out (length out)) LInner pv (mkEp priv FROM [set_priv priv (ibm_dec tab g) (cb_priv priv cbr)] 0 (S m) i ba hl md (with_status s (cb_status priv cbr)) off false false true out (length out)) 0 0 (Stay LX)).
      { refine (lsteps_app _ _ _ _ _ 0 0 _ _ _ 0 0 _ _ _); [apply ls_one; exact Ef|]. apply ls_one. exact Ecall. }
      clear Ecall.
      assert (Hcase : (dd = [1; 0x0E]%N \/ dd = [1; 0x0F]%N) \/
         (cbr = mkCb priv (PShift st) i (if st then SUBMATCH else MATCH) [] /\
          match dd :: ds with [1; 0x0E]%N :: _ => Some (EIdle true, [], 0) | [1; 0x0F]%N :: _ => Some (EIdle false, [], 0) | d :: r => if st then Some (EMid st s, [], 0) else Some (EIdle st, d :: r, 0) | [] => None end =
          if st then Some (EMid st s, [], 0) else Some (EIdle st, dd :: ds, 0))).
      { destruct (list_eq_dec N.eq_dec dd [1; 0x0E]%N) as [E|N1]; [left; left; exact E|]. destruct (list_eq_dec N.eq_dec dd [1; 0x0F]%N) as [E|N2]; [left; right; exact E|]. right. split; [|apply not_shift_tr; assumption].
        subst cbr. unfold ibm_from_cb. rewrite Ed. apply not_shift; assumption. }
      destruct Hcase as [[->| ->]|[Hn Htr]].
      * apply (f_equal (option_map fst)) in HT as H1. apply (f_equal (option_map snd)) in HT as H2. cbn in H1, H2. injection H1 as <-. injection H2 as <-. subst cbr. rewrite Ed in Hls. cbn [ibm_from_cb cb_priv cb_status] in Hls.
        eapply d_go_commit; [exact Ht|exact Hm|reflexivity|reflexivity|reflexivity|exact Hls|right; split; reflexivity].
      * apply (f_equal (option_map fst)) in HT as H1. apply (f_equal (option_map snd)) in HT as H2. cbn in H1, H2. injection H1 as <-. injection H2 as <-. subst cbr. rewrite Ed in Hls. cbn [ibm_from_cb cb_priv cb_status] in Hls.
        eapply d_go_commit; [exact Ht|exact Hm|reflexivity|reflexivity|reflexivity|exact Hls|right; split; reflexivity].
      * rewrite Htr in HT. rewrite Hn in Hls. cbn [cb_priv cb_status] in Hls. destruct st; injection HT as <- <-.
        -- eapply (d_go_on true s (with_status s SUBMATCH)); [exact Ht|exact Hm|reflexivity|reflexivity|reflexivity| |reflexivity].
           refine (lsteps_app _ _ _ _ _ 0 0 _ _ _ 0 0 _ _ _); [exact Hls|]. apply ls_one. reflexivity.
        -- eapply d_go_commit; [exact Ht|exact Hm|reflexivity|reflexivity|reflexivity|exact Hls|left; split; [reflexivity|symmetry; exact Ed]].
    + destruct (t_status s) eqn:Es; try discriminate. injection HT as <- <-.
      eapply (d_go_on st s s); [exact Ht|exact Hm|reflexivity|reflexivity|reflexivity| |reflexivity].
      refine (lsteps_app _ _ _ _ _ 0 0 _ _ _ 0 0 _ _ _); [apply ls_one; exact Ef|]. apply ls_one. unfold local_step. cbn [p_state p_type from_step]. rewrite Es. reflexivity.
  - destruct Hr as (cu & i0 & ba & hl & md & s' & off & fm & fp & fl & out & tl & -> & Hg). cbn [p_curr p_i p_tail p_queue] in Hc, Hi, Htl. subst cu i0 tl. cbn [eb_tr] in HT.
    destruct (next_state tab s b) as [s2|] eqn:En; [|discriminate]. destruct (t_status s2) eqn:Es; try discriminate. injection HT as <- <-.
    assert (En' : next_state tab s' b = Some s2) by (unfold next_state in *; rewrite Hg; exact En).
    destruct (d_feed st i ba hl md s' off fm fp fl out (length out) pv m d b s2 Hm Hb En') as (off' & Ef).
    eapply d_go_commit; [exact Ht|exact Hm|reflexivity|reflexivity|reflexivity|apply ls_one; exact Ef|left; split; [exact Es|reflexivity]].
Qed.

Variable cout : bool.
Hypothesis cout_ok : cout = true -> forall x b x' o, dtr x b = Some (x', o) -> Forall ne o.
Definition dec_spec : pspec (P:=priv) := mspec dtr drep dacc cout.
Lemma dec_spec_ok : pspec_ok dec_spec.
Proof.
  apply mspec_ok.
  - intros [st|st s] q R th; [intros (? & ? & ? & ? & ? & ? & ? & ->); reflexivity|intros (? & ? & ? & ? & ? & ? & ? & ? & ? & ? & ? & ? & -> & _); reflexivity].
  - intros [st|st s] q R th cu j; [intros (? & ? & ? & ? & ? & ? & ? & ->); eexists _, _, _, _, _, _, _; reflexivity|].
    intros (? & ? & ? & ? & ? & ? & ? & ? & ? & ? & ? & ? & -> & H). eexists _, _, _, _, _, _, _, _, _, _, _, _. split; [reflexivity|exact H].
  - intros [st|st s] q R th th'; [intros (? & ? & ? & ? & ? & ? & ? & ->) ->; eexists _, _, _, _, _, _, _; reflexivity|].
    intros (? & ? & ? & ? & ? & ? & ? & ? & ? & ? & ? & ? & -> & H) ->. eexists _, _, _, _, _, _, _, _, _, _, _, _. split; [reflexivity|exact H].
  - intros [st|st s] q ds R th _ H; exact H.
  - intros [st|st s] q th; [intros (? & ? & ? & ? & ? & ? & ? & ->) _; reflexivity|intros _ []].
  - exact d_step.
  - exact cout_ok.
Qed.
(** What the phase does with a whole text. *)
Definition dec_rel : Den (P:=priv) := mden dtr dacc (EIdle false) [].
Lemma run_trs : forall bs x x' o e, trs (eb_tr tab root) x bs = Some (x', o, e) -> run dtr x bs = Some (x', o).
Proof.
  induction bs as [|b bs IH]; intros x x' o e H; cbn [trs run] in *; [injection H as <- <- _; reflexivity|]. unfold dtr at 1. destruct (eb_tr tab root x b) as [[[x1 o1] e1]|]; [|discriminate].
  destruct (trs (eb_tr tab root) x1 bs) as [[[x2 o2] e2]|] eqn:E; [|discriminate]. rewrite (IH _ _ _ _ E). injection H as <- <- _. reflexivity.
Qed.
Lemma dec_rel_mixed codes datas Y : dec_shifts tab -> Forall2 (dec_entry tab) codes datas -> mixed false codes (concat Y) -> dec_rel Y (filter nonempty datas) 0 None.
Proof.
  intros Hs HF Hm. split; [reflexivity|]. split; [reflexivity|]. exists (EIdle false), datas. split; [|split; [exact I|reflexivity]].
  apply (run_trs _ _ _ _ 0). apply (tr_mixed tab root Hroot Hs false codes _ Hm datas HF).
Qed.
(** Right after bsdconv_init. *)
Lemma dec_start (pv th0 th : ph) : p_type th0 = FROM -> P_Shape.shc [ibm_dec tab g] (p_codecs th0) -> init_phase priv false th0 = Some th -> p_queue pv = [] -> p_tail pv = 0 -> p_headlen pv = 0 ->
  exists m, s_inv dec_spec false false pv th dec_rel m.
Proof.
  intros Hty Hsh Hi Q1 Q2 Q3. destruct (P_Flow4.shc_one _ _ Hsh) as (b & Eb & Hb). destruct (P_Flow4.init_codec_sc _ _ Hb) as (q & Hq & Eq).
  assert (Hp : exists st, q = PShift st).
  { clear -Hq. induction Hq as [|f p E _ IH|f p d i sd E _ IH|f p E _ IH].
    - eexists. reflexivity.
    - cbn in E. injection E as <-. destruct IH as (st & ->). eexists. reflexivity.
    - cbn in E. injection E as <-. destruct IH as (st & ->). unfold ibm_from_cb. destruct sd as [|x sd]; [eexists; reflexivity|]. walk; eexists; reflexivity.
    - discriminate. }
  destruct Hp as (st & ->). pose proof (init_one th0 th b root Hi Eb) as Eth. rewrite Eq in Eth. specialize (Eth Hroot). rewrite Hty in Eth. rewrite Eth. clear Eth Hi.
  eexists. exists (EIdle false), []. rewrite Q1, Q2. split; [reflexivity|]. split; [exact Q3|]. split; [reflexivity|]. split; [cbn; lia|]. split; [intros _; exact I|]. split; [reflexivity|].
  split; [|split; [intros Y o e f H; exact H|reflexivity]]. cbn [drep]. eexists _, _, _, _, _, _, _. reflexivity.
Qed.
End Dec.

(** ** The encoder *)
Section Enc.
Variables (tab : table) (root : tstate) (g : bool).
Hypothesis Hroot : read_state tab 0 = Some root.
Let c (st : bool) : ecodec priv := set_priv priv (ibm_enc tab g) (PShift st).
Definition enc_ph (st : bool) (i ba hl : nat) (fl : bool) (ss : status) (q : list datum) (tl : nat) : ph := mkEp priv TO [c st] 0 0 i ba hl [] (with_status root ss) 0 st st fl q tl.
Definition coded (key code : datum) : Prop := calls_on tab key code /\ 0 < length code.
Definition closing (st : bool) (ds : list datum) : list datum := shifts st ds ++ if st_after st ds then [[0x0F]]%N else [].
Definition eden (st : bool) (q : list datum) : Den (P:=priv) := fun Y o e f => e = 0 /\ f = None /\ exists codes, Forall2 coded (q ++ Y) codes /\ o = closing st codes.
Definition einv (fin mid : bool) (pv th : ph) (D : Den (P:=priv)) (m : list nat) : Prop :=
  exists st i ba hl fl ss q tl, th = enc_ph st i ba hl fl ss q tl /\ p_tail pv = length (p_queue pv) /\ Forall ne (p_queue pv) /\
    (forall Y o e f, D Y o e f -> eden st (p_queue pv) Y o e f) /\ m = [length (p_queue pv); if st then 1 else 0; 0; 0].
Definition enc_spec : pspec (P:=priv) := mkPs TO true false einv (fun _ f => f = None).

Lemma closing_cons st d ds : closing st (d :: ds) = shift st d ++ closing (1 <? length d) ds.
Proof. unfold closing. cbn [shifts st_after fold_left]. rewrite <- app_assoc. reflexivity. Qed.
Lemma shift_nonempty st d : 0 < length d -> filter nonempty (shift st d) = shift st d.
Proof. intros H. unfold shift. rewrite filter_app. apply (f_equal2 (@app _)); [|destruct d; [cbn in H; lia|reflexivity]]. destruct ((1 <? length d) && negb st); [reflexivity|]. destruct ((length d =? 1) && st); reflexivity. Qed.

Lemma e_one st i ba hl fl ss q (pv : ph) key d rest : p_queue pv = key :: rest -> p_tail pv = length (p_queue pv) -> coded key d ->
  exists i' fl' ss', lsteps pv (enc_ph st i ba hl fl ss q (length q)) LOuter (set_queue priv pv rest (length rest)) (enc_ph (1 <? length d) i' 0 hl fl' ss' (q ++ shift st d) (length (q ++ shift st d))) 0 0 GNext.
Proof.
  intros Hq Ht ((root' & s & Hr' & Hk & Hsp & Hc & Hd) & Hl). assert (root' = root) by congruence. subst root'.
  destruct (bl_spells (c st) key root s Hsp TO [c st] 0 1 0 ba hl [] (with_status root NOMATCH) 0 st st fl q (length q) (fun v => eq_refl)) as (off & i1 & fl1 & s1 & Ebl & Es1).
  specialize (Es1 Hk). subst s1.
  assert (E1 : local_step pv (enc_ph st i ba hl fl ss q (length q)) LOuter = LRes pv (mkEp priv TO [c st] 0 1 i1 ba hl [] s off st st fl1 q (length q)) 0 0 (Stay LX)).
  { unfold local_step, enc_ph. cbn [p_type]. unfold data_step. cbn [p_curr]. rewrite Hq. cbn [length Nat.ltb Nat.leb]. unfold set_curr, set_state, set_i, curr_node, this_codec. cbn [p_curr p_codecs p_index p_state nth_error p_type p_i p_bak p_headlen p_match_data p_offset p_fmatch p_fpending p_floop p_queue p_tail].
    rewrite Hq. cbn [nth_error]. match goal with |- context [bytes_loop priv ?cc ?t key] => change (bytes_loop priv cc t key) with (bytes_loop priv (c st) (mkEp priv TO [c st] 0 1 0 ba hl [] (with_status root NOMATCH) 0 st st fl q (length q)) key) end. rewrite Ebl. reflexivity. }
  set (r := ibm_to_cb (PShift st) key i1 [d]).
  assert (Hr : r = mkCb priv (PShift (1 <? length d)) i1 (if 1 <? length d then NOOP else NEXTPHASE) (shift st d)).
  { subst r. unfold ibm_to_cb, shift. destruct (Nat.ltb_spec 1 (length d)) as [L|L].
    - replace (length d =? 1) with false by (symmetry; apply Nat.eqb_neq; lia). destruct st; reflexivity.
    - assert (E : length d = 1) by lia. rewrite E. destruct st; reflexivity. }
  assert (E2 : local_step pv (mkEp priv TO [c st] 0 1 i1 ba hl [] s off st st fl1 q (length q)) LX =
     LRes pv (mkEp priv TO [c (1 <? length d)] 0 1 i1 ba hl [] (with_status s (if 1 <? length d then NOOP else NEXTPHASE)) off st st fl1 (q ++ shift st d) (length (q ++ shift st d))) 0 0 (Stay LX)).
  { unfold local_step. cbn [p_type]. unfold data_step. cbn [p_state].
    assert (Ecb : call_cb priv pv (mkEp priv TO [c st] 0 1 i1 ba hl [] s off st st fl1 q (length q)) = Some (mkEp priv TO [c (1 <? length d)] 0 1 i1 ba hl [] (with_status s (if 1 <? length d then NOOP else NEXTPHASE)) off st st fl1 (q ++ shift st d) (length (q ++ shift st d)))).
    { unfold call_cb, this_codec, curr_node. cbn [p_codecs p_index nth_error c set_priv ibm_enc e_conv p_curr p_state p_i e_priv]. rewrite Hq. cbn [nth_error]. rewrite Hd. fold r. rewrite Hr. cbv zeta. cbn [cb_priv cb_i cb_status cb_out]. rewrite app_tail_end by reflexivity. reflexivity. }
    rewrite Ecb. destruct Hc as [->| ->]; reflexivity. }
  exists i1, (if 1 <? length d then fl1 else false), (if 1 <? length d then NOOP else t_status root).
  refine (lsteps_app _ _ _ _ _ 0 0 _ _ _ 0 0 _ (ls_one _ _ _ _ _ _ _ _ E1) _). refine (lsteps_app _ _ _ _ _ 0 0 _ _ _ 0 0 _ (ls_one _ _ _ _ _ _ _ _ E2) _). apply ls_one.
  unfold local_step. cbn [p_type]. unfold data_step. cbn [p_state with_status t_status]. 
  destruct (1 <? length d); cbn [t_status].
  - unfold data_hold. cbn -[reset app]. rewrite Hq, Ht, Hq. cbn [skipn length]. unfold reset. cbn -[read_state app]. rewrite Hroot. cbn -[app]. rewrite Nat.sub_0_r. reflexivity.
  - unfold data_commit. rewrite app_tail_end by reflexivity. cbn -[reset app]. rewrite Hq, Ht, Hq. cbn [skipn length]. unfold reset. cbn -[read_state app]. rewrite Hroot. cbn -[app]. rewrite Nat.sub_0_r. rewrite app_nil_r. unfold enc_ph. destruct root; reflexivity.
Qed.
Lemma e_eof i ba hl fl ss q (pv : ph) : exists ss', lsteps pv (enc_ph true i ba hl fl ss q (length q)) LDead pv (enc_ph false i ba hl false ss' (q ++ [[0x0F]]%N) (length (q ++ [[0x0F]]%N))) 0 0 GNext.
Proof.
  exists (t_status root). apply ls_one. unfold local_step, enc_ph. cbn [p_type]. unfold data_step, data_dead. cbn [set_flags p_fmatch p_match_data].
  unfold call_flush, this_codec. cbn [set_flags p_codecs p_index nth_error c set_priv ibm_enc e_flush e_priv ibm_to_flush]. rewrite app_tail_end by reflexivity. cbn -[reset app]. unfold reset. cbn -[read_state app]. rewrite Hroot. cbn -[app]. destruct root; reflexivity.
Qed.

Theorem enc_spec_ok : pspec_ok enc_spec.
Proof.
  constructor; cbn [enc_spec s_type s_cin s_cout s_inv s_fin].
  - intros fin mid pv th D m (st & i & ba & hl & fl & ss & q & tl & -> & Ht & Hn & HD & ->). auto.
  - intros fin pv th D m (st & i & ba & hl & fl & ss & q & tl & -> & Ht & Hn & HD & ->) Htl (Y0 & o0 & e0 & f0 & _ & HY0) Hlt. cbn [enc_ph p_tail p_queue p_curr] in Htl, Hlt. subst tl.
    destruct (p_queue pv) as [|key rest] eqn:Eq; [cbn in Hlt; lia|].
    destruct (HD _ _ _ _ HY0) as (_ & _ & codes & HF & _). inversion HF as [|? d ? ds Hkd _]; subst.
    destruct (e_one st i ba hl fl ss q pv key d rest Eq ltac:(rewrite Eq; exact Ht) Hkd) as (i' & fl' & ss' & Hls).
    eexists _, _, 0, GNext. split; [exact Hls|]. split; [unfold same_ctl; destruct pv; reflexivity|]. split; [split; [reflexivity|]; split; reflexivity|].
    exists (shift st d), (eden (1 <? length d) rest), [length rest; if 1 <? length d then 1 else 0; 0; 0], false. split; [reflexivity|]. split; [reflexivity|]. split; [discriminate|]. split; [|split; [|split; [|reflexivity]]].
    + eexists _, _, _, _, _, _, _, _. split; [reflexivity|]. cbn [set_queue p_queue p_tail]. split; [reflexivity|]. split; [inversion Hn; assumption|]. split; [auto|reflexivity].
    + intros Y o e f _ HY. destruct (HD _ _ _ _ HY) as (-> & -> & codes' & HF' & ->). inversion HF' as [|? d' ? ds' Hkd' HF2]; subst.
      assert (d' = d). { clear -Hkd Hkd'. destruct Hkd as ((r1 & s1 & A1 & _ & A2 & _ & A3) & _). destruct Hkd' as ((r2 & s2 & B1 & _ & B2 & _ & B3) & _). assert (r2 = r1) by congruence. subst r2.
        assert (E : forall k s a b, spells tab s k a -> spells tab s k b -> a = b). { clear. induction k as [|x k IH]; intros s a b H1 H2; inversion H1; inversion H2; subst; [reflexivity|]. match goal with X : get_offset s x = Some (S ?n), Y : get_offset s x = Some (S ?n'), A : read_state tab (S ?n) = Some ?u, B : read_state tab (S ?n') = Some ?v |- _ => assert (u = v) by congruence; subst end. eapply IH; eassumption. }
        assert (s2 = s1) by (eapply E; eassumption). subst. congruence. }
      subst d'. exists (closing (1 <? length d) ds'), 0. split; [split; [reflexivity|]; split; [reflexivity|]; exists ds'; auto|]. split; [|reflexivity]. rewrite closing_cons, shift_nonempty by apply Hkd. reflexivity.
    + apply lex_here; [cbn; lia|reflexivity].
  - discriminate.
  - intros fin mid pv th D m (st & i & ba & hl & fl & ss & q & tl & -> & Ht & Hn & HD & ->) Hle. cbn [enc_ph p_curr] in Hle. unfold local_step. cbn [enc_ph p_type]. unfold data_step. cbn [p_curr]. destruct (p_queue pv); [reflexivity|cbn in Hle; lia].
  - intros fin pv th D m (st & i & ba & hl & fl & ss & q & tl & -> & Ht & Hn & HD & ->) Htl Hle Hp _. cbn [enc_ph p_tail p_queue p_curr p_fpending] in Htl, Hle, Hp. subst tl st.
    assert (Eq : p_queue pv = []) by (destruct (p_queue pv); [reflexivity|cbn in Hle; lia]).
    destruct (e_eof i ba hl fl ss q pv) as (ss' & Hls). eexists _, _, 0, GNext. split; [exact Hls|]. split; [apply same_ctl_refl|]. split; [split; [reflexivity|]; split; reflexivity|].
    exists [[0x0F]]%N, (eden false []), [0; 0; 0; 0], false. split; [reflexivity|]. split; [reflexivity|]. split; [discriminate|]. split; [|split; [|split; [|reflexivity]]].
    + eexists _, _, _, _, _, _, _, _. split; [reflexivity|]. split; [exact Ht|]. split; [exact Hn|]. rewrite Eq. split; [auto|reflexivity].
    + intros Y o e f HY HDY. rewrite (HY eq_refl) in *. destruct (HD _ _ _ _ HDY) as (-> & -> & codes & HF & ->). rewrite Eq in HF. inversion HF; subst.
      exists [], 0. split; [split; [reflexivity|]; split; [reflexivity|]; exists []; split; [constructor|reflexivity]|]. split; reflexivity.
    + rewrite Eq. apply lex_next, lex_here; [lia|reflexivity].
  - intros fin pv th D m o e f (st & i & ba & hl & fl & ss & q & tl & -> & Ht & Hn & HD & ->) Hle Hp HY. cbn [enc_ph p_curr p_fpending] in Hle, Hp. subst st.
    assert (Eq : p_queue pv = []) by (destruct (p_queue pv); [reflexivity|cbn in Hle; lia]).
    destruct (HD _ _ _ _ HY) as (-> & -> & codes & HF & ->). rewrite Eq in HF. inversion HF; subst. auto.
  - intros mid pv pv' th D m ds (st & i & ba & hl & fl & ss & q & tl & -> & Ht & Hn & HD & ->) Hq' Ht' _ Hne. specialize (Hne eq_refl).
    eexists. exists st, i, ba, hl, fl, ss, q, tl. split; [reflexivity|]. split; [exact Ht'|]. split; [rewrite Hq'; apply Forall_app; auto|]. split; [|reflexivity].
    intros Y o e f HY. unfold fed in HY. assert (Ef : filter nonempty ds = ds). { clear -Hne. induction Hne as [|x l Hx _ IH]; [reflexivity|]. cbn. destruct x; [destruct Hx|]. cbn. rewrite IH. reflexivity. }
    rewrite Ef in HY. destruct (HD _ _ _ _ HY) as (-> & -> & codes & HF & ->). split; [reflexivity|]. split; [reflexivity|]. exists codes. rewrite Hq', <- app_assoc. auto.
  - intros fin mid pv th th' D m (st & i & ba & hl & fl & ss & q & tl & -> & Ht & Hn & HD & ->) ->. exists st, i, ba, hl, fl, ss, (p_queue th'), (p_tail th'). auto 10.
  - auto.
  - auto.
  - auto.
Qed.
(** Right after bsdconv_init. *)
Lemma enc_start (pv th0 th : ph) : p_type th0 = TO -> P_Shape.shc [ibm_enc tab g] (p_codecs th0) -> init_phase priv false th0 = Some th -> p_queue pv = [] -> p_tail pv = 0 -> p_headlen pv = 0 ->
  exists m, s_inv enc_spec false false pv th (eden false []) m.
Proof.
  intros Hty Hsh Hi Q1 Q2 Q3. destruct (P_Flow4.shc_one _ _ Hsh) as (b & Eb & Hb). destruct (P_Flow4.init_codec_sc _ _ Hb) as (q & Hq & Eq).
  assert (Hp : exists st, q = PShift st).
  { clear -Hq. induction Hq as [|f p E _ IH|f p d i sd E _ IH|f p E _ IH].
    - eexists. reflexivity.
    - cbn in E. injection E as <-. destruct IH as (st & ->). eexists. reflexivity.
    - cbn in E. injection E as <-. destruct IH as (st & ->). unfold ibm_to_cb. destruct sd as [|x sd]; [eexists; reflexivity|]. destruct (_ && _); [eexists; reflexivity|]. destruct (_ && _); eexists; reflexivity.
    - cbn in E. injection E as <-. destruct IH as ([|] & ->); eexists; reflexivity. }
  destruct Hp as (st & ->). pose proof (init_one th0 th b root Hi Eb) as Eth. rewrite Eq in Eth. specialize (Eth Hroot). rewrite Hty in Eth. rewrite Eth. clear Eth Hi.
  eexists. exists false, (p_i th0), (p_bak th0), 0, false, (t_status root), [], 0. split; [unfold enc_ph; assert (Er : with_status root (t_status root) = root) by (destruct root; reflexivity); rewrite Er; reflexivity|]. rewrite Q1, Q2. split; [reflexivity|]. split; [constructor|]. split; [auto|reflexivity].
Qed.
End Enc.

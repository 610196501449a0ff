(** Decoding phases with two codecs, the first reading byte by byte in a callback, the second one a table of single bytes that takes
    what the first refuses (JIS = _JIS,ASCII; ANSI-CONTROL,BYTE), as machines of P_Machine. *)
From Verif Require Import Base Types M_Engine M_Output M_Callback M_Raw S_Session S_Engine P_Trans P_Engine1 P_Engine2 P_Engine3 P_Flow P_Raw P_Ebcdic P_Ebcdic2 P_Shape P_Machine P_Flow4.
From Coq Require Import ZifyBool ZifyN ZifyNat.

Section B.
Context {P : Type}.
Notation ecodec := (ecodec P). Notation ephase := (ephase P).
Arguments p_type {P}. Arguments p_codecs {P}. Arguments p_index {P}. Arguments p_curr {P}. Arguments p_i {P}.
Arguments p_bak {P}. Arguments p_headlen {P}. Arguments p_match_data {P}. Arguments p_state {P}. Arguments p_offset {P}.
Arguments p_fmatch {P}. Arguments p_fpending {P}. Arguments p_floop {P}. Arguments p_queue {P}. Arguments p_tail {P}.
Arguments e_tab {P}. Arguments e_conv {P}. Arguments e_flush {P}. Arguments e_init {P}. Arguments e_priv {P}. Arguments set_priv {P}. Arguments init_codec {P}.
Arguments local_step {P}. Arguments from_step {P}. Arguments LRes {P}. Arguments LUB {P}.

Variables (A B : ecodec) (root2 : tstate).
Variable k : P -> N -> P * status * list datum.
Variable f : P -> datum -> nat -> list datum -> cbres P.
Hypothesis HA : e_tab A = star_table.
Hypothesis Hf : e_conv A = Some f.
Hypothesis Hk : forall p d i sd b, nth_error d i = Some b -> f p d i sd = mkCb P (fst (fst (k p b))) i (snd (fst (k p b))) (snd (k p b)).
Hypothesis HB : read_state (e_tab B) 0 = Some root2.
Definition fallb (b : N) : option (list datum) := match next_state (e_tab B) root2 b with Some s => match t_status s with MATCH => Some (t_data s) | _ => None end | None => None end.

Definition bst := (P * bool)%type.
Definition btr (x : bst) (b : N) : option (bst * list datum) :=
  if (b <? 256)%N then
    match k (fst x) b with
    | (p', NEXTPHASE, o) => Some ((p', true), o)
    | (p', CONTINUE, o) => Some ((p', false), o)
    | (p', DEADEND, o) => if snd x then match fallb b with Some ds => Some ((p', true), o ++ ds) | None => None end else None
    | _ => None
    end
  else None.
Definition s0 : tstate := mkTs DEADEND [] 0 257 (repeat 1%nat 257).
Definition s1 : tstate := mkTs SUBROUTINE [] 65535 0 [].
Definition brep (x : bst) (q : list (list N)) (R : list N) (th : ephase) : Prop :=
  exists pb cu i ba hl md out tl,
    if snd x then th = mkEp P FROM [set_priv A (fst x); set_priv B pb] 0 cu i ba hl md s0 0 false false false out tl /\ unread q 0 0 hl = R
    else th = mkEp P FROM [set_priv A (fst x); set_priv B pb] 0 cu i ba hl md (with_status s1 CONTINUE) 1 false true true out tl.
Definition bacc (x : bst) : Prop := snd x = true.

(** Going to the next byte not yet read. *)
Lemma walk_to (pv : ephase) b R : p_headlen pv = 0 -> forall n (th : ephase), length (p_queue pv) - p_curr th = n -> p_curr th <= length (p_queue pv) -> p_type th = FROM ->
  unread (p_queue pv) (p_curr th) (p_i th) (p_headlen th) = b :: R ->
  exists m i d, nth_error (p_queue pv) m = Some d /\ nth_error d i = Some b /\ rest_at (p_queue pv) (S m) (S i) = R /\
    forall pv' th' g, lsteps pv (moved th (S m) i) LInner pv' th' 0 0 g -> lsteps pv th LInner pv' th' 0 0 g.
Proof.
  intros Hh. induction n as [|n IH]; intros th En Hc Hty HU.
  - assert (E : p_curr th = length (p_queue pv)) by lia. destruct (p_curr th) as [|n0] eqn:Ec.
    + destruct (p_queue pv); [discriminate HU|cbn in E; lia].
    + cbn [unread] in HU. assert (Hn : n0 < length (p_queue pv)) by lia. assert (Em : nth_error (p_queue pv) n0 = Some (nth n0 (p_queue pv) [])) by (apply nth_error_nth'; exact Hn). assert (Ez : concat (skipn (S n0) (p_queue pv)) = []) by (rewrite (skipn_all2 (p_queue pv)); [reflexivity|lia]). cbn [rest_at] in HU. assert (HU2 : skipn (p_i th) (nth n0 (p_queue pv) []) ++ [] = b :: R) by (rewrite <- HU; apply (f_equal (fun z => skipn (p_i th) (nth n0 (p_queue pv) []) ++ z)); symmetry; exact Ez). clear HU. rename HU2 into HU. rewrite app_nil_r in HU.
      exists n0, (p_i th), (nth n0 (p_queue pv) []). split; [exact Em|]. assert (Hi : p_i th < length (nth n0 (p_queue pv) [])). { destruct (Nat.lt_ge_cases (p_i th) (length (nth n0 (p_queue pv) []))) as [L|L]; [exact L|]. rewrite skipn_all2 in HU by exact L. discriminate. }
      rewrite (P_Raw.skipn_cons_nth 0%N _ _ Hi) in HU. injection HU as Eb El. split; [rewrite (nth_error_nth' _ 0%N Hi), Eb; reflexivity|]. split; [cbn [rest_at]; etransitivity; [apply (f_equal (fun z => skipn (S (p_i th)) (nth n0 (p_queue pv) []) ++ z)); exact Ez|]; rewrite app_nil_r; exact El|].
      intros pv' th' g H. replace (moved th (S n0) (p_i th)) with th in H; [exact H|]. destruct th; cbn in *; subst; reflexivity.
  - destruct (p_curr th) as [|n0] eqn:Ec.
    + assert (Hq : p_queue pv <> []) by (intros E; rewrite E in HU; discriminate). assert (Hl : 0 < length (p_queue pv)) by (destruct (p_queue pv); [congruence|cbn; lia]).
      destruct (IH (moved th 1 (p_headlen th))) as (m & i & d & E1 & E2 & E3 & E4); [cbn; lia|cbn; lia|exact Hty| |].
      * cbn [moved set_i set_curr p_curr p_i p_headlen]. cbn [unread] in HU. destruct (p_queue pv); [congruence|exact HU].
      * exists m, i, d. repeat (split; [assumption|]). intros pv' th' g H. specialize (E4 pv' th' g). change (moved (moved th 1 (p_headlen th)) (S m) i) with (moved th (S m) i) in E4. specialize (E4 H).
        refine (lsteps_app _ _ _ _ _ 0 0 LOuter _ _ 0 0 _ _ _).
        -- apply ls_one. unfold local_step. rewrite Hty. unfold from_step, curr_len. rewrite Ec, Hh. reflexivity.
        -- refine (lsteps_app _ _ _ _ _ 0 0 LInner _ _ 0 0 _ _ E4). apply ls_one. unfold local_step. rewrite Hty. unfold from_step. rewrite Ec. apply Nat.ltb_lt in Hl. rewrite Hl. cbv zeta. match goal with |- context [p_curr (set_i P th ?y)] => change (p_curr (set_i P th y)) with (p_curr th) end. rewrite Ec. reflexivity.
    + assert (Hn : n0 < length (p_queue pv)) by lia. assert (Em : nth_error (p_queue pv) n0 = Some (nth n0 (p_queue pv) [])) by (apply nth_error_nth'; exact Hn). cbn [unread rest_at] in HU. destruct (Nat.lt_ge_cases (p_i th) (length (nth n0 (p_queue pv) []))) as [L|L].
      * exists n0, (p_i th), (nth n0 (p_queue pv) []). split; [exact Em|]. pose proof (P_Raw.skipn_cons_nth 0%N _ _ L) as Es. assert (HU2 : nth (p_i th) (nth n0 (p_queue pv) []) 0%N :: (skipn (S (p_i th)) (nth n0 (p_queue pv) []) ++ concat (skipn (S n0) (p_queue pv))) = b :: R).
        { rewrite <- HU. change (?a :: ?x ++ ?y) with ((a :: x) ++ y). apply (f_equal (fun z => z ++ concat (skipn (S n0) (p_queue pv)))). symmetry. exact Es. }
        injection HU2 as Eb El. split; [rewrite (nth_error_nth' _ 0%N L), Eb; reflexivity|]. split; [exact El|].
        intros pv' th' g H. replace (moved th (S n0) (p_i th)) with th in H; [exact H|]. destruct th; cbn in *; subst; reflexivity.
      * assert (HU2 : concat (skipn (S n0) (p_queue pv)) = b :: R). { rewrite <- HU. rewrite (skipn_all2 (n:=p_i th)) by exact L. reflexivity. }
        assert (Hl : S n0 < length (p_queue pv)). { destruct (Nat.lt_ge_cases (S n0) (length (p_queue pv))) as [L2|L2]; [exact L2|]. rewrite skipn_all2 in HU2 by exact L2. discriminate. }
        destruct (IH (moved th (S (S n0)) 0)) as (m & i & d & E1 & E2 & E3 & E4); [cbn; lia|cbn; lia|exact Hty| |].
        -- cbn [moved set_i set_curr p_curr p_i p_headlen unread rest_at]. rewrite <- HU2. symmetry. etransitivity; [apply (f_equal (@concat N)); exact (P_Raw.skipn_cons_nth [] (S n0) (p_queue pv) Hl)|]. reflexivity.
        -- exists m, i, d. repeat (split; [assumption|]). intros pv' th' g H. specialize (E4 pv' th' g). change (moved (moved th (S (S n0)) 0) (S m) i) with (moved th (S m) i) in E4. specialize (E4 H).
           refine (lsteps_app _ _ _ _ _ 0 0 LOuter _ _ 0 0 _ _ _).
           ++ apply ls_one. unfold local_step. rewrite Hty. unfold from_step, curr_len. rewrite Ec, Em. cbn [option_map]. replace (p_i th <? length (nth n0 (p_queue pv) [])) with false by lia. reflexivity.
           ++ refine (lsteps_app _ _ _ _ _ 0 0 LInner _ _ 0 0 _ _ E4). apply ls_one. unfold local_step. rewrite Hty. unfold from_step. rewrite Ec. apply Nat.ltb_lt in Hl. rewrite Hl. cbv zeta. match goal with |- context [p_curr (set_i P th ?y)] => change (p_curr (set_i P th y)) with (p_curr th) end. rewrite Ec. reflexivity.
Qed.

Notation cs p pb := [set_priv A p; set_priv B pb].
Lemma get0 b : (b < 256)%N -> get_offset s0 b = Some 1%nat.
Proof.
  intros H. unfold get_offset, s0. cbn [t_beg t_end t_kids]. replace ((0 <=? b)%N && (b <? 257)%N) with true by lia. rewrite N.sub_0_r.
  apply P_Callback.nth_error_repeat. lia.
Qed.
Lemma b_feed S off fl p pb i ba hl md fp out tl (pv : ephase) m d b : nth_error (p_queue pv) m = Some d -> nth_error d i = Some b -> (b < 256)%N ->
  (S = s0 /\ fl = false) \/ (S = with_status s1 CONTINUE /\ off = 1 /\ fl = true) ->
  local_step pv (mkEp P FROM (cs p pb) 0 (Datatypes.S m) i ba hl md S off false fp fl out tl) LInner =
    LRes pv (mkEp P FROM (cs p pb) 0 (Datatypes.S m) i ba hl md s1 1 false fp fl out tl) 0 0 (Stay LX).
Proof.
  intros Hm Hi Hb HS. unfold local_step. cbn [p_type p_state]. unfold from_step, curr_len, curr_node, this_codec. cbn [p_curr p_i p_codecs p_index nth_error]. rewrite Hm. cbn [option_map].
  assert (Hlt : i < length d) by (apply nth_error_Some; congruence). apply Nat.ltb_lt in Hlt. rewrite Hlt, Hi. unfold feed. cbn [p_state e_tab set_priv].
  destruct HS as [(-> & ->)|(-> & -> & ->)].
  - rewrite (get0 b Hb), HA. reflexivity.
  - assert (E : get_offset (with_status s1 CONTINUE) b = Some 0). { unfold get_offset. cbn. replace (65535 <=? b)%N with false by lia. reflexivity. } rewrite E. cbn [p_floop p_offset]. rewrite HA. reflexivity.
Qed.
Lemma b_call fl p pb i ba hl md fp out (pv : ephase) m d b p' st o : nth_error (p_queue pv) m = Some d -> nth_error d i = Some b -> k p b = (p', st, o) ->
  local_step pv (mkEp P FROM (cs p pb) 0 (S m) i ba hl md s1 1 false fp fl out (length out)) LX =
    LRes pv (mkEp P FROM (cs p' pb) 0 (S m) i ba hl md (with_status s1 st) 1 false fp true (out ++ o) (length (out ++ o))) 0 0 (Stay LX).
Proof.
  intros Hm Hi HK. unfold local_step. cbn [p_type p_state s1 t_status from_step]. unfold call_cb, this_codec, curr_node. cbn [p_curr p_codecs p_index nth_error set_priv e_conv]. rewrite Hf, Hm. cbn [e_priv set_priv p_i p_state t_data].
  rewrite (Hk p d i _ b Hi), HK. cbn [fst snd]. rewrite app_tail_end by reflexivity. reflexivity.
Qed.
Lemma b_commit p pb ix i ba hl md s off fp fl out (pv : ephase) m (ds : list datum) : nth_error (p_queue pv) m <> None ->
  from_commit P pv (mkEp P FROM (cs p pb) ix (S m) i ba hl md s off false fp fl out (length out)) ds =
    LRes (set_queue P pv (skipn m (p_queue pv)) (p_tail pv - m)) (mkEp P FROM (cs p pb) 0 0 i 0 (S i) [] s0 0 false false false (out ++ ds) (length (out ++ ds))) 0 0 GNext.
Proof.
  intros Hm. unfold from_commit. rewrite app_tail_end by reflexivity. cbn -[reset app]. unfold reset. cbn -[read_state app star_table]. rewrite HA. reflexivity.
Qed.
Lemma b_go_commit x' pb ix s off fp fl ba hl md out i (pv th : ephase) m d ds o : p_tail pv = length (p_queue pv) -> nth_error (p_queue pv) m = Some d ->
  p_type th = FROM -> length (p_codecs th) = 2 -> out = p_queue th ++ o ->
  lsteps pv th LInner pv (mkEp P FROM (cs x' pb) ix (S m) i ba hl md s off false fp fl out (length out)) 0 0 (Stay LX) ->
  (t_status s = MATCH /\ ds = t_data s) \/ (t_status s = NEXTPHASE /\ ds = []) ->
  steps_on brep pv th (o ++ ds) (x', true) (rest_at (p_queue pv) (S m) (S i)) LInner.
Proof.
  intros Ht Hm Hty Hlc Hqt Hls Hs. destruct (after_commit (p_queue pv) m d i Hm) as [Hne HU].
  exists (set_queue P pv (skipn m (p_queue pv)) (p_tail pv - m)), (mkEp P FROM (cs x' pb) 0 0 i 0 (S i) [] s0 0 false false false (out ++ ds) (length (out ++ ds))), GNext.
  assert (E : local_step pv (mkEp P FROM (cs x' pb) ix (S m) i ba hl md s off false fp fl out (length out)) LX =
    LRes (set_queue P pv (skipn m (p_queue pv)) (p_tail pv - m)) (mkEp P FROM (cs x' pb) 0 0 i 0 (S i) [] s0 0 false false false (out ++ ds) (length (out ++ ds))) 0 0 GNext).
  { unfold local_step. cbn [p_type p_state from_step]. destruct Hs as [[Hs ->]|[Hs ->]]; rewrite Hs; apply b_commit; rewrite Hm; discriminate. }
  split; [|split; [|split; [|split; [|split; [|split; [|split; [|split; [|split; [|split; [|split]]]]]]]]]].
  - refine (lsteps_app _ _ _ _ _ 0 0 _ _ _ 0 0 _ _ _); [exact Hls|]. apply ls_one. exact E.
  - unfold same_ctl. destruct pv; reflexivity.
  - split; [rewrite Hty; reflexivity|]. split; [rewrite Hty; congruence|rewrite Hlc; reflexivity].
  - cbn. rewrite skipn_length, Ht. reflexivity.
  - exact Hne.
  - cbn. lia.
  - exact I.
  - exact HU.
  - exists pb, 0, i, 0, (S i), [], (out ++ ds), (length (out ++ ds)). cbn [snd fst]. split; [reflexivity|]. cbn [p_queue set_queue]. exact HU.
  - cbn. rewrite Hqt, app_assoc. reflexivity.
  - reflexivity.
  - auto.
Qed.
Lemma b_go_on x' pb off ba hl md out i (pv th : ephase) m d o : p_tail pv = length (p_queue pv) -> nth_error (p_queue pv) m = Some d ->
  p_type th = FROM -> length (p_codecs th) = 2 -> out = p_queue th ++ o -> off = 1 ->
  lsteps pv th LInner pv (mkEp P FROM (cs x' pb) 0 (S m) (S i) ba hl md (with_status s1 CONTINUE) off false true true out (length out)) 0 0 (Stay LInner) ->
  steps_on brep pv th o (x', false) (rest_at (p_queue pv) (S m) (S i)) LInner.
Proof.
  intros Ht Hm Hty Hlc Hqt Ho Hls. subst off. assert (Hlt : m < length (p_queue pv)) by (apply nth_error_Some; congruence).
  eexists pv, _, (Stay LInner). split; [exact Hls|]. split; [apply same_ctl_refl|]. split; [split; [rewrite Hty; reflexivity|]; split; [rewrite Hty; congruence|rewrite Hlc; reflexivity]|].
  split; [exact Ht|]. split; [intros E; rewrite E in Hlt; cbn in Hlt; lia|]. split; [cbn; lia|]. split; [cbn; lia|]. split; [reflexivity|].
  split; [exists pb, (S m), (S i), ba, hl, md, out, (length out); reflexivity|]. split; [cbn; exact Hqt|]. split; [reflexivity|auto].
Qed.
Lemma b_step : forall x b x' o, btr x b = Some (x', o) -> forall (pv th : ephase) m i d, p_tail pv = length (p_queue pv) -> p_headlen pv = 0 -> p_tail th = length (p_queue th) ->
  brep x (p_queue pv) (b :: rest_at (p_queue pv) (S m) (S i)) th -> p_curr th = S m -> p_i th = i -> nth_error (p_queue pv) m = Some d -> nth_error d i = Some b ->
  steps_on brep pv th o x' (rest_at (p_queue pv) (S m) (S i)) LInner.
Proof.
  intros [p z] b x' o HT pv th m i d Ht Hh Htl (pb & cu & i0 & ba & hl & md & out & tl & Hr) Ec Ei Hm Hb. unfold btr in HT. cbn [fst snd] in *.
  destruct (b <? 256)%N eqn:Eb; [|discriminate]. assert (Hb6 : (b < 256)%N) by lia. destruct (k p b) as [[p' st] o1] eqn:EK.
  assert (Hsh : exists S off fp fl, th = mkEp P FROM (cs p pb) 0 (Datatypes.S m) i ba hl md S off false fp fl out (length out) /\ ((S = s0 /\ fl = false) \/ (S = with_status s1 CONTINUE /\ off = 1 /\ fl = true))).
  { destruct z; [destruct Hr as [Hr _]|]; subst th; cbn in Ec, Ei, Htl; subst; eexists _, _, _, _; (split; [reflexivity|]); auto. }
  destruct Hsh as (S & off & fp & fl & Eth & HS).
  pose proof (b_feed S off fl p pb i ba hl md fp out (length out) pv m d b Hm Hb Hb6 HS) as E1.
  pose proof (b_call fl p pb i ba hl md fp out pv m d b p' st o1 Hm Hb EK) as E2.
  assert (E12 : lsteps pv th LInner pv (mkEp P FROM (cs p' pb) 0 (Datatypes.S m) i ba hl md (with_status s1 st) 1 false fp true (out ++ o1) (length (out ++ o1))) 0 0 (Stay LX)).
  { rewrite Eth. refine (lsteps_app _ _ _ _ _ 0 0 _ _ _ 0 0 _ _ _); [apply ls_one; exact E1|apply ls_one; exact E2]. }
  assert (T1 : p_type th = FROM) by (rewrite Eth; reflexivity). assert (T2 : length (p_codecs th) = 2) by (rewrite Eth; reflexivity). assert (T3 : p_queue th = out) by (rewrite Eth; reflexivity).
  destruct st; try discriminate HT.
  - injection HT as <- <-. eapply b_go_on; [exact Ht|exact Hm|exact T1|exact T2|rewrite T3; reflexivity|reflexivity|].
    refine (lsteps_app _ _ _ _ _ 0 0 _ _ _ 0 0 _ E12 _). apply ls_one. reflexivity.
  - destruct z; [|discriminate]. destruct Hr as [Hr HU]. unfold fallb in HT. destruct (next_state (e_tab B) root2 b) as [s|] eqn:En; [|discriminate]. destruct (t_status s) eqn:Es; try discriminate. injection HT as <- <-.
    set (th2 := mkEp P FROM (cs p' pb) 1 0 hl ba hl md root2 1 false false false (out ++ o1) (length (out ++ o1))).
    assert (Ed : lsteps pv th LInner pv th2 0 0 (Stay LInner)).
    { refine (lsteps_app _ _ _ _ _ 0 0 _ _ _ 0 0 _ E12 _). refine (lsteps_app _ _ _ _ _ 0 0 LDead _ _ 0 0 _ _ _); [apply ls_one; reflexivity|]. apply ls_one.
      unfold local_step. cbn [p_type p_state]. unfold from_step, from_dead. cbn -[read_state app]. rewrite HB. reflexivity. }
    destruct (walk_to pv b (rest_at (p_queue pv) (Datatypes.S m) (Datatypes.S i)) Hh (length (p_queue pv)) th2) as (m' & i' & d' & W1 & W2 & W3 & W4); [cbn; lia|cbn; lia|reflexivity|exact HU|].
    rewrite <- W3. unfold next_state in En. destruct (get_offset root2 b) as [[|n]|] eqn:Eg; try discriminate.
    eapply (b_go_commit p' pb 1 s (Datatypes.S n) false false ba hl md (out ++ o1) i' pv th m' d' (t_data s) o1); [exact Ht|exact W1|exact T1|exact T2|rewrite T3; reflexivity| |left; split; [exact Es|reflexivity]].
    refine (lsteps_app _ _ _ _ _ 0 0 _ _ _ 0 0 _ Ed _). apply W4. apply ls_one. change (moved th2 (Datatypes.S m') i') with (mkEp P FROM (cs p' pb) 1 (Datatypes.S m') i' ba hl md root2 1 false false false (out ++ o1) (length (out ++ o1))). unfold local_step. cbn [p_type p_state]. unfold from_step, curr_len, curr_node, this_codec. cbn [p_curr p_i p_codecs p_index nth_error]. rewrite W1. cbn [option_map].
    assert (Hlt : i' < length d') by (apply nth_error_Some; congruence). apply Nat.ltb_lt in Hlt. rewrite Hlt, W2. unfold feed. cbn [p_state e_tab set_priv]. rewrite Eg, En. reflexivity.
  - injection HT as <- <-. rewrite <- (app_nil_r o1). eapply (b_go_commit p' pb 0 _ _ _ _ ba hl md (out ++ o1) i pv th m d [] o1); [exact Ht|exact Hm|exact T1|exact T2|rewrite T3; reflexivity|exact E12|right; split; reflexivity].
Qed.

Lemma unread0_app (q ds : list (list N)) hl : (q = [] -> hl = 0) -> unread (q ++ ds) 0 0 hl = unread q 0 0 hl ++ concat ds.
Proof using.
  intros Hh. destruct q as [|d q]; cbn [app unread].
  - rewrite (Hh eq_refl). destruct ds as [|d ds]; reflexivity.
  - cbn [rest_at nth skipn]. rewrite concat_app, app_assoc. reflexivity.
Qed.
Variable cout : bool.
Hypothesis cout_ok : cout = true -> (forall p b, Forall ne (snd (k p b))) /\ (forall b ds, fallb b = Some ds -> Forall ne ds).
Definition byte_spec : pspec (P:=P) := mspec btr brep bacc cout.
Lemma byte_spec_ok : pspec_ok byte_spec.
Proof.
  apply mspec_ok.
  - intros [p [|]] q R th (? & ? & ? & ? & ? & ? & ? & ? & H); cbn [snd] in H; [destruct H as [H _]|]; subst; reflexivity.
  - intros [p [|]] q R th cu j (pb & ? & ? & ba & hl & md & out & tl & H); cbn [snd] in H; [destruct H as [H H2]|]; subst; exists pb, cu, j, ba, hl, md, out, tl; cbn [snd]; auto.
  - intros [p [|]] q R th th' (pb & cu & i & ba & hl & md & out & tl & H) Hc; cbn [snd] in H; [destruct H as [H H2]|]; rewrite Hc; subst th; eexists pb, cu, i, ba, hl, md, _, _; cbn [snd]; [split; [reflexivity|exact H2]|reflexivity].
  - intros [p [|]] q ds R th Hq (pb & cu & i & ba & hl & md & out & tl & H); cbn [snd] in H; [destruct H as [H H2]|]; exists pb, cu, i, ba, hl, md, out, tl; cbn [snd]; [split; [exact H|]|exact H].
    rewrite <- H2. apply unread0_app. intros E. rewrite <- (Hq E), H. reflexivity.
  - intros [p [|]] q th (? & ? & ? & ? & ? & ? & ? & ? & H) Ha; cbn [snd] in H; [destruct H as [H _]; subst; reflexivity|discriminate Ha].
  - exact b_step.
  - intros Hc [p z] b x' o. unfold btr. cbn [fst snd]. destruct (b <? 256)%N; [|discriminate]. destruct (cout_ok Hc) as (K1 & K2). specialize (K1 p b). destruct (k p b) as [[p' st] o1]. cbn [snd] in K1. destruct st; try discriminate.
    + intros H. injection H as <- <-. exact K1.
    + destruct z; [|discriminate]. destruct (fallb b) as [ds|] eqn:E; [|discriminate]. intros H. injection H as <- <-. apply Forall_app. split; [exact K1|]. apply (K2 b ds E).
    + intros H. injection H as <- <-. exact K1.
Qed.
Definition byte_rel (ps : list P) : Den (P:=P) := match ps with p :: _ => mden btr bacc (p, true) [] | [] => fun _ _ _ _ => False end.
Lemma star_root : read_state star_table 0 = Some s0. Proof using. vm_compute. reflexivity. Qed.
Lemma init_two (th0 th : ephase) c1 c2 r : init_phase P false th0 = Some th -> p_codecs th0 = [c1; c2] -> read_state (e_tab (init_codec c1)) 0 = Some r ->
  th = mkEp P (p_type th0) [init_codec c1; init_codec c2] 0 0 (p_i th0) (p_bak th0) 0 [] r 0 false false false [] 0.
Proof using.
  destruct th0 as [ty cs ix cu i ba hl md st off fm fp fl q tl]. cbn [p_codecs p_type p_i p_bak]. intros H -> Hr. unfold init_phase, reset in H. cbn -[read_state init_codec] in H. rewrite Hr in H. cbn -[init_codec] in H. injection H as <-. reflexivity.
Qed.
Lemma byte_start (pv th0 th : ephase) : p_type th0 = FROM -> shc [A; B] (p_codecs th0) -> init_phase P false th0 = Some th -> p_queue pv = [] -> p_tail pv = 0 -> p_headlen pv = 0 ->
  exists m, s_inv byte_spec false false pv th (byte_rel (map e_priv (p_codecs th))) m.
Proof.
  intros Hty Hsh Hi Q1 Q2 Q3.
  assert (EA : forall q, exists q', init_codec (set_priv A q) = set_priv A q') by (intros q0; unfold init_codec; cbn; destruct (e_init A) as [g|]; eexists; reflexivity).
  assert (EB : forall q, exists q', init_codec (set_priv B q) = set_priv B q') by (intros q0; unfold init_codec; cbn; destruct (e_init B) as [g|]; eexists; reflexivity).
  assert (HC : exists qa qb, p_codecs th0 = [set_priv A qa; set_priv B qb]).
  { inversion Hsh as [|? a ? l1 Ha Hsh1 E1 E2]. subst. inversion Hsh1 as [|? b ? l2 Hb Hsh2 E3 E4]. subst. inversion Hsh2. subst. destruct Ha as (qa & _ & ->). destruct Hb as (qb & _ & ->). exists qa, qb. reflexivity. }
  destruct HC as (qa & qb & HC). destruct (EA qa) as (qa' & Ea). destruct (EB qb) as (qb' & Eb).
  assert (Hth := init_two th0 th _ _ s0 Hi HC). rewrite Ea, Eb, Hty in Hth. cbn [e_tab set_priv] in Hth. rewrite HA in Hth. specialize (Hth star_root). clear Hi HC Hsh.
  generalize dependent (p_i th0). generalize (p_bak th0). intros ba i Hth. clear th0 Hty. subst th.
  cbn [p_codecs map e_priv set_priv byte_rel]. exists [0; 0; 0; 0]. unfold byte_spec, mspec. cbn [s_inv]. unfold minv. cbn [p_headlen p_curr p_i]. exists (qa', true), []. rewrite Q1, Q2. split; [reflexivity|]. split; [exact Q3|]. split; [reflexivity|]. split; [apply le_n|]. split; [intros _; exact I|]. split; [reflexivity|].
  split; [|split; [intros Y o e fz H; exact H|reflexivity]]. unfold brep. exists qb', 0, i, ba, 0, [], [], 0. cbn [snd fst]. split; reflexivity.
Qed.
Lemma byte_f_ok : f_ok (FGen FROM [A; B] byte_spec byte_rel).
Proof.
  cbn [f_ok]. split; [reflexivity|]. split; [exact byte_spec_ok|]. split.
  - exists A, [B]. split; [reflexivity|]. rewrite HA. discriminate.
  - intros pv th0 th. apply byte_start.
Qed.
End B.

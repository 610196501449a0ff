(** Tables of bonuses as codecs of the engine. *)
From Verif Require Import Base Types M_Engine M_Output M_Create M_Callback M_UTF8 M_UTF16 M_Modules M_Fallback M_Star M_Inter M_Stars M_Stage M_Bonus M_Count S_Session S_Unicode S_Rest S_Source S_Dict S_Table S_Convert S_Fallback S_Flow S_Transcode S_Stage S_Bonus S_Count S_Engine P_Trans P_Engine1 P_Engine2 P_Engine3 P_Engine4 P_Engine5 P_Engine6 P_Dict P_Convert P_Callback P_Session P_Session2 P_Session3 P_CbSession P_Ascii P_Charset P_Unicode P_Pair P_Shape P_Create P_UDA P_Escape2 P_Fallback P_Flow P_Flow2 P_Flow3 P_Flow4 P_Flow5 P_Flow6 P_Weak P_Stage P_Count P_Count2 P_Count3.
From Coq Require Import ZifyBool ZifyN ZifyNat.
Local Arguments nth_error : simpl never. Local Arguments read_state : simpl never.

(** ** The verdict of a bonus table *)
Fixpoint hit (D : dict) (w : list N) (d : list N) : option (list datum) :=
  match d with
  | [] => None
  | b :: d' => match lookup D (w ++ [b]) with Some o => Some o | None => hit D (w ++ [b]) d' end
  end.
Definition bsem (D : dict) (g : list datum -> list datum) : csem := fun pre =>
  match rev pre with
  | [] => VDead
  | d :: ri => let w := sepd (rev ri) in
               match hit D w d with
               | Some o => VMatch (g o)
               | None => if has_prefix D ((w ++ d) ++ [256%N]) then VCont else VDead
               end
  end.
Lemma bsem_snoc D g pre d : bsem D g (pre ++ [d]) = match hit D (sepd pre) d with Some o => VMatch (g o) | None => if has_prefix D ((sepd pre ++ d) ++ [256%N]) then VCont else VDead end.
Proof. unfold bsem. rewrite rev_app_distr. cbn [rev app]. rewrite rev_involutive. reflexivity. Qed.
Lemma hit_none D : forall d w, has_prefix D w = false -> hit D w d = None.
Proof.
  induction d as [|b d IH]; intros w H; cbn [hit]; [reflexivity|]. destruct (no_prefix_none _ _ H) as (_ & _ & HR). pose proof (HR [b]) as Hb. destruct (no_prefix_none _ _ Hb) as (-> & _ & _). apply IH. exact Hb.
Qed.
Lemma lookup_prefix D w o : lookup D w = Some o -> has_prefix D w = true.
Proof. intros H. destruct (has_prefix D w) eqn:E; [reflexivity|]. destruct (no_prefix_none _ _ E) as (H1 & _). congruence. Qed.
Lemma prefix_longer D w x r : has_prefix D (w ++ x :: r) = true -> has_longer D w = true.
Proof. intros H. apply has_prefix_spec in H. destruct H as (k & o & r2 & Hin & ->). apply has_longer_spec. exists ((w ++ x :: r) ++ r2), o, x, (r ++ r2). split; [exact Hin|]. rewrite <- app_assoc. reflexivity. Qed.
Lemma hit_key D z line : bonus_lines D -> forall a w, a <> [] -> lookup D (w ++ a) = Some line -> hit D w (a ++ z) = Some line.
Proof.
  intros HD. induction a as [|b a IH]; intros w Hne H; [contradiction|]. cbn [hit app]. destruct (lookup D (w ++ [b])) as [o|] eqn:E.
  - destruct a as [|c a]; [congruence|]. destruct (HD _ _ E) as (HL & _). apply lookup_prefix in H. replace (w ++ b :: c :: a) with ((w ++ [b]) ++ c :: a) in H by (rewrite <- app_assoc; reflexivity). apply prefix_longer in H. congruence.
  - destruct a as [|c a]; [congruence|]. apply IH; [discriminate|]. rewrite <- app_assoc. exact H.
Qed.
Lemma hit_some D : forall d w line, hit D w d = Some line -> exists a z, d = a ++ z /\ a <> [] /\ lookup D (w ++ a) = Some line.
Proof.
  induction d as [|b d IH]; intros w line H; cbn [hit] in H; [discriminate|]. destruct (lookup D (w ++ [b])) as [o|] eqn:E.
  - injection H as <-. exists [b], d. split; [reflexivity|]. split; [discriminate|exact E].
  - destruct (IH _ _ H) as (a & z & -> & _ & H2). exists (b :: a), z. split; [reflexivity|]. split; [discriminate|]. rewrite <- app_assoc in H2. exact H2.
Qed.
Lemma hit_before D w p x r : bonus_lines D -> has_prefix D (w ++ p ++ x :: r) = true -> hit D w p = None.
Proof.
  intros HD H. destruct (hit D w p) as [o|] eqn:E; [|reflexivity]. destruct (hit_some _ _ _ _ E) as (a & z & -> & _ & Hl). destruct (HD _ _ Hl) as (HL & _).
  rewrite <- !app_assoc in H. rewrite app_assoc in H. destruct (z ++ x :: r) as [|y l] eqn:Ez; [destruct z; discriminate|]. apply prefix_longer in H. congruence.
Qed.
Lemma sepd_app a b : sepd (a ++ b) = sepd a ++ sepd b. Proof. unfold sepd. rewrite map_app, concat_app. reflexivity. Qed.
Lemma scan_key D g line z rest a best : bonus_lines D -> a <> [] -> forall pre acc, lookup D (joined (acc ++ pre ++ [a])) = Some line ->
  scan (bsem D g) acc (pre ++ (a ++ z) :: rest) best = Some (length acc + length pre + 1, g line).
Proof.
  intros HD Ha. induction pre as [|p pre IH]; intros acc H; cbn [app scan]; rewrite bsem_snoc.
  - cbn [app] in H. rewrite joined_snoc in H. rewrite (hit_key D z line HD a _ Ha H). cbn [length]. replace (length acc + 0 + 1) with (S (length acc)) by lia. reflexivity.
  - assert (E : joined (acc ++ (p :: pre) ++ [a]) = sepd acc ++ p ++ 256%N :: sepd pre ++ a).
    { rewrite app_assoc, joined_snoc, sepd_app. unfold sepd at 2. cbn [map concat]. fold (sepd pre). rewrite <- !app_assoc. reflexivity. }
    pose proof (lookup_prefix _ _ _ H) as HP. rewrite E in HP. rewrite (hit_before _ _ _ _ _ HD HP).
    replace (has_prefix D ((sepd acc ++ p) ++ [256%N])) with true.
    2:{ symmetry. apply has_prefix_spec in HP. destruct HP as (k & o & r & Hin & ->). apply has_prefix_spec. exists ((sepd acc ++ p ++ 256%N :: sepd pre ++ a) ++ r), o, ((sepd pre ++ a) ++ r). split; [exact Hin|]. rewrite <- !app_assoc. cbn [app]. rewrite <- !app_assoc. reflexivity. }
    rewrite IH; [rewrite app_length; cbn [length]; replace (length acc + S (length pre) + 1) with (length acc + 1 + length pre + 1) by lia; reflexivity|]. rewrite <- app_assoc. exact H.
Qed.
Lemma scan_some D g : forall ds acc n o, scan (bsem D g) acc ds None = Some (n, o) -> exists line pre a z rest, ds = pre ++ (a ++ z) :: rest /\ a <> [] /\ lookup D (joined (acc ++ pre ++ [a])) = Some line.
Proof.
  induction ds as [|x ds IH]; intros acc n o H; cbn [scan] in H; [discriminate|]. rewrite bsem_snoc in H. destruct (hit D (sepd acc) x) as [line|] eqn:E.
  - destruct (hit_some _ _ _ _ E) as (a & z & -> & Ha & Hl). exists line, [], a, z, ds. split; [reflexivity|]. split; [exact Ha|]. cbn [app]. rewrite joined_snoc. exact Hl.
  - destruct (has_prefix D _); [|discriminate]. destruct (IH _ _ _ H) as (line & pre & a & z & rest & -> & Ha & Hl). exists line, (x :: pre), a, z, rest. split; [reflexivity|]. split; [exact Ha|]. rewrite <- app_assoc in Hl. exact Hl.
Qed.

(** ** The table *)
Lemma calls_read T o : read_state (calls T) o = option_map calls_st (read_state T o).
Proof. unfold read_state, calls. apply nth_error_map. Qed.
Lemma at_calls T w s : at_node T w s -> at_node T w (calls_st s).
Proof. intros (o & s0 & H). exists o, s0. exact H. Qed.
Lemma feed_calls T D w s off v : timpl T D -> at_node T w s ->
  exists s' off', feed1 (calls T) s off false v = Some (calls_st s', off') /\
    match walk T (w ++ [v]) with
    | WAt o => o = off' /\ has_prefix D (w ++ [v]) = true /\ at_node T (w ++ [v]) s' /\
        t_status s' = status_of (lookup D (w ++ [v])) (has_longer D (w ++ [v])) /\ (forall x, lookup D (w ++ [v]) = Some x -> t_data s' = x)
    | WDead => has_prefix D (w ++ [v]) = false /\ t_status s' = DEADEND
    | WUB => False
    end.
Proof.
  intros HT Hat. destruct (feed_node T D w s off v HT Hat) as (s' & off' & Hf & HC). exists s', off'. split; [|exact HC]. unfold feed1 in *.
  destruct (get_offset s v) as [n|]; [|discriminate]. cbv zeta in *. rewrite calls_read. destruct (read_state T _) as [s2|]; [|discriminate]. cbn [option_map]. injection Hf as -> ->. reflexivity.
Qed.
(** A leaf keeps its offset, whatever follows. *)
Lemma leaf_stays T D w s' off' : timpl T D -> at_node T w s' -> has_longer D w = false -> read_state (calls T) off' = Some (calls_st s') -> t_status (calls_st s') = SUBROUTINE ->
  forall d, bl (calls T) (calls_st s') off' true d = Some (calls_st s', off', true, false).
Proof.
  intros HT Hat HL HR HS. induction d as [|b d IH]; cbn [bl]; [reflexivity|].
  assert (E : feed1 (calls T) (calls_st s') off' true b = Some (calls_st s', off')).
  { destruct (feed_node T D w s' off' b HT Hat) as (s2 & o2 & Hf & HC). unfold feed1 in *. change (get_offset (calls_st s') b) with (get_offset s' b).
    destruct Hat as (o & s0 & Ho & Hs0 & Hb & He & Hk). assert (Hg : get_offset s' b = get_offset s0 b) by (unfold get_offset; rewrite Hb, He, Hk; reflexivity).
    unfold walk in *. rewrite walk_snoc, Ho, Hs0, <- Hg in HC. destruct (get_offset s' b) as [[|n]|]; [cbv zeta; rewrite HR; reflexivity| |contradiction].
    destruct HC as (_ & HP & _). apply prefix_longer in HP. congruence. }
  rewrite E, HS. exact IH.
Qed.
Lemma bl_bonus T D : timpl T D -> bonus_lines D -> forall d w s off, at_node T w s -> d <> [] ->
  match bl (calls T) s off false d with
  | None => False
  | Some (_, _, _, true) => has_prefix D (w ++ d) = false /\ hit D w d = None
  | Some (s', off', lb', false) =>
      (t_status s' = SUBROUTINE /\ hit D w d = Some (t_data s')) \/
      (t_status s' = CONTINUE /\ lb' = false /\ hit D w d = None /\ at_node T (w ++ d) s')
  end.
Proof.
  intros HT HD. induction d as [|b d IH]; intros w s off Hat Hne; [contradiction|]. cbn [bl hit].
  destruct (feed_calls _ _ _ _ off b HT Hat) as (s' & off' & Hf & Hcase). rewrite Hf.
  destruct (walk T (w ++ [b])) as [o| |] eqn:EW; [|destruct Hcase as (Hnp & Hs)|contradiction].
  - destruct Hcase as (<- & Hp & Hat' & Hs & Hd). destruct (lookup D (w ++ [b])) as [x|] eqn:El.
    + destruct (HD _ _ El) as (HL & _). rewrite HL in Hs. cbn [status_of] in Hs. assert (HC : t_status (calls_st s') = SUBROUTINE) by (cbn; rewrite Hs; reflexivity). rewrite HC.
      assert (HR : read_state (calls T) o = Some (calls_st s')).
      { unfold feed1 in Hf. destruct (get_offset s b) as [n|]; [|discriminate]. cbv zeta in Hf. destruct (read_state (calls T) _) as [s2|] eqn:E2; [|discriminate]. injection Hf as -> Ho. rewrite <- Ho. exact E2. }
      rewrite (leaf_stays T D (w ++ [b]) s' o HT Hat' HL HR HC d). left. split; [exact HC|]. cbn. rewrite (Hd x eq_refl). reflexivity.
    + destruct (prefix_cases _ _ Hp) as [H|H]; [congruence|]. rewrite H in Hs. cbn [status_of] in Hs. assert (HC : t_status (calls_st s') = CONTINUE) by (cbn; rewrite Hs; reflexivity). rewrite HC.
      replace (w ++ b :: d) with ((w ++ [b]) ++ d) by (rewrite <- app_assoc; reflexivity).
      destruct d as [|b2 d]; [cbn [bl hit]; right; rewrite app_nil_r; split; [exact HC|]; split; [reflexivity|]; split; [reflexivity|apply at_calls; exact Hat']|].
      apply IH; [apply at_calls; exact Hat'|discriminate].
  - replace (t_status (calls_st s')) with DEADEND by (cbn; rewrite Hs; reflexivity). destruct (no_prefix_none _ _ Hnp) as (H1 & _ & HR). split.
    + specialize (HR d). rewrite <- app_assoc in HR. exact HR.
    + rewrite H1. apply hit_none. exact Hnp.
Qed.

(** ** The module and a marking one *)
Definition ber (d : datum) : datum := match d with x :: r => if (1000 <=? x)%N then r else d | [] => [] end.
Definition btag (d : datum) : nat := match d with x :: _ => if (1000 <=? x)%N then N.to_nat (x - 1000) else 0 | [] => 0 end.
Notation bfix := (fixd ber btag).
Lemma nil_bfix : bfix []. Proof. split; reflexivity. Qed.
Lemma le_bfix d : le256 d -> bfix d.
Proof. destruct d as [|x d]; intros H; [apply nil_bfix|]. inversion H; subst. unfold fixd, ber, btag. destruct (N.leb_spec 1000 x); [lia|]. auto. Qed.
Lemma wl_bfix d : wl d -> bfix d.
Proof. destruct d as [|x d]; intros H; [apply nil_bfix|]. cbn in H. unfold fixd, ber, btag. destruct (N.leb_spec 1000 x); [lia|]. auto. Qed.
Definition bmark (sd : list datum) : list datum :=
  match sd with
  | (v :: _) :: x :: r => ((1000 + v)%N :: x) :: map (cons 1000%N) r
  | _ :: r => map (cons 1000%N) r
  | [] => []
  end.
Lemma plain_er r : map ber (map (cons 1000%N) r) = r.
Proof. rewrite map_map. rewrite <- (map_id r) at 2. apply map_ext. intros a. reflexivity. Qed.
Lemma plain_tags r : tags btag (map (cons 1000%N) r) = 0.
Proof. induction r as [|a r IH]; [reflexivity|]. exact IH. Qed.
Definition tbonus_cb (p : priv) (d : datum) (i : nat) (sd : list datum) : cbres priv :=
  match p with
  | PNum n => mkCb priv (cadd p (tags btag (bmark sd))) i NEXTPHASE (bmark sd)
  | _ => mkCb priv p i DEADEND []
  end.
Lemma bonus_er v x r : map ber (((1000 + v)%N :: x) :: map (cons 1000%N) r) = x :: r.
Proof. cbn [map]. rewrite plain_er. unfold ber at 1. replace (1000 <=? 1000 + v)%N with true by lia. reflexivity. Qed.
Lemma bonus_tags v x r : tags btag (((1000 + v)%N :: x) :: map (cons 1000%N) r) = N.to_nat v.
Proof. unfold tags. cbn [map list_sum fold_right]. fold (tags btag (map (cons 1000%N) r)). change (fold_right Nat.add 0 (map btag (map (cons 1000%N) r))) with (tags btag (map (cons 1000%N) r)). rewrite plain_tags. unfold btag. replace (1000 <=? 1000 + v)%N with true by lia. lia. Qed.
Lemma bonus_sim p d i sd : let g := bonus_cb p d i sd in let f := tbonus_cb p d i sd in
  cb_priv g = cb_priv f /\ cb_i g = cb_i f /\ cb_status g = cb_status f /\ cb_out g = map ber (cb_out f) /\ cb_priv f = cadd p (tags btag (cb_out f)).
Proof.
  cbv zeta. destruct p; try (cbn; auto 10; fail).
  all: try (unfold bonus_cb, tbonus_cb; destruct sd as [|[|v l] [|x r]]; cbn [cb_priv cb_i cb_status cb_out bmark]; rewrite ?bonus_er, ?bonus_tags, ?plain_er, ?plain_tags; cbn; rewrite ?N2Nat.id, ?N.add_0_r; auto 10; fail).
Qed.

Section One.
Variables (es : list sentry) (n0 : N).
Definition tbonus : ecodec priv := mkEc priv (calls (compiled es)) (Some tbonus_cb) None None (PNum n0).
Definition tbonus_spec : codec_spec (P:=priv) := mkKs (bsem (file_dict es) bmark) isnum (fun pre s off lb p => lb = false /\ at_node (compiled es) (sepd pre) s /\ isnum p).
Hypothesis HE : Forall entry_ok es.
Hypothesis HB : bonus_lines (file_dict es).
Lemma tbonus_ok : data_ok false tbonus tbonus_spec.
Proof using HE HB.
  pose proof (compiled_ok es HE) as HT. constructor.
  - destruct (ti_root _ _ HT) as (s0 & Hs0 & _). exists (calls_st s0). split; [cbn [e_tab tbonus]; rewrite calls_read, Hs0; reflexivity|]. intros off p Hp. split; [reflexivity|]. split; [exists 0, s0; cbn; auto|exact Hp].
  - intros pre s off lb p x (-> & Hat & Hp). split; [reflexivity|]. split; [apply at_node_status; exact Hat|exact Hp].
  - intros pre s off lb p d Hne (-> & Hat & Hp). pose proof (bl_bonus _ _ HT HB d _ _ off Hat Hne) as HBL. cbn [k_v k_clean k_St tbonus_spec e_tab tbonus e_conv]. rewrite bsem_snoc.
    destruct (bl (calls (compiled es)) s off false d) as [[[[s' off'] lb'] dead]|]; [|contradiction]. destruct dead.
    + destruct HBL as (HP & HH). rewrite HH. destruct (no_prefix_none _ _ HP) as (_ & _ & HR). rewrite HR. split; [reflexivity|exact Hp].
    + destruct HBL as [(HS & HH)|(HS & -> & HH & Hat')]; rewrite HS, HH.
      * exists tbonus_cb. split; [reflexivity|]. destruct Hp as (n & ->). cbn [tbonus_cb cb_priv cb_status cb_out cadd]. split; [eexists; reflexivity|reflexivity].
      * destruct (feed_calls _ _ _ _ off' 256%N HT Hat') as (s2 & off2 & Hf2 & Hcase). cbv zeta. rewrite Hf2.
        destruct (walk (compiled es) ((sepd pre ++ d) ++ [256%N])) as [o| |]; [|destruct Hcase as (Hnp & Hs2)|contradiction].
        -- destruct Hcase as (_ & Hp2 & Hat2 & Hs2 & _). rewrite Hp2. assert (HND : t_status (calls_st s2) <> DEADEND).
           { cbn. rewrite Hs2. destruct (prefix_cases _ _ Hp2) as [H|H]; [destruct (lookup _ _); [|congruence]; destruct (has_longer _ _); discriminate|]. rewrite H. destruct (lookup _ _); discriminate. }
           destruct (t_status (calls_st s2)); try contradiction; (split; [reflexivity|]; split; [reflexivity|]; split; [rewrite sepd_snoc; apply at_calls; exact Hat2|exact Hp]).
        -- replace (t_status (calls_st s2)) with DEADEND by (cbn; rewrite Hs2; reflexivity). rewrite Hnp. split; [reflexivity|exact Hp].
Qed.
Lemma tbonus_eof : eof_clean tbonus_spec. Proof. intros pre s off lb p _ (_ & _ & H). exact H. Qed.
Definition bks : list (codec_spec (P:=priv)) := [tbonus_spec].
Lemma bks_eof j k : nth_error bks j = Some k -> eof_clean k.
Proof. intros H. apply nth_error_In in H. destruct H as [<-|[]]. exact tbonus_eof. Qed.
Definition bspec := count_spec ber btag 0 cadd bks.
Definition brel (ps : list priv) : Den (P:=priv) := cden ber btag cadd bks (nth 0 ps PNil) [].
Definition bonus_fph : fphase (P:=priv) := FGen INTER [bonus_mod es n0] bspec brel.

Lemma bonus_csim p : csims ber btag 0 cadd [set_priv tbonus p] [set_priv (bonus_mod es n0) p].
Proof using.
  clear. split; [reflexivity|]. intros [|j] a b Ha Hb; [|destruct j; discriminate]. injection Ha as <-. injection Hb as <-. constructor; try reflexivity; [split; reflexivity| |].
  - cbn [set_priv e_tab tbonus]. unfold calls. apply Forall_map. eapply Forall_impl; [|apply compiled_data]. intros st H. cbn [calls_st t_data]. eapply Forall_impl; [|exact H]. apply le_bfix.
  - right. split; [reflexivity|]. eexists _, _. split; [reflexivity|]. split; [reflexivity|]. intros q d i sd. exact (bonus_sim q d i sd).
Qed.
Lemma bonus_evolves q : evolves (bonus_mod es n0) q -> isnum q.
Proof using.
  clear. induction 1 as [|f p Hf _ _|f p d i sd Hf _ (n & ->)|f p Hf _ _]; cbn in *; try discriminate; [eexists; reflexivity|].
  injection Hf as <-. destruct sd as [|[|v l] [|x r]]; cbn; eexists; reflexivity.
Qed.
Lemma bonus_fph_ok : f_ok bonus_fph.
Proof using HE HB.
  cbn [f_ok bonus_fph]. split; [reflexivity|]. split; [apply count_ok; [exact cadd_0|exact cadd_add|exact nil_bfix|exact bks_eof]|].
  destruct (codec_ok_root INTER _ _ tbonus_ok) as (st0 & Hst0 & _). cbn [e_tab tbonus] in Hst0.
  assert (Hfx : Forall bfix (t_data st0)).
  { unfold read_state, calls in Hst0. rewrite nth_error_map in Hst0. destruct (nth_error (compiled es) 0) as [s1|] eqn:E; [|discriminate]. injection Hst0 as <-. cbn [calls_st t_data]. apply nth_error_In in E. pose proof (compiled_data es) as HD. rewrite Forall_forall in HD. eapply Forall_impl; [|apply HD; exact E]. apply le_bfix. }
  split. { exists (bonus_mod es n0), []. split; [reflexivity|]. cbn [e_tab bonus_mod]. rewrite Hst0. discriminate. }
  intros pv th0 th Hty Hsh Hi Q1 Q2 Q3. destruct (p_codecs priv th0) as [|c0 [|c1 l]] eqn:Ec; [inversion Hsh| |inversion Hsh as [|? ? ? ? ? Hx]; inversion Hx].
  assert (Hc0 : shc [bonus_mod es n0] [c0]) by exact Hsh. inversion Hsh as [|? ? ? ? Hb _]; subst. destruct (init_codec_sc _ _ Hb) as (q & Hq & Eq). destruct (bonus_evolves q Hq) as (n & ->).
  unfold init_phase, reset in Hi. cbv zeta in Hi. cbn [M_Engine.set_codecs M_Engine.set_curr M_Engine.set_match_data M_Engine.set_headlen M_Engine.set_queue M_Engine.set_offset M_Engine.set_flags p_codecs] in Hi.
  rewrite Ec in Hi. cbn [map] in Hi. rewrite Eq, init_codec_set in Hi. change (e_priv (init_codec (set_priv (bonus_mod es n0) (PNum n)))) with (PNum n) in Hi. change (e_tab (set_priv (bonus_mod es n0) (PNum n))) with (calls (compiled es)) in Hi. rewrite Hst0 in Hi. cbn in Hi. injection Hi as <-. cbn [p_codecs].
  eexists. cbn [bspec count_spec s_inv]. unfold cinv.
  exists (mkEp priv (p_type priv th0) [set_priv tbonus (PNum n)] 0 0 (p_i priv th0) (p_bak priv th0) 0 [] st0 0 false false false [] 0), [set_priv (bonus_mod es n0) (PNum n)], (set_priv tbonus (PNum n)).
  split; [exact Hty|]. split; [reflexivity|]. split; [reflexivity|]. split.
  { constructor; cbn; [reflexivity|apply bonus_csim|constructor|exact Hfx]. }
  split; [reflexivity|]. exists [], []. split; [|split; [reflexivity|]].
  2:{ intros Y o e z HY. exact HY. }
  apply pinv_start with (set_priv tbonus (PNum n)) tbonus_spec; cbn [p_type p_codecs p_index p_state p_floop p_fmatch p_fpending p_curr p_headlen].
  + rewrite Q1. exact Q2.
  + rewrite Hty. constructor; [|constructor]. apply (codec_ok_priv INTER). exact tbonus_ok.
  + intros [|j] a k Ha Hk; [|destruct j; discriminate]. injection Ha as <-. injection Hk as <-. exists n. reflexivity.
  + reflexivity.
  + reflexivity.
  + exact Hst0.
  + reflexivity.
  + reflexivity.
  + reflexivity.
  + reflexivity.
  + intros j k Hj. lia.
  + auto.
  + rewrite Hty, Q1. reflexivity.
Qed.

(** The marked run of the phase. *)
Lemma first_key ds line rest : key_in (file_dict es) ds line rest -> exists n, skipn n ds = rest /\ S_Engine.first_match (sems bks) ds = Some (n, bmark line).
Proof using HB.
  intros (pre & a & z & -> & Ha & Hl). exists (S (length pre)). split.
  - rewrite skipn_app. rewrite skipn_all2 by lia. replace (S (length pre) - length pre) with 1 by lia. reflexivity.
  - unfold sems, bks. cbn [map k_v tbonus_spec S_Engine.first_match]. assert (HX := scan_key _ bmark line z rest a None HB Ha pre [] Hl). unfold datum in *. rewrite HX. cbn [length]. replace (0 + length pre + 1) with (S (length pre)) by lia. reflexivity.
Qed.
Lemma first_other ds : (forall line rest, ~ key_in (file_dict es) ds line rest) -> first_match (sems bks) ds = None.
Proof using.
  clear. intros H. unfold sems, bks. cbn [map k_v tbonus_spec S_Engine.first_match]. destruct (scan _ [] ds None) as [[n o]|] eqn:E; [|reflexivity]. destruct (scan_some _ _ _ _ _ _ E) as (line & pre & a & z & rest & -> & Ha & Hl).
  exfalso. apply (H line rest). exists pre, a, z. auto.
Qed.
Lemma key_bytes ds line rest : key_in (file_dict es) ds line rest -> Forall (Forall (fun b => (b < 256)%N)) line.
Proof using HE.
  intros (pre & a & z & _ & _ & Hl). revert Hl. unfold file_dict. generalize (joined (pre ++ [a])). intros w Hl. revert w Hl. revert HE. clear. intros HE. induction HE as [|e l He Hr IH]; intros w Hl; [discriminate|]. cbn [flat_map] in Hl.
  assert (HX : forall ws D, lookup (map (fun w => (w, en_out e)) ws ++ D) w = Some line -> line = en_out e \/ lookup D w = Some line).
  { induction ws as [|x ws IHw]; intros D H; [right; exact H|]. cbn [map app lookup] in H. destruct (eqb_syms x w); [injection H as <-; left; reflexivity|apply IHw; exact H]. }
  destruct (HX _ _ Hl) as [->|H]; [apply (eo_data e He)|exact (IH Hr w H)].
Qed.
Lemma scored_trans ds mid k : scored (file_dict es) ds mid k -> Forall wl ds ->
  vis ber (fst (trans KInter (sems bks) ds)) = some_data mid /\ N.of_nat (tags btag (fst (trans KInter (sems bks) ds))) = k.
Proof using HE HB.
  induction 1 as [|ds v o rest out k Hc H IH|x ds out k Hu H IH]; intros HW.
  - split; reflexivity.
  - destruct (first_key _ _ _ Hc) as (n & En & EM). rewrite (trans_match _ _ _ _ _ EM), En. cbn [fst].
    assert (HW' : Forall wl rest) by (rewrite <- En; apply Forall_skipn; exact HW). destruct (IH HW') as (I1 & I2). destruct (trans KInter _ rest) as [o1 e1]. cbn [fst] in *.
    destruct Hc as (pre & a & z & _ & _ & Hl). destruct (HB _ _ Hl) as (_ & v' & x & r & E). injection E as -> ->.
    change (bmark ([v'] :: x :: r)) with (((1000 + v')%N :: x) :: map (cons 1000%N) r).
    rewrite vis_app, tags_app, bonus_tags, I1. split; [|lia]. unfold vis. rewrite bonus_er. unfold some_data. rewrite filter_app. reflexivity.
  - inversion HW as [|? ? HX HW']; subst. rewrite (trans_fail_inter _ _ _ (first_other _ Hu)).
    destruct (IH HW') as (I1 & I2). destruct (trans KInter _ ds) as [o1 e1]. cbn [fst] in *.
    pose proof (wl_bfix _ HX) as (F1 & F2). change (x :: o1) with ([x] ++ o1). rewrite vis_app, tags_app, I1. split.
    + unfold vis. cbn [map filter]. rewrite F1. destruct x as [|b x]; reflexivity.
    + unfold tags at 1. cbn [map list_sum fold_right]. rewrite F2. cbn. exact I2.
Qed.
Lemma scored_wl ds mid k : scored (file_dict es) ds mid k -> Forall wl ds -> Forall wl mid.
Proof using HE HB.
  induction 1 as [|ds v o rest out k Hc H IH|x ds out k Hu H IH]; intros HF; [constructor| |inversion HF; subst; constructor; auto].
  pose proof (key_bytes _ _ _ Hc) as HK. destruct (first_key _ _ _ Hc) as (n & <- & _). inversion HK; subst. apply Forall_app. split; [apply bytes_wl; assumption|]. apply IH. apply Forall_skipn. exact HF.
Qed.
Lemma bonus_rel s p ds mid e z : Forall wl ds -> run_stage s p (SBonus es n0) ds mid e z -> 1 = length (match nth_error (i_phases priv s) p with Some th => p_codecs priv th | None => [] end) ->
  phase_rel s p bonus_fph (some_data ds) (some_data mid) e z /\ Forall wl mid.
Proof using HE HB.
  intros HW (-> & n & k & (th & pre & cd & E1 & E2 & E3) & HP & ->) HL. rewrite E1, E2 in HL. pose proof (some_ne ds HW) as HN.
  assert (HW2 : Forall wl (some_data ds)) by (eapply Forall_impl; [|exact HN]; intros [|b d] Hd; [exact I|exact Hd]).
  split; [|eapply scored_wl; eassumption]. cbn [phase_rel bonus_fph]. rewrite E1, E2.
  assert (Hpre : pre = []) by (destruct pre as [|y pre]; [reflexivity|]; cbn in HL; rewrite app_length in HL; cbn in HL; lia). subst pre.
  unfold brel. change (nth 0 (map e_priv ([] ++ [cd])) PNil) with (e_priv cd). rewrite E3. unfold cden. cbn [app].
  assert (EI : filter nonempty (some_data ds) = some_data ds) by apply filter_idem. rewrite EI.
  destruct (scored_trans _ _ _ HP HW2) as (T1 & T2). split; [eapply Forall_impl; [|exact HW2]; apply wl_bfix|]. split; [reflexivity|]. split; [symmetry; exact T1|]. cbn [cadd]. rewrite T2. reflexivity.
Qed.
Lemma bonus_fin th q : s_fin (f_spec bonus_fph) th (Some q) -> exists pre cd, p_codecs priv th = pre ++ [cd] /\ e_priv cd = q.
Proof using.
  clear. intros (HL & c & Hc & Hq). cbn in Hc, HL. injection Hq as ->. destruct (p_codecs priv th) as [|x [|y l]]; try discriminate. cbn in Hc. injection Hc as ->. exists [], c. auto.
Qed.
End One.

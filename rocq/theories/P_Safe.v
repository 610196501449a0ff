(** Safety and termination of every call on conversions made of tables: one phase. *)
From Verif Require Import Base Types M_Engine S_Engine S_Dict S_Table P_Engine1 P_Engine2 P_Engine3 P_Dict P_Output2 P_Session2.
From Coq Require Import ZifyBool ZifyN ZifyNat.

Section E.
Context {P : Type}.
Notation ecodec := (ecodec P). Notation ephase := (ephase P). Notation inst := (inst P).
Arguments read_state : simpl never. Arguments Nat.ltb : simpl never. Arguments Nat.sub : simpl never.

Definition okst (s : tstate) : Prop :=
  match t_status s with DEADEND | CONTINUE | MATCH => True | SUBMATCH => t_data s <> [] | _ => False end.
Definition tok (c : ecodec) (D : dict) : Prop := timpl (e_tab P c) D /\ sub_nonempty D.
Definition noded (c : ecodec) (s : tstate) : Prop := exists w, at_node (e_tab P c) w s.

Lemma noded_root c D : tok c D -> exists s, read_state (e_tab P c) 0 = Some s /\ noded c s.
Proof. intros ((H & _) & _). destruct H as (s & Hs & _). exists s. split; [exact Hs|]. exists [], 0, s. cbn. auto. Qed.

Lemma feed_safe c D th v : tok c D -> noded c (p_state P th) -> p_floop P th = false ->
  exists s' off', feed P c th v = Some (set_state P (set_offset P th off') s') /\ noded c s' /\ okst s'.
Proof.
  intros (HT & HS) (w & Hat) Hf. destruct (feed_node _ _ _ _ (p_offset P th) v HT Hat) as (s' & off' & Hfd & Hcase).
  exists s', off'. split.
  { unfold feed, feed1 in *. rewrite Hf. destruct (get_offset (p_state P th) v) as [nx|]; [|discriminate]. destruct (read_state (e_tab P c) _); [|discriminate]. injection Hfd as <- <-. reflexivity. }
  destruct (walk (e_tab P c) (w ++ [v])) as [o| |] eqn:Ew; [| |contradiction].
  - destruct Hcase as (_ & Hp & Hat' & Hst & Hd). split; [exists (w ++ [v]); exact Hat'|]. unfold okst. rewrite Hst.
    destruct (lookup D (w ++ [v])) as [x|] eqn:El; destruct (has_longer D (w ++ [v])) eqn:Eh; cbn; auto. rewrite (Hd x eq_refl). eapply HS; eassumption.
  - destruct Hcase as (_ & Hst). split; [|unfold okst; rewrite Hst; exact I].
    destruct Hat as (o & s0 & H1 & H2 & H3 & H4 & H5). unfold walk in Ew. rewrite walk_snoc in Ew. unfold walk in H1. rewrite H1, H2 in Ew. destruct (get_offset s0 v) as [[|]|] eqn:Eg; try discriminate.
    unfold feed1 in Hfd. assert (Eg' : get_offset (p_state P th) v = Some 0) by (rewrite <- Eg; unfold get_offset; rewrite H3, H4, H5; reflexivity). rewrite Eg' in Hfd.
    destruct (read_state (e_tab P c) 0) as [r|] eqn:Er; [|discriminate]. injection Hfd as <- <-. exists [], 0, r. cbn. auto.
Qed.

Lemma bytes_safe c D : tok c D -> forall bs th, noded c (p_state P th) -> p_floop P th = false ->
  exists s' off' i' b, bytes_loop P c th bs = Some (set_i P (set_state P (set_offset P th off') s') i', b) /\ noded c s' /\ (bs <> [] -> okst s') /\ (bs = [] -> s' = p_state P th /\ b = false).
Proof.
  intros HT. induction bs as [|x bs IH]; intros th Hn Hf.
  - exists (p_state P th), (p_offset P th), (p_i P th), false. cbn. split; [destruct th; reflexivity|]. repeat split; auto. congruence.
  - cbn [bytes_loop]. destruct (feed_safe c D th x HT Hn Hf) as (s1 & o1 & -> & Hn1 & Ho1). cbn [p_state set_state].
    assert (Hrec : exists s' off' i' b, bytes_loop P c (set_i P (set_state P (set_offset P th o1) s1) (S (p_i P (set_state P (set_offset P th o1) s1)))) bs = Some (set_i P (set_state P (set_offset P th off') s') i', b) /\ noded c s' /\ okst s').
    { destruct (IH (set_i P (set_state P (set_offset P th o1) s1) (S (p_i P (set_state P (set_offset P th o1) s1)))) Hn1 Hf) as (s' & o' & i' & b & E & Hn' & Ho' & He').
      exists s', o', i', b. rewrite E. split; [destruct th; reflexivity|]. split; [exact Hn'|]. destruct bs; [|apply Ho'; discriminate]. destruct (He' eq_refl) as (-> & _). exact Ho1. }
    destruct Hrec as (s' & o' & i' & b & E & H1 & H2). unfold okst in Ho1. destruct (t_status s1) eqn:Es; try contradiction;
      try (exists s', o', i', b; rewrite E; repeat split; auto; discriminate).
    exists s1, o1, (p_i P th), true. split; [destruct th; reflexivity|]. repeat split; auto; [|discriminate..]. intros _. unfold okst. rewrite Es. exact I.
Qed.

(** ** The invariant of a phase [th] reading from [pv] *)
Definition base (th : ephase) : nat := if p_fmatch P th then p_bak P th else 1.
Definition isfrom (th : ephase) : bool := match p_type P th with FROM => true | _ => false end.
Definition curlen (pv th : ephase) : nat := match p_curr P th with O => 0 | S k => length (nth k (p_queue P pv) []) end.

Record sinv (Ds : list dict) (pv th : ephase) : Prop := {
  s_type : p_type P th = FROM \/ p_type P th = INTER \/ p_type P th = TO;
  s_codecs : Forall2 tok (p_codecs P th) Ds;
  s_idx : p_index P th < length (p_codecs P th);
  s_node : forall c, this_codec P th = Some c -> noded c (p_state P th);
  s_loop : p_floop P th = false;
  s_curr : p_curr P th <= length (p_queue P pv);
  s_match : p_fmatch P th = true -> p_match_data P th <> [] /\ 1 <= p_bak P th <= (if isfrom th then p_curr P th else S (p_curr P th));
  s_pend : p_fpending P th = true -> 1 <= p_curr P th /\ (isfrom th = true -> p_fmatch P th = false -> p_curr P th = 1 -> p_headlen P th < curlen pv th);
  s_head : isfrom th = true -> p_headlen P pv = 0;
  s_i : isfrom th = true -> p_curr P th = base th -> p_headlen P th <= p_i P th;
  s_tp : tail_ok pv;
  s_tt : tail_ok th
}.

Definition lcond (pc : lpc) (pv th : ephase) : Prop :=
  if isfrom th then
    match pc with
    | LOuter | LInner => True
    | LX => 1 <= p_curr P th /\ p_i P th < curlen pv th /\ okst (p_state P th)
    | LDead => p_fmatch P th = true \/ (1 <= p_curr P th /\ (p_curr P th = 1 -> p_headlen P th < curlen pv th))
    | LSep => False
    end
  else
    match pc with
    | LOuter => True
    | LX => t_status (p_state P th) = NOMATCH \/ (okst (p_state P th) /\ 1 <= p_curr P th /\ 1 <= curlen pv th /\ (p_fmatch P th = true -> p_bak P th <= p_curr P th))
    | LSep => 1 <= p_curr P th
    | LDead => p_fmatch P th = true \/ 1 <= p_curr P th
    | LInner => False
    end.
Definition gcond (g : lgoto) (pv th : ephase) : Prop := match g with Stay pc => lcond pc pv th | _ => True end.

Definition b2n (b : bool) : nat := if b then 1 else 0.
Definition mm (pv th : ephase) : list nat :=
  let q := p_queue P pv in let r := skipn (base th - 1) q in
  if isfrom th
  then [length r; length (hd [] r) - p_headlen P th; b2n (p_fmatch P th); length (p_codecs P th) - p_index P th; length q - p_curr P th; curlen pv th - p_i P th]
  else [length (filter nonempty r); b2n (p_fmatch P th); length q; length (p_codecs P th) - p_index P th; length q - p_curr P th; 0].

(** Steps that do not decrease [mm]. *)
Definition okrank (pc : lpc) (g : lgoto) (pv th : ephase) : Prop :=
  match pc, g with
  | LOuter, GBreak => length (p_queue P pv) <= p_curr P th
  | LInner, (Stay LX | Stay LOuter) | LX, (Stay LDead | Stay LOuter | Stay LSep | GNext) | LSep, (Stay LOuter | Stay LDead) => True
  | _, _ => False
  end.

Definition progress (Ds : list dict) (pv th : ephase) (pc : lpc) : Prop :=
  exists pv' th' ie oe g, local_step P pv th pc = LRes P pv' th' ie oe g /\ sinv Ds pv' th' /\ gcond g pv' th' /\
    pv' = set_queue P pv (p_queue P pv') (p_tail P pv') /\ (exists out, p_queue P th' = p_queue P th ++ out) /\
    p_type P th' = p_type P th /\ (isfrom th = false -> p_headlen P th' = p_headlen P th) /\
    (lex (mm pv' th') (mm pv th) \/ (mm pv' th' = mm pv th /\ p_queue P th' = p_queue P th /\ okrank pc g pv th)).

Lemma app_tail_eq (t : ephase) ds : tail_ok t -> app_tail P t ds = set_queue P t (p_queue P t ++ ds) (p_tail P t + length ds).
Proof. unfold tail_ok. intros H. destruct ds; cbn; [rewrite app_nil_r, Nat.add_0_r; destruct t; reflexivity|]. rewrite H, firstn_all. reflexivity. Qed.

Lemma this_ok Ds (th : ephase) : Forall2 tok (p_codecs P th) Ds -> p_index P th < length (p_codecs P th) -> exists c D, this_codec P th = Some c /\ tok c D.
Proof.
  intros HF Hi. unfold this_codec. destruct (nth_error (p_codecs P th) (p_index P th)) as [c|] eqn:E; [|apply nth_error_None in E; lia].
  destruct (Forall2_nth_l _ _ _ HF _ _ E) as (D & _ & HD). exists c, D. auto.
Qed.
Lemma reset_safe Ds (th : ephase) : Forall2 tok (p_codecs P th) Ds -> p_codecs P th <> [] ->
  exists s, reset P th = Some (set_state P (set_offset P (set_index P th 0) 0) s) /\ forall c, nth_error (p_codecs P th) 0 = Some c -> noded c s.
Proof.
  intros HF Hn. unfold reset. destruct (p_codecs P th) as [|c cs]; [congruence|]. inversion HF as [|? D ? ? HD]; subst. destruct (noded_root c D HD) as (s & -> & Hs). exists s. split; [reflexivity|]. intros c' E. injection E as <-. exact Hs.
Qed.

Lemma length_hd_skipn {A} (l : list (list A)) k : hd [] (skipn k l) = nth k l [].
Proof. revert k. induction l as [|x l IH]; intros [|k]; cbn; auto. Qed.
Lemma lex_le a b l l' : a <= b -> length l = length l' -> (a = b -> lex l l') -> lex (a :: l) (b :: l').
Proof. intros H Hl Hn. destruct (Nat.eq_dec a b) as [->|Hne]; [apply lex_next, Hn; reflexivity|apply lex_here; [lia|exact Hl]]. Qed.

Ltac proj := cbn [p_type p_codecs p_index p_curr p_i p_bak p_headlen p_match_data p_state p_offset p_fmatch p_fpending p_floop p_queue p_tail
  set_codecs set_index set_curr set_i set_bak set_headlen set_match_data set_state set_offset set_flags set_queue isfrom base curlen b2n this_codec tail_ok] in *.

Lemma from_dead_safe Ds pv th : sinv Ds pv th -> isfrom th = true -> lcond LDead pv th -> progress Ds pv th LDead.
Proof.
  intros HI Hty Hc. pose proof HI as [I1 I2 I3 I4 I5 I6 I7 I8 I9 I10 I11 I12]. unfold progress, local_step. assert (E : p_type P th = FROM) by (unfold isfrom in Hty; destruct (p_type P th); try discriminate; reflexivity).
  rewrite E. cbn [from_step]. unfold lcond in Hc. rewrite Hty in Hc. unfold from_dead. proj. 
  assert (Hnn : p_codecs P th <> []) by (destruct (p_codecs P th); [cbn in I3; lia|discriminate]).
  destruct (p_fmatch P th) eqn:Efm.
  - destruct (I7 eq_refl) as (Hmd & Hb). rewrite Hty in Hb. destruct (p_match_data P th) as [|m md] eqn:Em; [congruence|].
    unfold listfree. destruct (p_bak P th) as [|b] eqn:Eb; [lia|]. cbn [obind].
    rewrite app_tail_eq by exact I12. proj.
    edestruct (reset_safe Ds) as (s & -> & Hs); [| |cbn [obind ub_or]]; [exact I2|exact Hnn|].
    do 5 eexists. split; [reflexivity|]. split; [|split; [exact I|split; [reflexivity|split; [eexists; reflexivity|split; [exact E|split; [intros; congruence|]]]]]].
    + constructor; proj; rewrite ?E; auto; try discriminate; try lia.
      * unfold tail_ok in *. proj. rewrite skipn_length. lia.
      * unfold tail_ok in *. proj. rewrite app_length. cbn [length]. lia.
    + left. unfold mm, base, isfrom. proj. rewrite E, Efm, Eb. proj. replace (1 - 1) with 0 by lia. replace (S b - 1) with b by lia. cbn [skipn].
      apply lex_next, lex_next. apply lex_here; [cbn; lia|reflexivity].
  - destruct Hc as [Hc|(Hc1 & Hc2)]; [discriminate|].
    destruct (p_index P th <? codecn P _) eqn:Ei.
    + unfold codecn in Ei. proj. assert (Hlt : S (p_index P th) < length (p_codecs P th)) by lia. clear Ei.
      destruct (nth_error (p_codecs P th) (S (p_index P th))) as [c|] eqn:Ec; [|apply nth_error_None in Ec; lia]. destruct (Forall2_nth_l _ _ _ I2 _ _ Ec) as (D & _ & HD).
      destruct (noded_root _ _ HD) as (s & Hs & Hn). unfold this_codec. proj. rewrite Ec. cbn [obind]. rewrite Hs. cbn [obind ub_or].
      do 5 eexists. split; [reflexivity|]. split; [|split; [|split; [destruct pv; reflexivity|split; [exists []; rewrite app_nil_r; reflexivity|split; [exact E|split; [intros; congruence|]]]]]].
      * constructor; proj; unfold this_codec; proj; rewrite ?E; auto; try discriminate; try lia.
        -- intros c' Ec'. congruence.
      * unfold gcond, lcond, isfrom. proj. rewrite E. exact I.
      * left. unfold mm, base, isfrom. proj. rewrite E, Efm. apply lex_next, lex_next, lex_next. apply lex_here; [lia|reflexivity].
    + edestruct (reset_safe Ds (set_flags P th false false false)) as (s & -> & Hs); [exact I2|exact Hnn|]. cbn [obind]. proj. unfold listfree. destruct (p_curr P th) as [|b] eqn:Eb; [lia|]. cbn [obind ub_or].
      do 5 eexists. split; [reflexivity|]. split; [|split; [|split; [reflexivity|split; [exists []; rewrite app_nil_r; reflexivity|split; [exact E|split; [intros; congruence|]]]]]].
      * constructor; proj; rewrite ?E; auto; try discriminate; try lia.
        -- unfold tail_ok in *. proj. rewrite skipn_length. lia.
      * unfold gcond, lcond, isfrom. proj. rewrite E. exact I.
      * left. unfold mm, base, isfrom. proj. rewrite E, Efm. replace (1 - 1) with 0 by lia. cbn [skipn].
        apply lex_le; [rewrite skipn_length; lia|reflexivity|]. rewrite skipn_length. intros Hz. assert (b = 0) by lia. subst b. cbn [skipn].
        specialize (Hc2 eq_refl). unfold curlen in Hc2. rewrite Eb in Hc2. assert (Hc3 : p_headlen P th < length (hd [] (p_queue P pv))) by (destruct (p_queue P pv); exact Hc2). apply lex_here; [lia|reflexivity].
Qed.

Ltac normf th := repeat match goal with |- context[isfrom ?x] => tryif constr_eq x th then fail else change (isfrom x) with (isfrom th) end.
Lemma isfrom_type (th : ephase) : isfrom th = true -> p_type P th = FROM.
Proof. unfold isfrom. destruct (p_type P th); try discriminate; reflexivity. Qed.
Lemma codecs_nn Ds pv th : sinv Ds pv th -> p_codecs P th <> [].
Proof. intros HI. pose proof (s_idx _ _ _ HI). destruct (p_codecs P th); [cbn in *; lia|discriminate]. Qed.

Lemma nth_skipn_hd {A} (l : list (list A)) k : hd [] (skipn k l) = nth k l []. Proof. apply length_hd_skipn. Qed.

Lemma from_x_safe Ds pv th : sinv Ds pv th -> isfrom th = true -> lcond LX pv th -> progress Ds pv th LX.
Proof.
  intros HI Hty Hc. pose proof (codecs_nn _ _ _ HI) as Hnn. pose proof HI as [I1 I2 I3 I4 I5 I6 I7 I8 I9 I10 I11 I12]. pose proof (isfrom_type _ Hty) as E.
  unfold progress, local_step. rewrite E. cbn [from_step]. unfold lcond in Hc. rewrite Hty in Hc. destruct Hc as (Hc1 & Hci & Hst). rewrite Hty in I7.
  destruct (p_curr P th) as [|b] eqn:Eb; [lia|]. assert (Hcl : curlen pv th = length (nth b (p_queue P pv) [])) by (unfold curlen; rewrite Eb; reflexivity).
  assert (Hbase : base th <= S b) by (unfold base; destruct (p_fmatch P th); [destruct (I7 eq_refl); lia|lia]).
  assert (Hb1 : 1 <= base th) by (unfold base; destruct (p_fmatch P th); [destruct (I7 eq_refl); lia|lia]).
  assert (Hh : forall q, q = p_queue P pv -> length (hd [] (skipn b q)) = curlen pv th) by (intros q ->; rewrite Hcl; f_equal; apply nth_skipn_hd).
  specialize (Hh _ eq_refl).
  unfold okst in Hst. destruct (t_status (p_state P th)) eqn:Es; try contradiction.
  - (* CONTINUE *)
    do 5 eexists. split; [reflexivity|]. split; [|split; [|split; [destruct pv; reflexivity|split; [exists []; rewrite app_nil_r; reflexivity|split; [exact E|split; [intros; congruence|]]]]]].
    + constructor; normf th; rewrite ?Hty; proj; rewrite ?E; auto; try lia; unfold this_codec, base in *; proj; rewrite ?E, ?Eb in *; auto.
      * intros _. split; [lia|]. intros _ Ef Hz. unfold curlen. proj. rewrite Eb. rewrite Ef in I10. specialize (I10 Hty (eq_sym (eq_sym Hz))). rewrite <- Hcl. lia.
    + unfold gcond, lcond, isfrom. proj. rewrite E. exact I.
    + left. unfold mm, base, isfrom, curlen. proj. rewrite E, Eb. do 5 apply lex_next. apply lex_here; [lia|reflexivity].
  - (* DEADEND *)
    do 5 eexists. split; [reflexivity|]. split; [exact HI|]. split; [|split; [destruct pv; reflexivity|split; [exists []; rewrite app_nil_r; reflexivity|split; [exact E|split; [intros; congruence|right; split; [reflexivity|split; [reflexivity|exact I]]]]]]].
    unfold gcond, lcond. rewrite Hty. destruct (p_fmatch P th) eqn:Ef; [left; reflexivity|right]. split; [lia|]. rewrite Eb. intros Hz. unfold base in I10. rewrite Ef in I10. specialize (I10 Hty (eq_sym (eq_sym Hz))). lia.
  - (* MATCH *)
    unfold from_commit. rewrite app_tail_eq by exact I12. proj. rewrite Eb. unfold listfree. cbn [obind].
    edestruct (reset_safe Ds) as (s & -> & Hs); [| |cbn [obind ub_or]]; [exact I2|exact Hnn|].
    do 5 eexists. split; [reflexivity|]. split; [|split; [exact I|split; [reflexivity|split; [eexists; reflexivity|split; [exact E|split; [intros; congruence|]]]]]].
    + constructor; proj; rewrite ?E; auto; try discriminate; try lia.
      * unfold tail_ok in *. proj. rewrite skipn_length. lia.
      * unfold tail_ok in *. proj. rewrite app_length. lia.
    + left. unfold mm. unfold isfrom. proj. rewrite E. change (base (set_state P _ s)) with 1. replace (1 - 1) with 0 by lia. cbn [skipn].
      apply lex_le; [rewrite !skipn_length; lia|reflexivity|]. rewrite !skipn_length. intros Hz. assert (Hbb : base th = S b) by lia. rewrite Hbb. replace (S b - 1) with b by lia.
      specialize (I10 Hty (eq_sym Hbb)). rewrite Hh. apply lex_here; [lia|reflexivity].
  - (* SUBMATCH *)
    do 5 eexists. split; [reflexivity|]. split; [|split; [|split; [destruct pv; reflexivity|split; [exists []; rewrite app_nil_r; reflexivity|split; [exact E|split; [intros; congruence|]]]]]].
    + constructor; normf th; rewrite ?Hty; proj; rewrite ?E; auto; try lia; unfold this_codec, base in *; proj; rewrite ?E, ?Eb in *; auto.
    + unfold gcond, lcond, isfrom. proj. rewrite E. exact I.
    + left. unfold mm, isfrom, curlen. proj. rewrite E, Eb. repeat match goal with |- context[base ?x] => tryif constr_eq x th then fail else (let H := fresh in assert (H : base x = S b) by exact Eb; rewrite H; clear H) end. replace (S b - 1) with b by lia.
      apply lex_le; [rewrite !skipn_length; lia|reflexivity|]. rewrite !skipn_length. intros Hz. assert (Hbb : base th = S b) by lia. rewrite Hbb. replace (S b - 1) with b by lia.
      specialize (I10 Hty (eq_sym Hbb)). rewrite Hh. apply lex_here; [lia|reflexivity].
Qed.

Lemma from_io_safe Ds pv th pc : sinv Ds pv th -> isfrom th = true -> pc = LOuter \/ pc = LInner -> progress Ds pv th pc.
Proof.
  intros HI Hty Hpc. pose proof (codecs_nn _ _ _ HI) as Hnn. pose proof HI as [I1 I2 I3 I4 I5 I6 I7 I8 I9 I10 I11 I12]. pose proof (isfrom_type _ Hty) as E.
  unfold progress, local_step. rewrite E. rewrite Hty in I7. destruct Hpc as [->| ->]; cbn [from_step].
  - destruct (Nat.ltb_spec (p_curr P th) (length (p_queue P pv))).
    + do 5 eexists. split; [reflexivity|]. split; [|split; [|split; [destruct pv; reflexivity|split; [exists []; rewrite app_nil_r; reflexivity|split; [exact E|split; [intros; congruence|]]]]]].
      * constructor; normf th; rewrite ?Hty; proj; rewrite ?E; auto; try lia; unfold this_codec, base in *; proj; rewrite ?E in *; auto.
        -- intros Hf. destruct (I7 Hf). split; [assumption|lia].
        -- intros _ Hz. destruct (p_fmatch P th); [destruct (I7 eq_refl); lia|]. destruct (Nat.eqb_spec (p_curr P th) 0); lia.
      * unfold gcond, lcond, isfrom. proj. rewrite E. exact I.
      * left. unfold mm, base, isfrom. proj. rewrite E. do 4 apply lex_next. apply lex_here; [lia|reflexivity].
    + do 5 eexists. split; [reflexivity|]. split; [exact HI|]. split; [exact I|split; [destruct pv; reflexivity|split; [exists []; rewrite app_nil_r; reflexivity|split; [exact E|split; [intros; congruence|]]]]]. right. split; [reflexivity|split; [reflexivity|exact H]].
  - unfold curr_len, curr_node. destruct (p_curr P th) as [|b] eqn:Eb.
    + rewrite (I9 Hty). replace (p_i P th <? 0) with false by lia.
      do 5 eexists. split; [reflexivity|]. split; [exact HI|]. split; [unfold gcond, lcond; rewrite Hty; exact I|split; [destruct pv; reflexivity|split; [exists []; rewrite app_nil_r; reflexivity|split; [exact E|split; [intros; congruence|]]]]]. right. split; [reflexivity|split; [reflexivity|exact I]].
    + destruct (nth_error (p_queue P pv) b) as [d|] eqn:Ed; [|apply nth_error_None in Ed; lia]. cbn [option_map].
      assert (Hcl : curlen pv th = length d) by (unfold curlen; rewrite Eb; f_equal; apply nth_error_nth; exact Ed).
      destruct (Nat.ltb_spec (p_i P th) (length d)) as [Hlt|Hge].
      * destruct (this_ok Ds th I2 I3) as (c & D & Ec & HD). rewrite Ec. destruct (nth_error d (p_i P th)) as [x|] eqn:Ex; [|apply nth_error_None in Ex; lia].
        destruct (feed_safe c D th x HD (I4 c Ec) I5) as (s' & o' & -> & Hn & Hs).
        do 5 eexists. split; [reflexivity|]. split; [|split; [|split; [destruct pv; reflexivity|split; [exists []; rewrite app_nil_r; reflexivity|split; [exact E|split; [intros; congruence|]]]]]].
        -- constructor; normf th; rewrite ?Hty; proj; rewrite ?E; auto; unfold base in *; proj; rewrite ?Eb, ?E in *; auto; try lia.
           ++ intros c' Ec'. assert (c' = c) by (unfold this_codec in *; proj; congruence). subst. exact Hn.
           ++ intros Hp. destruct (I8 Hp) as (Hp1 & Hp2). split; [lia|]. intros H1 H2 H3. specialize (Hp2 Hty H2 H3). unfold curlen in *. proj. rewrite Eb in *. exact Hp2.
        -- unfold gcond, lcond, isfrom. proj. rewrite E, Eb. split; [lia|]. split; [|exact Hs]. unfold curlen in *. proj. rewrite Eb in *. lia.
        -- right. split; [unfold mm, base, isfrom, curlen; proj; reflexivity|split; [reflexivity|exact I]].
      * do 5 eexists. split; [reflexivity|]. split; [exact HI|]. split; [unfold gcond, lcond; rewrite Hty; exact I|split; [destruct pv; reflexivity|split; [exists []; rewrite app_nil_r; reflexivity|split; [exact E|split; [intros; congruence|]]]]]. right. split; [reflexivity|split; [reflexivity|exact I]].
Qed.

Definition cnt (q : list datum) (k : nat) : nat := length (filter nonempty (skipn k q)).
Lemma cnt_mono q k k' : k <= k' -> cnt q k' <= cnt q k.
Proof.
  intros H. unfold cnt. replace k' with (k + (k' - k)) by lia. rewrite <- skipn_skipn. generalize (skipn k q) as l. intros l.
  rewrite (filter_firstn_skipn nonempty (k' - k) l), app_length. lia.
Qed.
Lemma cnt_step q b : 1 <= length (nth b q []) -> cnt q (S b) < cnt q b.
Proof.
  intros H. unfold cnt. destruct (nth_error q b) as [d|] eqn:E.
  - rewrite (@skipn_nth datum b q d E). rewrite (nth_error_nth _ _ _ E) in H. cbn [filter]. destruct d; [cbn in H; lia|]. cbn. lia.
  - apply nth_error_None in E. rewrite nth_overflow in H by lia. cbn in H. lia.
Qed.
Lemma cnt_lt q a b c : 1 <= length (nth b q []) -> a <= b -> b < c -> cnt q c < cnt q a.
Proof. intros H Ha Hc. pose proof (cnt_step _ _ H). pose proof (cnt_mono q a b Ha). pose proof (cnt_mono q (S b) c Hc). lia. Qed.
Lemma cnt_nil q b l : b <= length q -> filter nonempty l = [] -> cnt (q ++ l) b = cnt q b.
Proof. intros Hb H. unfold cnt. rewrite skipn_app, filter_app. replace (b - length q) with 0 by lia. cbn [skipn]. rewrite H, app_nil_r. reflexivity. Qed.

Lemma data_type (th : ephase) : isfrom th = false -> p_type P th = FROM \/ p_type P th = INTER \/ p_type P th = TO -> p_type P th = INTER \/ p_type P th = TO.
Proof. unfold isfrom. intros H [E|E]; [rewrite E in H; discriminate|exact E]. Qed.
Lemma data_local (pv th : ephase) pc : p_type P th = INTER \/ p_type P th = TO -> local_step P pv th pc = data_step P pv th pc.
Proof. unfold local_step. intros [-> | ->]; reflexivity. Qed.

Lemma base_f (th : ephase) : p_fmatch P th = false -> base th = 1. Proof. unfold base. intros ->. reflexivity. Qed.
Lemma base_t (th : ephase) : p_fmatch P th = true -> base th = p_bak P th. Proof. unfold base. intros ->. reflexivity. Qed.
Lemma mm_data (pv th : ephase) : isfrom th = false -> mm pv th = [cnt (p_queue P pv) (base th - 1); b2n (p_fmatch P th); length (p_queue P pv); length (p_codecs P th) - p_index P th; length (p_queue P pv) - p_curr P th; 0].
Proof. unfold mm, cnt. intros ->. reflexivity. Qed.

Lemma data_dead_safe Ds pv th : sinv Ds pv th -> isfrom th = false -> lcond LDead pv th -> progress Ds pv th LDead.
Proof.
  intros HI Hty Hc. pose proof (codecs_nn _ _ _ HI) as Hnn. pose proof HI as [I1 I2 I3 I4 I5 I6 I7 I8 I9 I10 I11 I12]. pose proof (data_type _ Hty I1) as E.
  unfold progress. rewrite (data_local _ _ _ E). cbn [data_step]. unfold lcond in Hc. rewrite Hty in Hc, I7. unfold data_dead. proj.
  destruct (p_fmatch P th) eqn:Efm.
  - destruct (I7 eq_refl) as (Hmd & Hb). destruct (p_match_data P th) as [|m md] eqn:Em; [congruence|].
    unfold listfree. destruct (p_bak P th) as [|b] eqn:Eb; [lia|]. cbn [obind].
    rewrite app_tail_eq by exact I12. proj.
    edestruct (reset_safe Ds) as (s & -> & Hs); [| |cbn [obind ub_or]]; [exact I2|exact Hnn|].
    do 5 eexists. split; [reflexivity|]. split; [|split; [|split; [reflexivity|split; [eexists; reflexivity|split; [reflexivity|split; [reflexivity|]]]]]].
    + constructor; normf th; rewrite ?Hty; proj; auto; try discriminate; try lia.
      * unfold tail_ok in *. proj. rewrite skipn_length. lia.
      * unfold tail_ok in *. proj. rewrite app_length. cbn [length]. lia.
    + unfold gcond. destruct (is_to P _); exact I.
    + left. rewrite !mm_data by exact Hty. rewrite (base_t th Efm), Eb. rewrite base_f by reflexivity. proj. rewrite Efm.
      apply lex_le; [|reflexivity|intros _; apply lex_here; [cbn; lia|reflexivity]]. unfold cnt. rewrite Nat.sub_diag. replace (S b - 1) with b by lia. cbn [skipn]. lia.
  - destruct Hc as [Hc|Hc]; [discriminate|].
    destruct (p_index P th <? codecn P _) eqn:Ei.
    + unfold codecn in Ei. proj. assert (Hlt : S (p_index P th) < length (p_codecs P th)) by lia. clear Ei.
      destruct (nth_error (p_codecs P th) (S (p_index P th))) as [c|] eqn:Ec; [|apply nth_error_None in Ec; lia]. destruct (Forall2_nth_l _ _ _ I2 _ _ Ec) as (D & _ & HD).
      destruct (noded_root _ _ HD) as (s & Hs & Hn). unfold this_codec. proj. rewrite Ec. cbn [obind]. rewrite Hs. cbn [obind ub_or].
      do 5 eexists. split; [reflexivity|]. split; [|split; [|split; [destruct pv; reflexivity|split; [exists []; rewrite app_nil_r; reflexivity|split; [reflexivity|split; [reflexivity|]]]]]].
      * constructor; normf th; rewrite ?Hty; unfold this_codec; proj; auto; try discriminate; try lia.
        intros c' Ec'. congruence.
      * unfold gcond, lcond. normf th. rewrite Hty. exact I.
      * left. rewrite !mm_data by exact Hty. rewrite (base_f th Efm). rewrite base_f by reflexivity. proj. apply lex_next, lex_le; [rewrite Efm; cbn; lia|reflexivity|intros _]. apply lex_next. apply lex_here; [lia|reflexivity].
    + destruct (is_to P _) eqn:Et.
      * edestruct (reset_safe Ds (set_flags P th false false false)) as (s & -> & Hs); [exact I2|exact Hnn|]. cbn [obind]. proj. unfold listfree. cbn [obind ub_or].
        do 5 eexists. split; [reflexivity|]. split; [|split; [|split; [reflexivity|split; [exists []; rewrite app_nil_r; reflexivity|split; [reflexivity|split; [reflexivity|]]]]]].
        -- constructor; normf th; rewrite ?Hty; proj; auto; try discriminate; try lia.
           unfold tail_ok in *. proj. rewrite skipn_length. lia.
        -- unfold gcond, lcond. normf th. rewrite Hty. exact I.
        -- left. rewrite !mm_data by exact Hty. rewrite (base_f th Efm). rewrite base_f by reflexivity. proj. rewrite Efm. rewrite Nat.sub_diag.
           apply lex_le; [pose proof (cnt_mono (p_queue P pv) 0 (p_curr P th) ltac:(lia)) as HH; unfold cnt in *; cbn [skipn] in *; lia|reflexivity|]. intros _. apply lex_next. apply lex_here; [rewrite skipn_length; lia|reflexivity].
      * destruct (p_queue P pv) as [|d q] eqn:Eq; [cbn in I6; lia|].
        rewrite app_tail_eq by exact I12. proj. edestruct (reset_safe Ds) as (s & -> & Hs); [| |cbn [obind ub_or]]; [exact I2|exact Hnn|].
        do 5 eexists. split; [reflexivity|]. split; [|split; [exact I|split; [reflexivity|split; [eexists; reflexivity|split; [reflexivity|split; [reflexivity|]]]]]].
        -- constructor; normf th; rewrite ?Hty; proj; auto; try discriminate; try lia; try congruence.
           ++ unfold tail_ok in *. proj. rewrite Eq in I11. cbn in I11. lia.
           ++ unfold tail_ok in *. proj. rewrite app_length. cbn [length]. lia.
        -- left. rewrite !mm_data by exact Hty. rewrite (base_f th Efm). rewrite base_f by reflexivity. proj. rewrite Efm, Eq. rewrite Nat.sub_diag.
           apply lex_le; [unfold cnt; cbn [skipn filter]; destruct (nonempty d); cbn [length]; lia|reflexivity|]. intros _. apply lex_next. apply lex_here; [cbn; lia|reflexivity].
Qed.

Lemma data_x_safe Ds pv th : sinv Ds pv th -> isfrom th = false -> lcond LX pv th -> progress Ds pv th LX.
Proof.
  intros HI Hty Hc. pose proof (codecs_nn _ _ _ HI) as Hnn. pose proof HI as [I1 I2 I3 I4 I5 I6 I7 I8 I9 I10 I11 I12]. pose proof (data_type _ Hty I1) as E.
  unfold progress. rewrite (data_local _ _ _ E). cbn [data_step]. unfold lcond in Hc. rewrite Hty in Hc, I7. destruct Hc as [Hc|(Hst & Hc1 & Hc2 & Hc3)].
  { rewrite Hc. destruct (is_to P th) eqn:Et.
    - do 5 eexists. split; [reflexivity|]. split; [exact HI|]. split; [unfold gcond, lcond; rewrite Hty; exact I|split; [destruct pv; reflexivity|split; [exists []; rewrite app_nil_r; reflexivity|split; [reflexivity|split; [reflexivity|right; split; [reflexivity|split; [reflexivity|exact I]]]]]]].
    - do 5 eexists. split; [reflexivity|]. split; [exact HI|]. split; [exact I|split; [destruct pv; reflexivity|split; [exists []; rewrite app_nil_r; reflexivity|split; [reflexivity|split; [reflexivity|right; split; [reflexivity|split; [reflexivity|exact I]]]]]]]. }
  destruct (p_curr P th) as [|b] eqn:Eb; [lia|]. unfold curlen in Hc2. rewrite Eb in Hc2.
  assert (Hbase : base th <= S b) by (unfold base; destruct (p_fmatch P th); [auto|lia]).
  assert (Hb1 : 1 <= base th) by (unfold base; destruct (p_fmatch P th); [destruct (I7 eq_refl); lia|lia]).
  unfold okst in Hst. destruct (t_status (p_state P th)) eqn:Es; try contradiction.
  - (* CONTINUE *)
    do 5 eexists. split; [reflexivity|]. split; [|split; [|split; [destruct pv; reflexivity|split; [exists []; rewrite app_nil_r; reflexivity|split; [reflexivity|split; [reflexivity|]]]]]].
    + constructor; normf th; rewrite ?Hty; unfold this_codec in *; proj; rewrite ?Eb; auto; try discriminate; try lia.
      * rewrite I5. destruct (is_to P th); reflexivity.
    + unfold gcond, lcond. normf th. rewrite Hty. proj. lia.
    + right. split; [|split; [reflexivity|exact I]]. rewrite !mm_data by exact Hty. reflexivity.
  - (* DEADEND *)
    do 5 eexists. split; [reflexivity|]. split; [exact HI|]. split; [|split; [destruct pv; reflexivity|split; [exists []; rewrite app_nil_r; reflexivity|split; [reflexivity|split; [reflexivity|right; split; [reflexivity|split; [reflexivity|exact I]]]]]]].
    unfold gcond, lcond. rewrite Hty, Eb. right. lia.
  - (* MATCH *)
    unfold data_commit. rewrite app_tail_eq by exact I12. proj. rewrite Eb. unfold listfree. cbn [obind].
    edestruct (reset_safe Ds) as (s & -> & Hs); [| |cbn [obind ub_or]]; [exact I2|exact Hnn|].
    do 5 eexists. split; [reflexivity|]. split; [|split; [exact I|split; [reflexivity|split; [eexists; reflexivity|split; [reflexivity|split; [reflexivity|]]]]]].
    + constructor; normf th; rewrite ?Hty; proj; auto; try discriminate; try lia.
      * unfold tail_ok in *. proj. rewrite skipn_length. lia.
      * unfold tail_ok in *. proj. rewrite app_length. lia.
    + left. rewrite !mm_data by exact Hty. rewrite (base_f (set_state P _ s)) by reflexivity. proj. rewrite Nat.sub_diag.
      apply lex_here; [|reflexivity]. pose proof (cnt_lt (p_queue P pv) (base th - 1) b (S b) Hc2 ltac:(lia) ltac:(lia)) as HH. unfold cnt in *. cbn [skipn] in *. exact HH.
  - (* SUBMATCH *)
    proj. rewrite Eb. destruct (Nat.ltb_spec (S b) (length (p_queue P pv))) as [Hlt|Hge].
    + do 5 eexists. split; [reflexivity|]. split; [|split; [|split; [destruct pv; reflexivity|split; [exists []; rewrite app_nil_r; reflexivity|split; [reflexivity|split; [reflexivity|]]]]]].
      * constructor; normf th; rewrite ?Hty; unfold this_codec in *; proj; rewrite ?Eb; auto; try discriminate; try lia.
      * unfold gcond, lcond. normf th. rewrite Hty. proj. lia.
      * left. rewrite !mm_data by exact Hty. rewrite (base_t (set_bak P _ _)) by reflexivity. proj. replace (S (S b) - 1) with (S b) by lia.
        apply lex_here; [|reflexivity]. exact (cnt_lt (p_queue P pv) (base th - 1) b (S b) Hc2 ltac:(lia) ltac:(lia)).
    + assert (Hl : length (p_queue P pv) = S b) by lia. rewrite I11, firstn_all.
      do 5 eexists. split; [reflexivity|]. split; [|split; [|split; [reflexivity|split; [exists []; rewrite app_nil_r; reflexivity|split; [reflexivity|split; [reflexivity|]]]]]].
      * constructor; normf th; rewrite ?Hty; unfold this_codec in *; proj; rewrite ?Eb, ?app_length; auto; try discriminate; try lia.
        -- intros _. split; [exact Hst|lia].
        -- unfold tail_ok in *. proj. rewrite app_length. cbn [length]. lia.
      * unfold gcond, lcond. normf th. rewrite Hty. proj. lia.
      * left. rewrite !mm_data by exact Hty. rewrite (base_t (set_bak P _ _)) by reflexivity. proj. rewrite Hl. replace (S (S b) - 1) with (S b) by lia.
        apply lex_here; [|reflexivity]. pose proof (cnt_lt (p_queue P pv) (base th - 1) b (S b) Hc2 ltac:(lia) ltac:(lia)) as H1.
        pose proof (cnt_nil (p_queue P pv) (S b) [[]] ltac:(lia) eq_refl) as H2. unfold cnt in *. lia.
Qed.

Lemma data_io_safe Ds pv th pc : sinv Ds pv th -> isfrom th = false -> pc = LOuter \/ (pc = LSep /\ lcond LSep pv th) -> progress Ds pv th pc.
Proof.
  intros HI Hty Hpc. pose proof (codecs_nn _ _ _ HI) as Hnn. pose proof HI as [I1 I2 I3 I4 I5 I6 I7 I8 I9 I10 I11 I12]. pose proof (data_type _ Hty I1) as E.
  unfold progress. rewrite (data_local _ _ _ E). rewrite Hty in I7. destruct (this_ok Ds th I2 I3) as (c & D & Ec & HD). destruct Hpc as [->|(-> & Hc)]; cbn [data_step].
  - destruct (Nat.ltb_spec (p_curr P th) (length (p_queue P pv))) as [Hlt|Hge].
    + unfold curr_node, this_codec. proj. destruct (nth_error (p_queue P pv) (p_curr P th)) as [d|] eqn:Ed; [|apply nth_error_None in Ed; lia].
      unfold this_codec in Ec. rewrite Ec.
      set (th2 := set_i P (set_state P (set_curr P th (S (p_curr P th))) (with_status (p_state P th) NOMATCH)) 0).
      assert (Hn2 : noded c (p_state P th2)). { destruct (I4 c Ec) as (w & Hw). exists w. apply at_node_status. exact Hw. }
      destruct (bytes_safe c D HD d th2 Hn2 I5) as (s' & o' & i' & bb & -> & Hn' & Ho & He).
      assert (HS : sinv Ds pv (set_i P (set_state P (set_offset P th2 o') s') i')).
      { unfold th2. constructor; normf th; rewrite ?Hty; unfold this_codec in *; proj; auto; try discriminate; try lia.
        - intros c' Ec'. assert (c' = c) by congruence. subst. exact Hn'.
        - intros Hf. destruct (I7 Hf). split; [assumption|lia]. }
      assert (HM : lex (mm pv (set_i P (set_state P (set_offset P th2 o') s') i')) (mm pv th)).
      { rewrite !mm_data by exact Hty. unfold th2, base. proj. do 4 apply lex_next. apply lex_here; [lia|reflexivity]. }
      assert (HG : bb = false -> lcond LX pv (set_i P (set_state P (set_offset P th2 o') s') i')).
      { intros ->. unfold lcond. normf th. rewrite Hty. destruct d as [|x d].
        - left. destruct (He eq_refl) as (-> & _). reflexivity.
        - right. unfold th2, curlen. proj. split; [apply Ho; discriminate|]. split; [lia|]. split; [rewrite (nth_error_nth _ _ _ Ed); cbn; lia|]. intros Hf. destruct (I7 Hf). lia. }
      destruct bb.
      * do 5 eexists. split; [reflexivity|]. split; [exact HS|]. split; [|split; [destruct pv; reflexivity|split; [exists []; rewrite app_nil_r; reflexivity|split; [reflexivity|split; [reflexivity|left; exact HM]]]]].
        unfold gcond, lcond. normf th. rewrite Hty. unfold th2. proj. right. lia.
      * do 5 eexists. split; [reflexivity|]. split; [exact HS|]. split; [exact (HG eq_refl)|split; [destruct pv; reflexivity|split; [exists []; rewrite app_nil_r; reflexivity|split; [reflexivity|split; [reflexivity|left; exact HM]]]]].
    + do 5 eexists. split; [reflexivity|]. split; [exact HI|]. split; [exact I|split; [destruct pv; reflexivity|split; [exists []; rewrite app_nil_r; reflexivity|split; [reflexivity|split; [reflexivity|right; split; [reflexivity|split; [reflexivity|exact Hge]]]]]]].
  - rewrite Ec. destruct (feed_safe c D th 256%N HD (I4 c Ec) I5) as (s' & o' & -> & Hn & Hs). proj.
    unfold lcond in Hc. rewrite Hty in Hc.
    assert (HS : sinv Ds pv (set_state P (set_offset P th o') s')).
    { constructor; normf th; rewrite ?Hty; unfold this_codec in *; proj; auto; try discriminate; try lia.
      - intros c' Ec'. assert (c' = c) by congruence. subst. exact Hn. }
    assert (HM : mm pv (set_state P (set_offset P th o') s') = mm pv th) by (rewrite !mm_data by exact Hty; reflexivity).
    destruct (t_status s');
    (do 5 eexists; split; [reflexivity|]; split; [exact HS|]; split; [|split; [destruct pv; reflexivity|split; [exists []; rewrite app_nil_r; reflexivity|split; [reflexivity|split; [reflexivity|right; split; [exact HM|split; [reflexivity|exact I]]]]]]];
     unfold gcond, lcond; normf th; rewrite Hty; proj; try exact I; right; lia).
Qed.

Theorem local_safe Ds pv th pc : sinv Ds pv th -> lcond pc pv th -> progress Ds pv th pc.
Proof.
  intros HI Hc. destruct (isfrom th) eqn:Hty.
  - destruct pc; [apply from_io_safe; auto|apply from_io_safe; auto|apply from_x_safe; auto|apply from_dead_safe; auto|unfold lcond in Hc; rewrite Hty in Hc; contradiction].
  - destruct pc; [apply data_io_safe; auto|unfold lcond in Hc; rewrite Hty in Hc; contradiction|apply data_x_safe; auto|apply data_dead_safe; auto|apply data_io_safe; auto].
Qed.
End E.

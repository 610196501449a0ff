(** src : stateful modules : dst, as instances of P_Flow4. *)
From Verif Require Import Base Types M_Engine M_Output M_Create M_Callback M_UTF8 M_UTF16 M_Modules M_Star M_Stars S_Session S_Unicode S_Rest S_Flow S_Engine P_Trans P_Engine1 P_Engine2 P_Engine5 P_Engine6 P_Callback P_Session P_CbSession P_Ascii P_Charset P_Unicode P_Pair P_Create P_UDA P_Escape2 P_Flow P_Flow2 P_Flow3 P_Flow4 S_Transcode.
From Coq Require Import ZifyBool ZifyN ZifyNat.

Arguments e_tab {P}. Arguments e_conv {P}. Arguments e_flush {P}. Arguments e_init {P}. Arguments e_priv {P}.
Arguments cb_priv {P}. Arguments cb_i {P}. Arguments cb_status {P}. Arguments cb_out {P}. Arguments set_priv {P}. Arguments init_codec {P}.

(** ** The decoders produce non-empty data *)
Lemma loop_ne {Q} (step : Q -> N -> Q * option (status * list datum)) : (forall q b q' st o, step q b = (q', Some (st, o)) -> Forall ne o) -> forall bs q i, Forall ne (snd (byte_loop step q bs i)).
Proof.
  intros H. induction bs as [|b bs IH]; intros q i; [constructor|]. cbn [byte_loop]. destruct (step q b) as [q' [[st o]|]] eqn:E; [cbn; eapply H; exact E|apply IH].
Qed.
Lemma loop_cb_ne {Q} (inj : Q -> priv) prj (step : Q -> N -> Q * option (status * list datum)) : (forall q b q' st o, step q b = (q', Some (st, o)) -> Forall ne o) -> forall p d i sd, Forall ne (cb_out (loop_cb inj prj step p d i sd)).
Proof.
  intros H p d i sd. unfold loop_cb. destruct (prj p) as [q|]; [|constructor]. pose proof (loop_ne step H (skipn i d) q i) as HL. destruct (byte_loop step q (skipn i d) i) as [[[q' i'] st] o]. exact HL.
Qed.
Lemma pass_ne x : ne (u_pass x). Proof. destruct x as [[[a b] c] d]. cbn. lia. Qed.
Lemma with_pass_ne t x out k : Forall ne out -> (forall o, Forall ne o -> forall st l, snd (k o) = Some (st, l) -> Forall ne l) -> forall st l, snd (with_pass t x out k) = Some (st, l) -> Forall ne l.
Proof.
  intros Ho Hk st l. unfold with_pass. destruct (is0 x && negb (u_nul t)).
  - cbn. intros H. injection H as _ <-. exact Ho.
  - apply Hk. apply Forall_app. split; [exact Ho|]. constructor; [apply pass_ne|constructor].
Qed.
Lemma commit_ne t st l : snd (u_commit t) = Some (st, l) -> Forall ne l.
Proof.
  unfold u_commit. cbv zeta. revert st l.
  enough (H : forall st l, snd (u_commit t) = Some (st, l) -> Forall ne l) by exact H. unfold u_commit. cbv zeta.
  Ltac cn := match goal with
    | |- forall st l, snd (if ?b then _ else _) = _ -> _ => destruct b; cn
    | |- forall st l, snd (with_pass _ _ _ _) = _ -> _ => apply with_pass_ne; [first [assumption|constructor]|]; let o := fresh "o" in let Ho := fresh "Ho" in intros o Ho; cn
    | |- _ => let H := fresh "H" in intros ? ? H; cbn in H; injection H as _ <-; first [assumption|constructor]
    end.
  cn.
Qed.
Lemma u8_ne t b q st o : u8_step t b = (q, Some (st, o)) -> Forall ne o.
Proof.
  intros H. assert (E : snd (u8_step t b) = Some (st, o)) by (rewrite H; reflexivity). clear H. revert E. unfold u8_step. cbv zeta.
  assert (Hd : forall t0, snd (u_dead t0 []) = Some (st, o) -> Forall ne o) by (intros t0 H; cbn in H; injection H as _ <-; constructor).
  assert (Hg : forall t0 s u, snd (u_go t0 s u) = Some (st, o) -> Forall ne o) by (intros t0 s u H; discriminate H).
  destruct (u_st t) as [|p]; [|repeat (destruct p as [p|p|]; try exact (Hd t))]; repeat match goal with |- snd (if ?b then _ else _) = _ -> _ => destruct b end; first [apply Hd|apply Hg|apply commit_ne].
Qed.
Lemma emit_ne l : ne (w_emit l). Proof. cbn. lia. Qed.
Lemma u16_ne le t b q st o : u16_step le t b = (q, Some (st, o)) -> Forall ne o.
Proof.
  unfold u16_step. cbv zeta. intros H.
  repeat match type of H with
  | (match ?b with _ => _ end) = _ => destruct b
  | (if ?b then _ else _) = _ => destruct b
  end; try discriminate H; apply (f_equal snd) in H; cbn in H; injection H as _ <-; repeat constructor.
Qed.
Lemma u32_ne le t b q st o : u32_step le t b = (q, Some (st, o)) -> Forall ne o.
Proof.
  unfold u32_step. cbv zeta. intros H.
  repeat match type of H with
  | (match ?b with _ => _ end) = _ => destruct b
  | (if ?b then _ else _) = _ => destruct b
  end; try discriminate H; apply (f_equal snd) in H; cbn in H; injection H as _ <-; repeat constructor.
Qed.
Definition neb (d : datum) : bool := match d with [] => false | x :: _ => (x <? 257)%N end.
Lemma neb_ne d : neb d = true -> ne d. Proof. destruct d; cbn; [discriminate|lia]. Qed.
Lemma tab_neb (t : table) : forallb (fun st => forallb neb (t_data st)) t = true -> Forall (fun st => Forall ne (t_data st)) t.
Proof. intros H. rewrite forallb_forall in H. apply Forall_forall. intros st Hs. specialize (H st Hs). rewrite forallb_forall in H. apply Forall_forall. intros d Hd. apply neb_ne. apply H. exact Hd. Qed.
Lemma star_tab_ne : Forall (fun st => Forall ne (t_data st)) star_table. Proof. apply tab_neb. vm_compute. reflexivity. Qed.
Lemma ascii_tab_ne : Forall (fun st => Forall ne (t_data st)) (compiled ascii_from_src). Proof. apply tab_neb. vm_compute. reflexivity. Qed.
Lemma dec_side_ne src t8 t16 : Forall (fun y => codec_ne (fst y)) (dec_side src t8 t16).
Proof.
  assert (H16 : forall le, codec_ne (utf16_dec le t16)). { intros le. constructor; [apply star_tab_ne| |discriminate]. intros f p d i sd E. injection E as <-. apply loop_cb_ne. apply u16_ne. }
  assert (H32 : forall le, codec_ne (utf32_dec le t16)). { intros le. constructor; [apply star_tab_ne| |discriminate]. intros f p d i sd E. injection E as <-. apply loop_cb_ne. apply u32_ne. }
  destruct src; cbn [dec_side]; [apply Forall_cons; [|apply Forall_cons; [|apply Forall_nil]]|apply Forall_cons; [cbn [fst]; auto|apply Forall_nil]..]; cbn [fst].
  - constructor; [apply ascii_tab_ne|discriminate|discriminate].
  - constructor; [apply star_tab_ne| |].
    + intros f p d i sd E. injection E as <-. apply loop_cb_ne. apply u8_ne.
    + intros f p E. injection E as <-. destruct p; try constructor. unfold u8_flush. destruct (negb _ && _); cbn; [|constructor]. constructor; [apply pass_ne|constructor].
Qed.

(** ** A chain of modules *)
Definition conv_of (c : ecodec priv) : priv -> datum -> nat -> list datum -> cbres priv := match e_conv c with Some f => f | None => fun p _ i _ => mkCb priv p i NOMATCH [] end.
(** What a module does with the data of one stream. *)
Definition strm (c : ecodec priv) (σ : priv) (ds o : list datum) (σ' : priv) : Prop := sd c (conv_of c) σ [] ds o σ'.
Notation smod := (prod (ecodec priv) (priv -> Prop)).
Definition fst_ok (m : smod) : Prop := e_conv (fst m) <> None /\ f_ok (FStar (fst m) (conv_of (fst m)) (snd m)).
Definition fvia (src : charset) (ms : list smod) (dst : charset) (t8 : u8) (t16 : u16) : list (fphase (P:=priv)) :=
  FTab FROM (dec_side src t8 t16) true :: map (fun m => FStar (fst m) (conv_of (fst m)) (snd m)) ms ++ [FTab TO (enc_side dst) false].
Lemma via_inst src ms dst t8 t16 : f_inst (fvia src ms dst t8 t16) = via src (map fst ms) dst t8 t16.
Proof.
  unfold f_inst, via, fvia. f_equal. cbn [map f_type f_codecs]. rewrite dec_side_codecs. f_equal. rewrite map_app, !map_map. cbn [map f_type f_codecs]. rewrite enc_side_codecs. reflexivity.
Qed.
Inductive chained (s : inst priv) : nat -> list smod -> list (list datum) -> list priv -> Prop :=
| ch_nil p ds : chained s p [] [ds] []
| ch_cons p m ms ds d1 Ds σ σ' zs : module_state s p σ -> strm (fst m) σ ds d1 σ' -> chained s (S p) ms (d1 :: Ds) zs -> chained s p (m :: ms) (ds :: d1 :: Ds) (σ' :: zs).
Lemma chained_len s p ms Ds zs : chained s p ms Ds zs -> length Ds = S (length ms) /\ length zs = length ms.
Proof. induction 1; cbn in *; lia. Qed.
Lemma chained_nth s p ms Ds zs : chained s p ms Ds zs -> forall i m, nth_error ms i = Some m -> exists σ σ', module_state s (p + i) σ /\ nth_error zs i = Some σ' /\ strm (fst m) σ (nth i Ds []) (nth (S i) Ds []) σ'.
Proof.
  induction 1 as [|p m ms ds d1 Ds σ σ' zs H1 H2 _ IH]; intros i m0 Hm; [destruct i; discriminate|]. destruct i as [|i].
  - injection Hm as <-. exists σ, σ'. rewrite Nat.add_0_r. auto.
  - destruct (IH i m0 Hm) as (a & b & A1 & A2 & A3). exists a, b. replace (p + S i) with (S p + i) by lia. auto.
Qed.

Lemma nth_last {A} (l : list A) d : last l d = nth (length l - 1) l d.
Proof. induction l as [|a [|b l] IH]; [reflexivity|reflexivity|]. change (last (a :: b :: l) d) with (last (b :: l) d). rewrite IH. cbn [length]. replace (S (S (length l)) - 1) with (S (S (length l) - 1)) by lia. reflexivity. Qed.

Section Via.
Variables (src dst : charset) (t8 : u8) (t16 : u16) (ms : list smod).
Hypothesis Hs : strict_utf8 t8.
Hypothesis Hms : forall m, In m ms -> fst_ok m.
Notation c := (fvia src ms dst t8 t16).
Lemma via_nth i : nth_error c i = match i with 0 => Some (FTab FROM (dec_side src t8 t16) true) | S j => if j <? length ms then option_map (fun m => FStar (fst m) (conv_of (fst m)) (snd m)) (nth_error ms j) else if j =? length ms then Some (FTab TO (enc_side dst) false) else None end.
Proof.
  destruct i as [|j]; [reflexivity|]. cbn [fvia nth_error]. destruct (Nat.ltb_spec j (length ms)) as [L|L].
  - rewrite nth_error_app1 by (rewrite map_length; exact L). rewrite nth_error_map. reflexivity.
  - rewrite nth_error_app2, map_length by (rewrite map_length; exact L). destruct (Nat.eqb_spec j (length ms)) as [->|Hne]; [rewrite Nat.sub_diag; reflexivity|]. apply nth_error_None. cbn [length]. lia.
Qed.
Lemma via_ok x : In x c -> f_ok x.
Proof.
  intros [<-|Hx].
  - destruct (dec_side_ok src t8 t16 Hs) as (D1 & D2). cbn [f_ok]. split; [destruct src; discriminate|]. split; [auto|]. split; [intros _; split; [reflexivity|apply dec_side_ne]|].
    split; [intros y Hy; apply (D1 y Hy)|]. split; [|exact D2]. intros y q Hy Hev. apply (uconv_restores src UTF8 t8 t16 Hs FROM (dec_side src t8 t16) y q); [left; reflexivity|exact Hy|exact Hev].
  - apply in_app_or in Hx as [Hx|[<-|[]]].
    + apply in_map_iff in Hx as (m & <- & Hm). apply (Hms m Hm).
    + destruct (enc_side_ok dst) as (D1 & D2). cbn [f_ok]. split; [destruct dst; discriminate|]. split; [auto|]. split; [discriminate|].
      split; [intros y Hy; apply (D1 y Hy)|]. split; [|exact D2]. intros y q Hy Hev. apply (enc_calm dst y Hy).
Qed.
Lemma via_first : exists x r, c = x :: r /\ f_star x = false. Proof. eexists _, _. split; reflexivity. Qed.
Lemma via_rest i x : nth_error c (S i) = Some x -> f_type x <> FROM.
Proof.
  rewrite via_nth. destruct (i <? length ms); [destruct (nth_error ms i); [|discriminate]; intros H; injection H as <-; discriminate|]. destruct (i =? length ms); [|discriminate]. intros H. injection H as <-. discriminate.
Qed.
Lemma via_clean i x y : nth_error c i = Some x -> nth_error c (S i) = Some y -> f_star y = true -> f_cout x = true.
Proof.
  rewrite !via_nth. destruct i as [|i]; [intros H; injection H as <-; reflexivity|]. destruct (Nat.ltb_spec (S i) (length ms)) as [L|L].
  - replace (i <? length ms) with true by lia. destruct (nth_error ms i); [|discriminate]. intros H. injection H as <-. reflexivity.
  - destruct (S i =? length ms); [|discriminate]. intros _ H. injection H as <-. discriminate.
Qed.
Lemma via_fn : fn c = S (S (length ms)). Proof. unfold fn, fvia. cbn. rewrite app_length, map_length. cbn. lia. Qed.

Theorem via_stream s l cps out Ds zs : fresh (via src (map fst ms) dst t8 t16) s -> chunks l (flat_map (encoded src) cps) -> Forall (reads src) cps ->
  chained s 2 ms Ds zs -> hd [] Ds = map udatum cps -> last Ds [] = map udatum out -> Forall (writes dst) out ->
  exists s', streams_to s l (flat_map (encoded dst) out) s' /\ forall i z, nth_error zs i = Some z -> module_state s' (2 + i) z.
Proof.
  intros (s0 & HU & Hinit) (Hl1 & Hl2 & Hl3) Hrd HC Hhd Hlast Hwr. rewrite <- via_inst in HU. destruct (chained_len _ _ _ _ _ HC) as (HL1 & HL2). pose proof (chained_nth _ _ _ _ _ HC) as HN.
  set (k := length ms) in *.
  set (I := fun p => match p with 0 => [] | 1 => filter nonempty (inputs l) | S (S j) => if j <=? k then nth j Ds [] else filter nonempty (map (encoded dst) out) end).
  set (z := fun p => match p with 0 => None | 1 => None | S (S j) => nth_error zs j end).
  destruct (flow_fresh c via_ok via_first via_rest via_clean l s0 s I (fun _ => 0) z Hl1 Hl2 HU Hinit eq_refl) as (s' & got & R1 & R2 & R3 & R4 & R5).
  - intros p x Hp Ex. rewrite via_nth in Ex. destruct p as [|[|p]]; [lia| |].
    + injection Ex as <-. cbn [phase_rel]. unfold tden. split; [reflexivity|]. cbn [I]. exists (map udatum cps), 0. split; [|split; [|reflexivity]].
      * cbn [kind_of]. rewrite app_nil_l. unfold inj. assert (E : concat (filter nonempty (inputs l)) = flat_map (encoded src) cps).
        { rewrite <- Hl3. clear. induction (inputs l) as [|[|x d] ds IH]; cbn; [reflexivity|exact IH|f_equal; f_equal; exact IH]. }
        unfold sems. rewrite map_map. replace (map (fun x => k_v (snd x)) (dec_side src t8 t16)) with (dec_csems src (u_nul t8)) by (destruct src; reflexivity).
        match goal with |- trans _ _ ?a = _ => replace a with (byt (flat_map (encoded src) cps)) end.
        -- apply (dcode_all _ (encoded src) udatum (reads src)); [|exact Hrd]. intros a rest Ha. apply (side_decodes src (u_nul t8) a rest Ha).
        -- rewrite <- E. reflexivity.
      * cbn [Nat.leb]. rewrite (dat_nonempty udatum (fun _ => True)); [|discriminate|clear; induction cps; constructor; auto]. destruct Ds; [discriminate|exact Hhd].
    + replace (S (S p) - 1) with (S p) in Ex by lia. cbn iota in Ex. fold k in Ex. destruct (Nat.ltb_spec p k) as [L|L].
      * destruct (nth_error ms p) as [m|] eqn:Em; [|discriminate]. injection Ex as <-. cbn [phase_rel]. destruct (HN p m Em) as (σ & σ' & A1 & A2 & A3). exists σ. split; [exact A1|].
        split; [reflexivity|]. exists σ'. split; [exact A2|]. cbn [I]. replace (p <=? k) with true by lia. replace (S p <=? k) with true by lia. exact A3.
      * destruct (Nat.eqb_spec p k) as [->|Hne]; [|discriminate]. injection Ex as <-. cbn [phase_rel]. unfold tden. cbn [z I]. split; [apply nth_error_None; lia|]. rewrite Nat.leb_refl. replace (S k <=? k) with false by lia.
        assert (El : nth k Ds [] = map udatum out). { rewrite <- Hlast, nth_last, HL1. f_equal. lia. }
        exists (map (encoded dst) out), 0. rewrite El. split; [|split; reflexivity].
        unfold sems. rewrite map_map. cbn [kind_of app inj]. rewrite (dat_nonempty udatum (fun _ => True)); [|discriminate|clear; induction out; constructor; auto]. apply (ecode_all _ udatum (encoded dst) (writes dst)); [|exact Hwr]. apply (enc_ecodes dst (fun c => c)). intros a Ha. exact Ha.
  - exists s'. split.
    + exists got. split; [exact R1|]. split; [|split; [exact R3|]].
      * rewrite R2, via_fn. cbn [I]. fold k. replace (S k <=? k) with false by lia. rewrite flat_map_concat_map. clear. induction (map (encoded dst) out) as [|[|x d] ds IH]; cbn; [reflexivity|exact IH|f_equal; f_equal; exact IH].
      * rewrite R4. replace (list_sum _) with 0; [lia|]. generalize (seq 1 (fn c)). induction l0; [reflexivity|exact IHl0].
    + intros i z0 Hz. assert (Hi : i < k) by (rewrite <- HL2; apply nth_error_Some; congruence). destruct (nth_error ms i) as [m|] eqn:Em; [|apply nth_error_None in Em; unfold k in Hi; lia].
      destruct (R5 (2 + i) (fst m) (conv_of (fst m)) (snd m)) as (σ & Z1 & Z2); [lia| |].
      * rewrite via_nth. replace (2 + i - 1) with (S i) by lia. fold k. replace (i <? k) with true by lia. rewrite Em. reflexivity.
      * cbn [z plus] in Z1. assert (σ = z0) by congruence. subst. exact Z2.
Qed.
End Via.

(** ** The modules of the form of M_Star *)
Section Star.
Context {S : Type}.
Variables (inj : S -> priv) (prj : priv -> option S) (m : star S) (fl : bool) (ini : option (S -> S)) (g0 : S) (JS : S -> Prop).
Hypothesis Hpi : forall s, prj (inj s) = Some s.
Hypothesis Hfl : fl = false -> forall s, st_flush m s = (s, []).
Notation c := (star_codec inj prj m fl ini g0).
Lemma cv_star s d : cv (conv_of c) (inj s) d = mkCb priv (inj (fst (fst (st_conv m s d)))) (length d) (snd (fst (st_conv m s d))) (snd (st_conv m s d)).
Proof. unfold cv, conv_of. cbn. rewrite Hpi. destruct (st_conv m s d) as [[s' st] o]. reflexivity. Qed.
Lemma flushed_star s : flushed c (inj s) = (inj (fst (st_flush m s)), snd (st_flush m s)).
Proof.
  unfold flushed. cbn. destruct fl eqn:E; [rewrite Hpi; destruct (st_flush m s); reflexivity|]. rewrite (Hfl eq_refl). reflexivity.
Qed.
Lemma star_strm_aux ds : forall s s' o, 
  (match star_feed m s false ds with Some (s1, p, o1) => if p then let '(s2, f) := st_flush m s1 in Some (s2, o1 ++ f) else Some (s1, o1) | None => None end = Some (s', o) -> sd c (conv_of c) (inj s) [] ds o (inj s')) /\
  (match star_feed m s true ds with Some (s1, p, o1) => if p then let '(s2, f) := st_flush m s1 in Some (s2, o1 ++ f) else Some (s1, o1) | None => None end = Some (s', o) -> ssub c (conv_of c) (inj s) ds o (inj s')).
Proof.
  induction ds as [|d ds IH]; intros s s' o; split; cbn [star_feed].
  - intros H. injection H as <- <-. constructor.
  - destruct (st_flush m s) as [s2 f] eqn:E. intros H. injection H as <- <-. pose proof (ssub_eof c (conv_of c) (inj s)) as HS. rewrite flushed_star, E in HS. exact HS.
  - unfold star_one. destruct (st_conv m s d) as [[s1 st] o1] eqn:Ec. pose proof (cv_star s d) as Hcv. rewrite Ec in Hcv. cbn [fst snd] in Hcv.
    destruct st; try discriminate.
    + destruct (star_feed m s1 false ds) as [[[s2 p2] o2]|] eqn:Ef; [|discriminate]. intros H.
      assert (Ho : exists o3, o = (o1 ++ [d]) ++ o3 /\ (if p2 then let '(s3, f) := st_flush m s2 in Some (s3, o2 ++ f) else Some (s2, o2)) = Some (s', o3)).
      { destruct p2; [destruct (st_flush m s2) as [s3 f]; injection H as <- <-; exists (o2 ++ f); rewrite !app_assoc; auto|injection H as <- <-; exists o2; auto]. }
      destruct Ho as (o3 & -> & Ho). pose proof (proj1 (IH s1 s' o3)) as IH1. rewrite Ef in IH1. specialize (IH1 Ho).
      pose proof (sd_dead c (conv_of c) (inj s) [] d ds d [] o3 (inj s')) as HS. rewrite Hcv in HS. cbn in HS. specialize (HS eq_refl eq_refl IH1). rewrite <- app_assoc. exact HS.
    + destruct (star_feed m s1 true ds) as [[[s2 p2] o2]|] eqn:Ef; [|discriminate]. intros H.
      assert (Ho : exists o3, o = o1 ++ o3 /\ (if p2 then let '(s3, f) := st_flush m s2 in Some (s3, o2 ++ f) else Some (s2, o2)) = Some (s', o3)).
      { destruct p2; [destruct (st_flush m s2) as [s3 f]; injection H as <- <-; exists (o2 ++ f); rewrite !app_assoc; auto|injection H as <- <-; exists o2; auto]. }
      destruct Ho as (o3 & -> & Ho). pose proof (proj2 (IH s1 s' o3)) as IH1. rewrite Ef in IH1. specialize (IH1 Ho).
      pose proof (sd_sub c (conv_of c) (inj s) [] d ds o3 (inj s')) as HS. rewrite Hcv in HS. cbn in HS. exact (HS eq_refl IH1).
    + destruct (star_feed m s1 false ds) as [[[s2 p2] o2]|] eqn:Ef; [|discriminate]. intros H.
      assert (Ho : exists o3, o = o1 ++ o3 /\ (if p2 then let '(s3, f) := st_flush m s2 in Some (s3, o2 ++ f) else Some (s2, o2)) = Some (s', o3)).
      { destruct p2; [destruct (st_flush m s2) as [s3 f]; injection H as <- <-; exists (o2 ++ f); rewrite !app_assoc; auto|injection H as <- <-; exists o2; auto]. }
      destruct Ho as (o3 & -> & Ho). pose proof (proj1 (IH s1 s' o3)) as IH1. rewrite Ef in IH1. specialize (IH1 Ho).
      pose proof (sd_next c (conv_of c) (inj s) [] d ds o3 (inj s')) as HS. rewrite Hcv in HS. cbn in HS. exact (HS eq_refl IH1).
  - unfold star_one. destruct (st_conv m s d) as [[s1 st] o1] eqn:Ec. pose proof (cv_star s d) as Hcv. rewrite Ec in Hcv. cbn [fst snd] in Hcv.
    destruct st; try discriminate.
    + destruct (star_feed m s1 true ds) as [[[s2 p2] o2]|] eqn:Ef; [|discriminate]. intros H.
      assert (Ho : exists o3, o = o1 ++ o3 /\ (if p2 then let '(s3, f) := st_flush m s2 in Some (s3, o2 ++ f) else Some (s2, o2)) = Some (s', o3)).
      { destruct p2; [destruct (st_flush m s2) as [s3 f]; injection H as <- <-; exists (o2 ++ f); rewrite !app_assoc; auto|injection H as <- <-; exists o2; auto]. }
      destruct Ho as (o3 & -> & Ho). pose proof (proj2 (IH s1 s' o3)) as IH1. rewrite Ef in IH1. specialize (IH1 Ho).
      pose proof (ssub_sub c (conv_of c) (inj s) d ds o3 (inj s')) as HS. rewrite Hcv in HS. cbn in HS. exact (HS eq_refl IH1).
    + destruct (star_feed m s1 false ds) as [[[s2 p2] o2]|] eqn:Ef; [|discriminate]. intros H.
      assert (Ho : exists o3, o = o1 ++ o3 /\ (if p2 then let '(s3, f) := st_flush m s2 in Some (s3, o2 ++ f) else Some (s2, o2)) = Some (s', o3)).
      { destruct p2; [destruct (st_flush m s2) as [s3 f]; injection H as <- <-; exists (o2 ++ f); rewrite !app_assoc; auto|injection H as <- <-; exists o2; auto]. }
      destruct Ho as (o3 & -> & Ho). pose proof (proj1 (IH s1 s' o3)) as IH1. rewrite Ef in IH1. specialize (IH1 Ho).
      pose proof (ssub_next c (conv_of c) (inj s) d ds o3 (inj s')) as HS. rewrite Hcv in HS. cbn in HS. exact (HS eq_refl IH1).
Qed.
Lemma star_strm ds s s' o : star_stream m s ds = Some (s', o) -> strm c (inj s) ds o (inj s').
Proof. intros H. apply (proj1 (star_strm_aux ds s s' o)). exact H. Qed.

Record good_star : Prop := {
  g_start : JS g0;
  g_init : forall g s, ini = Some g -> JS s -> JS (g s);
  g_conv : forall s d, JS s -> JS (fst (fst (st_conv m s d)));
  g_out : forall s d, JS s -> ne d -> Forall ne (snd (st_conv m s d));
  g_flush : forall s, JS s -> JS (fst (st_flush m s)) /\ Forall ne (snd (st_flush m s))
}.
Hypothesis HG : good_star.
Definition JP (p : priv) : Prop := exists s, p = inj s /\ JS s.
Lemma star_evolves q : evolves c q -> JP q.
Proof.
  induction 1 as [|f p E _ IH|f p d i sd E _ IH|f p E _ IH].
  - exists g0. split; [reflexivity|apply HG].
  - destruct IH as (s & -> & Hs). cbn in E. destruct ini as [g|] eqn:Eg; [|discriminate]. injection E as <-. rewrite Hpi. exists (g s). split; [reflexivity|]. eapply g_init; eauto.
  - destruct IH as (s & -> & Hs). cbn in E. injection E as <-. rewrite Hpi. pose proof (g_conv HG s d Hs). destruct (st_conv m s d) as [[s' st] o]. exists s'. auto.
  - destruct IH as (s & -> & Hs). cbn in E. destruct fl; [|discriminate]. injection E as <-. rewrite Hpi. pose proof (g_flush HG s Hs). destruct (st_flush m s) as [s' o]. exists s'. cbn in *. tauto.
Qed.
Lemma star_init q : evolves c q -> exists s, JS s /\ e_priv (init_codec (set_priv c q)) = inj (match ini with Some g => g s | None => s end).
Proof.
  intros H. destruct (star_evolves q H) as (s & -> & Hs). exists s. split; [exact Hs|]. unfold init_codec. cbn. destruct ini as [g|]; cbn; [rewrite Hpi; reflexivity|reflexivity].
Qed.
Lemma star_fst_ok : fst_ok (c, JP).
Proof.
  split; [discriminate|]. cbn [fst snd]. split; [reflexivity|]. split; [reflexivity|]. split; [|split].
  - intros σ d (s & -> & Hs) Hd. rewrite cv_star. cbn. split; [exists (fst (fst (st_conv m s d))); split; [reflexivity|apply HG; exact Hs]|apply HG; assumption].
  - intros σ (s & -> & Hs). rewrite flushed_star. cbn. destruct (g_flush HG s Hs) as (A & B). split; [exists (fst (st_flush m s)); auto|exact B].
  - intros q Hq. destruct (star_init q Hq) as (s & Hs & ->). exists (match ini with Some g => g s | None => s end). split; [reflexivity|]. destruct ini eqn:E; [eapply g_init; eauto|exact Hs].
Qed.
End Star.

(** The private states of the modules right after bsdconv_init. *)
Theorem via_state src dst t8 t16 (ms : list smod) s i m : strict_utf8 t8 -> (forall m, In m ms -> fst_ok m) -> fresh (via src (map fst ms) dst t8 t16) s -> nth_error ms i = Some m ->
  exists q, evolves (fst m) q /\ module_state s (2 + i) (e_priv (init_codec (set_priv (fst m) q))).
Proof.
  intros Hs Hms (s0 & HU & Hi) Em. rewrite <- via_inst in HU. apply (fresh_priv (fvia src ms dst t8 t16) s0 s (2 + i) (fst m) (conv_of (fst m)) (snd m) HU Hi); [lia|].
  rewrite via_nth. replace (2 + i - 1) with (S i) by lia. assert (L : i < length ms) by (apply nth_error_Some; congruence). rewrite (proj2 (Nat.ltb_lt _ _) L), Em. reflexivity.
Qed.
Lemma module_state_fun s p a b : module_state s p a -> module_state s p b -> a = b.
Proof. intros (t & c & A1 & A2 & A3) (t' & c' & B1 & B2 & B3). assert (t' = t) by congruence. subst t'. rewrite A2 in B2. injection B2 as <-. congruence. Qed.
(** There is such an instance. *)
Theorem via_fresh src dst t8 t16 (ms : list smod) : strict_utf8 t8 -> (forall m, In m ms -> fst_ok m) -> exists s, fresh (via src (map fst ms) dst t8 t16) s.
Proof.
  intros Hs Hms. destruct (f_init_some (fvia src ms dst t8 t16) (via_ok src dst t8 t16 ms Hs Hms)) as (s & Hi). exists s. exists (via src (map fst ms) dst t8 t16). split; [constructor|]. rewrite <- via_inst. exact Hi.
Qed.

(** The private state after bsdconv_init is that of the instance, initialised. *)
Lemma init_state (s0 s : inst priv) p th0 cd : bsdconv_init priv s0 = Some s -> (1 <= p)%nat -> nth_error (i_phases priv s0) p = Some th0 -> p_codecs priv th0 = [cd] ->
  module_state s p (e_priv (init_codec cd)).
Proof.
  intros Hinit Hp Ex Ec. destruct p as [|p]; [lia|].
  unfold bsdconv_init in Hinit. destruct (i_phases priv s0) as [|ph0 rest] eqn:E0; [discriminate|].
  destruct (init_phase priv true ph0) as [p0|] eqn:Ep0; [|discriminate]. cbn [obind] in Hinit. destruct (fold_right _ _ rest) as [r|] eqn:Er; cbn [obind] in Hinit; [|discriminate].
  apply P_Session2.init_rest_spec in Er. assert (Es : i_phases priv s = p0 :: r) by (injection Hinit as <-; reflexivity).
  cbn in Ex. destruct (P_Session2.Forall2_nth_l _ _ _ Er _ _ Ex) as (th & Eth & X4).
  unfold init_phase, reset in X4. cbv zeta in X4. cbn in X4. rewrite Ec in X4. cbn [map] in X4. match type of X4 with context [match ?r with Some _ => _ | None => None end] => destruct r; [|discriminate] end. injection X4 as <-.
  eexists _, (init_codec cd). split; [rewrite Es; cbn; exact Eth|]. split; reflexivity.
Qed.
Theorem via_created src dst t8 t16 (ms : list smod) : strict_utf8 t8 -> (forall m, In m ms -> fst_ok m) ->
  exists s, fresh (via src (map fst ms) dst t8 t16) s /\ forall k m, nth_error ms k = Some m -> module_state s (k + 2) (e_priv (init_codec (fst m))).
Proof.
  intros Hs Hms. destruct (f_init_some (fvia src ms dst t8 t16) (via_ok src dst t8 t16 ms Hs Hms)) as (s & Hi). rewrite via_inst in Hi. exists s. split; [eexists; split; [constructor|exact Hi]|].
  intros k m Hk. replace (k + 2)%nat with (S (S k)) by lia. apply (init_state _ s _ (new_phase priv INTER [fst m]) (fst m) Hi); [lia| |reflexivity].
  unfold via. cbn [i_phases new_instance map app nth_error]. rewrite map_app, !map_map, nth_error_app1; [|rewrite map_length; apply nth_error_Some; congruence]. rewrite nth_error_map, Hk. reflexivity.
Qed.

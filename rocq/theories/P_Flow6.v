(** A chain with any kind of decoder and encoder around stateful modules, as an instance of P_Flow4. *)
From Verif Require Import Base Types M_Engine M_Output M_Create M_Callback M_UTF8 M_UTF16 M_Modules M_Star M_Stars S_Session S_Unicode S_Rest S_Flow S_Engine P_Trans P_Engine1 P_Engine2 P_Engine5 P_Engine6 P_Callback P_Session P_CbSession P_Ascii P_Charset P_Unicode P_Pair P_Create P_UDA P_Escape2 P_Flow P_Flow2 P_Flow3 P_Flow4 P_Flow5 S_Transcode.
From Coq Require Import ZifyBool ZifyN ZifyNat.

Lemma concat_nonempty {A} (l : list (list A)) : concat (filter (fun x => match x with [] => false | _ => true end) l) = concat l.
Proof. induction l as [|[|x d] ds IH]; cbn; [reflexivity|exact IH|f_equal; f_equal; exact IH]. Qed.
Lemma concat_ne (l : list datum) : concat (filter nonempty l) = concat l.
Proof. induction l as [|[|x d] ds IH]; cbn; [reflexivity|exact IH|f_equal; f_equal; exact IH]. Qed.
Notation fph := (fphase (P:=priv)).
(** The sides of a conversion whose other side is not a charset of C32-C34. *)
Definition dec_fph (src : charset) t8 t16 : fph := FTab FROM (dec_side src t8 t16) true.
Definition enc_fph (dst : charset) : fph := FTab TO (enc_side dst) false.
Lemma dec_fph_ok src t8 t16 : strict_utf8 t8 -> f_ok (dec_fph src t8 t16).
Proof. intros Hs. apply (via_ok src UTF8 t8 t16 [] Hs); [intros m []|left; reflexivity]. Qed.
Lemma enc_fph_ok dst (t8 : u8) (t16 : u16) : strict_utf8 t8 -> f_ok (enc_fph dst).
Proof. intros Hs. apply (via_ok UTF8 dst t8 t16 [] Hs); [intros m []|right; left; reflexivity]. Qed.
Lemma dec_fph_rel (s : inst priv) src t8 t16 cps Y : Forall (reads src) cps -> concat Y = flat_map (encoded src) cps ->
  phase_rel s 1 (dec_fph src t8 t16) (filter nonempty Y) (map udatum cps) 0 None.
Proof.
  intros Hrd HY. cbn [phase_rel dec_fph]. unfold tden. split; [reflexivity|]. exists (map udatum cps), 0. split; [|split; [|reflexivity]].
  - cbn [kind_of]. rewrite app_nil_l. unfold inj.
    unfold sems. rewrite map_map. replace (map (fun x => k_v (snd x)) (dec_side src t8 t16)) with (dec_csems src (u_nul t8)) by (destruct src; reflexivity).
    match goal with |- trans _ _ ?a = _ => replace a with (byt (flat_map (encoded src) cps)) end.
    + apply (dcode_all _ (encoded src) udatum (reads src)); [|exact Hrd]. intros a rest Ha. apply (side_decodes src (u_nul t8) a rest Ha).
    + rewrite <- HY, <- (concat_ne Y). reflexivity.
  - rewrite (dat_nonempty udatum (fun _ => True)); [reflexivity|discriminate|clear; induction cps; constructor; auto].
Qed.
Lemma enc_fph_rel (s : inst priv) p dst out : Forall (writes dst) out -> phase_rel s p (enc_fph dst) (map udatum out) (filter nonempty (map (encoded dst) out)) 0 None.
Proof.
  intros Hwr. cbn [phase_rel enc_fph]. unfold tden. split; [reflexivity|]. exists (map (encoded dst) out), 0. split; [|split; reflexivity].
  unfold sems. rewrite map_map. cbn [kind_of app inj]. rewrite (dat_nonempty udatum (fun _ => True)); [|discriminate|clear; induction out; constructor; auto]. apply (ecode_all _ udatum (encoded dst) (writes dst)); [|exact Hwr]. apply (enc_ecodes dst (fun c => c)). intros a Ha. exact Ha.
Qed.

Section Chain.
Variables (h t : fph) (ms : list smod).
Hypothesis Hh : f_ok h.
Hypothesis Ht : f_ok t.
Hypothesis Hms : forall m, In m ms -> fst_ok m.
Hypothesis Hh1 : f_star h = false.
Hypothesis Ht1 : f_type t <> FROM.
Hypothesis Hclean : f_cout h = true \/ (ms = [] /\ f_star t = false).
Definition gchain : list fph := h :: map (fun m => FStar (fst m) (conv_of (fst m)) (snd m)) ms ++ [t].
Notation c := gchain.
Lemma g_nth i : nth_error c i = match i with 0 => Some h | S j => if j <? length ms then option_map (fun m => FStar (fst m) (conv_of (fst m)) (snd m)) (nth_error ms j) else if j =? length ms then Some t else None end.
Proof.
  destruct i as [|j]; [reflexivity|]. cbn [gchain nth_error]. destruct (Nat.ltb_spec j (length ms)) as [L|L].
  - rewrite nth_error_app1 by (rewrite map_length; exact L). rewrite nth_error_map. reflexivity.
  - rewrite nth_error_app2, map_length by (rewrite map_length; exact L). destruct (Nat.eqb_spec j (length ms)) as [->|Hne]; [rewrite Nat.sub_diag; reflexivity|].
    destruct (j - length ms) as [|[|?]] eqn:E; [lia|reflexivity|reflexivity].
Qed.
Lemma g_ok x : In x c -> f_ok x.
Proof. intros [<-|Hx]; [exact Hh|]. apply in_app_or in Hx as [Hx|[<-|[]]]; [|exact Ht]. apply in_map_iff in Hx as (m & <- & Hm). apply (Hms m Hm). Qed.
Lemma g_first : exists x r, c = x :: r /\ f_star x = false. Proof. eexists _, _. split; [reflexivity|exact Hh1]. Qed.
Lemma g_rest i x : nth_error c (S i) = Some x -> f_type x <> FROM.
Proof.
  rewrite g_nth. destruct (i <? length ms); [destruct (nth_error ms i); [|discriminate]; intros H; injection H as <-; discriminate|]. destruct (i =? length ms); [|discriminate]. intros H. injection H as <-. exact Ht1.
Qed.
Lemma g_clean i x y : nth_error c i = Some x -> nth_error c (S i) = Some y -> f_star y = true -> f_cout x = true.
Proof.
  rewrite !g_nth. destruct i as [|i].
  - intros H. injection H as <-. destruct Hclean as [E|[E1 E2]]; [intros _ _; exact E|]. rewrite E1. cbn. intros H. injection H as <-. congruence.
  - destruct (Nat.ltb_spec i (length ms)) as [L|L].
    + destruct (nth_error ms i); [|discriminate]. intros H. injection H as <-. reflexivity.
    + destruct (S i =? length ms) eqn:E; [lia|]. replace (S i <? length ms) with false by lia. discriminate.
Qed.
Lemma g_fn : fn c = S (S (length ms)). Proof. unfold fn, gchain. cbn. rewrite app_length, map_length. cbn. lia. Qed.

Theorem g_stream s l Ds zs O : fresh (f_inst c) s -> l <> [] -> Forall (fun x => lossless (snd x)) l ->
  chained s 2 ms Ds zs -> phase_rel s 1 h (filter nonempty (inputs l)) (hd [] Ds) 0 None -> phase_rel s (2 + length ms) t (last Ds []) O 0 None ->
  exists s', streams_to s l (concat O) s' /\ forall i z, nth_error zs i = Some z -> module_state s' (2 + i) z.
Proof.
  intros (s0 & HU & Hinit) Hl1 Hl2 HC Hhd Hlast. destruct (chained_len _ _ _ _ _ HC) as (HL1 & HL2). pose proof (chained_nth _ _ _ _ _ HC) as HN.
  set (k := length ms) in *.
  set (I := fun p => match p with 0 => [] | 1 => filter nonempty (inputs l) | S (S j) => if j <=? k then nth j Ds [] else O end).
  set (z := fun p => match p with 0 => None | 1 => None | S (S j) => nth_error zs j end).
  destruct (flow_fresh c g_ok g_first g_rest g_clean l s0 s I (fun _ => 0) z Hl1 Hl2 HU Hinit eq_refl) as (s' & got & R1 & R2 & R3 & R4 & R5).
  - intros p x Hp Ex. rewrite g_nth in Ex. destruct p as [|[|p]]; [lia| |].
    + cbn in Ex. injection Ex as <-. cbn [I z Nat.leb]. replace (nth 0 Ds []) with (hd [] Ds) by (destruct Ds; reflexivity). exact Hhd.
    + replace (S (S p) - 1) with (S p) in Ex by lia. cbn iota in Ex. fold k in Ex. destruct (Nat.ltb_spec p k) as [L|L].
      * destruct (nth_error ms p) as [m|] eqn:Em; [|discriminate]. injection Ex as <-. cbn [phase_rel]. destruct (HN p m Em) as (σ & σ' & A1 & A2 & A3). exists σ. split; [exact A1|].
        split; [reflexivity|]. exists σ'. split; [exact A2|]. cbn [I]. replace (p <=? k) with true by lia. replace (S p <=? k) with true by lia. exact A3.
      * destruct (Nat.eqb_spec p k) as [->|Hne]; [|discriminate]. injection Ex as <-. cbn [z I]. rewrite Nat.leb_refl. replace (S k <=? k) with false by lia.
        replace (nth_error zs k) with (@None priv) by (symmetry; apply nth_error_None; lia).
        replace (nth k Ds []) with (last Ds []); [exact Hlast|]. rewrite nth_last, HL1. f_equal. lia.
  - exists s'. split.
    + exists got. split; [exact R1|]. split; [|split; [exact R3|]].
      * rewrite R2, g_fn. cbn [I]. fold k. replace (S k <=? k) with false by lia. reflexivity.
      * rewrite R4. replace (list_sum _) with 0; [lia|]. generalize (seq 1 (fn c)). induction l0; [reflexivity|exact IHl0].
    + intros i z0 Hz. assert (Hi : i < k) by (rewrite <- HL2; apply nth_error_Some; congruence). destruct (nth_error ms i) as [m|] eqn:Em; [|apply nth_error_None in Em; unfold k in Hi; lia].
      destruct (R5 (2 + i) (fst m) (conv_of (fst m)) (snd m)) as (σ & Z1 & Z2); [lia| |].
      * rewrite g_nth. replace (2 + i - 1) with (S i) by lia. fold k. replace (i <? k) with true by lia. rewrite Em. reflexivity.
      * cbn [z plus] in Z1. assert (σ = z0) by congruence. subst. exact Z2.
Qed.
Theorem g_state s i m : fresh (f_inst c) s -> nth_error ms i = Some m -> exists q, evolves (fst m) q /\ module_state s (2 + i) (e_priv (init_codec (set_priv (fst m) q))).
Proof.
  intros (s0 & HU & Hi) Em. apply (fresh_priv c s0 s (2 + i) (fst m) (conv_of (fst m)) (snd m) HU Hi); [lia|].
  rewrite g_nth. replace (2 + i - 1) with (S i) by lia. assert (L : i < length ms) by (apply nth_error_Some; congruence). rewrite (proj2 (Nat.ltb_lt _ _) L), Em. reflexivity.
Qed.
Lemma g_phase s p x : fresh (f_inst c) s -> nth_error c p = Some x -> exists th, nth_error (i_phases priv s) (S p) = Some th /\ exists th0, init_phase priv false th0 = Some th /\ P_Shape.shc (f_codecs x) (p_codecs priv th0).
Proof.
  intros (s0 & HU & Hinit) Ex. apply used_shl in HU.
  unfold bsdconv_init in Hinit. destruct (i_phases priv s0) as [|ph0 rest] eqn:E0; [discriminate|].
  destruct (init_phase priv true ph0) as [p0|] eqn:Ep0; [|discriminate]. cbn [obind] in Hinit. destruct (fold_right _ _ rest) as [r|] eqn:Er; cbn [obind] in Hinit; [|discriminate].
  apply P_Session2.init_rest_spec in Er. assert (Es : i_phases priv s = p0 :: r) by (injection Hinit as <-; reflexivity).
  assert (Ef : nth_error (i_phases priv (f_inst c)) (S p) = Some (new_phase priv (f_type x) (f_codecs x))). { cbn [f_inst i_phases new_instance nth_error]. rewrite !map_map, nth_error_map, Ex. reflexivity. }
  destruct (P_Session2.Forall2_nth_l _ _ _ HU _ _ Ef) as (th0 & E1 & (HT & HC)). cbn in E1. destruct (P_Session2.Forall2_nth_l _ _ _ Er _ _ E1) as (th & Eth & X4).
  exists th. rewrite Es. split; [exact Eth|]. exists th0. split; [exact X4|exact HC].
Qed.
Theorem g_fresh : exists s, fresh (f_inst c) s /\ bsdconv_init priv (f_inst c) = Some s.
Proof. destruct (f_init_some c g_ok) as (s & Hi). exists s. split; [|exact Hi]. exists (f_inst c). split; [constructor|exact Hi]. Qed.
End Chain.

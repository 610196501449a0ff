(** REPLACE in a conversion "src:REPLACE#from=to:dst" (C47). *)
From Verif Require Import Base Types M_Engine M_Output M_Create M_Callback M_UTF8 M_UTF16 M_Modules M_Star M_Inter M_Stars S_Session S_Unicode S_Inter S_Flow P_Inter P_Norm P_Flow P_Flow2 P_Flow3 P_Flow4 P_Flow5 T_Unicode T_Flow S_Transcode.
From Coq Require Import ZifyBool ZifyN ZifyNat.
Local Open Scope N_scope.

Section R.
Variables (from to : list datum) (g : nat).
Hypothesis Hto : Forall ne to.
Notation rmod := (replace_mod from to g).
Lemma replace_good : good_star (REPLACE from to) (Some (fun _ => 0%nat)) g (fun _ => True).
Proof.
  constructor; auto; intros; cbn [st_flush st_conv REPLACE no_flush fst snd]; [|split; [exact I|constructor]].
  unfold replace_conv. destruct (nth_error from s) as [x|]; [|constructor]. destruct (bytes_eqb d x); [|constructor]. destruct (_ <? _)%nat; [constructor|exact Hto].
Qed.
Lemma rcv k d : cv (conv_of rmod) (PCur k) d = mkCb priv (PCur (fst (fst (replace_conv from to k d)))) (length d) (snd (fst (replace_conv from to k d))) (snd (replace_conv from to k d)).
Proof. unfold cv, conv_of. cbn. unfold replace_conv. destruct (nth_error from k) as [x|]; [|reflexivity]. destruct (bytes_eqb d x); [|reflexivity]. destruct (_ <? _)%nat; reflexivity. Qed.
Notation rsd := (sd rmod (conv_of rmod)).
Lemma nth_split k (x : datum) : nth_error from k = Some x -> firstn (S k) from = firstn k from ++ [x] /\ skipn k from = x :: skipn (S k) from.
Proof. revert k. induction from as [|y l IH]; intros [|k] H; try discriminate; cbn in H. - injection H as ->. auto. - destruct (IH k H) as (A & B). split; [|exact B]. cbn [firstn app]. f_equal. exact A. Qed.

(** The rest of an occurrence. *)
Lemma r_hit Y o σ : rsd (PCur 0) [] Y o σ -> forall n k, (length from - k = S n)%nat -> rsd (PCur k) (firstn k from) (skipn k from ++ Y) (to ++ o) σ.
Proof.
  intros HY. induction n as [|n IH]; intros k Hk; (destruct (nth_error from k) as [x|] eqn:Ex; [|apply nth_error_None in Ex; lia]);
  destruct (nth_split k x Ex) as (E1 & E2); rewrite E2; cbn [app];
  assert (Hc : bytes_eqb x x = true) by (apply bytes_eqb_eq; reflexivity).
  - pose proof (sd_next rmod (conv_of rmod) (PCur k) (firstn k from) x (skipn (S k) from ++ Y) o σ) as HS. rewrite rcv in HS. unfold replace_conv in HS. rewrite Ex, Hc in HS.
    replace (S k <? length from)%nat with false in HS by (symmetry; apply Nat.ltb_ge; lia). cbn [fst snd cb_status cb_priv cb_out] in HS. apply HS; [reflexivity|].
    rewrite skipn_all2 by lia. exact HY.
  - pose proof (sd_cont rmod (conv_of rmod) (PCur k) (firstn k from) x (skipn (S k) from ++ Y) (to ++ o) σ) as HS. rewrite rcv in HS. unfold replace_conv in HS. rewrite Ex, Hc in HS.
    replace (S k <? length from)%nat with true in HS by (symmetry; apply Nat.ltb_lt; lia). cbn [fst snd cb_status cb_priv cb_out app] in HS. apply HS; [reflexivity|].
    rewrite <- E1. apply IH. lia.
Qed.
(** No occurrence at the head: [firstn k from] was read. *)
Lemma r_miss d ds o σ : rsd (PCur 0) [] ds o σ -> (forall r, d :: ds <> from ++ r) -> (ds = [] \/ forall r, from <> (d :: ds) ++ r) ->
  forall Y k, (k < length from)%nat -> d :: ds = firstn k from ++ Y -> exists σ', rsd (PCur k) (firstn k from) Y (d :: o) σ' /\ (σ' = σ \/ ds = []).
Proof.
  intros HY Hno He. induction Y as [|y Y IH]; intros k Hk E.
  - rewrite app_nil_r in E. destruct He as [->|He]; [|exfalso; apply (He (skipn k from)); rewrite E; symmetry; apply firstn_skipn].
    rewrite <- E. exists (PCur k). split; [|auto]. assert (o = []). { inversion HY; subst; reflexivity. } subst o. apply sd_eof. apply sd_end.
  - destruct (nth_error from k) as [x|] eqn:Ex; [|apply nth_error_None in Ex; lia]. destruct (nth_split k x Ex) as (E1 & E2). destruct (bytes_eqb y x) eqn:Eb.
    + apply bytes_eqb_eq in Eb. subst y. destruct (Nat.ltb_spec (S k) (length from)) as [L|L].
      * destruct (IH (S k) L) as (σ' & H1 & H2); [rewrite E1, <- app_assoc; exact E|]. exists σ'. split; [|exact H2].
        pose proof (sd_cont rmod (conv_of rmod) (PCur k) (firstn k from) x Y (d :: o) σ') as HS. rewrite rcv in HS. unfold replace_conv in HS. rewrite Ex in HS.
        replace (bytes_eqb x x) with true in HS by (symmetry; apply bytes_eqb_eq; reflexivity). replace (S k <? length from)%nat with true in HS by (symmetry; apply Nat.ltb_lt; lia).
        cbn [fst snd cb_status cb_priv cb_out app] in HS. apply HS; [reflexivity|]. rewrite <- E1. exact H1.
      * exfalso. apply (Hno Y). rewrite E. replace from with (firstn (S k) from) at 2 by (apply firstn_all2; lia). rewrite E1, <- app_assoc. reflexivity.
    + exists σ. split; [|auto]. assert (Et : exists T, firstn k from ++ [y] = d :: T /\ T ++ Y = ds).
      { destruct (firstn k from) as [|z l]; cbn in *; injection E as -> ->; [exists []; auto|exists (l ++ [y]); rewrite <- app_assoc; auto]. }
      destruct Et as (T & ET & <-).
      pose proof (sd_dead rmod (conv_of rmod) (PCur k) (firstn k from) y Y d T o σ) as HS. rewrite rcv in HS. unfold replace_conv in HS. rewrite Ex, Eb in HS.
      cbn [fst snd cb_status cb_priv cb_out app] in HS. apply HS; auto.
Qed.
Theorem replace_strm ds o : from <> [] -> replaced from to ds o -> (forall u v r, ds = u ++ v -> from = v ++ r -> r <> [] -> (length v <= 1)%nat) -> exists σ, strm rmod (PCur 0) ds o σ.
Proof.
  intros Hne H. unfold strm. induction H as [|ds o H IH|d ds o Hno H IH]; intros He.
  - exists (PCur 0). apply sd_end.
  - destruct IH as (k & Hk); [intros u v r Hu Hv Hr; apply (He (from ++ u) v r); [rewrite Hu, app_assoc; reflexivity|exact Hv|exact Hr]|].
    exists k. apply (r_hit ds o k Hk (length from - 1) 0). destruct from; [contradiction|cbn; lia].
  - destruct IH as (k & Hk); [intros u v r Hu Hv Hr; apply (He (d :: u) v r); [rewrite Hu; reflexivity|exact Hv|exact Hr]|].
    destruct (r_miss d ds o k Hk Hno) with (Y := d :: ds) (k := 0%nat) as (σ' & H1 & H2).
    + destruct ds as [|e ds]; [auto|]. right. intros r Hr. destruct r as [|x r]; [rewrite app_nil_r in Hr; apply (Hno []); rewrite app_nil_r; auto|].
      assert (length (d :: e :: ds) <= 1)%nat by (apply (He [] (d :: e :: ds) (x :: r) eq_refl Hr); discriminate). cbn in *. lia.
    + destruct from; [contradiction|cbn; lia].
    + reflexivity.
    + eauto.
Qed.
End R.

Lemma udatum_inj x y : x < 0x100000000 -> y < 0x100000000 -> udatum x = udatum y -> x = y.
Proof. intros Hx Hy H. destruct (udatum_value x Hx) as (V1 & _). destruct (udatum_value y Hy) as (V2 & _). unfold udatum in H. pose proof (f_equal (@tl _) H) as H1. cbn [tl] in H1. congruence. Qed.
Lemma map_udatum_inj a b : Forall (fun c => c < 0x100000000) a -> Forall (fun c => c < 0x100000000) b -> map udatum a = map udatum b -> a = b.
Proof.
  revert b. induction a as [|x a IH]; intros [|y b] Ha Hb H; try discriminate; [reflexivity|]. cbn [map] in H.
  pose proof (f_equal (hd []) H) as H1. pose proof (f_equal (@tl _) H) as H2. cbn [hd tl] in H1, H2. f_equal; [|apply IH; auto; eapply Forall_inv_tail; eassumption].
  apply udatum_inj; [exact (Forall_inv Ha)|exact (Forall_inv Hb)|exact H1].
Qed.
Lemma app_map_udatum a b r : Forall (fun c => c < 0x100000000) a -> Forall (fun c => c < 0x100000000) b -> map udatum a = map udatum b ++ r -> exists q, a = b ++ q /\ r = map udatum q.
Proof.
  intros Ha Hb H. apply map_eq_app in H as (q & t & -> & E1 & <-). apply Forall_app in Ha as (Ha & _). apply map_udatum_inj in E1; auto. subst q. eauto.
Qed.
Lemma replaced_data from to cps out : Forall (fun c => c < 0x100000000) from -> Forall (fun c => c < 0x100000000) cps -> replaced from to cps out -> replaced (map udatum from) (map udatum to) (map udatum cps) (map udatum out).
Proof.
  intros Hf Hc H. induction H as [|ds o H IH|d ds o Hno H IH]; cbn [map].
  - constructor.
  - apply Forall_app in Hc as (_ & Hc). rewrite !map_app. constructor. auto.
  - constructor; [|apply IH; eapply Forall_inv_tail; exact Hc]. intros r Hr. change (udatum d :: map udatum ds) with (map udatum (d :: ds)) in Hr.
    apply app_map_udatum in Hr as (q & Hq & _); auto. exact (Hno q Hq).
Qed.

(** The text with the occurrences replaced is always defined, and only one. *)
Theorem C47_replaced_total : forall (from to cps : list N), from <> [] -> exists out, replaced from to cps out /\ forall o, replaced from to cps o -> o = out.
Proof.
  intros from to cps Hne. assert (Hlen : forall n cps, (length cps <= n)%nat -> exists out, replaced from to cps out).
  { induction n as [|n IH]; intros [|c ds] Hl; cbn in Hl; try lia; try (exists []; constructor).
    destruct (list_eq_dec N.eq_dec (firstn (length from) (c :: ds)) from) as [E|E].
    - destruct (IH (skipn (length from) (c :: ds))) as (o & Ho). { rewrite skipn_length. destruct from; [contradiction|]. cbn. lia. }
      exists (to ++ o). rewrite <- (firstn_skipn (length from) (c :: ds)), E. constructor. exact Ho.
    - destruct (IH ds ltac:(lia)) as (o & Ho). exists (c :: o). constructor; [|exact Ho]. intros r Hr. apply E. rewrite Hr, firstn_app, firstn_all, Nat.sub_diag. cbn. apply app_nil_r. }
  destruct (Hlen _ cps (le_n _)) as (out & Ho). exists out. split; [exact Ho|]. clear Hlen.
  induction Ho as [|ds o H IH|d ds o Hno H IH]; intros o' H'.
  - inversion H'; subst; auto. destruct from; [contradiction|discriminate].
  - inversion H' as [E|ds' o2 H2 E|d ds' o2 Hno H2 E]; subst.
    + destruct from; [contradiction|discriminate].
    + apply app_inv_head in E. subst ds'. f_equal. auto.
    + exfalso. match goal with Hh : forall r, ?x :: ?y <> from ++ r |- _ => apply (Hh ds) end. congruence.
  - inversion H' as [E|ds' o2 H2 E|d' ds' o2 Hno' H2 E]; subst.
    + exfalso. apply (Hno ds'). congruence.
    + f_equal. auto.
Qed.
Print Assumptions C47_replaced_total.

(** The occurrences of [from] in the text, found from left to right, become [to] and everything else is unchanged, unless the
    text ends inside an occurrence of which two or more characters were read. *)
Theorem C47_replace_conversion : forall src dst t8 t16 from to g s l cps out, strict_utf8 t8 -> fresh (via src [replace_mod (map udatum from) (map udatum to) g] dst t8 t16) s ->
  from <> [] -> Forall (fun c => c < 0x100000000) from ->
  chunks l (flat_map (encoded src) cps) -> Forall (reads src) cps -> replaced from to cps out -> Forall (writes dst) out ->
  (forall u v r, cps = u ++ v -> from = v ++ r -> r <> [] -> (length v <= 1)%nat) ->
  exists s', streams_to s l (flat_map (encoded dst) out) s'.
Proof.
  intros src dst t8 t16 from to g s l cps out Hs HF Hne Hf Hc Hr HR Hw He. pose proof (lt_text _ _ Hr) as Hlt.
  assert (Hto : Forall ne (map udatum to)) by (apply Forall_forall; intros d Hd; apply in_map_iff in Hd as (c & <- & _); unfold udatum; cbn; lia).
  pose proof (replace_good (map udatum from) (map udatum to) g Hto) as HG.
  destruct (via_one_state PCur get_cur (REPLACE (map udatum from) (map udatum to)) false (Some (fun _ => 0%nat)) g _ (fun _ => eq_refl) (fun _ _ => eq_refl) HG src dst t8 t16 s Hs HF) as (q & _ & HM).
  destruct (replace_strm (map udatum from) (map udatum to) g (map udatum cps) (map udatum out)) as (σ & HS).
  - destruct from; [contradiction|discriminate].
  - apply replaced_data; assumption.
  - intros u v r Hu Hv Hnr. apply map_eq_app in Hu as (u' & v' & -> & <- & <-). apply Forall_app in Hlt as (_ & Hlt).
    destruct (app_map_udatum from v' r Hf Hlt Hv) as (r' & -> & ->). rewrite map_length. apply (He u' v' r' eq_refl eq_refl). intros ->. apply Hnr. reflexivity.
  - destruct (via_stream src dst t8 t16 [(replace_mod (map udatum from) (map udatum to) g, JP PCur (fun _ => True))] Hs) with (s := s) (l := l) (cps := cps) (out := out) (Ds := [map udatum cps; map udatum out]) (zs := [σ]) as (s' & H1 & _); auto; [| |eauto].
    + intros y [<-|[]]. apply star_fst_ok; auto.
    + econstructor; [exact HM|exact HS|constructor].
Qed.
Print Assumptions C47_replace_conversion.
Corollary C47_replace_short : forall src dst t8 t16 from to g s l cps out, strict_utf8 t8 -> fresh (via src [replace_mod (map udatum from) (map udatum to) g] dst t8 t16) s ->
  (1 <= length from <= 2)%nat -> Forall (fun c => c < 0x100000000) from ->
  chunks l (flat_map (encoded src) cps) -> Forall (reads src) cps -> replaced from to cps out -> Forall (writes dst) out -> exists s', streams_to s l (flat_map (encoded dst) out) s'.
Proof.
  intros src dst t8 t16 from to g s l cps out Hs HF Hl Hf Hc Hr HR Hw.
  apply (C47_replace_conversion src dst t8 t16 from to g s l cps out Hs HF); auto; [destruct from; [cbn in Hl; lia|discriminate]|].
  intros u v r _ -> Hnr. rewrite app_length in Hl. destruct r; [contradiction|cbn in Hl; lia].
Qed.
Print Assumptions C47_replace_short.
(** The exception is real: the cursor is not reset when the held characters are let go at the end of the stream, so that
    replacing ABB by X turns the text AB, which does not contain it, into AX. *)
Theorem C47_replace_end_refuted : seen_via UTF8 [replace_mod (map udatum [0x41; 0x42; 0x42]) (map udatum [0x58]) 0] UTF8 [give [0x41; 0x42] true] = Some ([0x41; 0x58], [], 0%nat, 0%nat) /\
  replaced [0x41; 0x42; 0x42] [0x58] [0x41; 0x42] [0x41; 0x42].
Proof. split; [vm_compute; reflexivity|]. constructor; [discriminate|]. constructor; [discriminate|constructor]. Qed.
Print Assumptions C47_replace_end_refuted.

Example C47_ex_fresh : exists s, fresh (via UTF8 [replace_mod (map udatum [0x41; 0xE9; 0x41]) (map udatum [0x58]) 7] UTF8 mem8 mem16) s.
Proof.
  apply (via_one_fresh PCur get_cur (REPLACE (map udatum [0x41; 0xE9; 0x41]) (map udatum [0x58])) false (Some (fun _ => 0%nat)) 7%nat (fun _ => True) (fun _ => eq_refl) (fun _ _ => eq_refl)); [|exact C32_ex_strict].
  apply replace_good. repeat constructor.
Qed.
(** AAéAéAZ, AéA replaced by X, cut inside: AXéAZ. *)
Example C47_ex_seen : seen_via UTF8 [replace_mod (map udatum [0x41; 0xE9; 0x41]) (map udatum [0x58]) 7] UTF8 [give [0x41; 0x41; 0xC3] false; give [0xA9; 0x41; 0xC3; 0xA9; 0x41] false; give [0x5A] true]
  = Some ([0x41; 0x58; 0xC3; 0xA9; 0x41; 0x5A], [], 0%nat, 0%nat).
Proof. vm_compute. reflexivity. Qed.
Example C47_ex_spec : replaced [0x41; 0xE9; 0x41] [0x58] [0x41; 0x41; 0xE9; 0x41; 0xE9; 0x41; 0x5A] [0x41; 0x58; 0xE9; 0x41; 0x5A].
Proof. constructor; [discriminate|]. apply (rp_hit [0x41; 0xE9; 0x41] [0x58] [0xE9; 0x41; 0x5A]). repeat (constructor; [discriminate|]). constructor. Qed.

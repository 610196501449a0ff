(** C33, UCS-2: characters of the Basic Multilingual Plane are written as one unit; every other character is left out and counted. *)
From Verif Require Import Base Types M_Engine M_Output M_Create M_Callback M_Modules M_UTF8 M_UTF16 S_Session S_Unicode S_Transcode S_Flow S_Engine P_Trans P_Engine1 P_Callback P_CbSession P_Ascii P_Charset P_UTF16 P_Unicode P_Pair P_UDA P_Escape2.
From Verif Require Import S_Transcode.
From Coq Require Import ZifyBool ZifyN ZifyNat.
Local Open Scope N_scope.

(** bsdconv_create("src:UCS-2BE") and ("src:UCS-2LE"): [ucs2_enc] is modules/to/UCS-2{BE,LE}.c. *)
Definition ucs2_conv (src : charset) (le : bool) (t8 : u8) (t16 : u16) : inst priv :=
  new_instance priv [(FROM, decoder_of src t8 t16); (TO, [ucs2_enc le])].
(** One unit of two bytes. *)
Definition unit2 (le : bool) (c : N) : list N := if le then [c mod 256; c / 256] else [c / 256; c mod 256].

Definition ucs2_side (le : bool) : list (ecodec priv * kspec) := [(ucs2_enc le, uni_spec' (ucs2_put le))].
Lemma ucs2_side_ok le : cod_good TO (ucs2_side le) /\ eof_good TO (ucs2_side le).
Proof.
  split.
  - intros x [<-|[]]. split; cbn [fst snd codec_ok]; [apply uni_enc_ok|exact I].
  - intros j x Hx. left. apply nth_error_In in Hx as [<-|[]]. apply uni_eof.
Qed.
Lemma ucs2_calm le : calm (ucs2_side le). Proof. intros x [<-|[]] p. exact I. Qed.
Lemma be_head c : c < 0x100000000 -> exists x d, be_bytes c = x :: d /\ x < 257.
Proof.
  intros H. unfold be_bytes. destruct (N.ltb_spec c 256); [eexists _, _; split; [reflexivity|lia]|]. destruct (N.ltb_spec c 65536); [eexists _, _; split; [reflexivity|lia]|]. destruct (N.ltb_spec c 16777216); eexists _, _; (split; [reflexivity|lia]).
Qed.
Lemma ucs2_sem1 le c : c < 0x100000000 -> uni_sem (ucs2_put le) [udatum c] = match ucs2_put le (udatum c) with Some o => VMatch o | None => VDead end.
Proof. intros H. destruct (be_head c H) as (x & d & E & Hx). unfold udatum. rewrite E. cbn [uni_sem]. replace (x <? 257) with true by lia. reflexivity. Qed.
Lemma ucs2_one le c r : c < 0x100000000 -> first_match [k_v (uni_spec' (ucs2_put le))] (udatum c :: r) = option_map (fun o => (1%nat, o)) (ucs2_put le (udatum c)).
Proof. intros H. cbn [first_match scan app]. change (k_v (uni_spec' (ucs2_put le))) with (uni_sem (ucs2_put le)). rewrite (ucs2_sem1 le c H). destruct (ucs2_put le (udatum c)); reflexivity. Qed.
Definition kept (cps : list N) : list N := filter (fun c => c <? 0x10000) cps.
Definition lost (cps : list N) : nat := length (filter (fun c => negb (c <? 0x10000)) cps).
Lemma ucs2_trans le cps : Forall (fun c => c < 0x100000000) cps -> trans KTo [k_v (uni_spec' (ucs2_put le))] (map udatum cps) = (map (unit2 le) (kept cps), lost cps).
Proof.
  induction 1 as [|c cps Hlt _ IH]; [reflexivity|]. cbn [map]. unfold kept, lost in *. cbn [filter]. pose proof (ucs2_one le c (map udatum cps) Hlt) as HM. destruct (N.ltb_spec c 0x10000) as [Hc|Hc].
  - rewrite (ucs2_put_ok le c Hc) in HM. cbn [option_map] in HM. rewrite (trans_match _ _ _ _ _ HM). cbn [skipn negb]. rewrite IH. cbn [map app]. f_equal. f_equal.
    unfold unit2, utf16le, utf16be, utf16_units. replace (c <? 0x10000) with true by lia. destruct le; reflexivity.
  - rewrite (ucs2_put_reject le c Hc) in HM. cbn [option_map] in HM. rewrite (trans_fail_to _ (udatum c :: map udatum cps) ltac:(discriminate) HM).
    assert (E : examined (last [k_v (uni_spec' (ucs2_put le))] (fun _ => VDead)) [] (udatum c :: map udatum cps) = 1%nat).
    { cbn [last examined app length]. change (k_v (uni_spec' (ucs2_put le))) with (uni_sem (ucs2_put le)). rewrite (ucs2_sem1 le c Hlt), (ucs2_put_reject le c Hc). reflexivity. }
    rewrite E. cbn [skipn negb length]. rewrite IH. reflexivity.
Qed.
Theorem C33_ucs2 : forall src le t8 t16 s l cps, strict_utf8 t8 -> fresh (ucs2_conv src le t8 t16) s -> l <> [] -> Forall (fun x => lossless (snd x)) l ->
  Forall (reads src) cps -> concat (inputs l) = text (encoded src) cps ->
  exists s' got, runs_to s (stream_calls l) s' got /\ got ++ pending priv s' = flat_map (unit2 le) (filter (fun c => c <? 0x10000) cps) /\
    i_ierr priv s' = i_ierr priv s /\ i_oerr priv s' = (i_oerr priv s + length (filter (fun c => negb (c <? 0x10000)%N) cps))%nat.
Proof.
  intros src le t8 t16 s l cps Hs (s0 & HU & Hi) Hne Hll Hc Hin.
  assert (E : ucs2_conv src le t8 t16 = cb_inst (pconv (dec_side src t8 t16) (ucs2_side le))) by (unfold cb_inst, pconv, ucs2_conv; cbn [map fst snd ucs2_side]; rewrite dec_side_codecs; reflexivity).
  rewrite E in HU. destruct (dec_side_ok src t8 t16 Hs) as (D1 & D2). destruct (ucs2_side_ok le) as (E1 & E2).
  assert (HOK : cb_ok (pconv (dec_side src t8 t16) (ucs2_side le))) by (apply pconv_ok; auto; [destruct src; discriminate|discriminate]).
  destruct (creinit _ HOK s0 HU) as (s1 & H1 & HQ & _ & _ & HP); [apply dec_restores; [exact Hs|apply ucs2_calm]|]. assert (s1 = s) by congruence. subst s1.
  assert (HT : pipeline (cb_pipe (pconv (dec_side src t8 t16) (ucs2_side le))) (concat (inputs l)) = (map (unit2 le) (kept cps), 0%nat, lost cps)).
  { rewrite Hin. unfold cb_pipe, pconv, pipeline. cbn [map fst snd kind_of fold_left apply_phase ps_kind ps_cs inj concat].
    replace (map (fun y => k_v (snd y)) (dec_side src t8 t16)) with (dec_csems src (u_nul t8)) by (destruct src; reflexivity).
    rewrite app_nil_r. change (map (fun b => [b]) (text (encoded src) cps)) with (byt (text (encoding src) cps)).
    rewrite (decode_all _ _ (reads src) (side_decodes src (u_nul t8)) cps Hc). cbn [apply_phase ps_kind ps_cs inj map snd]. rewrite udatum_nonempty.
    cbn [ucs2_side map snd]. rewrite ucs2_trans; [reflexivity|]. eapply Forall_impl; [|exact Hc]. intros c Hr. destruct src; cbn in Hr; unfold scalar in Hr; lia. }
  destruct (cstream _ HOK s l _ _ HQ Hne Hll HT) as (s' & got & R1 & R2 & R3 & R4 & _). exists s', got. split; [exact R1|]. split; [|split; [exact R3|exact R4]].
  rewrite R2, HP. cbn [app]. symmetry. apply flat_map_concat_map.
Qed.
(** A case: A, U+1F600, U+4E2D. *)
Example C33_ucs2_example : Forall (reads UTF8) [0x41; 0x1F600; 0x4E2D] /\ flat_map (unit2 true) (filter (fun c => c <? 0x10000) [0x41; 0x1F600; 0x4E2D]) = [0x41; 0; 0x2D; 0x4E].
Proof. split; [repeat constructor; cbn; lia|reflexivity]. Qed.
Print Assumptions C33_ucs2.

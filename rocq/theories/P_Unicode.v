(** Transcoding between the Unicode encodings through the whole engine. *)
From Verif Require Import Base Types M_Engine M_Output M_Mktable M_Create M_Callback M_UTF8 M_UTF16 M_Modules S_Session S_Source S_Dict S_Table S_Unicode S_Engine P_Trans P_Engine1 P_Engine2 P_Engine5 P_Callback P_CbSession P_UTF8 P_UTF8b P_UTF16 P_Dict P_Mktable4 P_Ascii P_Charset.
From Coq Require Import ZifyBool ZifyN ZifyNat.
Local Open Scope N_scope.
Notation kspec := (codec_spec (P:=priv)).

Lemma ascii_from_sub : sub_nonempty (file_dict ascii_from_src).
Proof.
  intros w o H _. rewrite ascii_from_is in H. unfold ascii_from_dict in H. rewrite lookup_ascii in H. destruct w as [|b [|]]; try discriminate. destruct (existsb _ _); [|discriminate]. injection H as <-. discriminate.
Qed.
Lemma lookup_in D w o : lookup D w = Some o -> In o (map snd D).
Proof. induction D as [|[k v] D IH]; cbn; [discriminate|]. destruct (eqb_syms k w); [intros Hx; injection Hx as <-; left; reflexivity|intros Hx; right; apply IH; exact Hx]. Qed.
Lemma ascii_to_sub : sub_nonempty (file_dict ascii_to_src).
Proof.
  intros w o H _. rewrite ascii_to_is in H. apply lookup_in in H. unfold ascii_to_dict in H. rewrite map_app, map_map in H. cbn [snd map] in H. apply in_app_or in H as [H|H].
  - apply in_map_iff in H as (b & <- & _). discriminate.
  - destruct H as [<-|[<-|[]]]; discriminate.
Qed.

Definition ascii_dec_spec : kspec := from_spec (file_dict ascii_from_src) (compiled ascii_from_src).
Definition ascii_enc_spec : kspec := data_spec (file_dict ascii_to_src) (compiled ascii_to_src).
Lemma tab_from_ok T D : timpl T D -> sub_nonempty D -> from_ok (tab_codec T) (from_spec D T).
Proof. intros H Hs. exact (from_table_ok (tab_codec T) D H Hs). Qed.
Lemma tab_data_ok to T D : timpl T D -> sub_nonempty D -> data_ok to (tab_codec T) (data_spec D T).
Proof. intros H Hs. exact (data_table_ok to (tab_codec T) D H Hs). Qed.
Strategy 1000 [compiled file_dict mktable].
Lemma ascii_dec_ok : from_ok ascii_dec ascii_dec_spec.
Proof. exact (tab_from_ok _ _ (compiled_ok _ ascii_from_entries) ascii_from_sub). Qed.
Lemma ascii_enc_ok to : data_ok to ascii_enc ascii_enc_spec.
Proof. exact (tab_data_ok to _ _ (compiled_ok _ ascii_to_entries) ascii_to_sub). Qed.

Definition utf8_dec_spec (nul : bool) : kspec := dec_spec PU8 (sinv nul) (fun w => w) u8_step (strict nul).
Definition utf16_dec_spec (le : bool) : kspec := dec_spec PU16 inv16 (norm16 le) (nstep16 le) w0.
Definition utf32_dec_spec (le : bool) : kspec := dec_spec PU16 inv16 (norm32 le) (nstep32 le) w0.
Lemma utf8_dec_ok t : from_ok (utf8_dec t) (utf8_dec_spec (u_nul t)).
Proof.
  apply (dec_ok PU8 get8 (fun q => eq_refl) u8_step (sinv (u_nul t)) (fun w => w) u8_step (strict (u_nul t)) (sinv (u_nul t)) (strict_inv _) (strict_step_ok _)); [|reflexivity|reflexivity].
  intros w b Hw. pose proof (strict_step_ok (u_nul t) w b Hw) as H. destruct (u8_step w b) as [w' [[st o]|]]; (split; [|reflexivity]); [|exact H].
  destruct st; try contradiction; [apply H|destruct H as (-> & _); apply strict_inv|subst; apply strict_inv].
Qed.
Lemma utf16_dec_ok (le : bool) t : from_ok (utf16_dec le t) (utf16_dec_spec le).
Proof. apply (dec_ok PU16 get16 (fun q => eq_refl) (u16_step le) inv16 (norm16 le) (nstep16 le) w0 inv16 inv_w0 (step_ok16 le) (sim16 le)); reflexivity. Qed.
Lemma utf32_dec_ok (le : bool) t : from_ok (utf32_dec le t) (utf32_dec_spec le).
Proof. apply (dec_ok PU16 get16 (fun q => eq_refl) (u32_step le) inv16 (norm32 le) (nstep32 le) w0 inv16 inv_w0 (step_ok32 le) (sim32 le)); reflexivity. Qed.
Definition uni_spec' (f : datum -> option (list datum)) : kspec := uni_spec f.
Lemma uni_enc_ok to f : data_ok to (uni_enc f) (uni_spec' f).
Proof. apply uni_ok; reflexivity. Qed.

(** The two sides of a conversion, with their semantics. *)
Definition dec_side (cs : charset) (t8 : u8) (t16 : u16) : list (ecodec priv * kspec) :=
  match cs with
  | UTF8 => [(ascii_dec, ascii_dec_spec); (utf8_dec t8, utf8_dec_spec (u_nul t8))]
  | UTF16BE => [(utf16_dec false t16, utf16_dec_spec false)] | UTF16LE => [(utf16_dec true t16, utf16_dec_spec true)]
  | UTF32BE => [(utf32_dec false t16, utf32_dec_spec false)] | UTF32LE => [(utf32_dec true t16, utf32_dec_spec true)]
  end.
Definition enc_side (cs : charset) : list (ecodec priv * kspec) :=
  match cs with
  | UTF8 => [(utf8_enc, uni_spec' u8_put); (ascii_enc, ascii_enc_spec)]
  | UTF16BE => [(utf16_enc false, uni_spec' (u16_put false))] | UTF16LE => [(utf16_enc true, uni_spec' (u16_put true))]
  | UTF32BE => [(utf32_enc false, uni_spec' (u32_put false))] | UTF32LE => [(utf32_enc true, uni_spec' (u32_put true))]
  end.
Lemma dec_side_codecs cs t8 t16 : map fst (dec_side cs t8 t16) = decoder_of cs t8 t16. Proof. destruct cs; reflexivity. Qed.
Lemma enc_side_codecs cs : map fst (enc_side cs) = encoder_of cs. Proof. destruct cs; reflexivity. Qed.

Definition strict_opts (t : u8) : Prop := u_cesu t = false /\ u_loose t = false /\ u_over t = false /\ u_super t = false.
Lemma init_strict t : strict_opts t -> u8_init t = strict (u_nul t).
Proof. intros (H1 & H2 & H3 & H4). unfold u8_init, u_set, strict. rewrite H1, H2, H3, H4. reflexivity. Qed.

Definition eof_good (t : ptype) (l : list (ecodec priv * kspec)) : Prop :=
  forall j x, nth_error l j = Some x -> eof_clean (snd x) \/ (t = FROM /\ j = (length l - 1)%nat /\ no_sub (k_v (snd x))).
Definition cod_good (t : ptype) (l : list (ecodec priv * kspec)) : Prop :=
  forall x, In x l -> codec_ok t (fst x) (snd x) /\ k_clean (snd x) (e_priv priv (init_codec priv (fst x))).
Lemma dec_side_ok cs t8 t16 : strict_opts t8 -> cod_good FROM (dec_side cs t8 t16) /\ eof_good FROM (dec_side cs t8 t16).
Proof.
  intros Hs. assert (Hw : forall (w : u16), exists w', PU16 (u16_init w) = PU16 w' /\ inv16 w' /\ norm16 false w' = w0 /\ norm16 true w' = w0 /\ norm32 false w' = w0 /\ norm32 true w' = w0).
  { intros w. exists (u16_init w). split; [reflexivity|]. repeat split; reflexivity. }
  split.
  - intros x Hx. destruct cs; cbn in Hx.
    + destruct Hx as [<-|[<-|[]]]; (split; [|]); cbn [fst snd codec_ok]; [apply ascii_dec_ok|exact I|apply utf8_dec_ok|]. cbn. exists (u8_init t8). split; [reflexivity|]. rewrite init_strict by exact Hs. split; [apply strict_inv|reflexivity].
    + destruct Hx as [<-|[]]. split; cbn [fst snd codec_ok]; [apply utf16_dec_ok|]. destruct (Hw t16) as (w & H1 & H2 & H3). exists w. split; [exact H1|]. split; [exact H2|]. tauto.
    + destruct Hx as [<-|[]]. split; cbn [fst snd codec_ok]; [apply utf16_dec_ok|]. destruct (Hw t16) as (w & H1 & H2 & H3). exists w. split; [exact H1|]. split; [exact H2|]. tauto.
    + destruct Hx as [<-|[]]. split; cbn [fst snd codec_ok]; [apply utf32_dec_ok|]. destruct (Hw t16) as (w & H1 & H2 & H3). exists w. split; [exact H1|]. split; [exact H2|]. tauto.
    + destruct Hx as [<-|[]]. split; cbn [fst snd codec_ok]; [apply utf32_dec_ok|]. destruct (Hw t16) as (w & H1 & H2 & H3). exists w. split; [exact H1|]. split; [exact H2|]. tauto.
  - intros j x Hx. destruct cs; cbn in Hx.
    + destruct j as [|[|j]]; [injection Hx as <-; left; apply from_eof|injection Hx as <-; right|destruct j; discriminate]. split; [reflexivity|]. split; [reflexivity|]. apply dec_no_sub.
    + destruct j; [injection Hx as <-; right|destruct j; discriminate]. split; [reflexivity|]. split; [reflexivity|]. apply dec_no_sub.
    + destruct j; [injection Hx as <-; right|destruct j; discriminate]. split; [reflexivity|]. split; [reflexivity|]. apply dec_no_sub.
    + destruct j; [injection Hx as <-; right|destruct j; discriminate]. split; [reflexivity|]. split; [reflexivity|]. apply dec_no_sub.
    + destruct j; [injection Hx as <-; right|destruct j; discriminate]. split; [reflexivity|]. split; [reflexivity|]. apply dec_no_sub.
Qed.
Lemma enc_side_ok cs : cod_good TO (enc_side cs) /\ eof_good TO (enc_side cs).
Proof.
  split.
  - intros x Hx. destruct cs; cbn in Hx; repeat (destruct Hx as [<-|Hx]; [split; cbn [fst snd codec_ok]; [first [apply uni_enc_ok|apply ascii_enc_ok]|exact I]|]); destruct Hx.
  - intros j x Hx. left. apply nth_error_In in Hx. destruct cs; cbn in Hx; repeat (destruct Hx as [<-|Hx]; [first [apply uni_eof|apply data_eof]|]); destruct Hx.
Qed.
Definition uconv (src dst : charset) (t8 : u8) (t16 : u16) : list (ptype * list (ecodec priv * kspec)) := [(FROM, dec_side src t8 t16); (TO, enc_side dst)].
Lemma uconv_ok src dst t8 t16 : strict_opts t8 -> cb_ok (uconv src dst t8 t16).
Proof.
  intros Hs. destruct (dec_side_ok src t8 t16 Hs) as (D1 & D2). destruct (enc_side_ok dst) as (E1 & E2). constructor.
  - eexists _, _. reflexivity.
  - intros t l [H|[H|[]]]; injection H as <- <-; (split; [auto|]); [destruct src|destruct dst]; discriminate.
  - intros [|[|i]] l l'; cbn; try discriminate; destruct i; discriminate.
  - intros t l x [H|[H|[]]]; injection H as <- <-; intros Hx; [apply D1|apply E1]; exact Hx.
  - intros t l j x [H|[H|[]]]; injection H as <- <-; intros Hx; [apply D2|apply E2]; exact Hx.
Qed.

(** The standard encodings. *)
Definition encoding (cs : charset) : N -> list N :=
  match cs with UTF8 => utf8 | UTF16BE => utf16be | UTF16LE => utf16le | UTF32BE => utf32be | UTF32LE => utf32le end.
Definition dec_csems (cs : charset) (nul : bool) : list csem :=
  match cs with
  | UTF8 => [ascii_from_sem; u8dec_sem nul]
  | UTF16BE => [dec_sem (nstep16 false) w0] | UTF16LE => [dec_sem (nstep16 true) w0]
  | UTF32BE => [dec_sem (nstep32 false) w0] | UTF32LE => [dec_sem (nstep32 true) w0]
  end.
Definition enc_csems (cs : charset) : list csem :=
  match cs with
  | UTF8 => [uni_sem u8_put; ascii_to_sem]
  | UTF16BE => [uni_sem (u16_put false)] | UTF16LE => [uni_sem (u16_put true)]
  | UTF32BE => [uni_sem (u32_put false)] | UTF32LE => [uni_sem (u32_put true)]
  end.
Lemma uconv_pipe src dst t8 t16 : cb_pipe (uconv src dst t8 t16) = [mkPsem KFrom (dec_csems src (u_nul t8)); mkPsem KTo (enc_csems dst)].
Proof. destruct src, dst; reflexivity. Qed.

(** ** The values each side handles *)
Definition decodable (cs : charset) (c : N) : Prop :=
  match cs with UTF8 => u8_value c | UTF16BE | UTF16LE => scalar c /\ 0 < c | UTF32BE | UTF32LE => 0 < c < 0x100000000 end.
Definition encodable (cs : charset) (c : N) : Prop :=
  match cs with UTF8 => u8_put_value c | UTF16BE | UTF16LE => c < 0x110000 | UTF32BE | UTF32LE => c < 0x100000000 end.
Definition carried (src dst : charset) (c : N) : Prop := decodable src c /\ encodable dst c.
Lemma decodes_weaken cs enc (d d' : N -> Prop) : (forall c, d' c -> d c) -> decodes cs enc d -> decodes cs enc d'.
Proof. intros H D c rest Hc. apply D, H, Hc. Qed.
Lemma encodes_weaken cs enc (d d' : N -> Prop) : (forall c, d' c -> d c) -> encodes cs enc d -> encodes cs enc d'.
Proof. intros H D c rest Hc. apply D, H, Hc. Qed.
Lemma side_decodes cs nul : decodes (dec_csems cs nul) (encoding cs) (decodable cs).
Proof. destruct cs; [apply utf8_decodes|apply (utf16_decodes false)|apply (utf16_decodes true)|apply (utf32_decodes false)|apply (utf32_decodes true)]. Qed.
Lemma side_encodes cs : encodes (enc_csems cs) (encoding cs) (encodable cs).
Proof. destruct cs; [apply utf8_encodes|apply (utf16_encodes false)|apply (utf16_encodes true)|apply (utf32_encodes false)|apply (utf32_encodes true)]. Qed.
(** Unicode scalar values other than U+0000 are carried by every pair. *)
Definition character (c : N) : Prop := scalar c /\ c <> 0.
Lemma character_carried src dst c : character c -> carried src dst c.
Proof. unfold character, scalar, carried, decodable, encodable, u8_value, u8_put_value, scalar. intros. destruct src, dst; lia. Qed.

Theorem transcoding src dst t8 t16 s l cps : strict_opts t8 -> cquiet (uconv src dst t8 t16) s -> l <> [] -> Forall (fun x => lossless (snd x)) l ->
  Forall (carried src dst) cps -> concat (inputs l) = text (encoding src) cps ->
  exists s' got, runs_to s (stream_calls l) s' got /\ got ++ pending priv s' = pending priv s ++ text (encoding dst) cps /\
    i_ierr priv s' = i_ierr priv s /\ i_oerr priv s' = i_oerr priv s /\ cquiet (uconv src dst t8 t16) s'.
Proof.
  intros Hs HQ Hne Hll Hc Hin. pose proof (cstream (uconv src dst t8 t16) (uconv_ok _ _ _ _ Hs) s l (map (encoding dst) cps) 0%nat HQ Hne Hll) as H.
  rewrite uconv_pipe, Hin in H.
  assert (Hd : decodes (dec_csems src (u_nul t8)) (encoding src) (carried src dst)) by (eapply decodes_weaken; [|apply side_decodes]; intros c Hx; apply Hx).
  assert (He : encodes (enc_csems dst) (encoding dst) (carried src dst)) by (eapply encodes_weaken; [|apply side_encodes]; intros c Hx; apply Hx).
  specialize (H (transcode _ _ _ _ _ Hd He cps Hc)).
  rewrite Nat.add_0_r in H. exact H.
Qed.

(** ** Which byte streams the UTF-8 decoder accepts *)
Lemma pipe2_ierr dcs ecs W : flow_ierr (pipeline [mkPsem KFrom dcs; mkPsem KTo ecs] W) = snd (trans KFrom dcs (byt W)).
Proof.
  unfold pipeline. cbn [fold_left apply_phase ps_kind ps_cs inj concat]. rewrite app_nil_r. change (map (fun b => [b]) W) with (byt W). destruct (trans KFrom dcs (byt W)) as [o e].
  cbn [apply_phase ps_kind ps_cs inj]. destruct (trans KTo ecs _). cbn. lia.
Qed.
Theorem utf8_accepted dst t8 t16 s l : strict_opts t8 -> cquiet (uconv UTF8 dst t8 t16) s -> l <> [] -> Forall (fun x => lossless (snd x)) l -> Forall byte (concat (inputs l)) ->
  ((exists s' got, runs_to s (stream_calls l) s' got /\ i_ierr priv s' = i_ierr priv s) <-> (exists cps, Forall u8_value cps /\ concat (inputs l) = text utf8 cps)).
Proof.
  intros Hs HQ Hne Hll HB. split.
  - intros (s' & got & HR & He). pose proof (cdetect (uconv UTF8 dst t8 t16) (uconv_ok _ _ _ _ Hs) s l s' got HQ Hne Hll) as Hd.
    rewrite uconv_pipe, pipe2_ierr in Hd. cbn [dec_csems] in Hd. destruct (trans KFrom [ascii_from_sem; u8dec_sem (u_nul t8)] (byt (concat (inputs l)))) as [o e] eqn:E. cbn [snd] in Hd.
    destruct e as [|e]; [|exfalso; specialize (Hd ltac:(lia) HR); lia].
    destruct (utf8_trans_inv _ _ _ _ (le_n _) HB E) as (cps & H1 & H2 & _). eauto.
  - intros (cps & Hc & Hin). pose proof (cstream (uconv UTF8 dst t8 t16) (uconv_ok _ _ _ _ Hs) s l) as H. rewrite uconv_pipe in H.
    pose proof (pipe2_ierr (dec_csems UTF8 (u_nul t8)) (enc_csems dst) (concat (inputs l))) as Hp. destruct (pipeline _ _) as [[out ie] oe] in H, Hp. cbn [flow_ierr fst snd] in Hp.
    pose proof (decode_all _ _ _ (side_decodes UTF8 (u_nul t8)) cps Hc) as Hda. cbn [encoding] in Hda. rewrite Hin in Hp. rewrite Hda in Hp. cbn [snd] in Hp. subst ie.
    destruct (H out oe HQ Hne Hll eq_refl) as (s' & got & H1 & _ & H2 & _). eauto.
Qed.

(** ** Re-initialisation *)
Lemma loop_cb_inv {Q} (inj : Q -> priv) prj (step : Q -> N -> Q * option (status * list datum)) (I : Q -> Prop) (Hprj : forall p q, prj p = Some q -> p = inj q) :
  (forall q b, I q -> I (fst (step q b))) -> forall p q d i sd, prj p = Some q -> I q -> exists q', cb_priv priv (loop_cb inj prj step p d i sd) = inj q' /\ I q'.
Proof.
  intros HS p q d i sd Hp Hq. unfold loop_cb. rewrite Hp.
  assert (H : forall bs q i, I q -> exists q', fst (fst (fst (byte_loop step q bs i))) = q' /\ I q').
  { induction bs as [|b bs IH]; intros q1 i1 H1; cbn [byte_loop]; [eauto|]. specialize (HS q1 b H1). destruct (step q1 b) as [q2 [[st o]|]]; cbn in *; [eauto|apply IH; exact HS]. }
  specialize (H (skipn i d) q i Hq). destruct (byte_loop step q (skipn i d) i) as [[[q' i'] st] o]. destruct H as (x & Hx & HI). cbn in Hx. subst x. exists q'. auto.
Qed.
Definition same_opts (t t' : u8) : Prop := u_cesu t' = u_cesu t /\ u_loose t' = u_loose t /\ u_nul t' = u_nul t /\ u_over t' = u_over t /\ u_super t' = u_super t.
Lemma u8_step_opts t t' b : same_opts t t' -> same_opts t (fst (u8_step t' b)).
Proof.
  intros H. unfold u8_step, u_dead, u_go, u_commit, with_pass. cbv zeta.
  repeat match goal with |- context [match ?x with _ => _ end] => destruct x end; exact H.
Qed.
Lemma u8_init_opts t t' : same_opts t t' -> same_opts t (u8_init t'). Proof. intros H. exact H. Qed.
Lemma u8_flush_opts t t' : same_opts t t' -> same_opts t (fst (u8_flush t')).
Proof. intros H. unfold u8_flush. destruct (_ && _); exact H. Qed.
Lemma utf8_evolves t p : evolves (utf8_dec t) p -> exists t', p = PU8 t' /\ same_opts t t'.
Proof.
  induction 1 as [|f p H _ (t' & -> & Ht)|f p d i sd H _ (t' & -> & Ht)|f p H _ (t' & -> & Ht)].
  - exists t. repeat split.
  - cbn in H. injection H as <-. exists (u8_init t'). split; [reflexivity|apply u8_init_opts, Ht].
  - cbn in H. injection H as <-. apply (loop_cb_inv PU8 get8 u8_step (same_opts t)) with (q := t'); auto; [intros [] q Hq; try discriminate; injection Hq as ->; reflexivity|]. intros q b Hq. apply u8_step_opts, Hq.
  - cbn in H. injection H as <-. pose proof (u8_flush_opts t t' Ht) as Hf. destruct (u8_flush t') as [t2 o]. exists t2. auto.
Qed.
Lemma u16_evolves tab step t p : evolves (mkEc priv tab (Some (loop_cb PU16 get16 step)) None (Some u16_cbinit) (PU16 t)) p -> exists t', p = PU16 t'.
Proof.
  induction 1 as [|f p H _ (t' & ->)|f p d i sd H _ (t' & ->)|f p H _ (t' & ->)].
  - exists t. reflexivity.
  - cbn in H. injection H as <-. exists (u16_init t'). reflexivity.
  - cbn in H. injection H as <-. destruct (loop_cb_inv PU16 get16 step (fun _ => True)) with (q := t') (p := PU16 t') (d := d) (i := i) (sd := sd) as (q' & Hq & _); auto; [intros [] q Hq; try discriminate; injection Hq as ->; reflexivity|]. eauto.
  - discriminate.
Qed.
Lemma init16_clean (w : u16) : inv16 (u16_init w) /\ norm16 false (u16_init w) = w0 /\ norm16 true (u16_init w) = w0 /\ norm32 false (u16_init w) = w0 /\ norm32 true (u16_init w) = w0.
Proof. repeat split; reflexivity. Qed.
Lemma same_strict t t' : strict_opts t -> same_opts t t' -> strict_opts t' /\ u_nul t' = u_nul t.
Proof. unfold strict_opts, same_opts. intros (A1 & A2 & A3 & A4) (B1 & B2 & B3 & B4 & B5). rewrite B1, B2, B4, B5. auto. Qed.
Lemma uconv_restores src dst t8 t16 : strict_opts t8 -> restores (uconv src dst t8 t16).
Proof.
  intros Hs t l x q [H|[H|[]]]; injection H as <- <-; intros Hx Hev.
  - pose proof (init16_clean) as Hi. destruct src; cbn in Hx; repeat (destruct Hx as [<-|Hx]); try contradiction; cbn [fst snd] in *.
    + exact I.
    + destruct (utf8_evolves _ _ Hev) as (t' & -> & Ht). destruct (same_strict _ _ Hs Ht) as (Hs' & Hn). cbn. exists (u8_init t'). split; [reflexivity|]. rewrite init_strict, Hn by exact Hs'. split; [apply strict_inv|reflexivity].
    + destruct (u16_evolves _ _ _ _ Hev) as (t' & ->). cbn. exists (u16_init t'). specialize (Hi t'). tauto.
    + destruct (u16_evolves _ _ _ _ Hev) as (t' & ->). cbn. exists (u16_init t'). specialize (Hi t'). tauto.
    + destruct (u16_evolves _ _ _ _ Hev) as (t' & ->). cbn. exists (u16_init t'). specialize (Hi t'). tauto.
    + destruct (u16_evolves _ _ _ _ Hev) as (t' & ->). cbn. exists (u16_init t'). specialize (Hi t'). tauto.
  - destruct dst; cbn in Hx; repeat (destruct Hx as [<-|Hx]); try contradiction; exact I.
Qed.

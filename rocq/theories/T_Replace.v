(** Theorems about INSERT, NULL and REPLACE (C47). *)
From Verif Require Import Base Types M_Engine M_Output M_Create M_Callback M_Modules M_UTF8 M_UTF16 M_Inter S_Session S_Unicode S_Transcode S_Rest S_Inter P_Engine1 P_Callback P_CbSession P_Charset P_Unicode P_Pair P_UDA P_Escape P_Escape2 P_Tri T_Escape.
From Coq Require Import ZifyBool ZifyN ZifyNat.
Local Open Scope N_scope.

(** bsdconv_create("src:MODULE:dst") for the intermediate modules that treat each datum by itself; [put]: what they emit. *)
Definition each_codec (put : datum -> option (list datum)) : ecodec priv := mkEc priv star_table (Some (datum_cb put)) None None PNil.
Definition through (src : charset) (m : ecodec priv) (dst : charset) (t8 : u8) (t16 : u16) : inst priv :=
  new_instance priv [(FROM, decoder_of src t8 t16); (INTER, [m]); (TO, encoder_of dst)].
Definition each_side (put : datum -> option (list datum)) : list (ecodec priv * kspec) := [(each_codec put, star_spec put)].
(** A text that [src] reads; the characters that [g] makes of it must be writable in [dst]. *)
Lemma through_gen src dst t8 t16 put (dom : N -> Prop) (h : N -> list N) : strict_utf8 t8 ->
  (forall c, reads src c /\ dom c -> match put (udatum c) with Some o => o | None => [udatum c] end = map udatum (h c)) ->
  (forall c, reads src c /\ dom c -> Forall (writes dst) (h c)) ->
  forall cps, Forall (fun c => reads src c /\ dom c) cps -> converts true (through src (each_codec put) dst t8 t16) (char_text src dom) (flat_map (encoded src) cps) (flat_map (encoded dst) (flat_map h cps)).
Proof.
  intros Hs Hp Hw cps Hc. unfold through.
  assert (E : new_instance priv [(FROM, decoder_of src t8 t16); (INTER, [each_codec put]); (TO, encoder_of dst)] = cb_inst (tconv (dec_side src t8 t16) (each_side put) (enc_side dst))) by (unfold cb_inst, tconv; cbn [map fst snd each_side]; rewrite dec_side_codecs, enc_side_codecs; reflexivity).
  rewrite E. destruct (dec_side_ok src t8 t16 Hs) as (D1 & D2). destruct (enc_side_ok dst) as (E1 & E2).
  apply (tri_converts (dec_side src t8 t16) (each_side put) (enc_side dst) true (encoded src) udatum (encoded dst) (fun c => reads src c /\ dom c) (writes dst) (flat_map h)); auto using enc_side_ne; try discriminate.
  - destruct src; discriminate.
  - intros x [<-|[]]. cbn [fst snd codec_ok]. split; [apply star_ok; reflexivity|exact I].
  - intros j x Hx. left. apply nth_error_In in Hx. destruct Hx as [<-|[]]. apply star_eof.
  - intros _. apply tconv_restores; [intros x [<-|[]] p; exact I|apply enc_calm|].
    intros x q Hx Hev. apply (uconv_restores src UTF8 t8 t16 Hs FROM (dec_side src t8 t16) x q); [left; reflexivity|exact Hx|exact Hev].
  - intros c rest (Hr & _). replace (map (fun y => k_v (snd y)) (dec_side src t8 t16)) with (dec_csems src (u_nul t8)) by (destruct src; reflexivity). apply (side_decodes src (u_nul t8) c rest Hr).
  - apply (enc_ecodes dst (fun c => c)). intros c Hc'. exact Hc'.
  - intros xs Hx. split.
    + induction Hx as [|c cs Hc' _ IH]; [constructor|]. cbn [flat_map]. apply Forall_app. split; [apply Hw; exact Hc'|exact IH].
    + cbn [map each_side snd star_spec k_v]. rewrite (each_trans put).
      * f_equal. clear - Hx Hp. induction Hx as [|c cs Hc' _ IH]; [reflexivity|]. cbn [map flat_map]. rewrite map_app, <- IH, <- (Hp c Hc'). reflexivity.
      * apply Forall_forall. intros d Hd. apply in_map_iff in Hd as (c & <- & _). unfold udatum. eexists _, _. split; [reflexivity|lia].
Qed.

(** C47, INSERT#BEFORE=...&AFTER=...: the given characters around each character. *)
Theorem C47_insert : forall src dst t8 t16 before after cps, strict_utf8 t8 -> Forall (writes dst) before -> Forall (writes dst) after -> Forall (fun c => reads src c /\ writes dst c) cps ->
  converts true (through src (each_codec (insert_put (map udatum before) (map udatum after))) dst t8 t16) (char_text src (writes dst))
    (flat_map (encoded src) cps) (flat_map (encoded dst) (flat_map (fun c => before ++ [c] ++ after) cps)).
Proof.
  intros src dst t8 t16 before after cps Hs Hb Ha Hc. apply through_gen; [exact Hs| | |exact Hc].
  - intros c _. unfold insert_put. rewrite map_app. reflexivity.
  - intros c (_ & Hw). apply Forall_app. split; [exact Hb|]. constructor; assumption.
Qed.
Print Assumptions C47_insert.
(** C47, NULL: everything is dropped. *)
Theorem C47_null : forall src dst t8 t16 cps, strict_utf8 t8 -> Forall (reads src) cps ->
  converts true (through src (each_codec null_put) dst t8 t16) (char_text src (fun _ => True)) (flat_map (encoded src) cps) [].
Proof.
  intros src dst t8 t16 cps Hs Hc.
  assert (E : @nil N = flat_map (encoded dst) (flat_map (fun _ : N => []) cps)) by (clear; induction cps as [|c cps IH]; [reflexivity|exact IH]).
  rewrite E. apply through_gen; [exact Hs|reflexivity|constructor|]. eapply Forall_impl; [|exact Hc]. intros c H. split; [exact H|exact I].
Qed.
Print Assumptions C47_null.
Example C47_example : Forall (fun c => reads UTF8 c /\ writes UTF16LE c) [0x41; 0x4E2D; 0x1F600] /\ strict_utf8 tu8.
Proof. split; [|vm_compute; auto]. repeat constructor; cbn; lia. Qed.

(** C64: encoders that write a character in a notation of their own, alone or behind ASCII. *)
From Verif Require Import Base Types M_Engine M_Output M_Create M_Callback M_Modules M_UTF8 M_UTF16 M_Escape M_Writers S_Session S_Unicode S_Rest S_Source S_Dict S_Engine S_Escape S_Writers
  P_Engine1 P_Callback P_CbSession P_Ascii P_Charset P_Dict P_Unicode P_Pair P_UDA P_Escape P_Escape2 T_Escape.
From Verif Require Import S_Transcode.
From Coq Require Import ZifyBool ZifyN ZifyNat.
Local Open Scope N_scope.

(** ** The encoder phases *)
Definition put_side (f : datum -> option (list datum)) : list (ecodec priv * kspec) := [(put_enc f, star_spec f)].
Definition kept_side (f : datum -> option (list datum)) : list (ecodec priv * kspec) := (ascii_enc, ascii_enc_spec) :: put_side f.
Lemma put_side_ok f : cod_good TO (put_side f) /\ eof_good TO (put_side f).
Proof.
  split.
  - intros x [<-|[]]. cbn [fst snd codec_ok]. split; [apply star_ok; reflexivity|exact I].
  - intros j x Hx. left. apply nth_error_In in Hx as [<-|[]]. apply star_eof.
Qed.
Lemma kept_side_ok f : cod_good TO (kept_side f) /\ eof_good TO (kept_side f).
Proof.
  destruct (put_side_ok f) as (H1 & _). split.
  - intros x [<-|Hx]; [|exact (H1 x Hx)]. split; cbn [fst snd codec_ok]; [apply ascii_enc_ok|exact I].
  - intros j x Hx. left. apply nth_error_In in Hx as [<-|[<-|[]]]; [apply data_eof|apply star_eof].
Qed.
Lemma put_calm f : calm (put_side f). Proof. intros x [<-|[]] p. exact I. Qed.
Lemma kept_calm f : calm (kept_side f). Proof. intros x [<-|[<-|[]]] p; exact I. Qed.

(** ** Single data *)
Lemma put_first f x d rest : x < 257 -> first_match [k_v (star_spec (P:=priv) f)] ((x :: d) :: rest) = option_map (fun o => (1%nat, o)) (f (x :: d)).
Proof. intros Hx. cbn [first_match star_spec k_v]. cbn [scan app star_sem]. replace (x <? 257) with true by lia. destruct (f (x :: d)); reflexivity. Qed.

Definition ascii_out (c : N) : option N := if (1 <=? c) && (c <? 128) then Some c else if c =? 0x2DC then Some 0x7E else None.
Lemma ascii_out_is c : match ascii_out c with Some b => in_ascii c [b] | None => forall v, ~ in_ascii c v end.
Proof.
  unfold ascii_out. destruct ((1 <=? c) && (c <? 128)) eqn:E; [apply ia_same; lia|]. destruct (N.eqb_spec c 0x2DC) as [->|H]; [apply ia_tilde|]. intros v Hv. inversion Hv; subst; lia.
Qed.
Lemma lookup_pairs : forall l w, lookup (map (fun b => ([1; b], [[b]])) l) w = match w with [t; b] => if (t =? 1) && existsb (N.eqb b) l then Some [[b]] else None | _ => None end.
Proof.
  induction l as [|x l IH]; intros w; cbn [map lookup existsb]; [destruct w as [|t [|b [|? ?]]]; try reflexivity; rewrite andb_false_r; reflexivity|]. rewrite IH.
  destruct w as [|t [|b [|? ?]]]; cbn [eqb_syms]; rewrite ?andb_false_r; try reflexivity.
  rewrite andb_true_r, (N.eqb_sym 1 t), (N.eqb_sym b x). destruct (N.eqb_spec t 1) as [->|]; cbn [andb]; [|reflexivity]. destruct (N.eqb_spec x b) as [->|]; reflexivity.
Qed.
Lemma lookup_app D1 D2 w : lookup (D1 ++ D2) w = match lookup D1 w with Some o => Some o | None => lookup D2 w end.
Proof. induction D1 as [|[k o] D1 IH]; [reflexivity|]. cbn [app lookup]. destruct (eqb_syms k w); [reflexivity|exact IH]. Qed.
Lemma ascii_no_sep w : has_prefix ascii_to_dict (w ++ [256]) = false.
Proof.
  apply not_true_is_false. intros H. apply has_prefix_spec in H as (k & o & r & Hin & ->).
  assert (HF : forallb (fun e => forallb (fun x => negb (x =? 256)) (fst e)) ascii_to_dict = true) by (vm_compute; reflexivity).
  rewrite forallb_forall in HF. specialize (HF _ Hin). cbn [fst] in HF. rewrite forallb_forall in HF.
  assert (Hx : In 256 ((w ++ [256]) ++ r)) by (rewrite <- app_assoc; apply in_or_app; right; left; reflexivity). specialize (HF _ Hx). discriminate.
Qed.
Lemma ascii_single c : c < 0x100000000 -> ascii_to_sem [udatum c] = match ascii_out c with Some b => VMatch [[b]] | None => VDead end.
Proof.
  intros Hc. unfold ascii_to_sem, data_sem. rewrite ascii_to_is. cbv zeta. cbn [joined]. rewrite ascii_no_sep.
  replace (lookup ascii_to_dict (udatum c)) with (option_map (fun b => [[b]]) (ascii_out c)); [destruct (ascii_out c); reflexivity|].
  unfold ascii_to_dict. rewrite lookup_app, lookup_pairs. unfold udatum, be_bytes.
  destruct (N.ltb_spec c 256) as [H1|H1]; [|destruct (N.ltb_spec c 0x10000) as [H2|H2]; [|destruct (N.ltb_spec c 0x1000000) as [H3|H3]]].
  - rewrite in_codes. change (N.of_nat 1) with 1. change (N.of_nat (1 + 126)) with 127. change (1 =? 1) with true. cbn [andb lookup eqb_syms]. rewrite andb_false_r. cbn [andb].
    unfold ascii_out. destruct (N.eqb_spec 127 c) as [<-|Hn]; [reflexivity|]. replace (c =? 0x2DC) with false by lia. change (1 =? 1) with true. cbn [andb].
    destruct (N.ltb_spec c 127) as [L|L]; [replace (c <? 128) with true by lia; destruct (1 <=? c); reflexivity|replace (c <? 128) with false by lia; rewrite !andb_false_r; reflexivity].
  - cbn [lookup eqb_syms]. rewrite !andb_false_r, andb_true_r. unfold ascii_out. replace (c <? 128) with false by lia. rewrite andb_false_r.
    change (1 =? 1) with true. cbn [andb]. pose proof (N.div_mod c 256 ltac:(discriminate)). change (0x100) with 256. destruct (N.eqb_spec c 0x2DC) as [->|Hn]; [reflexivity|].
    destruct ((2 =? c / 256) && (220 =? c mod 256)) eqn:E; [exfalso; apply Hn; lia|reflexivity].
  - cbn [lookup eqb_syms]. rewrite !andb_false_r. unfold ascii_out. replace (c <? 128) with false by lia. rewrite andb_false_r. replace (c =? 0x2DC) with false by lia. reflexivity.
  - cbn [lookup eqb_syms]. rewrite !andb_false_r. unfold ascii_out. replace (c <? 128) with false by lia. rewrite andb_false_r. replace (c =? 0x2DC) with false by lia. reflexivity.
Qed.
Lemma kept_first f c rest : c < 0x100000000 -> first_match (map (fun y => k_v (snd y)) (kept_side f)) (udatum c :: rest) =
  option_map (fun o => (1%nat, o)) (match ascii_out c with Some b => Some [[b]] | None => f (udatum c) end).
Proof.
  intros Hc. change (map (fun y => k_v (snd y)) (kept_side f)) with (ascii_to_sem :: [k_v (star_spec (P:=priv) f)]).
  assert (E : scan ascii_to_sem [] (udatum c :: rest) None = match ascii_out c with Some b => Some (1%nat, [[b]]) | None => None end).
  { cbn [scan app]. rewrite (ascii_single c Hc). destruct (ascii_out c); reflexivity. }
  cbn [first_match]. rewrite E. destruct (ascii_out c); [reflexivity|]. apply put_first. lia.
Qed.

(** ** Conversions *)
Lemma reads_lt src c : reads src c -> c < 0x100000000.
Proof. intros H. destruct src; cbn in H; unfold scalar in H; lia. Qed.
Lemma side_gen src t8 t16 (E : list (ecodec priv * kspec)) (dom : N -> Prop) (out : N -> list N) : strict_utf8 t8 -> E <> [] -> cod_good TO E -> eof_good TO E -> calm E ->
  (forall c rest, reads src c -> dom c -> first_match (map (fun y => k_v (snd y)) E) (udatum c :: rest) = Some (1%nat, [out c])) ->
  forall cps, Forall (fun c => reads src c /\ dom c) cps -> converts true (new_instance priv [(FROM, decoder_of src t8 t16); (TO, map fst E)]) (char_text src dom) (flat_map (encoded src) cps) (flat_map out cps).
Proof.
  intros Hs NE E1 E2 HC Hp cps Hc.
  assert (EQ : new_instance priv [(FROM, decoder_of src t8 t16); (TO, map fst E)] = cb_inst (pconv (dec_side src t8 t16) E)) by (unfold cb_inst, pconv; cbn [map fst snd]; rewrite dec_side_codecs; reflexivity).
  rewrite EQ. destruct (dec_side_ok src t8 t16 Hs) as (D1 & D2).
  apply (pair_converts (dec_side src t8 t16) E true (encoded src) udatum out (fun c => reads src c /\ dom c)); auto.
  - destruct src; discriminate.
  - intros _. apply dec_restores; [exact Hs|exact HC].
  - intros a _. discriminate.
  - intros c rest (Hr & _). replace (map (fun y => k_v (snd y)) (dec_side src t8 t16)) with (dec_csems src (u_nul t8)) by (destruct src; reflexivity). apply (side_decodes src (u_nul t8) c rest Hr).
  - intros c rest (Hr & Hd). apply Hp; assumption.
Qed.
Lemma kept_gen src t8 t16 f (dom : N -> Prop) (out : N -> list N) : strict_utf8 t8 ->
  (forall c, reads src c -> dom c -> match ascii_out c with Some b => out c = [b] | None => f (udatum c) = Some [out c] end) ->
  forall cps, Forall (fun c => reads src c /\ dom c) cps -> converts true (kept_writer src t8 t16 f) (char_text src dom) (flat_map (encoded src) cps) (flat_map out cps).
Proof.
  intros Hs Hp. destruct (kept_side_ok f) as (E1 & E2).
  refine (side_gen src t8 t16 (kept_side f) dom out Hs _ E1 E2 (kept_calm f) _).
  - intros H. exact (nil_cons (eq_sym H)).
  - intros c rest Hr Hd. rewrite (kept_first f c rest (reads_lt src c Hr)). specialize (Hp c Hr Hd). destruct (ascii_out c); rewrite Hp; reflexivity.
Qed.
Lemma plain_gen src t8 t16 f (dom : N -> Prop) (out : N -> list N) : strict_utf8 t8 -> (forall c, reads src c -> dom c -> f (udatum c) = Some [out c]) ->
  forall cps, Forall (fun c => reads src c /\ dom c) cps -> converts true (plain_writer src t8 t16 f) (char_text src dom) (flat_map (encoded src) cps) (flat_map out cps).
Proof.
  intros Hs Hp. destruct (put_side_ok f) as (E1 & E2).
  refine (side_gen src t8 t16 (put_side f) dom out Hs _ E1 E2 (put_calm f) _).
  - intros H. exact (nil_cons (eq_sym H)).
  - intros c rest Hr Hd. change (map (fun y => k_v (snd y)) (put_side f)) with [k_v (star_spec (P:=priv) f)]. unfold udatum. rewrite put_first by lia. fold (udatum c). rewrite (Hp c Hr Hd). reflexivity.
Qed.

(** Each character is written as [form] says: the written text is the concatenation of the forms of the characters. *)
Definition written (form : N -> list N -> Prop) (cps W : list N) : Prop := exists ws, Forall2 form cps ws /\ W = concat ws.
Lemma written_map (form : N -> list N -> Prop) (out : N -> list N) cps : Forall (fun c => form c (out c)) cps -> written form cps (flat_map out cps).
Proof. intros H. exists (map out cps). split; [|apply flat_map_concat_map]. induction H; constructor; auto. Qed.
Definition any_char (c : N) : Prop := True.
Definition with_ascii (f : N -> list N) (c : N) : list N := match ascii_out c with Some b => [b] | None => f c end.
Lemma with_ascii_kept (other : N -> list N -> Prop) f c : (ascii_out c = None -> other c (f c)) -> kept_or other c (with_ascii f c).
Proof. intros H. pose proof (ascii_out_is c) as HA. unfold with_ascii. destruct (ascii_out c); [apply ko_kept; exact HA|apply ko_other; auto]. Qed.

(** ** Image links: "src:ASCII,HTML-IMG" *)
Lemma hexX_is v : v < 16 -> upper_hex v (hexc v). Proof. intros H. unfold hexc, upper_hex. destruct (N.ltb_spec v 10); [left|right]; split; try lia; reflexivity. Qed.
Lemma upper_bytes : forall l, Forall (fun b => b < 256) l -> exists vs, Forall2 upper_hex vs (flat_map hex02 l) /\ forall n, fold_left (fun n v => n * 16 + v) vs n = fold_left (fun n b => n * 256 + b) l n.
Proof.
  induction 1 as [|b l Hb _ (vs & H1 & H2)]; [exists []; split; [constructor|reflexivity]|]. destruct (byte_div b Hb) as (A1 & A2 & A3). rewrite number2 in A3.
  exists (b / 16 :: b mod 16 :: vs). split; [cbn [flat_map hex02 app]; repeat (apply Forall2_cons; [apply hexX_is; assumption|]); exact H1|]. intros n. cbn [fold_left]. rewrite H2. f_equal. lia.
Qed.
Lemma be_first c : c < 0x100000000 -> exists x r, be_bytes c = x :: r /\ (x = 0 -> r = []) /\ x < 256 /\ Forall (fun b => b < 256) r.
Proof.
  intros Hc. destruct (be_bytes_value c Hc) as (HF & _). revert HF. unfold be_bytes.
  destruct (N.ltb_spec c 0x100); [|destruct (N.ltb_spec c 0x10000); [|destruct (N.ltb_spec c 0x1000000)]]; intros HF; inversion HF; subst; (eexists _, _; split; [reflexivity|]; split; [|split; assumption]); intros E; try reflexivity; exfalso; apply N.div_small_iff in E; lia.
Qed.
Lemma shortest c : c < 0x100000000 -> exists x r, be_bytes c = x :: r /\ shortest_hex c (hexX x ++ flat_map hex02 r).
Proof.
  intros Hc. destruct (be_first c Hc) as (x & r & E & Hz & Hx & Hr). exists x, r. split; [exact E|]. destruct (upper_bytes r Hr) as (vs & H1 & H2).
  destruct (be_bytes_value c Hc) as (_ & HV & _). rewrite E in HV. cbn [fold_left] in HV. unfold hexX. destruct (N.ltb_spec x 16) as [L|L].
  - exists x, vs. split; [cbn [app]; apply Forall2_cons; [apply hexX_is; exact L|exact H1]|]. split.
    + unfold number. cbn [fold_left]. rewrite H2, <- HV. f_equal; lia.
    + intros ->. rewrite (Hz eq_refl) in H1. inversion H1. reflexivity.
  - destruct (byte_div x Hx) as (A1 & A2 & A3). rewrite number2 in A3. exists (x / 16), (x mod 16 :: vs). split; [cbn [hex02 app]; repeat (apply Forall2_cons; [apply hexX_is; assumption|]); exact H1|]. split.
    + unfold number. cbn [fold_left]. rewrite H2, <- HV. f_equal; lia.
    + intros E0. apply N.div_small_iff in E0; lia.
Qed.
Lemma link_words : img_head = link_before /\ img_tail = link_after. Proof. split; reflexivity. Qed.
(** Every character of every text is written: ASCII as it is, the others as links to the image of the character. *)
Theorem C64_image_links : forall src t8 t16 cps, strict_utf8 t8 -> Forall (reads src) cps ->
  exists W, written (kept_or (image_link link_before link_after)) cps W /\
    converts true (kept_writer src t8 t16 img_put) (char_text src any_char) (flat_map (encoded src) cps) W.
Proof.
  intros src t8 t16 cps Hs Hc.
  destruct link_words as (L1 & L2). rewrite <- L1, <- L2.
  set (link := fun c => img_head ++ match be_bytes c with [] => [] | x :: r => hexX x ++ flat_map hex02 r end ++ img_tail).
  exists (flat_map (with_ascii link) cps). split.
  - apply written_map. eapply Forall_impl; [|exact Hc]. intros c Hr. apply with_ascii_kept. intros _. destruct (shortest c (reads_lt src c Hr)) as (x & r & E & HS).
    exists (hexX x ++ flat_map hex02 r). split; [exact HS|]. unfold link. rewrite E. reflexivity.
  - apply kept_gen; [exact Hs| |].
    + intros c _ _. unfold with_ascii. destruct (ascii_out c); reflexivity.
    + eapply Forall_impl; [|exact Hc]. intros c Hr. split; [exact Hr|exact I].
Qed.
Print Assumptions C64_image_links.
(** The notation of a character is determined: two characters are never written alike, except "~" for U+007E and U+02DC. *)
Lemma upper_hex_inj v w x : upper_hex v x -> upper_hex w x -> v = w. Proof. unfold upper_hex. lia. Qed.
Lemma upper_hexes_inj : forall vs h, Forall2 upper_hex vs h -> forall ws, Forall2 upper_hex ws h -> vs = ws.
Proof. induction 1 as [|v x vs h Hv _ IH]; intros ws Hw; inversion Hw; subst; [reflexivity|]. f_equal; [eapply upper_hex_inj; eassumption|apply IH; assumption]. Qed.
Theorem C64_links_distinct : forall c c' w, image_link link_before link_after c w -> image_link link_before link_after c' w -> c = c'.
Proof.
  intros c c' w (h & (v & vs & H1 & <- & _) & ->) (h' & (v' & vs' & H1' & <- & _) & E). apply app_inv_head, app_inv_tail in E. subst h'.
  rewrite (upper_hexes_inj _ _ H1 _ H1'). reflexivity.
Qed.
Print Assumptions C64_links_distinct.

(** ** References behind ASCII: "src:ASCII,ASCII-HEX-NUMERIC-HTML-ENTITY" and "...-DEC-..." *)
Theorem C64_references : forall src t8 t16 a cps, strict_utf8 t8 -> (hex_html = [a] \/ dec_html = [a]) -> Forall (fun c => reads src c /\ not_nul c) cps ->
  exists W, written (kept_or refers) cps W /\
    converts true (kept_writer src t8 t16 (es_put a)) (char_text src not_nul) (flat_map (encoded src) cps) W.
Proof.
  intros src t8 t16 a cps Hs Ha Hc.
  assert (HX : exists f, (forall c, not_nul c -> refers c (f c)) /\ (forall c, not_nul c -> es_put a (udatum c) = Some [f c])).
  { destruct Ha as [Ha|Ha]; injection Ha as <-.
    - exists (fun c => [0x26; 0x23; 0x78] ++ flat_map hex02 (be_bytes c) ++ [0x3B]). split; [exact hex_ref|]. intros c H. unfold not_nul in H. unfold udatum. destruct (udatum_tail c ltac:(lia)) as (x & l & E). rewrite E. reflexivity.
    - exists (fun c => [0x26; 0x23] ++ dec_chars c ++ [0x3B]). split; [exact dec_ref|]. intros c H. unfold not_nul in H. unfold udatum. destruct (udatum_tail c ltac:(lia)) as (x & l & E).
      destruct (be_bytes_value c ltac:(lia)) as (_ & _ & Hv & _). rewrite <- Hv at 2. rewrite E. reflexivity. }
  destruct HX as (f & F1 & F2). exists (flat_map (with_ascii f) cps). split.
  - apply written_map. eapply Forall_impl; [|exact Hc]. intros c (_ & Hn). apply with_ascii_kept. intros _. apply F1. exact Hn.
  - apply kept_gen; [exact Hs| |exact Hc]. intros c _ Hn. unfold with_ascii. destruct (ascii_out c); [reflexivity|apply F2; exact Hn].
Qed.
Print Assumptions C64_references.

(** ** "src:RAW": the bytes of the codes *)
Theorem C64_raw : forall src t8 t16 cps, strict_utf8 t8 -> Forall (reads src) cps ->
  exists W, written code_bytes cps W /\ converts true (plain_writer src t8 t16 raw_put) (char_text src any_char) (flat_map (encoded src) cps) W.
Proof.
  intros src t8 t16 cps Hs Hc. exists (flat_map be_bytes cps). split.
  - apply written_map. eapply Forall_impl; [|exact Hc]. intros c Hr. destruct (be_first c (reads_lt src c Hr)) as (x & r & E & Hz & _). destruct (be_bytes_value c (reads_lt src c Hr)) as (HF & HV & _).
    exists x, r. auto.
  - apply plain_gen; [exact Hs|intros c _ _; reflexivity|]. eapply Forall_impl; [|exact Hc]. intros c Hr. split; [exact Hr|exact I].
Qed.
Print Assumptions C64_raw.
(** The codes cannot be read back: U+4E2D, and "N" then "-", are written alike. *)
Theorem C64_raw_ambiguous : exists c cps W, written code_bytes [c] W /\ written code_bytes cps W /\ cps <> [c] /\ Forall (fun c => c < 128) cps.
Proof.
  assert (HB : forall c, c < 0x100000000 -> code_bytes c (be_bytes c)).
  { intros c Hc. destruct (be_first c Hc) as (x & r & E & Hz & _). destruct (be_bytes_value c Hc) as (HF & HV & _). exists x, r. auto. }
  exists 0x4E2D, [0x4E; 0x2D], [0x4E; 0x2D]. split; [apply (written_map code_bytes be_bytes [0x4E2D])|split; [apply (written_map code_bytes be_bytes [0x4E; 0x2D])|split; [discriminate|]]];
    repeat (apply Forall_cons; [first [apply HB; lia|lia]|]); apply Forall_nil.
Qed.
Print Assumptions C64_raw_ambiguous.

(** A case: "a", the small tilde, U+4E2D. *)
Example C64_example : Forall (fun c => reads UTF8 c /\ not_nul c) [0x61; 0x2DC; 0x4E2D] /\
  kept_or (image_link link_before link_after) 0x2DC [0x7E] /\ kept_or (image_link link_before link_after) 0x4E2D (link_before ++ [0x34; 0x45; 0x32; 0x44] ++ link_after).
Proof.
  split; [repeat (apply Forall_cons; [split; [cbn; unfold scalar; lia|unfold not_nul; lia]|]); apply Forall_nil|]. split; [apply ko_kept, ia_tilde|].
  apply ko_other; [intros v Hv; inversion Hv; lia|]. exists [0x34; 0x45; 0x32; 0x44]. split; [|reflexivity].
  exists 4, [14; 2; 13]. split; [repeat (apply Forall2_cons; [unfold upper_hex; lia|]); apply Forall2_nil|]. split; [reflexivity|discriminate].
Qed.

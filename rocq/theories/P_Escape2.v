(** BYTE tables, the escape encoders, and the conversions. *)
From Verif Require Import Base Types M_Engine M_Output M_Mktable M_Create M_Callback M_Modules M_Escape M_UTF8 M_UTF16 S_Session S_Source S_Dict S_Table S_Unicode S_Transcode S_Escape P_Trans P_Engine1 P_Engine2 P_Engine5 P_Callback P_CbSession P_Dict P_Mktable4 P_Ascii P_Charset P_Unicode P_Pair P_UDA P_Prefix P_Escape S_Engine.
From Coq Require Import ZifyBool ZifyN ZifyNat.
Local Open Scope N_scope.

(** ** BYTE *)
Definition byte_codes : list N := ascii_codes 0 256.
Lemma byte_in b : b < 256 -> In b byte_codes.
Proof. intros H. apply in_map_iff. exists (N.to_nat b). split; [lia|]. apply in_seq. lia. Qed.
Definition byte_from_dict : dict := map (fun b => ([b], [[3; b]])) byte_codes.
Definition byte_to_dict : dict := map (fun b => ([3; b], [[b]])) byte_codes.
Lemma byte_from_is : file_dict byte_from_src = byte_from_dict. Proof. vm_compute. reflexivity. Qed.
Lemma byte_to_is : file_dict byte_to_src = byte_to_dict. Proof. vm_compute. reflexivity. Qed.
Lemma byte_from_entries : Forall entry_ok byte_from_src.
Proof. apply Forall_forall. intros e He. apply in_map_iff in He as (b & <- & Hb). apply in_map_iff in Hb as (k & <- & Hk). apply in_seq in Hk. constructor; cbn; try discriminate; try (repeat constructor; lia); lia. Qed.
Lemma byte_to_entries : Forall entry_ok byte_to_src.
Proof. apply Forall_forall. intros e He. apply in_map_iff in He as (b & <- & Hb). apply in_map_iff in Hb as (k & <- & Hk). apply in_seq in Hk. constructor; cbn; try discriminate; try (repeat constructor; lia); lia. Qed.
Lemma byte_from_sub : sub_nonempty (file_dict byte_from_src).
Proof. intros w o H _. rewrite byte_from_is in H. apply lookup_in in H. unfold byte_from_dict in H. rewrite map_map in H. apply in_map_iff in H as (b & <- & _). discriminate. Qed.
Lemma byte_to_sub : sub_nonempty (file_dict byte_to_src).
Proof. intros w o H _. rewrite byte_to_is in H. apply lookup_in in H. unfold byte_to_dict in H. rewrite map_map in H. apply in_map_iff in H as (b & <- & _). discriminate. Qed.
Definition byte_dec_spec : kspec := from_spec (file_dict byte_from_src) (compiled byte_from_src).
Definition byte_enc_spec : kspec := data_spec (file_dict byte_to_src) (compiled byte_to_src).
Strategy 1000 [compiled file_dict mktable].
Lemma byte_dec_ok : from_ok byte_dec byte_dec_spec.
Proof. exact (tab_from_ok _ _ (compiled_ok _ byte_from_entries) byte_from_sub). Qed.
Lemma byte_enc_ok to : data_ok to byte_enc byte_enc_spec.
Proof. exact (tab_data_ok to _ _ (compiled_ok _ byte_to_entries) byte_to_sub). Qed.
Definition byte_from_sem : csem := from_sem (file_dict byte_from_src).
Definition byte_to_sem : csem := data_sem (file_dict byte_to_src).
Lemma byte_from_verdict b : b < 256 -> byte_from_sem [[b]] = VMatch [[3; b]].
Proof.
  intros Hb. unfold byte_from_sem. rewrite byte_from_is.
  assert (HM : map (fun b => from_sem byte_from_dict [[b]]) byte_codes = map (fun b => VMatch [[3; b]]) byte_codes) by (vm_compute; reflexivity).
  exact (ext_in_map HM b (byte_in b Hb)).
Qed.
Lemma byte_to_verdict b : b < 256 -> byte_to_sem [[3; b]] = VMatch [[b]].
Proof.
  intros Hb. unfold byte_to_sem. rewrite byte_to_is.
  assert (HM : map (fun b => data_sem byte_to_dict [[3; b]]) byte_codes = map (fun b => VMatch [[b]]) byte_codes) by (vm_compute; reflexivity).
  exact (ext_in_map HM b (byte_in b Hb)).
Qed.
Lemma ascii_to_byte b : b < 256 -> ascii_to_sem [[3; b]] = VDead.
Proof.
  intros Hb. unfold ascii_to_sem. rewrite ascii_to_is.
  assert (HM : map (fun b => data_sem ascii_to_dict [[3; b]]) byte_codes = map (fun b => VDead) byte_codes) by (vm_compute; reflexivity).
  exact (ext_in_map HM b (byte_in b Hb)).
Qed.

Definition byte_side : list (ecodec priv * kspec) := [(byte_dec, byte_dec_spec)].
Lemma byte_side_ok : cod_good FROM byte_side /\ eof_good FROM byte_side.
Proof.
  split.
  - intros x [<-|[]]. cbn [fst snd codec_ok]. split; [apply byte_dec_ok|exact I].
  - intros j x Hx. destruct j; [injection Hx as <-; left; apply from_eof|destruct j; discriminate].
Qed.
Lemma byte_dcodes : dcodes (map (fun y => k_v (snd y)) byte_side) (fun b => [b]) (fun b => [3; b]) (fun b => b < 256).
Proof.
  intros b rest Hb. change (map (fun y => k_v (snd y)) byte_side) with [byte_from_sem]. cbn [byt map app first_match scan]. rewrite byte_from_verdict by exact Hb. reflexivity.
Qed.

(** ** Where escapes are read into *)
Definition mixed_side (dst : charset) : list (ecodec priv * kspec) := enc_side dst ++ [(byte_enc, byte_enc_spec)].
Lemma mixed_side_ok dst : cod_good TO (mixed_side dst) /\ eof_good TO (mixed_side dst).
Proof.
  split.
  - intros x Hx. apply in_app_or in Hx as [Hx|[<-|[]]]; [apply (proj1 (enc_side_ok dst)), Hx|]. cbn [fst snd codec_ok]. split; [apply byte_enc_ok|exact I].
  - intros j x Hx. left. apply nth_error_In in Hx. apply in_app_or in Hx as [Hx|[<-|[]]]; [|apply data_eof]. destruct dst; cbn in Hx; repeat (destruct Hx as [<-|Hx]; [first [apply uni_eof|apply data_eof]|]); destruct Hx.
Qed.
Definition item_out (dst : charset) (i : item) : list N := match i with Byte b => [b] | Char c => encoding dst c end.
Definition item_ok (dst : charset) (i : item) : Prop := match i with Byte b => b < 256 | Char c => encodable dst c end.
Lemma first_match_app cs1 cs2 ds r : first_match cs1 ds = Some r -> first_match (cs1 ++ cs2) ds = Some r.
Proof. induction cs1 as [|v cs1 IH]; cbn; [discriminate|]. destruct (scan v [] ds None); auto. Qed.
Lemma first_match_skip cs1 cs2 ds : Forall (fun v => scan v [] ds None = None) cs1 -> first_match (cs1 ++ cs2) ds = first_match cs2 ds.
Proof. induction 1 as [|v cs1 H _ IH]; cbn; [reflexivity|]. rewrite H. exact IH. Qed.
Lemma mixed_ecodes dst {A} (it : A -> item) (dom : A -> Prop) : (forall a, dom a -> item_ok dst (it a)) ->
  ecodes (map (fun y => k_v (snd y)) (mixed_side dst)) (fun a => internal (it a)) (fun a => item_out dst (it a)) dom.
Proof.
  intros H a rest Ha. specialize (H a Ha). unfold mixed_side. rewrite map_app. replace (map (fun y => k_v (snd y)) (enc_side dst)) with (enc_csems dst) by (destruct dst; reflexivity).
  change (map (fun y => k_v (snd y)) [(byte_enc, byte_enc_spec)]) with [byte_to_sem]. destruct (it a) as [b|c]; cbn [item_ok internal item_out] in *.
  - rewrite first_match_skip.
    + cbn [first_match scan app]. rewrite byte_to_verdict by exact H. reflexivity.
    + assert (HU : forall f, scan (uni_sem f) [] ([3; b] :: rest) None = None) by reflexivity.
      assert (HA : scan ascii_to_sem [] ([3; b] :: rest) None = None) by (cbn [scan app]; rewrite ascii_to_byte by exact H; reflexivity).
      destruct dst; cbn [enc_csems]; repeat (apply Forall_cons; [first [apply HU|exact HA]|]); apply Forall_nil.
  - apply first_match_app. exact (side_encodes dst c rest H).
Qed.

(** ** Decoder sides *)
Definition esc_side (t : esc) : list (ecodec priv * kspec) := [(esc_dec t, esc_spec)].
Definition ent_side (t : ent) : list (ecodec priv * kspec) := [(ent_dec t, ent_spec)].
Lemma esc_side_ok t : cod_good FROM (esc_side t) /\ eof_good FROM (esc_side t).
Proof.
  split.
  - intros x [<-|[]]. cbn [fst snd codec_ok]. split; [apply esc_ok|]. cbn. exists (es_init t). split; [reflexivity|]. split; [left; reflexivity|reflexivity].
  - intros j c Hx. destruct j; [injection Hx as <-; right|destruct j; discriminate]. split; [reflexivity|]. split; [reflexivity|]. apply dec_no_sub.
Qed.
Lemma ent_side_ok t : cod_good FROM (ent_side t) /\ eof_good FROM (ent_side t).
Proof.
  split.
  - intros x [<-|[]]. cbn [fst snd codec_ok]. split; [apply ent_ok|]. cbn. exists (en_init t). split; [reflexivity|]. split; [exact I|reflexivity].
  - intros j c Hx. destruct j; [injection Hx as <-; right|destruct j; discriminate]. split; [reflexivity|]. split; [reflexivity|]. apply pre_no_sub.
Qed.
Lemma esc_dcodes t : dcodes (map (fun y => k_v (snd y)) (esc_side t)) (fun a : item * list N => snd a) (fun a => internal (fst a)) (fun a => spells (fst a) (snd a)).
Proof.
  intros [i sp] rest H. cbn [fst snd] in *. destruct (esc_reads i sp H) as (H0 & R & b & qr & E & H1 & H2). subst sp.
  change (map (fun y => k_v (snd y)) (esc_side t)) with [dec_sem estep eq0]. cbn [first_match]. rewrite (dec_first estep eq0 R b qr [internal i] rest H0 H1 H2). reflexivity.
Qed.
Lemma ent_dcodes t : dcodes (map (fun y => k_v (snd y)) (ent_side t)) (fun a : N * list N => snd a) (fun a => udatum (fst a)) (fun a => refers (fst a) (snd a)).
Proof.
  intros [c sp] rest H. cbn [fst snd] in *. change (map (fun y => k_v (snd y)) (ent_side t)) with [pre_sem nstep nq0]. cbn [first_match]. rewrite (ent_reads c sp rest H). reflexivity.
Qed.
Lemma esc_evolves t p : evolves (esc_dec t) p -> exists t', p = PEsc t'.
Proof.
  induction 1 as [|f p H _ (t' & ->)|f p d i sd H _ (t' & ->)|f p H _ (t' & ->)].
  - exists t. reflexivity.
  - cbn in H. injection H as <-. exists (es_init t'). reflexivity.
  - cbn in H. injection H as <-. destruct (loop_cb_inv PEsc get_esc es_step (fun _ => True)) with (q := t') (p := PEsc t') (d := d) (i := i) (sd := sd) as (q' & Hq & _); auto; [intros [] q Hq; try discriminate; injection Hq as ->; reflexivity|]. eauto.
  - discriminate.
Qed.
Lemma ent_evolves t p : evolves (ent_dec t) p -> exists t', p = PEnt t'.
Proof.
  induction 1 as [|f p H _ (t' & ->)|f p d i sd H _ (t' & ->)|f p H _ (t' & ->)].
  - exists t. reflexivity.
  - cbn in H. injection H as <-. exists (en_init t'). reflexivity.
  - cbn in H. injection H as <-. destruct (loop_cb_inv PEnt get_ent en_step (fun _ => True)) with (q := t') (p := PEnt t') (d := d) (i := i) (sd := sd) as (q' & Hq & _); auto; [intros [] q Hq; try discriminate; injection Hq as ->; reflexivity|]. eauto.
  - discriminate.
Qed.
(** Stateless sides. *)
Definition calm (E : list (ecodec priv * kspec)) : Prop := forall x, In x E -> forall p, k_clean (snd x) p.
Lemma enc_calm dst : calm (enc_side dst). Proof. intros x Hx p. destruct dst; cbn in Hx; repeat (destruct Hx as [<-|Hx]); try contradiction; exact I. Qed.
Lemma mixed_calm dst : calm (mixed_side dst). Proof. intros x Hx p. apply in_app_or in Hx as [Hx|[<-|[]]]; [apply (enc_calm dst x Hx p)|exact I]. Qed.
Lemma pconv_restores D E : calm E -> (forall x q, In x D -> evolves (fst x) q -> k_clean (snd x) (e_priv priv (init_codec priv (set_priv priv (fst x) q)))) -> restores (pconv D E).
Proof. intros HE HD t l x q [H|[H|[]]]; injection H as <- <-; intros Hx Hev; [apply HD; assumption|apply HE; assumption]. Qed.
Lemma esc_restores t E : calm E -> restores (pconv (esc_side t) E).
Proof.
  intros HE. apply pconv_restores; [exact HE|]. intros x q [<-|[]] Hev. cbn [fst snd] in *. destruct (esc_evolves _ _ Hev) as (t' & ->). exists (es_init t'). split; [reflexivity|]. split; [left; reflexivity|reflexivity].
Qed.
Lemma ent_restores t E : calm E -> restores (pconv (ent_side t) E).
Proof.
  intros HE. apply pconv_restores; [exact HE|]. intros x q [<-|[]] Hev. cbn [fst snd] in *. destruct (ent_evolves _ _ Hev) as (t' & ->). exists (en_init t'). split; [reflexivity|]. split; [exact I|reflexivity].
Qed.
Lemma byte_restores E : calm E -> restores (pconv byte_side E).
Proof. intros HE. apply pconv_restores; [exact HE|]. intros x q [<-|[]] Hev. exact I. Qed.
Lemma dec_restores src t8 t16 E : strict_opts t8 -> calm E -> restores (pconv (dec_side src t8 t16) E).
Proof.
  intros Hs HE. apply pconv_restores; [exact HE|]. intros x q Hx Hev. apply (uconv_restores src UTF8 t8 t16 Hs FROM (dec_side src t8 t16) x q); [left; reflexivity|exact Hx|exact Hev].
Qed.

(** ** to/ESCAPE *)
Definition esc_enc_spec (a : esc_arg) : kspec := star_spec (es_put a).
Definition esc_enc_side (args : list esc_arg) : list (ecodec priv * kspec) := map (fun a => (esc_enc a, esc_enc_spec a)) args.
Lemma esc_enc_side_ok args : cod_good TO (esc_enc_side args) /\ eof_good TO (esc_enc_side args).
Proof.
  split.
  - intros x Hx. apply in_map_iff in Hx as (a & <- & _). cbn [fst snd codec_ok]. split; [apply star_ok; reflexivity|exact I].
  - intros j x Hx. left. apply nth_error_In, in_map_iff in Hx as (a & <- & _). apply star_eof.
Qed.
Lemma esc_enc_calm args : calm (esc_enc_side args). Proof. intros x Hx p. apply in_map_iff in Hx as (a & <- & _). exact I. Qed.
Fixpoint first_put (args : list esc_arg) (d : datum) : option (list datum) :=
  match args with [] => None | a :: r => match es_put a d with Some o => Some o | None => first_put r d end end.
Lemma star_first args x d rest : x < 257 -> first_match (map (fun y => k_v (snd y)) (esc_enc_side args)) ((x :: d) :: rest) = option_map (fun o => (1%nat, o)) (first_put args (x :: d)).
Proof.
  intros Hx. induction args as [|a args IH]; [reflexivity|]. cbn [esc_enc_side map first_match first_put snd esc_enc_spec star_spec k_v]. cbn [scan app star_sem]. replace (x <? 257) with true by lia.
  destruct (es_put a (x :: d)); [reflexivity|]. exact IH.
Qed.
Lemma hexc_is v : v < 16 -> is_hex v (hexc v). Proof. intros H. unfold hexc, is_hex. destruct (N.ltb_spec v 10); [left; auto|right]. split; [lia|]. left. reflexivity. Qed.
Lemma byte_div b : b < 256 -> b / 16 < 16 /\ b mod 16 < 16 /\ number 16 [b / 16; b mod 16] = b.
Proof. intros H. split; [apply N.div_lt_upper_bound; lia|]. split; [apply N.mod_lt; lia|]. rewrite number2. pose proof (N.div_mod b 16). lia. Qed.
Lemma put_byte p b : b < 256 -> es_put (mkArg p [] ForByte Hex16) [3; b] = Some [p ++ hex02 b].
Proof. intros _. reflexivity. Qed.
Lemma percent_byte b : b < 256 -> spells (Byte b) ([0x25] ++ hex02 b).
Proof. intros H. destruct (byte_div b H) as (H1 & H2 & H3). rewrite <- H3 at 1. apply sp_percent; apply hexc_is; assumption. Qed.
Lemma x_byte b : b < 256 -> spells (Byte b) ([0x5C; 0x78] ++ hex02 b).
Proof. intros H. destruct (byte_div b H) as (H1 & H2 & H3). rewrite <- H3 at 1. apply sp_x; apply hexc_is; assumption. Qed.
Lemma oct_byte b : b < 256 -> spells (Byte b) ([0x5C] ++ oct3 b).
Proof.
  intros H. assert (E : number 8 [b / 64; b / 8 mod 8; b mod 8] = b).
  { rewrite number3. change 64 with (8 * 8). rewrite <- N.div_div by lia. pose proof (N.div_mod (b / 8) 8). pose proof (N.div_mod b 8). lia. }
  rewrite <- E at 1. apply sp_octal; [| | |rewrite E; exact H]; (split; [|reflexivity]); [apply N.div_lt_upper_bound; lia|apply N.mod_lt; lia|apply N.mod_lt; lia].
Qed.
Lemma u_char m c : m = 0x25 \/ m = 0x5C -> 0x100 <= c < 0x10000 -> spells (Char c) ([m; 0x75] ++ flat_map hex02 (be_bytes c)).
Proof.
  intros Hm Hc. unfold be_bytes. replace (c <? 256) with false by lia. replace (c <? 65536) with true by lia. cbn [flat_map app hex02].
  assert (H1 : c / 256 < 256) by (apply N.div_lt_upper_bound; lia). assert (H2 : c mod 256 < 256) by (apply N.mod_lt; lia).
  destruct (byte_div _ H1) as (A1 & A2 & A3). destruct (byte_div _ H2) as (B1 & B2 & B3). rewrite number2 in A3, B3.
  assert (E : number 16 [c / 256 / 16; (c / 256) mod 16; (c mod 256) / 16; (c mod 256) mod 16] = c) by (rewrite number4; pose proof (N.div_mod c 256); lia).
  rewrite <- E at 1. apply sp_u; try (apply hexc_is; assumption); [exact Hm|]. rewrite E. lia.
Qed.
(** Numbers in hexadecimal and decimal. *)
Lemma number_app B vs ws : number B (vs ++ ws) = fold_left (fun n v => n * B + v) ws (number B vs).
Proof. unfold number. apply fold_left_app. Qed.
Lemma hex_bytes : forall l, Forall (fun b => b < 256) l -> exists vs, Forall2 is_hex vs (flat_map hex02 l) /\ forall n, fold_left (fun n v => n * 16 + v) vs n = fold_left (fun n b => n * 256 + b) l n.
Proof.
  induction 1 as [|b l Hb _ (vs & H1 & H2)]; [exists []; split; [constructor|reflexivity]|]. destruct (byte_div b Hb) as (A1 & A2 & A3). rewrite number2 in A3.
  exists (b / 16 :: b mod 16 :: vs). split; [cbn [flat_map hex02 app]; repeat (apply Forall2_cons; [apply hexc_is; assumption|]); exact H1|]. intros n. cbn [fold_left]. rewrite H2. f_equal. lia.
Qed.
Lemma be_bytes_value c : c < 0x100000000 -> Forall (fun b => b < 256) (be_bytes c) /\ fold_left (fun n b => n * 256 + b) (be_bytes c) 0 = c /\ M_Escape.be_value (be_bytes c) = c /\ be_bytes c <> [].
Proof.
  intros Hc. assert (M : forall x, x mod 256 < 256) by (intros x; apply N.mod_lt; discriminate).
  assert (D1 : c = 256 * (c / 256) + c mod 256) by (apply N.div_mod; discriminate).
  assert (D2 : c / 256 = 256 * (c / 65536) + (c / 256) mod 256) by (change 65536 with (256 * 256); rewrite <- N.div_div by discriminate; apply N.div_mod; discriminate).
  assert (D3 : c / 65536 = 256 * (c / 16777216) + (c / 65536) mod 256) by (change 16777216 with (65536 * 256); rewrite <- N.div_div by discriminate; apply N.div_mod; discriminate).
  assert (Hm : forall l n, Forall (fun b => b < 256) l -> fold_left (fun n b => n * 256 + b) l n < 0x100000000 -> fold_left (fun u b => (u * 256 + b) mod 0x100000000) l n = fold_left (fun n b => n * 256 + b) l n).
  { induction l as [|b l IH]; intros n HF Hn; [reflexivity|]. inversion HF; subst. cbn [fold_left] in *. pose proof (number_ge 256 ltac:(lia) l (n * 256 + b)). rewrite N.mod_small by lia. apply IH; assumption. }
  assert (HH : Forall (fun b => b < 256) (be_bytes c) /\ fold_left (fun n b => n * 256 + b) (be_bytes c) 0 = c /\ be_bytes c <> []).
  { unfold be_bytes. destruct (N.ltb_spec c 256); [|destruct (N.ltb_spec c 65536); [|destruct (N.ltb_spec c 16777216)]]; (split; [|split; [|discriminate]]).
    - repeat constructor. assumption.
    - cbn. lia.
    - repeat (apply Forall_cons; [first [apply M|apply N.div_lt_upper_bound; lia]|]). apply Forall_nil.
    - cbn [fold_left]. lia.
    - repeat (apply Forall_cons; [first [apply M|apply N.div_lt_upper_bound; lia]|]). apply Forall_nil.
    - cbn [fold_left]. lia.
    - repeat (apply Forall_cons; [first [apply M|apply N.div_lt_upper_bound; lia]|]). apply Forall_nil.
    - cbn [fold_left]. lia. }
  destruct HH as (H1 & H2 & H3). split; [exact H1|]. split; [exact H2|]. split; [|exact H3]. unfold M_Escape.be_value. rewrite Hm; [exact H2|exact H1|rewrite H2; exact Hc].
Qed.
Lemma hex_ref c : 0 < c < 0x100000000 -> refers c ([0x26; 0x23; 0x78] ++ flat_map hex02 (be_bytes c) ++ [0x3B]).
Proof.
  intros Hc. destruct (be_bytes_value c ltac:(lia)) as (H1 & H2 & _). destruct (hex_bytes _ H1) as (vs & F & E). specialize (E 0). rewrite H2 in E. change (number 16 vs = c) in E. rewrite <- E at 1. apply rf_hex; [exact F|]. rewrite E. exact Hc.
Qed.
Fixpoint uvals (u : Decimal.uint) : list N :=
  match u with
  | Decimal.Nil => []
  | Decimal.D0 r => 0 :: uvals r | Decimal.D1 r => 1 :: uvals r | Decimal.D2 r => 2 :: uvals r | Decimal.D3 r => 3 :: uvals r | Decimal.D4 r => 4 :: uvals r
  | Decimal.D5 r => 5 :: uvals r | Decimal.D6 r => 6 :: uvals r | Decimal.D7 r => 7 :: uvals r | Decimal.D8 r => 8 :: uvals r | Decimal.D9 r => 9 :: uvals r
  end.
Lemma uvals_chars u : Forall2 is_dec (uvals u) (uint_chars u).
Proof. induction u; cbn [uvals uint_chars]; [constructor|..]; (apply Forall2_cons; [split; [lia|reflexivity]|assumption]). Qed.
Lemma uvals_acc : forall u acc, N.pos (Pos.of_uint_acc u acc) = fold_left (fun n v => n * 10 + v) (uvals u) (N.pos acc).
Proof. induction u; intros acc; cbn [Pos.of_uint_acc uvals fold_left]; [reflexivity|..]; rewrite IHu; f_equal; lia. Qed.
Lemma uvals_value u : number 10 (uvals u) = N.of_uint u.
Proof.
  unfold number. induction u; cbn [uvals fold_left]; [reflexivity|..].
  - change (0 * 10 + 0) with 0. rewrite IHu. reflexivity.
  - unfold N.of_uint. cbn [Pos.of_uint]. rewrite uvals_acc. reflexivity.
  - unfold N.of_uint. cbn [Pos.of_uint]. rewrite uvals_acc. reflexivity.
  - unfold N.of_uint. cbn [Pos.of_uint]. rewrite uvals_acc. reflexivity.
  - unfold N.of_uint. cbn [Pos.of_uint]. rewrite uvals_acc. reflexivity.
  - unfold N.of_uint. cbn [Pos.of_uint]. rewrite uvals_acc. reflexivity.
  - unfold N.of_uint. cbn [Pos.of_uint]. rewrite uvals_acc. reflexivity.
  - unfold N.of_uint. cbn [Pos.of_uint]. rewrite uvals_acc. reflexivity.
  - unfold N.of_uint. cbn [Pos.of_uint]. rewrite uvals_acc. reflexivity.
  - unfold N.of_uint. cbn [Pos.of_uint]. rewrite uvals_acc. reflexivity.
Qed.
From Coq Require DecimalN.
Lemma dec_ref c : 0 < c < 0x100000000 -> refers c ([0x26; 0x23] ++ dec_chars c ++ [0x3B]).
Proof.
  intros Hc. unfold dec_chars. pose proof (uvals_chars (N.to_uint c)) as F. assert (E : number 10 (uvals (N.to_uint c)) = c) by (rewrite uvals_value; apply DecimalN.Unsigned.of_to).
  rewrite <- E at 1. apply rf_dec; [exact F| |rewrite E; exact Hc]. intros E0. rewrite E0 in F. inversion F as [E1|]. rewrite <- E1 in E. cbn in E. lia.
Qed.

(** C68: single byte charsets. *)
From Verif Require Import Base Types M_Engine M_Output M_Create M_Callback M_Modules M_UTF8 M_UTF16 S_Session S_Unicode S_Rest S_Source S_Dict S_Engine S_Table S_Pages S_Charsets D_Charsets M_Charsets
  P_Create P_Engine1 P_Callback P_CbSession P_Dict P_Ascii P_Charset P_Unicode P_Pair P_UDA P_Escape P_Escape2 T_Escape.
From Verif Require Import S_Transcode.
From Coq Require Import ZifyBool ZifyN ZifyNat.
Local Open Scope N_scope.

(** ** Codecs made of tables *)
Definition okb (e : sentry) : bool :=
  negb (match en_pat e with [] => true | _ => false end) && forallb (fun s => match s with PByte b => b <? 256 | _ => true end) (en_pat e) &&
  forallb (forallb (fun b => b <? 256)) (en_out e) && negb (match en_out e with [] => true | _ => false end) && negb (match last (en_out e) [] with [] => true | _ => false end) &&
  (length (text_entry e) <=? 1023)%nat.
Lemma okb_ok e : okb e = true -> entry_ok e /\ en_out e <> [].
Proof.
  intros H. unfold okb in H. repeat (apply andb_prop in H as (H & ?)). split; [constructor|].
  - intros E. rewrite E in H. discriminate.
  - rewrite Forall_forall. rewrite forallb_forall in *. intros s Hs. specialize (H4 s Hs). destruct s; try exact I. apply N.ltb_lt. assumption.
  - rewrite Forall_forall. rewrite forallb_forall in *. intros d Hd. specialize (H3 d Hd). rewrite Forall_forall. rewrite forallb_forall in H3. intros b Hb. apply N.ltb_lt, H3. exact Hb.
  - intros _ E. rewrite E in *. discriminate.
  - apply Nat.leb_le. assumption.
  - intros E. rewrite E in *. discriminate.
Qed.
Lemma okbs es : forallb okb es = true -> timpl (compiled es) (file_dict es) /\ sub_nonempty (file_dict es).
Proof.
  intros H. rewrite forallb_forall in H. split.
  - apply compiled_ok. apply Forall_forall. intros e He. apply okb_ok, H, He.
  - intros w o HL _. apply P_Dict.lookup_in in HL. unfold file_dict in HL. apply in_flat_map in HL as (e & He & Hw). apply in_map_iff in Hw as (x & E & _). injection E as _ <-. apply okb_ok, H, He.
Qed.
Definition fside (l : list (list sentry)) : list (ecodec priv * kspec) := map (fun s => (tab_codec (compiled s), from_spec (file_dict s) (compiled s))) l.
Definition tside (l : list (list sentry)) : list (ecodec priv * kspec) := map (fun s => (tab_codec (compiled s), data_spec (file_dict s) (compiled s))) l.
Lemma fside_codecs l : map fst (fside l) = tables l. Proof. unfold fside, tables. rewrite map_map. reflexivity. Qed.
Lemma tside_codecs l : map fst (tside l) = tables l. Proof. unfold tside, tables. rewrite map_map. reflexivity. Qed.
Lemma fside_ok l : forallb (forallb okb) l = true -> cod_good FROM (fside l) /\ eof_good FROM (fside l).
Proof.
  intros H. rewrite forallb_forall in H. split.
  - intros x Hx. apply in_map_iff in Hx as (s & <- & Hs). cbn [fst snd codec_ok]. destruct (okbs s (H s Hs)) as (H1 & H2). split; [apply tab_from_ok; assumption|exact I].
  - intros j x Hx. left. apply nth_error_In, in_map_iff in Hx as (s & <- & Hs). apply from_eof.
Qed.
Lemma tside_ok l : forallb (forallb okb) l = true -> cod_good TO (tside l) /\ eof_good TO (tside l).
Proof.
  intros H. rewrite forallb_forall in H. split.
  - intros x Hx. apply in_map_iff in Hx as (s & <- & Hs). cbn [fst snd codec_ok]. destruct (okbs s (H s Hs)) as (H1 & H2). split; [apply tab_data_ok; assumption|exact I].
  - intros j x Hx. left. apply nth_error_In, in_map_iff in Hx as (s & <- & Hs). apply data_eof.
Qed.
Lemma tside_calm l : calm (tside l). Proof. intros x Hx p. apply in_map_iff in Hx as (s & <- & _). exact I. Qed.
Lemma fside_restores l E : calm E -> restores (pconv (fside l) E).
Proof. intros HE. apply pconv_restores; [exact HE|]. intros x q Hx _. apply in_map_iff in Hx as (s & <- & _). exact I. Qed.

(** ** One datum decides *)
Fixpoint lone (cs : list csem) (d : datum) : option (list datum) :=
  match cs with [] => None | c :: r => match c [d] with VMatch o => Some o | VDead => lone r d | _ => None end end.
Lemma lone_first cs d o rest : lone cs d = Some o -> S_Engine.first_match cs (d :: rest) = Some (1%nat, o).
Proof.
  induction cs as [|c cs IH]; [discriminate|]. cbn [lone S_Engine.first_match]. cbn [scan app]. destruct (c [d]) eqn:E; intros H; try discriminate.
  - cbn [length]. apply IH. exact H.
  - injection H as ->. reflexivity.
Qed.
Definition eqb_data (a b : list datum) : bool := if list_eq_dec (list_eq_dec N.eq_dec) a b then true else false.
Lemma eqb_data_eq a b : eqb_data a b = true -> a = b. Proof. unfold eqb_data. destruct (list_eq_dec (list_eq_dec N.eq_dec) a b); [auto|discriminate]. Qed.

(** ** The tables *)
Definition rows_dict (r : list (list N * list N)) : dict := map (fun x => (fst x, [snd x])) r.
Definition rows_bytes (r : list (list N * list N)) : bool := forallb (fun x => forallb (fun b => b <? 256) (fst x)) r.
Lemma ranges_one : forallb (fun n => match range (N.of_nat n) (N.of_nat n) with [x] => x =? N.of_nat n | _ => false end) (seq 0 256) = true.
Proof. vm_compute. reflexivity. Qed.
Lemma range_one b : b < 256 -> range b b = [b].
Proof.
  intros H. pose proof ranges_one as HR. rewrite forallb_forall in HR. specialize (HR (N.to_nat b) ltac:(apply in_seq; lia)). cbv beta in HR. rewrite N2Nat.id in HR. destruct (range b b) as [|x [|? ?]]; try discriminate. apply N.eqb_eq in HR. subst x. reflexivity.
Qed.
Lemma words_bytes k : forallb (fun b => b <? 256) k = true -> words (map bounds (map PByte k)) = [k].
Proof.
  induction k as [|b k IH]; [reflexivity|]. cbn [forallb map]. intros H. apply andb_prop in H as (H1 & H2). apply N.ltb_lt in H1. cbn [bounds words]. rewrite (range_one b H1). cbn [flat_map]. rewrite (IH H2). reflexivity.
Qed.
Lemma rows_dict_is r : rows_bytes r = true -> file_dict (rows_src r) = rows_dict r.
Proof.
  induction r as [|x r IH]; [reflexivity|]. unfold rows_bytes. cbn [forallb]. intros H. apply andb_prop in H as (H1 & H2). change (file_dict (rows_src (x :: r))) with (map (fun w => (w, [snd x])) (words (map bounds (map PByte (fst x)))) ++ file_dict (rows_src r)). rewrite (words_bytes _ H1), (IH H2). reflexivity.
Qed.
Definition all_pages : list page := [CP1251; CP1252; CP1253; CP1254; CP1255; CP1256; CP1257; CP1258; CP874; LATIN1].
Lemma all_pages_in p : In p all_pages. Proof. destruct p; cbn; tauto. Qed.
Definition from_rows (p : page) : list (list N * list N) :=
  match p with CP1251 => cp1251_from | CP1252 => cp1252_from | CP1253 => cp1253_from | CP1254 => cp1254_from | CP1255 => cp1255_from | CP1256 => cp1256_from | CP1257 => cp1257_from | CP1258 => cp1258_from | CP874 => cp874_from | LATIN1 => iso_8859_1_from end.
Definition to_rows (p : page) : list (list N * list N) :=
  match p with CP1251 => cp1251_to | CP1252 => cp1252_to | CP1253 => cp1253_to | CP874 => cp874_to | LATIN1 => iso_8859_1_to | _ => [] end.
Definition row_ok (x : list N * list N) : bool :=
  match fst x with [] => false | _ => true end && match snd x with [] => false | _ => true end && forallb (fun b => b <? 256) (fst x) && forallb (fun b => b <? 256) (snd x) && (length (fst x) <=? 8)%nat && (length (snd x) <=? 8)%nat.
Lemma rows_checked : forallb row_ok fallback_from && forallb (fun p => forallb row_ok (from_rows p) && forallb row_ok (to_rows p)) all_pages = true.
Proof. vm_compute. reflexivity. Qed.
Lemma text_len k d : length (text_entry (mkEntry (map PByte k) [d])) = (2 * length k + 2 * length d + 2)%nat.
Proof.
  assert (H1 : forall k, length (flat_map text_psym (map PByte k)) = (2 * length k)%nat) by (induction k0 as [|b l IH]; [reflexivity|cbn [map flat_map]; rewrite app_length, IH; cbn; lia]).
  unfold text_entry. cbn [en_pat en_out]. rewrite app_length. cbn [length]. rewrite app_length, H1. cbn [length text_data].
  assert (H2 : length (flat_map hex_byte d) = (2 * length d)%nat) by (induction d as [|b l IH]; [reflexivity|cbn [flat_map]; rewrite app_length, IH; cbn; lia]). cbn. rewrite ?H2. lia.
Qed.
Lemma row_entry x : row_ok x = true -> okb (mkEntry (map PByte (fst x)) [snd x]) = true.
Proof.
  unfold row_ok. intros H. repeat (apply andb_prop in H as (H & ?)). unfold okb. cbn [en_pat en_out last forallb]. rewrite text_len. apply Nat.leb_le in H0, H1.
  replace ((2 * length (fst x) + 2 * length (snd x) + 2 <=? 1023)%nat) with true by (symmetry; apply Nat.leb_le; lia). rewrite H2.
  assert (HM : forall l, forallb (fun s => match s with PByte b => b <? 256 | _ => true end) (map PByte l) = forallb (fun b => b <? 256) l) by (induction l as [|b l IH]; [reflexivity|cbn [map forallb]; rewrite IH; reflexivity]).
  rewrite HM, H3. destruct (fst x); [discriminate|]. destruct (snd x); [discriminate|]. reflexivity.
Qed.
Lemma rows_ok r : forallb row_ok r = true -> forallb okb (rows_src r) = true /\ rows_bytes r = true.
Proof.
  intros H. rewrite forallb_forall in H. split; apply forallb_forall.
  - intros e He. apply in_map_iff in He as (x & <- & Hx). apply row_entry, H, Hx.
  - intros x Hx. specialize (H x Hx). unfold row_ok in H. repeat (apply andb_prop in H as (H & ?)). assumption.
Qed.
Lemma ascii_okb : forallb okb ascii_from_src && forallb okb ascii_to_src = true.
Proof. vm_compute. reflexivity. Qed.
Lemma page_rows p : forallb row_ok fallback_from = true /\ forallb row_ok (from_rows p) = true /\ forallb row_ok (to_rows p) = true.
Proof. pose proof rows_checked as H. apply andb_prop in H as (H1 & H). rewrite forallb_forall in H. specialize (H p (all_pages_in p)). apply andb_prop in H. tauto. Qed.
Lemma page_ok p : forallb (forallb okb) (from_tables p) = true /\ forallb (forallb okb) (to_tables p) = true.
Proof.
  destruct (page_rows p) as (H1 & H2 & H3). apply rows_ok in H1 as (H1 & _). apply rows_ok in H2 as (H2 & _). apply rows_ok in H3 as (H3 & _). pose proof ascii_okb as HA. apply andb_prop in HA as (A1 & A2).
  destruct p; cbn [from_tables to_tables from_rows to_rows forallb] in *; rewrite ?H1, ?H2, ?H3, ?A1, ?A2; split; reflexivity.
Qed.
Definition from_dicts (p : page) : list dict :=
  match p with CP874 => [ascii_from_dict; rows_dict (from_rows p); rows_dict fallback_from] | LATIN1 => [ascii_from_dict; rows_dict (from_rows p)] | _ => [rows_dict (from_rows p); ascii_from_dict; rows_dict fallback_from] end.
Definition to_dicts (p : page) : list dict :=
  match p with CP1251 | CP1252 | CP1253 | CP874 | LATIN1 => [rows_dict (to_rows p); ascii_to_dict] | _ => [] end.
Lemma from_dicts_are p : map file_dict (from_tables p) = from_dicts p.
Proof.
  destruct (page_rows p) as (H1 & H2 & _). apply rows_ok in H1 as (_ & H1). apply rows_ok in H2 as (_ & H2). apply rows_dict_is in H1, H2.
  destruct p; cbn [from_tables from_dicts from_rows map] in *; rewrite H1, H2, ascii_from_is || rewrite H2, ascii_from_is; reflexivity.
Qed.
Lemma to_dicts_are p : map file_dict (to_tables p) = to_dicts p.
Proof.
  destruct (page_rows p) as (_ & _ & H3). apply rows_ok in H3 as (_ & H3). apply rows_dict_is in H3.
  destruct p; cbn [to_tables to_dicts to_rows map] in *; first [rewrite H3, ascii_to_is; reflexivity | reflexivity].
Qed.
Definition bytes : list N := map N.of_nat (seq 0 256).
Lemma in_bytes b : b < 256 -> In b bytes.
Proof. intros H. apply in_map_iff. exists (N.to_nat b). split; [lia|]. apply in_seq. lia. Qed.
Definition char_of (p : page) (b : N) : option N := if b <? 128 then Some b else match nth_error (upper p) (N.to_nat (b - 128)) with Some o => o | None => None end.
Lemma char_of_is p b c : b < 256 -> (char_of p b = Some c <-> stands_for p b c).
Proof.
  intros Hb. unfold char_of, stands_for. destruct (N.ltb_spec b 128) as [H|H].
  - split; [intros E; injection E as <-; left; lia|]. intros [(_ & ->)|(K & _)]; [reflexivity|lia].
  - destruct (nth_error (upper p) (N.to_nat (b - 128))) as [o|]; split.
    + intros ->. right. split; [lia|reflexivity].
    + intros [(K & _)|(_ & E)]; [lia|]. injection E as <-. reflexivity.
    + discriminate.
    + intros [(K & _)|(_ & E)]; [lia|discriminate].
Qed.
Definition is_latin1 (p : page) : bool := match p with LATIN1 => true | _ => false end.
Definition reading (p : page) (b : N) : option N :=
  match char_of p b with Some c => if is_latin1 p && (b =? 0) then None else Some c | None => if is_latin1 p then None else Some b end.
Lemma reading_is p b c : reads_as p b c -> b < 256 /\ reading p b = Some c.
Proof.
  intros [H Hz|Hb Hn Hp ->].
  - assert (Hb : b < 256) by (destruct H as [(H & _)|(H & _)]; lia). split; [exact Hb|]. unfold reading. rewrite (proj2 (char_of_is p b c Hb) H). destruct (is_latin1 p && (b =? 0)) eqn:E; [|reflexivity].
    apply andb_prop in E as (E1 & E2). apply N.eqb_eq in E2. exfalso. apply Hz; [destruct p; try discriminate; reflexivity|exact E2].
  - split; [exact Hb|]. unfold reading. destruct (char_of p b) as [x|] eqn:E; [exfalso; apply (Hn x), char_of_is; assumption|]. destruct p; try reflexivity. contradiction.
Qed.
Definition fsems (p : page) : list csem := map from_sem (from_dicts p).
Definition tsems (p : page) : list csem := map data_sem (to_dicts p).
Lemma from_check : forallb (fun p => let S := fsems p in forallb (fun b => match reading p b with Some c => match lone S [b] with Some o => eqb_data o [udatum c] | None => false end | None => true end) bytes) all_pages = true.
Proof. vm_compute. reflexivity. Qed.
Definition spoiledb (p : page) (c : N) : bool := match p with CP1253 | CP874 => (128 <=? c) && (c <? 256) | _ => false end.
Lemma to_check : forallb (fun p => let S := tsems p in forallb (fun b => match char_of p b with Some c => (c =? 0) || spoiledb p c || match lone S (udatum c) with Some o => eqb_data o [[b]] | None => false end | None => true end) bytes)
  [CP1251; CP1252; CP1253; CP874; LATIN1] = true.
Proof. vm_compute. reflexivity. Qed.
Lemma page_reads p b c rest : reads_as p b c -> S_Engine.first_match (fsems p) ([b] :: rest) = Some (1%nat, [udatum c]).
Proof.
  intros H. apply reading_is in H as (Hb & E). apply lone_first. pose proof from_check as HC. rewrite forallb_forall in HC. specialize (HC p (all_pages_in p)). cbv beta zeta in HC. rewrite forallb_forall in HC. specialize (HC b (in_bytes b Hb)).
  cbv beta in HC. rewrite E in HC. destruct (lone (fsems p) [b]) as [o|]; [|discriminate]. rewrite (eqb_data_eq _ _ HC). reflexivity.
Qed.
Lemma page_writes p b c rest : has_encoder p -> stands_for p b c -> c <> 0 -> ~ spoiled p c -> S_Engine.first_match (tsems p) (udatum c :: rest) = Some (1%nat, [[b]]).
Proof.
  intros Hp H Hc Hs. assert (Hb : b < 256) by (destruct H as [(H & _)|(H & _)]; lia). apply lone_first. pose proof to_check as HC. rewrite forallb_forall in HC. specialize (HC p Hp). cbv beta zeta in HC. rewrite forallb_forall in HC. specialize (HC b (in_bytes b Hb)).
  cbv beta in HC. rewrite (proj2 (char_of_is p b c Hb) H) in HC. replace (c =? 0) with false in HC by lia.
  replace (spoiledb p c) with false in HC; [|symmetry; apply not_true_is_false; intros E; apply Hs; unfold spoiled; destruct p; try discriminate; cbn in E; split; auto; lia].
  cbn [orb] in HC. destruct (lone (tsems p) (udatum c)) as [o|]; [|discriminate]. rewrite (eqb_data_eq _ _ HC). reflexivity.
Qed.

(** ** Conversions *)
(** Bytes and the characters they are read as. *)
Definition read_pair (p : page) (dom : N -> Prop) (x : N * N) : Prop := reads_as p (fst x) (snd x) /\ dom (snd x).
Definition page_text (p : page) (dom : N -> Prop) (W : list N) : Prop := exists cps, Forall2 (fun b c => reads_as p b c /\ dom c) W cps.
Lemma fside_ne p : fside (from_tables p) <> []. Proof. destruct p; discriminate. Qed.
Lemma fside_sems p : map (fun y => k_v (snd y)) (fside (from_tables p)) = fsems p. Proof. unfold fside, fsems. rewrite <- from_dicts_are, !map_map. reflexivity. Qed.
Lemma tside_sems p : map (fun y => k_v (snd y)) (tside (to_tables p)) = tsems p. Proof. unfold tside, tsems. rewrite <- to_dicts_are, !map_map. reflexivity. Qed.
Lemma udatum_some c : udatum c <> []. Proof. discriminate. Qed.
Lemma pairs_split {A} (R : N -> A -> Prop) W ys : Forall2 R W ys -> exists xs : list (N * A), W = flat_map (fun x => [fst x]) xs /\ ys = map snd xs /\ Forall (fun x => R (fst x) (snd x)) xs.
Proof. induction 1 as [|b y W ys H _ (xs & -> & -> & HX)]; [exists []; auto|]. exists ((b, y) :: xs). auto. Qed.
Lemma rest_change again i (g1 g2 : list N -> Prop) : (forall x, g1 x -> g2 x) -> forall s, resting again i g1 s -> resting again i g2 s.
Proof.
  intros HG. induction 1 as [s Hi|s0 s Ha HU Hi|s l s' got H0 IH Hne Hll Hg HR].
  - apply re_first. exact Hi.
  - exact (re_again _ _ _ s0 s Ha HU Hi).
  - exact (re_stream _ _ _ s l s' got IH Hne Hll (HG _ Hg) HR).
Qed.
Lemma good_change again i (g1 g2 : list N -> Prop) W O : (forall x, g1 x <-> g2 x) -> converts again i g1 W O -> converts again i g2 W O.
Proof.
  intros HG H s l Hs Hne Hll Hin. destruct (H s l (rest_change again i g2 g1 (fun x => proj2 (HG x)) s Hs) Hne Hll Hin) as (s' & got & A1 & A2 & A3 & A4 & A5). exists s', got.
  split; [exact A1|]. split; [exact A2|]. split; [exact A3|]. split; [exact A4|]. exact (rest_change again i g1 g2 (fun x => proj1 (HG x)) s' A5).
Qed.
Lemma page_gen p (E : list (ecodec priv * kspec)) (dom : N -> Prop) (out : N * N -> list N) : E <> [] -> cod_good TO E -> eof_good TO E -> calm E ->
  (forall b c rest, reads_as p b c -> dom c -> S_Engine.first_match (map (fun y => k_v (snd y)) E) (udatum c :: rest) = Some (1%nat, [out (b, c)])) ->
  forall xs, Forall (read_pair p dom) xs -> converts true (new_instance priv [(FROM, page_decoder p); (TO, map fst E)]) (page_text p dom) (map fst xs) (flat_map out xs).
Proof.
  intros NE E1 E2 HC Hp xs Hx.
  assert (EQ : new_instance priv [(FROM, page_decoder p); (TO, map fst E)] = cb_inst (pconv (fside (from_tables p)) E)) by (unfold cb_inst, pconv; cbn [map fst snd]; rewrite fside_codecs; reflexivity).
  rewrite EQ. destruct (fside_ok _ (proj1 (page_ok p))) as (D1 & D2).
  assert (EM : forall l : list (N * N), flat_map (fun x => [fst x]) l = map fst l) by (induction l as [|y l IH]; [reflexivity|cbn; rewrite IH; reflexivity]).
  pose proof (pair_converts (fside (from_tables p)) E true (fun x => [fst x]) (fun x => udatum (snd x)) out (read_pair p dom) (fside_ne p) NE D1 D2 E1 E2 (fun _ => fside_restores _ _ HC) (fun a _ => udatum_some _)) as HV.
  rewrite <- EM. eapply good_change; [|apply HV; [| |exact Hx]].
  - intros W. split; [intros (ys & HY & ->)|intros (cps & HF)].
    + exists (map snd ys). induction HY as [|y l Hy _ IH]; [constructor|]. cbn [flat_map map app]. constructor; [exact Hy|exact IH].
    + destruct (pairs_split _ _ _ HF) as (ys & -> & _ & HY). exists ys. auto.
  - intros (b & c) rest (Ha & _). rewrite fside_sems. cbn [fst snd byt map app length]. apply page_reads. exact Ha.
  - intros (b & c) rest (Ha & Hd). apply (Hp b c rest Ha Hd).
Qed.
(** Reading: every text of bytes comes out as the characters its bytes stand for. *)
Theorem C68_read : forall p dst W cps, Forall2 (fun b c => reads_as p b c /\ writes dst c) W cps ->
  converts true (page_reader p dst) (page_text p (writes dst)) W (flat_map (encoded dst) cps).
Proof.
  intros p dst W cps H. destruct (pairs_split _ _ _ H) as (xs & -> & -> & HX). destruct (enc_side_ok dst) as (E1 & E2).
  assert (EM : forall l : list (N * N), flat_map (fun x => [fst x]) l = map fst l) by (induction l as [|y l IH]; [reflexivity|cbn; rewrite IH; reflexivity]). rewrite EM.
  assert (EO : forall l : list (N * N), flat_map (encoded dst) (map snd l) = flat_map (fun x => encoded dst (snd x)) l) by (induction l as [|y l IH]; [reflexivity|cbn; rewrite IH; reflexivity]). rewrite EO.
  unfold page_reader. rewrite <- (enc_side_codecs dst).
  apply (page_gen p (enc_side dst) (writes dst) (fun x => encoded dst (snd x)) (enc_side_ne dst) E1 E2 (enc_calm dst)); [|exact HX].
  intros b c rest _ Hw. apply (enc_ecodes dst (fun c : N => c) (writes dst)); [|exact Hw]. intros a Ha. destruct dst; exact Ha.
Qed.
Print Assumptions C68_read.
(** Writing: every text of characters of the charset comes out as the bytes that stand for them. *)
Definition codes (p : page) (c b : N) : Prop := stands_for p b c /\ c <> 0 /\ ~ spoiled p c.
Definition coded_text (src : charset) (p : page) (W : list N) : Prop := exists cps, Forall (fun c => reads src c /\ exists b, codes p c b) cps /\ W = flat_map (encoded src) cps.
Theorem C68_write : forall src t8 t16 p cps bs, strict_utf8 t8 -> has_encoder p -> Forall (reads src) cps -> Forall2 (codes p) cps bs ->
  converts true (page_writer src t8 t16 p) (coded_text src p) (flat_map (encoded src) cps) bs.
Proof.
  intros src t8 t16 p cps bs Hs Hp Hr HF. destruct (tside_ok _ (proj2 (page_ok p))) as (E1 & E2). destruct (dec_side_ok src t8 t16 Hs) as (D1 & D2).
  assert (EQ : page_writer src t8 t16 p = cb_inst (pconv (dec_side src t8 t16) (tside (to_tables p)))) by (unfold page_writer, cb_inst, pconv; cbn [map fst snd]; rewrite dec_side_codecs, tside_codecs; reflexivity).
  rewrite EQ. assert (HX : exists xs : list (N * N), cps = map fst xs /\ bs = flat_map (fun x => [snd x]) xs /\ Forall (fun x => reads src (fst x) /\ codes p (fst x) (snd x)) xs).
  { clear EQ. induction HF as [|c b cps bs H HF IH]; [exists []; auto|]. inversion Hr as [|? ? Hc Hr']; subst. destruct (IH Hr') as (xs & -> & -> & HX). exists ((c, b) :: xs). auto. }
  destruct HX as (xs & -> & -> & HX).
  assert (EO : forall l : list (N * N), flat_map (encoded src) (map fst l) = flat_map (fun x => encoded src (fst x)) l) by (induction l as [|y l IH]; [reflexivity|cbn; rewrite IH; reflexivity]). rewrite EO.
  eapply good_change; [|apply (pair_converts (dec_side src t8 t16) (tside (to_tables p)) true (fun x : N * N => encoded src (fst x)) (fun x => udatum (fst x)) (fun x => [snd x]) (fun x => reads src (fst x) /\ codes p (fst x) (snd x))); auto].
  - intros W. split; [intros (ys & HY & ->)|intros (cs & HC & ->)].
    + exists (map fst ys). split; [|symmetry; apply EO]. apply Forall_map. eapply Forall_impl; [|exact HY]. intros (c & b) (H1 & H2). split; [exact H1|exists b; exact H2].
    + induction HC as [|c l (H1 & b & H2) _ (ys & HY & E)]; [exists []; auto|]. exists ((c, b) :: ys). split; [constructor; auto|]. cbn [flat_map fst]. rewrite E. reflexivity.
  - destruct src; discriminate.
  - destruct Hp as [<-|[<-|[<-|[<-|[<-|[]]]]]]; discriminate.
  - intros _. apply dec_restores; [exact Hs|apply tside_calm].
  - intros a _. apply udatum_some.
  - intros (c & b) rest (H1 & _). replace (map (fun y => k_v (snd y)) (dec_side src t8 t16)) with (dec_csems src (u_nul t8)) by (destruct src; reflexivity). apply (side_decodes src (u_nul t8) c rest H1).
  - intros (c & b) rest (_ & H1 & H2 & H3). rewrite tside_sems. apply page_writes; assumption.
Qed.
Print Assumptions C68_write.
(** From one charset to another: the bytes that stand for the same characters; in particular a text is reproduced by a conversion to its own charset. *)
Definition transcodes (p q : page) (b b' : N) : Prop := exists c, reads_as p b c /\ codes q c b'.
Theorem C68_between : forall p q W V, has_encoder q -> Forall2 (transcodes p q) W V ->
  converts true (page_to_page p q) (page_text p (fun c => exists b, codes q c b)) W V.
Proof.
  intros p q W V Hq HF. destruct (tside_ok _ (proj2 (page_ok q))) as (E1 & E2).
  assert (HX : exists xs : list (N * N * N), W = map (fun x => fst (fst x)) xs /\ V = map snd xs /\ Forall (fun x => reads_as p (fst (fst x)) (snd (fst x)) /\ codes q (snd (fst x)) (snd x)) xs).
  { induction HF as [|b b' W V (c & H1 & H2) _ (xs & -> & -> & HX)]; [exists []; auto|]. exists ((b, c, b') :: xs). auto. }
  clear HF. destruct HX as (xs & -> & -> & HX).
  pose (code := fun c => match find (fun b => match char_of q b with Some x => x =? c | None => false end) bytes with Some b => b | None => 0 end).
  assert (HW : forall c b rest, codes q c b -> S_Engine.first_match (tsems q) (udatum c :: rest) = Some (1%nat, [[b]])) by (intros c b rest (H1 & H2 & H3); apply page_writes; assumption).
  assert (HU : forall c b, codes q c b -> code c = b).
  { intros c b HB. unfold code. assert (Hb : b < 256) by (destruct HB as ([(H & _)|(H & _)] & _); lia).
    destruct (find _ bytes) as [y|] eqn:Ef.
    - apply find_some in Ef as (Hy & Ey). apply in_map_iff in Hy as (n & <- & Hn). apply in_seq in Hn. destruct (char_of q (N.of_nat n)) as [x|] eqn:Ex; [|discriminate]. apply N.eqb_eq in Ey. subst x.
      destruct HB as (H1 & H2 & H3). assert (HB' : codes q c (N.of_nat n)) by (split; [apply char_of_is; [lia|exact Ex]|auto]). pose proof (HW c _ [] HB') as K1. pose proof (HW c b [] (conj H1 (conj H2 H3))) as K2. congruence.
    - exfalso. pose proof (find_none _ _ Ef b (in_bytes b Hb)) as K. cbv beta in K. destruct HB as (H1 & _). rewrite (proj2 (char_of_is q b c Hb) H1), N.eqb_refl in K. discriminate. }
  unfold page_to_page, page_encoder. rewrite <- tside_codecs.
  assert (E3 : map (fun x : N * N * N => fst (fst x)) xs = map fst (map fst xs)) by (rewrite map_map; reflexivity). rewrite E3.
  assert (E4 : map snd xs = flat_map (fun x : N * N => [code (snd x)]) (map fst xs)).
  { clear E3. induction HX as [|x l (_ & Hx) _ IH]; [reflexivity|]. cbn [map flat_map app]. rewrite (HU _ _ Hx), IH. reflexivity. }
  rewrite E4. apply (page_gen p (tside (to_tables q)) (fun c => exists b, codes q c b) (fun x => [code (snd x)])); auto using tside_calm.
  - destruct Hq as [<-|[<-|[<-|[<-|[<-|[]]]]]]; discriminate.
  - intros b c rest _ (b' & Hb'). cbn [snd]. rewrite tside_sems, (HU _ _ Hb'). apply HW. exact Hb'.
  - apply Forall_map. eapply Forall_impl; [|exact HX]. intros ((b & c) & b') (H1 & H2). split; [exact H1|exists b'; exact H2].
Qed.
Print Assumptions C68_between.
(** In particular a text is reproduced by a conversion from its charset to its charset. *)
Theorem C68_round_trip : forall p W, has_encoder p -> Forall (fun b => exists c, stands_for p b c /\ c <> 0 /\ ~ spoiled p c) W ->
  converts true (page_to_page p p) (page_text p (fun c => exists b, codes p c b)) W W.
Proof.
  intros p W Hp HF. apply C68_between; [exact Hp|]. induction HF as [|b W (c & H1 & H2 & H3) _ IH]; constructor; [|exact IH]. exists c. split; [|repeat split; assumption].
  apply ra_page; [exact H1|]. intros _ ->. destruct H1 as [(_ & ->)|(K & _)]; [contradiction|lia].
Qed.
Print Assumptions C68_round_trip.
(** The exception is real: the pound sign of CP1253, byte A3, is lost (the table to/_CP1253 has it under 0100A3, which no character has). *)
Theorem C68_spoiled_refuted : stands_for CP1253 0xA3 0xA3 /\ ~ (forall W (good : list N -> Prop), good W -> Forall (fun b => exists c, stands_for CP1253 b c /\ c <> 0) W -> converts true (page_to_page CP1253 CP1253) good W W).
Proof.
  assert (HS : stands_for CP1253 0xA3 0xA3) by (right; split; [lia|reflexivity]). split; [exact HS|]. intros H.
  specialize (H [0xA3] (fun W => W = [0xA3]) eq_refl). assert (HF : Forall (fun b => exists c, stands_for CP1253 b c /\ c <> 0) [0xA3]) by (constructor; [exists 0xA3; split; [exact HS|discriminate]|constructor]). specialize (H HF).
  destruct (fside_ok _ (proj1 (page_ok CP1253))) as (D1 & D2). destruct (tside_ok _ (proj2 (page_ok CP1253))) as (E1 & E2).
  set (c := pconv (fside (from_tables CP1253)) (tside (to_tables CP1253))).
  assert (EQ : page_to_page CP1253 CP1253 = cb_inst c) by (unfold c, page_to_page, cb_inst, pconv; cbn [map fst snd]; rewrite fside_codecs, tside_codecs; reflexivity).
  rewrite EQ in H. assert (Hok : cb_ok c) by (apply pconv_ok; try assumption; discriminate).
  assert (HP : pipeline (cb_pipe c) [0xA3] = ([], 0%nat, 1%nat)).
  { unfold c, cb_pipe, pconv. cbn [map fst snd kind_of]. rewrite fside_sems, tside_sems. vm_compute. reflexivity. }
  destruct (cinit c Hok) as (s & I1 & I2 & _).
  destruct (H s [(Some [0xA3], OHold)] (re_first _ _ _ _ I1) ltac:(discriminate) (ltac:(constructor; [exact I|constructor])) eq_refl) as (s1 & g1 & A1 & _ & _ & A4 & _).
  destruct (cstream c Hok s [(Some [0xA3], OHold)] [] 1%nat I2 ltac:(discriminate) (ltac:(constructor; [exact I|constructor])) HP) as (s2 & g2 & B1 & _ & _ & B4 & _).
  destruct (P_Create.runs_unique _ _ _ _ _ _ B1 A1) as (-> & _). lia.
Qed.
Print Assumptions C68_spoiled_refuted.
(** A case: the bytes of "Ж€" in CP1251. *)
Example C68_example : Forall2 (fun b c => reads_as CP1251 b c /\ writes UTF8 c) [0xC6; 0x88; 0x41; 0x98] [0x416; 0x20AC; 0x41; 0x98] /\
  Forall (fun b => exists c, stands_for CP1251 b c /\ c <> 0 /\ ~ spoiled CP1251 c) [0xC6; 0x88; 0x41].
Proof.
  assert (HN : forall c, ~ spoiled CP1251 c) by (intros c ([E|E] & _); discriminate).
  split.
  - constructor; [|constructor; [|constructor; [|constructor; [|constructor]]]]; (split; [|cbn; lia]).
    + apply ra_page; [right; split; [lia|reflexivity]|discriminate].
    + apply ra_page; [right; split; [lia|reflexivity]|discriminate].
    + apply ra_page; [left; lia|discriminate].
    + apply ra_unused; [lia| |discriminate|reflexivity]. intros x [(K & _)|(_ & E)]; [lia|]. vm_compute in E. discriminate.
  - constructor; [|constructor; [|constructor; [|constructor]]].
    + exists 0x416. split; [right; split; [lia|reflexivity]|split; [discriminate|apply HN]].
    + exists 0x20AC. split; [right; split; [lia|reflexivity]|split; [discriminate|apply HN]].
    + exists 0x41. split; [left; lia|split; [discriminate|apply HN]].
Qed.

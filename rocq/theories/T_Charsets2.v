(** C68, continued: texts with characters the charset does not have. *)
From Verif Require Import Base Types M_Engine M_Output M_Create M_Callback M_Modules M_UTF8 M_UTF16 M_Bsearch S_Session S_Unicode S_Rest S_Source S_Dict S_Engine S_Table S_Pages S_Charsets D_Charsets M_Charsets
  P_Trans P_Create P_Engine1 P_Callback P_CbSession P_Dict P_Ascii P_Charset P_Unicode P_Pair P_UDA P_Norm P_Escape P_Escape2 T_Escape T_Charsets.
From Verif Require Import S_Transcode.
From Coq Require Import ZifyBool ZifyN ZifyNat.
Local Open Scope N_scope.

Definition with_encoder : list page := [CP1251; CP1252; CP1253; CP874; LATIN1].
(** Every line of the tables is a code of the page, "~", or no character at all. *)
Definition line_ok (p : page) (e : list N * list datum) : bool :=
  forallb (fun x => negb (x =? 256)) (fst e) &&
  let c := u32_of (tl (fst e)) in
  if eqb_data [fst e] [udatum c] then (c =? 0x2DC) || (negb (c =? 0) && negb (spoiledb p c) && match snd e with [[b]] => (b <? 256) && match char_of p b with Some x => x =? c | None => false end | _ => false end) else true.
Lemma lines_ok : forallb (fun p => forallb (fun D => forallb (line_ok p) D) (to_dicts p)) with_encoder = true.
Proof. vm_compute. reflexivity. Qed.
Lemma line_of p D e : has_encoder p -> In D (to_dicts p) -> In e D -> line_ok p e = true.
Proof. intros Hp Hs He. pose proof lines_ok as H. rewrite forallb_forall in H. specialize (H p Hp). cbv beta in H. rewrite forallb_forall in H. specialize (H D Hs). cbv beta in H. rewrite forallb_forall in H. exact (H e He). Qed.
Lemma tilde_check : forallb (fun p => match char_of p 0x98 with Some 0x2DC => true | _ => match lone (tsems p) (udatum 0x2DC) with Some o => eqb_data o [[0x7E]] | None => false end end) with_encoder = true.
Proof. vm_compute. reflexivity. Qed.
Definition uncoded (p : page) (c : N) : Prop := (forall b, ~ stands_for p b c) \/ c = 0 \/ spoiled p c.
Lemma spoiledb_is p c : spoiledb p c = true <-> spoiled p c.
Proof. unfold spoiled, spoiledb. destruct p; split; try discriminate; intros H; try (destruct H as ([K|K] & _); discriminate); try (split; [auto|lia]); try lia. Qed.
Lemma lost_dead p D c : has_encoder p -> In D (to_dicts p) -> c < 0x100000000 -> c <> 0x2DC -> uncoded p c -> data_sem D [udatum c] = VDead.
Proof.
  intros Hp Hs Hc Ht HU. unfold data_sem. cbn [joined]. cbv zeta.
  assert (HN : has_prefix D (udatum c ++ [256]) = false).
  { apply not_true_is_false. intros H. apply has_prefix_spec in H as (k & o & r & Hin & ->). pose proof (line_of p D _ Hp Hs Hin) as HL. unfold line_ok in HL. apply andb_prop in HL as (HL & _). cbn [fst] in HL.
    rewrite forallb_forall in HL. assert (Hx : In 256 ((udatum c ++ [256]) ++ r)) by (rewrite <- app_assoc; apply in_or_app; right; left; reflexivity). specialize (HL _ Hx). discriminate. }
  rewrite HN. destruct (lookup D (udatum c)) as [o|] eqn:E; [|reflexivity]. exfalso. apply P_Dict.lookup_in in E. pose proof (line_of p D _ Hp Hs E) as HL. unfold line_ok in HL. apply andb_prop in HL as (_ & HL). cbn [fst snd] in HL.
  assert (EU : u32_of (tl (udatum c)) = c) by (exact (proj1 (udatum_value c Hc))). cbv zeta in HL. rewrite EU in HL. assert (EB : eqb_data [udatum c] [udatum c] = true) by (unfold eqb_data; destruct (list_eq_dec (list_eq_dec N.eq_dec) [udatum c] [udatum c]) as [_|K]; [reflexivity|exfalso; apply K; reflexivity]). match type of HL with (if ?b then _ else _) = true => replace b with true in HL by (symmetry; exact EB) end.
  replace (c =? 0x2DC) with false in HL by lia. cbn [orb] in HL. apply andb_prop in HL as (HL & H3). apply andb_prop in HL as (H1 & H2).
  destruct o as [|[|b [|? ?]] [|? ?]]; try discriminate. apply andb_prop in H3 as (H3 & H4). apply N.ltb_lt in H3. destruct (char_of p b) as [x|] eqn:Ex; [|discriminate]. apply N.eqb_eq in H4. subst x.
  apply char_of_is in Ex; [|exact H3]. destruct HU as [K|[->|K]]; [exact (K b Ex)|discriminate|]. apply spoiledb_is in K. rewrite K in H2. discriminate.
Qed.
Lemma dead_all cs d rest : (forall c, In c cs -> c [d] = VDead) -> S_Engine.first_match cs (d :: rest) = None.
Proof. induction cs as [|c cs IH]; intros H; [reflexivity|]. cbn [S_Engine.first_match]. cbn [scan app]. rewrite (H c) by (left; reflexivity). apply IH. intros x Hx. apply H. right. exact Hx. Qed.
Lemma tsems_in p v : In v (tsems p) -> exists D, In D (to_dicts p) /\ v = data_sem D.
Proof. intros H. apply in_map_iff in H as (D & <- & HD). exists D. auto. Qed.
Lemma tsems_last p : has_encoder p -> In (last (tsems p) (fun _ => VDead)) (tsems p).
Proof. intros [<-|[<-|[<-|[<-|[<-|[]]]]]]; right; left; reflexivity. Qed.
Lemma put_first p c w rest : has_encoder p -> c < 0x100000000 -> put_as p c w ->
  match w with
  | [] => trans KTo (tsems p) (udatum c :: rest) = (fst (trans KTo (tsems p) rest), S (snd (trans KTo (tsems p) rest)))
  | _ => trans KTo (tsems p) (udatum c :: rest) = (w :: fst (trans KTo (tsems p) rest), snd (trans KTo (tsems p) rest))
  end.
Proof.
  intros Hp Hc HW. inversion HW as [b H1 H2 H3 E|H1 H2 E|H1 H2 E]; subst w.
  - rewrite (trans_match _ _ _ _ _ (page_writes p b c rest Hp H1 H2 H3)). cbn [skipn app]. reflexivity.
  - subst c. assert (E : lone (tsems p) (udatum 0x2DC) = Some [[0x7E]]).
    { pose proof tilde_check as HT. rewrite forallb_forall in HT. specialize (HT p Hp). cbv beta in HT. destruct (char_of p 0x98) as [x|] eqn:Ex.
      - assert (Hx : x <> 0x2DC) by (intros ->; apply (H2 0x98), char_of_is; [lia|exact Ex]). assert (HT' : match lone (tsems p) (udatum 0x2DC) with Some o => eqb_data o [[0x7E]] | None => false end = true).
        { destruct (N.eq_dec x 0x2DC); [contradiction|]. revert HT. generalize (match lone (tsems p) (udatum 732) with Some o => eqb_data o [[126]] | None => false end). intros bb. destruct x as [|q]; [auto|]. do 10 (destruct q as [q|q|]; auto). }
        destruct (lone (tsems p) (udatum 0x2DC)) as [o|]; [|discriminate]. rewrite (eqb_data_eq _ _ HT'). reflexivity.
      - destruct (lone (tsems p) (udatum 0x2DC)) as [o|]; [|discriminate]. rewrite (eqb_data_eq _ _ HT). reflexivity. }
    rewrite (trans_match _ _ _ _ _ (lone_first _ _ _ rest E)). cbn [skipn app]. reflexivity.
  - assert (HD : forall v, In v (tsems p) -> v [udatum c] = VDead) by (intros v Hv; apply tsems_in in Hv as (s & Hs & ->); apply (lost_dead p s c); assumption).
    rewrite trans_fail_to; [|discriminate|apply dead_all; exact HD].
    assert (EX : examined (last (tsems p) (fun _ => VDead)) [] (udatum c :: rest) = 1%nat) by (cbn [examined app]; rewrite (HD _ (tsems_last p Hp)); reflexivity).
    rewrite EX. cbn [skipn]. reflexivity.
Qed.
Lemma put_trans p cps W n : has_encoder p -> Forall (fun c => c < 0x100000000) cps -> put_text p cps W n -> exists o, trans KTo (tsems p) (map udatum cps) = (o, n) /\ concat o = W.
Proof.
  intros Hp HC HT. induction HT as [|c cps w W n H1 _ IH]; [exists []; split; [apply trans_nil|reflexivity]|]. inversion HC as [|? ? Hc HC']; subst. destruct (IH HC') as (o & E & EW). cbn [map].
  pose proof (put_first p c w (map udatum cps) Hp Hc H1) as HF. rewrite E in HF. cbn [fst snd] in HF. destruct w as [|b w].
  - exists o. split; [exact HF|exact EW].
  - exists ((b :: w) :: o). split; [exact HF|]. cbn [concat]. rewrite EW. reflexivity.
Qed.
(** How every text is written is determined. *)
Lemma stands_dec p c : (exists b, stands_for p b c) \/ (forall b, ~ stands_for p b c).
Proof.
  destruct (find (fun b => match char_of p b with Some x => x =? c | None => false end) bytes) as [y|] eqn:Ef.
  - left. apply find_some in Ef as (Hy & Ey). apply in_map_iff in Hy as (n & <- & Hn). apply in_seq in Hn. exists (N.of_nat n). apply char_of_is; [lia|]. destruct (char_of p (N.of_nat n)) as [x|]; [|discriminate]. apply N.eqb_eq in Ey. subst x. reflexivity.
  - right. intros b H. assert (Hb : b < 256) by (destruct H as [(H & _)|(H & _)]; lia). pose proof (find_none _ _ Ef b (in_bytes b Hb)) as K. cbv beta in K. rewrite (proj2 (char_of_is p b c Hb) H), N.eqb_refl in K. discriminate.
Qed.
Theorem C68_put_total : forall p cps, exists W n, put_text p cps W n.
Proof.
  intros p. induction cps as [|c cps (W & n & IH)]; [exists [], 0%nat; constructor|].
  assert (H : exists w, put_as p c w).
  { destruct (N.eq_dec c 0x2DC) as [->|Ht].
    - destruct (stands_dec p 0x2DC) as [(b & Hb)|Hb]; [exists [b]; apply pa_code; [exact Hb|discriminate|intros (_ & K); lia]|exists [0x7E]; apply pa_tilde; auto].
    - destruct (stands_dec p c) as [(b & Hb)|Hb]; [|exists []; apply pa_lost; auto]. destruct (N.eq_dec c 0) as [->|H0]; [exists []; apply pa_lost; auto|].
      destruct (spoiledb p c) eqn:Es; [exists []; apply pa_lost; [exact Ht|right; right; apply spoiledb_is; exact Es]|]. exists [b]. apply pa_code; [exact Hb|exact H0|]. intros K. apply spoiledb_is in K. congruence. }
  destruct H as (w & H). eexists _, _. apply pt_char; eassumption.
Qed.
Theorem C68_put_unique : forall p cps W n W' n', has_encoder p -> Forall (fun c => c < 0x100000000) cps -> put_text p cps W n -> put_text p cps W' n' -> W = W' /\ n = n'.
Proof.
  intros p cps W n W' n' Hp HC H1 H2. destruct (put_trans p cps W n Hp HC H1) as (o & E1 & <-). destruct (put_trans p cps W' n' Hp HC H2) as (o' & E2 & <-). rewrite E1 in E2. injection E2 as -> ->. auto.
Qed.
(** Every text, whatever its characters: what the charset has is written, the rest is left out, and every character left out is counted as an output error. *)
Theorem C68_write_any : forall src t8 t16 p s l cps W n, strict_utf8 t8 -> has_encoder p -> resting true (page_writer src t8 t16 p) (char_text src (fun _ => True)) s ->
  l <> [] -> Forall (fun x => lossless (snd x)) l -> concat (inputs l) = flat_map (encoded src) cps -> Forall (reads src) cps -> put_text p cps W n ->
  exists s' got, runs_to s (stream_calls l) s' got /\ got ++ pending priv s' = pending priv s ++ W /\ i_ierr priv s' = i_ierr priv s /\ i_oerr priv s' = (i_oerr priv s + n)%nat /\
    resting true (page_writer src t8 t16 p) (char_text src (fun _ => True)) s'.
Proof.
  intros src t8 t16 p s l cps W n Hs Hp HR Hne Hll Hin Hr HT. destruct (tside_ok _ (proj2 (page_ok p))) as (E1 & E2). destruct (dec_side_ok src t8 t16 Hs) as (D1 & D2).
  set (c := pconv (dec_side src t8 t16) (tside (to_tables p))).
  assert (EQ : page_writer src t8 t16 p = cb_inst c) by (unfold c, page_writer, cb_inst, pconv; cbn [map fst snd]; rewrite dec_side_codecs, tside_codecs; reflexivity).
  rewrite EQ in *. assert (Hok : cb_ok c) by (apply pconv_ok; try assumption; [destruct src; discriminate|destruct Hp as [<-|[<-|[<-|[<-|[<-|[]]]]]]; discriminate]).
  assert (HP : forall cps, Forall (reads src) cps -> pipeline (cb_pipe c) (flat_map (encoded src) cps) = (fst (trans KTo (tsems p) (map udatum cps)), 0%nat, snd (trans KTo (tsems p) (map udatum cps)))).
  { intros cs Hcs. unfold c, cb_pipe, pconv. cbn [map fst snd kind_of]. rewrite tside_sems. unfold pipeline. cbn [fold_left apply_phase ps_kind ps_cs S_Engine.inj concat]. rewrite app_nil_r.
    change (map (fun b => [b]) (flat_map (encoded src) cs)) with (byt (flat_map (encoded src) cs)).
    rewrite (dcode_all _ (encoded src) udatum (reads src)); [|intros x rest Hx; replace (map (fun y => k_v (snd y)) (dec_side src t8 t16)) with (dec_csems src (u_nul t8)) by (destruct src; reflexivity); apply (side_decodes src (u_nul t8) x rest Hx)|exact Hcs].
    cbn [apply_phase ps_kind ps_cs S_Engine.inj]. rewrite (dat_nonempty udatum (reads src)); [|intros x _; apply udatum_some|exact Hcs]. destruct (trans KTo (tsems p) (map udatum cs)); reflexivity. }
  assert (HG : forall V, char_text src (fun _ => True) V -> exists out oe, pipeline (cb_pipe c) V = (out, 0%nat, oe)).
  { intros V (cs & HC & ->). eexists _, _. apply HP. eapply Forall_impl; [|exact HC]. intros x (Hx & _). exact Hx. }
  assert (HRS : true = true -> restores c) by (intros _; apply dec_restores; [exact Hs|apply tside_calm]).
  destruct (put_trans p cps W n Hp) as (o & EO & EW); [eapply Forall_impl; [|exact Hr]; intros x Hx; destruct src; cbn in Hx; unfold scalar in Hx; lia|exact HT|].
  specialize (HP cps Hr). rewrite EO in HP. cbn [fst snd] in HP. rewrite <- Hin in HP.
  destruct (cstream c Hok s l o n (resting_quiet c Hok true _ HRS HG s HR) Hne Hll HP) as (s' & got & B1 & B2 & B3 & B4 & B5). exists s', got. rewrite EW in B2.
  split; [exact B1|]. split; [exact B2|]. split; [exact B3|]. split; [exact B4|]. apply (re_stream _ _ _ s l s' got HR Hne Hll); [|exact B1]. rewrite Hin. exists cps. split; [|reflexivity]. eapply Forall_impl; [|exact Hr]. intros x Hx. split; [exact Hx|exact I].
Qed.
(** ... and there is such a converter. *)
Theorem C68_writer_created : forall src t8 t16 p, strict_utf8 t8 -> has_encoder p -> exists s, resting true (page_writer src t8 t16 p) (char_text src (fun _ => True)) s /\ pending priv s = [] /\ i_ierr priv s = 0%nat /\ i_oerr priv s = 0%nat.
Proof.
  intros src t8 t16 p Hs Hp. destruct (tside_ok _ (proj2 (page_ok p))) as (E1 & E2). destruct (dec_side_ok src t8 t16 Hs) as (D1 & D2).
  set (c := pconv (dec_side src t8 t16) (tside (to_tables p))).
  assert (EQ : page_writer src t8 t16 p = cb_inst c) by (unfold c, page_writer, cb_inst, pconv; cbn [map fst snd]; rewrite dec_side_codecs, tside_codecs; reflexivity).
  rewrite EQ. assert (Hok : cb_ok c) by (apply pconv_ok; try assumption; [destruct src; discriminate|destruct Hp as [<-|[<-|[<-|[<-|[<-|[]]]]]]; discriminate]).
  destruct (cinit c Hok) as (s & I1 & _ & I3 & I4 & I5). exists s. split; [apply re_first; exact I1|]. auto.
Qed.
(** A case: "Ж", U+4E2D, the small tilde, in CP1251; the pound sign in CP1253. *)
Example C68_put_example : put_text CP1251 [0x416; 0x4E2D; 0x2DC] [0xC6; 0x7E] 1 /\ put_text CP1253 [0xA3] [] 1.
Proof.
  assert (HN : forall c, (match find (fun b => match char_of CP1251 b with Some x => x =? c | None => false end) bytes with Some _ => true | None => false end) = false -> forall b, ~ stands_for CP1251 b c).
  { intros c E b H. assert (Hb : b < 256) by (destruct H as [(H & _)|(H & _)]; lia). destruct (find _ bytes) eqn:Ef; [discriminate|]. pose proof (find_none _ _ Ef b (in_bytes b Hb)) as K. cbv beta in K. rewrite (proj2 (char_of_is _ b c Hb) H), N.eqb_refl in K. discriminate. }
  split.
  - apply (pt_char CP1251 0x416 _ [0xC6] [0x7E] 1); [apply pa_code; [right; split; [lia|reflexivity]|discriminate|intros ([E|E] & _); discriminate]|].
    apply (pt_char CP1251 0x4E2D _ [] [0x7E] 0); [apply pa_lost; [discriminate|left; apply HN; vm_compute; reflexivity]|].
    apply (pt_char CP1251 0x2DC _ [0x7E] [] 0); [apply pa_tilde; [reflexivity|apply HN; vm_compute; reflexivity]|]. constructor.
  - apply (pt_char CP1253 0xA3 [] [] [] 0); [apply pa_lost; [discriminate|right; right; split; [auto|lia]]|constructor].
Qed.
Print Assumptions C68_put_total.
Print Assumptions C68_put_unique.
Print Assumptions C68_write_any.
Print Assumptions C68_writer_created.

(** The alias look-up as a conversion. *)
From Verif Require Import Base Types M_Engine M_Output M_Create M_Callback M_Hex M_UTF8 M_UTF16 M_Modules M_Fallback M_Star M_Inter M_Stars M_Stage M_Count M_SolveAlias S_Session S_Unicode S_Rest S_Source S_Dict S_Table S_Convert S_Fallback S_Flow S_Transcode S_Stage S_Count S_SolveAlias S_Engine P_Trans P_Engine1 P_Dict P_Convert P_Session3 P_Ascii P_Unicode P_Fallback P_Stage P_Create P_Output4 P_Count4.
From Verif Require T_Output.
From Coq Require Import ZifyBool ZifyN ZifyNat.
Local Arguments N_of_ascii : simpl never.

Definition uds (w : str) : list datum := map datum_of w.
Lemma byte_inj a b : byte_of a = byte_of b -> a = b.
Proof. unfold byte_of. intros H. rewrite <- (ascii_N_embedding a), <- (ascii_N_embedding b), H. reflexivity. Qed.
Lemma byte_lt c : (byte_of c < 256)%N.
Proof. destruct c as [[] [] [] [] [] [] [] []]; vm_compute; reflexivity. Qed.
Lemma uds_inj a : forall b, uds a = uds b -> a = b.
Proof.
  induction a as [|x a IH]; intros [|y b] H; try discriminate; [reflexivity|]. unfold uds in H. cbn [map] in H. f_equal; [|apply IH; exact (f_equal (@tl _) H)].
  apply (f_equal (fun l => hd [] l)) in H. cbn [hd] in H. apply (f_equal (fun l => nth 1 l 0%N)) in H. cbn [nth datum_of] in H. apply byte_inj. exact H.
Qed.
Fixpoint jkey (k : str) : list N := match k with [] => [] | [c] => [1%N; byte_of c] | c :: r => 1%N :: byte_of c :: 256%N :: jkey r end.
Lemma jkey_joined k : jkey k = joined (uds k).
Proof. induction k as [|c [|c2 k] IH]; [reflexivity|reflexivity|]. cbn [jkey] in *. rewrite IH. reflexivity. Qed.
Lemma jkey_inj a : forall b, jkey a = jkey b -> a = b.
Proof.
  induction a as [|x a IH]; intros [|y b] H; try reflexivity.
  - destruct b; discriminate.
  - destruct a; discriminate.
  - assert (Hxy : x = y).
    { apply (f_equal (fun l => nth 1 l 0%N)) in H. destruct a, b; apply byte_inj; exact H. }
    subst y. f_equal. destruct a as [|x2 a], b as [|y2 b]; [reflexivity|apply (f_equal (@length N)) in H; cbn in H; discriminate|apply (f_equal (@length N)) in H; cbn in H; discriminate|].
    apply IH. exact (f_equal (skipn 3) H).
Qed.
Lemma range_one c : (c <= 256)%N -> range c c = [c].
Proof.
  intros Hc. unfold range. assert (HE : forall n s, filter (fun x => (c <=? x)%N && (x <=? c)%N) (map N.of_nat (seq s n)) = if (N.of_nat s <=? c)%N && (c <? N.of_nat (s + n))%N then [c] else []).
  { induction n as [|n IH]; intros s; cbn [seq map filter]; [replace ((N.of_nat s <=? c)%N && (c <? N.of_nat (s + 0))%N) with false by lia; reflexivity|]. rewrite IH.
    destruct ((c <=? N.of_nat s)%N && (N.of_nat s <=? c)%N) eqn:E.
    - assert (c = N.of_nat s) by lia. replace ((N.of_nat (S s) <=? c)%N && (c <? N.of_nat (S s + n))%N) with false by lia. replace ((N.of_nat s <=? c)%N && (c <? N.of_nat (s + S n))%N) with true by lia. congruence.
    - replace ((N.of_nat s <=? c)%N && (c <? N.of_nat (s + S n))%N) with ((N.of_nat (S s) <=? c)%N && (c <? N.of_nat (S s + n))%N) by lia. reflexivity. }
  rewrite HE. replace ((N.of_nat 0 <=? c)%N && (c <? N.of_nat (0 + 257))%N) with true by lia. reflexivity.
Qed.
Lemma words_cons c p : (c <= 256)%N -> words ((c, c) :: p) = map (cons c) (words p).
Proof. intros H. cbn [words]. rewrite (range_one c H). cbn [flat_map]. apply app_nil_r. Qed.
Lemma alias_words k : words (map bounds (alias_pat k)) = [jkey k].
Proof.
  induction k as [|c [|c2 k] IH]; [reflexivity| |].
  - cbn [alias_pat map bounds]. pose proof (byte_lt c). rewrite !words_cons by lia. reflexivity.
  - cbn [alias_pat map bounds] in *. pose proof (byte_lt c). rewrite !words_cons by lia. rewrite IH. reflexivity.
Qed.
Lemma alias_dict T : file_dict (alias_src T) = map (fun kv => (jkey (fst kv), uds (snd kv))) T.
Proof. unfold file_dict, alias_src. induction T as [|(k, v) T IH]; cbn [map flat_map]; [reflexivity|]. rewrite IH. cbn [en_pat en_out fst snd]. rewrite alias_words. reflexivity. Qed.
Lemma eqb_syms_true a : forall b, eqb_syms a b = true <-> a = b.
Proof. induction a as [|x a IH]; intros [|y b]; cbn; split; intros H; try discriminate; try reflexivity; [apply andb_true_iff in H as (H1 & H2); apply N.eqb_eq in H1; apply IH in H2; congruence|]. injection H as -> ->. rewrite N.eqb_refl. apply (proj2 (IH b) eq_refl). Qed.
Lemma lookup_has T k o : lookup (file_dict (alias_src T)) (jkey k) = Some o <-> exists v, has_alias T k v /\ o = uds v.
Proof.
  rewrite alias_dict. induction T as [|(k1, v1) T IH]; cbn [map lookup fst snd].
  - split; [discriminate|]. intros (v & H & _). inversion H.
  - destruct (eqb_syms (jkey k1) (jkey k)) eqn:E.
    + apply eqb_syms_true in E. apply jkey_inj in E. subst k1. split.
      * intros H. injection H as <-. exists v1. split; [constructor|reflexivity].
      * intros (v & H & ->). inversion H; subst; [reflexivity|contradiction].
    + rewrite IH. assert (Hne : k <> k1) by (intros ->; rewrite (proj2 (eqb_syms_true _ _) eq_refl) in E; discriminate). split; intros (v & H & ->); exists v; (split; [|reflexivity]).
      * constructor; assumption.
      * inversion H; subst; [contradiction|assumption].
Qed.
Lemma has_in T k v : has_alias T k v -> In (k, v) T.
Proof. induction 1; [left; reflexivity|right; assumption]. Qed.
Lemma in_has T k v : In (k, v) T -> exists v', has_alias T k v'.
Proof.
  induction T as [|(k1, v1) T IH]; intros H; [destruct H|]. destruct (list_eq_dec Ascii.ascii_dec k k1) as [->|Hne]; [exists v1; constructor|].
  destruct H as [H|H]; [injection H as -> ->; contradiction|]. destruct (IH H) as (v' & Hv). exists v'. constructor; assumption.
Qed.

(** ** The table is one mktable reads *)
Lemma alias_pat_len k : k <> [] -> length (flat_map text_psym (alias_pat k)) + 1 = 5 * length k.
Proof.
  induction k as [|c [|c2 k] IH]; intros H; [contradiction|reflexivity|]. specialize (IH ltac:(discriminate)). change (alias_pat (c :: c2 :: k)) with (PByte 1 :: PByte (byte_of c) :: PSep :: alias_pat (c2 :: k)). cbn [flat_map text_psym hex_byte app length] in *. change (length (c :: c2 :: k)) with (S (length (c2 :: k))). cbn [length] in *. lia.
Qed.
Lemma uds_text_len v : length (text_data (uds v)) <= 5 * length v.
Proof.
  induction v as [|c [|c2 v] IH]; [cbn; lia|cbn; lia|]. assert (E : text_data (uds (c :: c2 :: v)) = flat_map hex_byte (datum_of c) ++ 44%N :: text_data (uds (c2 :: v))) by reflexivity.
  rewrite E, app_length. change (length (c :: c2 :: v)) with (S (length (c2 :: v))). change (length (44%N :: text_data (uds (c2 :: v)))) with (S (length (text_data (uds (c2 :: v))))). change (length (flat_map hex_byte (datum_of c))) with 4. lia.
Qed.
Lemma uds_bytes v : Forall (Forall (fun b => (b < 256)%N)) (uds v).
Proof. apply Forall_forall. intros d Hd. apply in_map_iff in Hd as (c & <- & _). constructor; [lia|constructor; [apply byte_lt|constructor]]. Qed.
Lemma alias_entries T : table_ok T -> Forall entry_ok (alias_src T).
Proof.
  intros H. apply Forall_forall. intros e He. apply in_map_iff in He as ((k, v) & <- & Hin). unfold table_ok in H. rewrite Forall_forall in H. destruct (H _ Hin) as (H1 & H2 & H3 & H4 & H5). cbn [fst snd] in *.
  constructor; cbn [en_pat en_out].
  - destruct k as [|c [|c2 k]]; [contradiction|discriminate|discriminate].
  - clear. induction k as [|c [|c2 k] IH]; cbn [alias_pat]; [constructor|repeat constructor; apply byte_lt|]. constructor; [lia|]. constructor; [apply byte_lt|]. constructor; [exact I|exact IH].
  - apply uds_bytes.
  - intros _. destruct v as [|c v]; [contradiction|]. destruct (exists_last (l := c :: v)) as (p & x & ->); [discriminate|]. unfold uds. rewrite map_app. cbn [map]. rewrite last_last. discriminate.
  - unfold text_entry. cbn [en_pat en_out]. rewrite app_length. cbn [length]. rewrite app_length. cbn [length]. pose proof (alias_pat_len k H1). change (map datum_of v) with (uds v). pose proof (uds_text_len v). lia.
Qed.
Lemma alias_sub T : table_ok T -> forall w o, lookup (file_dict (alias_src T)) w = Some o -> o <> [].
Proof.
  intros H w o Hl. assert (Hin : exists k v, In (k, v) T /\ o = uds v).
  { rewrite alias_dict in Hl. revert Hl. clear H. induction T as [|(k1, v1) T IH]; cbn [map lookup fst snd]; [discriminate|]. destruct (eqb_syms (jkey k1) w); [intros H; injection H as <-; exists k1, v1; split; [left; reflexivity|reflexivity]|].
    intros H. destruct (IH H) as (k & v & Hin & E). exists k, v. split; [right; exact Hin|exact E]. }
  destruct Hin as (k & v & Hin & ->). unfold table_ok in H. rewrite Forall_forall in H. destruct (H _ Hin) as (_ & H2 & _). destruct v; [contradiction|discriminate].
Qed.

(** ** Names, match by match *)
Lemma firstn_begins n (w : str) : begins (firstn n w) w. Proof. exists (skipn n w). symmetry. apply firstn_skipn. Qed.
Lemma entry_iff T w n o : 1 <= n <= length w -> (entry_at INTER (file_dict (alias_src T)) (uds w) n o <-> exists v, has_alias T (firstn n w) v /\ o = uds v).
Proof.
  intros Hn. unfold entry_at, key_of. unfold uds at 1. rewrite map_length. unfold uds at 1. rewrite firstn_map. change (map datum_of (firstn n w)) with (uds (firstn n w)). rewrite <- jkey_joined, lookup_has. split; [intros (_ & H); exact H|intros H; split; [lia|exact H]].
Qed.
Lemma spelled_passed T w out n : table_ok T -> spelled T w out n -> passed [file_dict (alias_src T)] None (uds w) (uds out) n.
Proof.
  intros HT. induction 1 as [|k v rest out n Hk Hlong H IH|c rest out n Hno H IH].
  - constructor.
  - assert (Hkne : k <> []) by (apply has_in in Hk; unfold table_ok in HT; rewrite Forall_forall in HT; destruct (HT _ Hk) as (HX & _); exact HX).
    assert (Lk : 1 <= length k) by (destruct k; [contradiction|cbn; lia]).
    unfold uds at 2. rewrite map_app. change (map datum_of v) with (uds v). apply pa_match with (length k).
    + exists 0, (file_dict (alias_src T)). split; [reflexivity|]. split; [intros i D' Hi; lia|]. split.
      * apply entry_iff; [rewrite app_length; lia|]. rewrite firstn_app, Nat.sub_diag, firstn_all, firstn_O, app_nil_r. exists v. auto.
      * intros m o' (Hm & He). assert (Hm' : 1 <= m <= length (k ++ rest)) by (unfold uds in Hm; rewrite map_length in Hm; exact Hm).
        destruct (proj1 (entry_iff T (k ++ rest) m o' Hm') (conj Hm He)) as (v' & Hv & _). apply has_in in Hv. pose proof (Hlong _ _ Hv (firstn_begins m _)) as HL. rewrite firstn_length in HL. lia.
    + unfold uds. rewrite map_app, skipn_app, map_length, Nat.sub_diag. rewrite <- (map_length datum_of k), skipn_all. exact IH.
  - rewrite N.add_comm. apply (pa_other _ None (datum_of c)); [|exact IH]. intros D [<-|[]] m o HE.
    assert (Hm' : 1 <= m <= length (c :: rest)) by (destruct HE as (HE & _); assert (HE' : 1 <= m <= length (uds (c :: rest))) by exact HE; unfold uds in HE'; rewrite map_length in HE'; exact HE').
    destruct (proj1 (entry_iff T (c :: rest) m o Hm') HE) as (v & Hv & _). apply has_in in Hv. exact (Hno _ _ Hv (firstn_begins m _)).
Qed.

(** ** The conversion *)
Definition solve_stages (T : list (str * str)) : list stage :=
  [SLink (LFiles (FROM, [ascii_from_src], None)); SCount [alias_src T] None 0; SLink (LFiles (TO, [ascii_to_src], None))].
Lemma solve_is (t8 : u8) (t16 : u16) T : staged t8 t16 (solve_stages T) = solve_inst T. Proof. reflexivity. Qed.
Lemma upper_ascii s : ascii_name s -> ascii_name (strtoupper s).
Proof.
  unfold ascii_name, strtoupper. intros H. apply Forall_forall. intros c Hc. apply in_map_iff in Hc as (x & <- & Hx). rewrite Forall_forall in H. specialize (H x Hx).
  assert (HU : forall c, let n := N_of_ascii c in (1 <= n < 128)%N -> let m := N_of_ascii (up_char c) in ((1 <=? m) && (m <? 128))%N = true).
  { clear. intros [[] [] [] [] [] [] [] []]; vm_compute; intros (H1 & H2); try reflexivity; try discriminate; exfalso; [apply H1; reflexivity]. }
  specialize (HU x H). cbv zeta in HU. lia.
Qed.
Lemma bytes_dom s : ascii_name s -> Forall (fun c => (1 <= c < 128)%N) (bytes s).
Proof. intros H. apply Forall_forall. intros b Hb. apply in_map_iff in Hb as (c & <- & Hc). unfold ascii_name in H. rewrite Forall_forall in H. apply H. exact Hc. Qed.
Lemma bytes_uds s : ascii_name s -> map udatum (bytes s) = uds s.
Proof.
  unfold ascii_name. induction 1 as [|c s Hc _ IH]; [reflexivity|]. unfold bytes, uds in *. cbn [map]. rewrite IH. f_equal. unfold udatum, be_bytes, datum_of, byte_of in *. destruct (N.ltb_spec (N_of_ascii c) 256); [reflexivity|lia].
Qed.
Lemma concat_ones l : concat (map (fun c : N => [c]) l) = l. Proof. induction l as [|x l IH]; [reflexivity|]. cbn. rewrite IH. reflexivity. Qed.
Lemma ascii_dec_all : decodes [ascii_from_sem] (fun c => [c]) (fun c => (1 <= c < 128)%N).
Proof. intros c rest Hc. cbn [map app byt first_match]. unfold byt. cbn [map app]. rewrite ascii_from_scan. replace ((1 <=? c) && (c <? 128))%N with true by lia. unfold udatum, be_bytes. replace (c <? 256)%N with true by lia. reflexivity. Qed.
Lemma ascii_enc_all : encodes [ascii_to_sem] (fun c => [c]) (fun c => (1 <= c < 128)%N).
Proof. intros c rest Hc. unfold udatum, be_bytes. replace (c <? 256)%N with true by lia. cbn [first_match scan app]. rewrite ascii_to_verdict by exact Hc. reflexivity. Qed.
Lemma from_run w : ascii_name w -> run_phase FROM [file_dict ascii_from_src] (seen_by FROM [bytes w]) (uds w) 0.
Proof.
  intros H. assert (E : trans (kind_of_type FROM) (map (sem_of FROM) [file_dict ascii_from_src]) (seen_by FROM [bytes w]) = (uds w, 0)).
  { rewrite <- (bytes_uds w H). rewrite <- (decode_all _ _ _ ascii_dec_all (bytes w) (bytes_dom w H)). unfold seen_by. cbn [concat]. rewrite app_nil_r. unfold text. rewrite concat_ones. reflexivity. }
  pose proof (trans_run FROM (or_introl eq_refl) [file_dict ascii_from_src] ltac:(discriminate) _ _ (le_n _) (seen_ok FROM [bytes w])) as HR. rewrite E in HR. exact HR.
Qed.
Lemma to_run w : ascii_name w -> run_phase TO [file_dict ascii_to_src] (seen_by TO (uds w)) (map (fun c => [c]) (bytes w)) 0.
Proof.
  intros H. assert (E : trans (kind_of_type TO) (map (sem_of TO) [file_dict ascii_to_src]) (seen_by TO (uds w)) = (map (fun c => [c]) (bytes w), 0)).
  { rewrite <- (encode_all _ _ _ ascii_enc_all (bytes w) (bytes_dom w H)). rewrite <- (bytes_uds w H). unfold seen_by. f_equal. apply udatum_nonempty. }
  pose proof (trans_run TO (or_intror (or_intror eq_refl)) [file_dict ascii_to_src] ltac:(discriminate) _ _ (le_n _) (seen_ok TO (uds w))) as HR. rewrite E in HR. exact HR.
Qed.
Lemma spelled_ascii T w out n : table_ok T -> spelled T w out n -> ascii_name w -> ascii_name out.
Proof.
  intros HT. unfold ascii_name. induction 1 as [|k v rest out n Hk _ H IH|c rest out n Hno H IH]; intros HW; [constructor| |inversion HW; subst; constructor; auto].
  apply Forall_app in HW as (_ & HW). apply Forall_app. split; [|auto]. apply has_in in Hk. unfold table_ok in HT. rewrite Forall_forall in HT. destruct (HT _ Hk) as (_ & _ & _ & HV & _). exact HV.
Qed.
Lemma stages_run T s w out n : table_ok T -> ascii_name w -> spelled T w out n -> last_state s 2 (PNum 0) ->
  run_stages s 1 (solve_stages T) [concat (inputs [(Some (bytes w), OAuto 1)])] (map (fun c => [c]) (bytes out)) 0 [(2, PNum n)].
Proof.
  intros HT HW HS HL. assert (Ei : concat (inputs [(Some (bytes w), OAuto 1)]) = bytes w) by (cbn; apply app_nil_r). rewrite Ei.
  apply (rs_cons s 1 _ _ _ (uds w) _ 0 None 0 [(2, PNum n)]); [|apply (rs_cons s 2 _ _ _ (uds out) _ 0 (Some (PNum n)) 0 []); [|apply (rs_cons s 3 _ _ _ (map (fun c => [c]) (bytes out)) _ 0 None 0 []); [|constructor]]].
  - split; [reflexivity|]. apply (fb_plain FROM _ [] _ (uds w) (uds w) 0 0 0); [apply from_run; exact HW|constructor].
  - split; [reflexivity|]. exists 0%N, n. split; [exact HL|]. split; [|reflexivity]. pose proof (spelled_passed T w out n HT HS) as HP.
    assert (Es : some_data (uds w) = uds w). { clear. unfold some_data, uds. induction w as [|c w IH]; [reflexivity|]. cbn. f_equal. exact IH. } rewrite Es. exact HP.
  - split; [reflexivity|]. apply (fb_plain TO _ [] _ (map (fun c => [c]) (bytes out)) _ 0 0 0); [apply to_run; eapply spelled_ascii; eassumption|constructor].
Qed.
Lemma solve_ok T : table_ok T -> stages_ok (solve_stages T).
Proof.
  intros HT. split; [|split].
  - eexists _, _. split; [reflexivity|]. split; [reflexivity|]. constructor; [discriminate|]. constructor; [discriminate|constructor].
  - constructor; [|constructor; [|constructor; [|constructor]]].
    + split; [left; reflexivity|]. split; [left; discriminate|]. split; [constructor; [exact ascii_from_entries|constructor]|]. split; [|discriminate]. intros es w o [<-|[]]. apply ascii_from_sub.
    + split; [discriminate|]. split; [constructor; [apply alias_entries; exact HT|constructor]|]. intros es w o [<-|[]] Hl _. eapply alias_sub; eassumption.
    + split; [right; right; reflexivity|]. split; [left; discriminate|]. split; [constructor; [exact ascii_to_entries|constructor]|]. split; [|discriminate]. intros es w o [<-|[]]. apply ascii_to_sub.
  - cbn. auto 10.
Qed.
Lemma call_auto_pending (s s' : inst priv) f inp fl k r : reachable s -> bsdconv_call priv f s inp fl (OAuto k) = CDone priv s' r -> pending priv s' = [].
Proof.
  intros HRe EC. pose proof EC as EC'. unfold bsdconv_call in EC'. destruct (bsdconv_engine priv f s inp fl) as [s1| |] eqn:EE; try discriminate.
  assert (EH : exists sH rH, bsdconv_call priv f s inp fl OHold = CDone priv sH rH).
  { unfold bsdconv_call. rewrite EE. destruct (last_phase priv s1); [|discriminate]. cbn [output_switch]. eauto. }
  destruct EH as (sH & rH & EH). clear EC' EE.
  destruct (T_Output.C19_automatic_buffer_is_exact priv s f _ fl k _ _ HRe EH) as (s2 & r2 & E3 & _ & E4 & _). rewrite EC in E3. injection E3 as <- _.
  unfold pending. unfold waiting in E4. destruct (last_phase priv s'); [rewrite E4|]; reflexivity.
Qed.
Lemma solve_reachable T s : bsdconv_init priv (solve_inst T) = Some s -> reachable s.
Proof. apply re_init. cbv [solve_inst new_instance i_phases map length]. auto. Qed.
Lemma solve_outcome T f s s' r n : bsdconv_init priv (solve_inst T) = Some s -> forall w, bsdconv_call priv f s (Some (bytes (strtoupper w), [])) true (OAuto 1) = CDone priv s' r ->
  last_state s' 2 (PNum n) -> pending priv s' = [] /\ solve_alias T f w = if (0 <? n)%N then SolveNull else SolveName (delivered (OAuto 1) r).
Proof.
  intros Hi w EC (th & pre & cd & T1 & T2 & T3). split; [exact (call_auto_pending _ _ _ _ _ _ _ (solve_reachable _ _ Hi) EC)|].
  unfold solve_alias. rewrite Hi, EC. unfold err_counter. rewrite T1, T2, rev_app_distr. cbn [rev app]. rewrite T3. reflexivity.
Qed.
Lemma runs_one (s s' : inst priv) w m got : runs_to s (stream_calls [(Some w, m)]) s' got ->
  exists f0, forall f, f0 <= f -> exists r, bsdconv_call priv f s (Some (w, [])) true m = CDone priv s' r /\ delivered m r = got.
Proof.
  intros (f0 & R1). exists f0. intros f Hf. specialize (R1 f Hf). cbn [stream_calls option_map run_hist c_input c_flush c_mode] in R1.
  destruct (bsdconv_call priv f s (Some (w, [])) true m) as [s1 r| |]; try discriminate.
  rewrite app_nil_r in R1. injection R1 as <- <-. exists r. auto.
Qed.
Theorem solve_correct (t8 : u8) (t16 : u16) T w out n : strict_utf8 t8 -> table_ok T -> ascii_name w -> spelled T (strtoupper w) out n ->
  exists f0, forall f, f0 <= f -> solve_alias T f w = if (0 <? n)%N then SolveNull else SolveName (bytes out).
Proof.
  intros Hs HT HW HS. pose proof (solve_ok T HT) as HOK. destruct (stages_fresh t8 t16 _ Hs HOK) as (s & HF & Hi).
  pose proof (stages_count_new t8 t16 (solve_stages T) s 1 [alias_src T] None 0 Hi eq_refl) as HL.
  pose proof (upper_ascii _ HW) as HU. pose proof (stages_run T s _ _ _ HT HU HS HL) as HR.
  destruct (stages_stream t8 t16 _ Hs HOK s [(Some (bytes (strtoupper w)), OAuto 1)] (map (fun c => [c]) (bytes out)) 0 [(2, PNum n)] HF) as (s' & got & R1 & R2 & _ & _ & R5); [discriminate|constructor; [exact I|constructor]| |exact HR|].
  { assert (Ei : concat (inputs [(Some (bytes (strtoupper w)), OAuto 1)]) = bytes (strtoupper w)) by (cbn; apply app_nil_r). rewrite Ei. apply Forall_forall. intros b Hb. apply in_map_iff in Hb as (c & <- & _). apply byte_lt. }
  apply runs_one in R1. destruct R1 as (f0 & R1). exists f0. intros f Hf. destruct (R1 f Hf) as (r & EC & E2). rewrite <- E2 in R2. clear R1 HF HR HL.
  destruct (solve_outcome T f s s' r n Hi w EC (R5 2 (PNum n) (or_introl eq_refl))) as (EP & ES). rewrite EP, app_nil_r, concat_ones in R2. rewrite ES, R2. reflexivity.
Qed.

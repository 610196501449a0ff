(** C60: canonical composition and "NFC". *)
From Verif Require Import Base Types M_Engine M_Output M_Create M_Callback M_UTF8 M_UTF16 M_Modules M_Fallback M_Star M_Inter M_Norm M_Nfc M_Stars M_Stage S_Session S_Unicode S_Ranges S_Inter S_Norm S_Flow P_Inter P_Norm P_Flow P_Flow5 T_Norm T_Unicode S_Source S_Dict S_Convert S_Fallback S_Transcode S_Stage T_Flow T_Flow2 T_Stage S_Nfc P_Nfc P_Nfc2 D_Nf.
From Coq Require Import Permutation ZifyBool ZifyN ZifyNat.
Local Open Scope N_scope.

(** ** The module itself, for any table of pairs *)
Theorem C60_compose : forall comb ds k, composites comb -> Forall okbytes ds -> in_order ds ->
  exists k' out, star_stream (NFC comb) (mkNfc false SNull k []) ds = Some (mkNfc false SNull k' [], out) /\ equivalent comb ds out /\ in_order out /\ fully_composed comb out.
Proof.
  intros comb ds k HC HB HO. destruct (nfc_stream comb HC (mkNfc false SNull k []) ds eq_refl eq_refl eq_refl HB HO) as ([b s k' p] & out & R1 & R2 & R3 & R4 & _ & R5 & R6 & R7). cbn in R5, R6, R7. subst.
  exists k', out. auto.
Qed.
Print Assumptions C60_compose.

(** ** The conversion: NFC is the alias for NFD:_NFC:_NF-HANGUL-COMPOSITION *)
Definition nfc_links (src dst : charset) (T : list (N * list N)) (P : list (N * N * N)) (b : bool) (k : N) (g : hcomp) : list link :=
  [LDec src; LFiles (INTER, [map char_entry T], None); LMod _ put_unit get_unit HANGUL_DECOMPOSITION false None tt; LMod _ PMarks get_marks ORDER true None [];
   LMod _ PNfc get_nfc (NFC (pairs_of P)) true (Some nfc_init) (nfc_create b k); LMod _ PHc get_hc HANGUL_COMPOSITION true (Some hcomp_init) g; LEnc dst].
(** The fifth phase is modules/inter/_NFC.c as M_Stars has it. *)
Lemma C60_module : forall t8 t16 src dst T P b k g, nth_error (nfc_links src dst T P b k g) 4 = Some (LMod _ PNfc get_nfc (NFC (pairs_of P)) true (Some nfc_init) (nfc_create b k) : link) /\
  option_map (link_codecs t8 t16) (nth_error (nfc_links src dst T P b k g) 4) = Some [nfc_mod (pairs_of P) b k].
Proof. intros. split; reflexivity. Qed.
Lemma nfc_steady P b k : steady_module PNfc get_nfc (NFC (pairs_of P)) true (Some nfc_init) (nfc_create b k) (keeps byte_first).
Proof.
  assert (HQ : forall a b c, pairs_of P a b = Some c -> byte_first c). { intros x y c H. apply pairs_spec in H as (x1 & y1 & z & _ & _ & _ & ->). cbn. lia. }
  assert (H1 : forall (d : datum) l, d = 1 :: l -> byte_first d) by (intros d l ->; cbn; lia).
  constructor.
  - reflexivity.
  - discriminate.
  - split; [constructor|discriminate].
  - intros g x E _. injection E as <-. split; [constructor|]. cbn. destruct (nf_starter x); discriminate.
  - intros x d Hx. apply (keep_conv _ byte_first HQ x d Hx (H1 d)).
  - intros x d Hx Hd. apply (keep_conv _ byte_first HQ x d Hx (H1 d)). exact Hd.
  - intros x Hx. apply keep_flush. exact Hx.
Qed.
Lemma nfc_ok src dst T P b k g : char_map_ok T -> links_ok (nfc_links src dst T P b k g).
Proof.
  intros HT. destruct C59_modules as ((M1 & M2 & _) & _ & _ & M3). split; [|split].
  - eexists _, _. split; [reflexivity|]. split; [reflexivity|]. repeat (apply Forall_cons; [discriminate|]). apply Forall_nil.
  - apply Forall_cons; [exact I|]. apply Forall_cons; [apply char_link_ok; exact HT|]. apply Forall_cons; [apply M1|]. apply Forall_cons; [apply M2|]. apply Forall_cons; [eexists; apply nfc_steady|]. apply Forall_cons; [apply M3|]. apply Forall_cons; [exact I|]. apply Forall_nil.
  - split; [exact I|]. split; [exact I|]. split; [apply M1|]. split; [apply M2|]. split; [left; reflexivity|]. split; [left; reflexivity|]. split; exact I.
Qed.
(** No text is under way: nothing is held back by _NF-ORDER and _NFC. *)
Definition at_rest (s : inst priv) : Prop := module_state s 4 (PMarks []) /\ exists k, module_state s 5 (PNfc (mkNfc false SNull k [])).
Theorem C60_normal_form : forall T P os, normal_tables T P -> (exists cps, Forall code32 cps /\ canonical_decomposition T cps os) -> Forall code32 os ->
  exists nf, Forall code32 nf /\ canonical_decomposition T nf os /\ in_order (map udatum nf) /\ fully_composed (pairs_of P) (map udatum nf) /\ hangul_composed nf /\
    forall src dst t8 t16 b k g s l cps, strict_utf8 t8 -> fresh (linked t8 t16 (nfc_links src dst T P b k g)) s -> at_rest s ->
      canonical_decomposition T cps os -> Forall (reads src) cps -> chunks l (flat_map (encoded src) cps) -> Forall (writes dst) nf ->
      exists s', streams_to s l (flat_map (encoded dst) nf) s' /\ at_rest s'.
Proof.
  intros T P os HT (cps0 & Hc0 & HD0) Hos. destruct (canonical_props T P HT cps0 os Hc0 HD0 Hos) as (Ho & Hr & Hf).
  destruct (compose_text T P HT os Hos Ho Hr Hf) as (ps & nf & N1 & N2 & N3 & N4 & N5 & N6 & N7 & N8). exists nf. do 5 (split; [assumption|]).
  intros src dst t8 t16 b k g s l cps Hs HF (HM & k0 & HN) HD Hrd (Hl1 & Hl2 & Hl3) Hw. pose proof (nt_map _ _ HT) as HMap. pose proof (nfc_ok src dst T P b k g HMap) as Hok.
  destruct HD as (ds & HD1 & HD2). assert (Hlt : Forall (fun c => c < 0x100000000) (flat_map (mapped T) cps)) by (apply mapped_lt; [exact HMap|apply (lt_text src); exact Hrd]).
  assert (Hlt2 := decomposed_lt _ _ HD1 Hlt). destruct (C41_order (map udatum ds) (okchars ds Hlt2)) as (os' & O1 & O2 & O3 & _). rewrite <- (O3 _ HD2) in O1. clear os' O2 O3.
  destruct (C59_states t8 t16 _ s 2%nat _ _ _ _ _ _ _ _ Hs Hok HF eq_refl (proj1 hdecomp_calm)) as ([] & _ & HM3).
  destruct (C59_states t8 t16 _ s 5%nat _ _ _ _ _ _ _ _ Hs Hok HF eq_refl (hcomp_steady g)) as (h & (h0 & _ & Eh) & HM6).
  destruct (C40_compose ps nf h N2 ltac:(rewrite Eh; reflexivity) N3) as (h' & C1 & _).
  destruct (N1 (mkNfc false SNull k0 []) ltac:(repeat split)) as (r' & R1 & (R2 & R3 & R4)). destruct r' as [rb rs rk rp]. cbn in R2, R3, R4. subst rb rs rp.
  destruct (C59_conversion t8 t16 _ s l (map (encoded dst) nf) 0 [(3%nat, put_unit tt); (4%nat, PMarks []); (5%nat, PNfc (mkNfc false SNull rk [])); (6%nat, PHc h')] Hs Hok HF Hl1 Hl2) as (s' & got & Q1 & Q2 & Q3 & Q4 & Q5).
  - rewrite Hl3. apply text_bytes. exact Hrd.
  - rewrite Hl3. unfold nfc_links.
    apply (rl_cons s 1 (LDec src) _ _ (map udatum cps) _ 0 None 0 [(3%nat, put_unit tt); (4%nat, PMarks []); (5%nat, PNfc (mkNfc false SNull rk [])); (6%nat, PHc h')]).
    { split; [reflexivity|]. split; [reflexivity|]. exists cps. split; [cbn; rewrite app_nil_r; reflexivity|]. split; [exact Hrd|reflexivity]. }
    apply (rl_cons s 2 (LFiles _) _ _ (map udatum (flat_map (mapped T) cps)) _ 0 None 0 [(3%nat, put_unit tt); (4%nat, PMarks []); (5%nat, PNfc (mkNfc false SNull rk [])); (6%nat, PHc h')]).
    { split; [reflexivity|]. cbn [map]. apply (fb_plain INTER [file_dict (map char_entry T)] [] (map udatum cps) (map udatum (flat_map (mapped T) cps)) _ 0 0 0); [|constructor]. cbn [seen_by].
      change (run_phase INTER [file_dict (map char_entry T)] (some_data (map udatum cps)) (map udatum (flat_map (mapped T) cps)) 0).
      rewrite some_chars. apply char_run; [exact HMap|apply (lt_text src); exact Hrd]. }
    apply (rl_cons s 3 (LMod _ _ _ _ _ _ _) _ _ (map udatum ds) _ 0 (Some (put_unit tt)) 0 [(4%nat, PMarks []); (5%nat, PNfc (mkNfc false SNull rk [])); (6%nat, PHc h')]).
    { split; [reflexivity|]. exists tt, tt. split; [exact HM3|]. split; [|reflexivity]. rewrite some_chars. apply C40_decompose; [exact Hlt|exact HD1]. }
    apply (rl_cons s 4 (LMod _ _ _ _ _ _ _) _ _ (map udatum os) _ 0 (Some (PMarks [])) 0 [(5%nat, PNfc (mkNfc false SNull rk [])); (6%nat, PHc h')]).
    { split; [reflexivity|]. exists [], []. split; [exact HM|]. split; [|reflexivity]. rewrite some_chars. exact O1. }
    apply (rl_cons s 5 (LMod _ _ _ _ _ _ _) _ _ (map udatum ps) _ 0 (Some (PNfc (mkNfc false SNull rk []))) 0 [(6%nat, PHc h')]).
    { split; [reflexivity|]. exists (mkNfc false SNull k0 []), (mkNfc false SNull rk []). split; [exact HN|]. split; [|reflexivity]. rewrite some_chars. exact R1. }
    apply (rl_cons s 6 (LMod _ _ _ _ _ _ _) _ _ (map udatum nf) _ 0 (Some (PHc h')) 0 []).
    { split; [reflexivity|]. exists h, h'. split; [exact HM6|]. split; [|reflexivity]. rewrite some_chars. exact C1. }
    apply (rl_cons s 7 (LEnc dst) [] _ (map (encoded dst) nf) _ 0 None 0 []); [|constructor].
    split; [reflexivity|]. split; [reflexivity|]. exists nf. split; [apply some_chars|]. split; [exact Hw|reflexivity].
  - exists s'. split; [exists got; rewrite concat_enc in Q2; rewrite Nat.add_0_r in Q4; auto|]. split; [apply Q5; right; left; reflexivity|]. exists rk. apply Q5. right. right. left. reflexivity.
Qed.
Print Assumptions C60_normal_form.

(** [normalises T P a b]: however the text [a] is encoded and cut, "src:NFC:dst" turns it into [b] (and is then ready for the next text). *)
Definition normalises (T : list (N * list N)) (P : list (N * N * N)) (a b : list N) : Prop :=
  forall src dst t8 t16 bb k g s l, strict_utf8 t8 -> fresh (linked t8 t16 (nfc_links src dst T P bb k g)) s -> at_rest s ->
    Forall (reads src) a -> chunks l (flat_map (encoded src) a) -> Forall (writes dst) b -> exists s', streams_to s l (flat_map (encoded dst) b) s' /\ at_rest s'.
(** Canonical equivalence (D70). *)
Definition same_text (T : list (N * list N)) (a b : list N) : Prop := exists os, canonical_decomposition T a os /\ canonical_decomposition T b os.
Lemma canonical_exists T P a : normal_tables T P -> Forall code32 a -> exists os, canonical_decomposition T a os /\ Forall code32 os.
Proof.
  intros HT Ha. pose proof (fdec_code T P HT a Ha) as Hc. destruct (C41_order (map udatum (flat_map (fdec T) a)) (okchars _ Hc)) as (os & _ & H & _ & HP).
  destruct (perm_chars _ _ Hc HP) as (o & -> & HP2). exists o. split; [apply canonical_iff; exact H|eapply Permutation_Forall; eassumption].
Qed.
Lemma canonical_code T P a os os' : normal_tables T P -> Forall code32 a -> canonical_decomposition T a os -> canonical_decomposition T a os' -> map udatum os = map udatum os'.
Proof. intros HT Ha H1 H2. apply canonical_iff in H1. apply canonical_iff in H2. eapply reordered_det; eassumption. Qed.
(** NFC of a text: canonically equivalent to it, in canonical order, fully composed; normalising it again changes nothing; and all
    texts that are canonically equivalent have the same one. *)
Theorem C60_nfc : forall T P a, normal_tables T P -> Forall code32 a ->
  exists nf, normalises T P a nf /\ same_text T a nf /\ in_order (map udatum nf) /\ fully_composed (pairs_of P) (map udatum nf) /\ hangul_composed nf /\
    normalises T P nf nf /\ forall b, same_text T a b -> normalises T P b nf.
Proof.
  intros T P a HT Ha. destruct (canonical_exists T P a HT Ha) as (os & HD & Hos).
  destruct (C60_normal_form T P os HT (ex_intro _ a (conj Ha HD)) Hos) as (nf & H1 & H2 & H3 & H4 & H5 & H6). exists nf.
  assert (G : forall b, canonical_decomposition T b os -> normalises T P b nf) by (intros b Hb src dst t8 t16 bb k g s l Hs HF HR Hrd Hl Hw; eapply H6; eassumption).
  split; [apply G; exact HD|]. split; [exists os; auto|]. do 3 (split; [assumption|]). split; [apply G; exact H2|].
  intros b (os' & E1 & E2). apply G. destruct E2 as (ds & E2 & E3). exists ds. split; [exact E2|]. rewrite (canonical_code T P a os os' HT Ha HD E1). exact E3.
Qed.
Print Assumptions C60_nfc.
Theorem C60_created : forall src dst t8 t16 T P b k g, strict_utf8 t8 -> char_map_ok T -> exists s, fresh (linked t8 t16 (nfc_links src dst T P b k g)) s /\ at_rest s.
Proof.
  intros src dst t8 t16 T P b k g Hs HT. destruct (C59_created t8 t16 _ Hs (nfc_ok src dst T P b k g HT)) as (s & HF & _ & HM). exists s. split; [exact HF|].
  split; [exact (HM 3%nat _ _ _ _ _ _ _ eq_refl)|]. exists k. exact (HM 4%nat _ _ _ _ _ _ _ eq_refl).
Qed.
Print Assumptions C60_created.

(** ** The shipped tables *)
Definition hangul_block (c : N) : bool := (0xAC00 <=? c) && (c <=? 0xD7A3) || (0x1100 <=? c) && (c <=? 0x11FF).
Definition eql (a b : list N) : bool := if list_eq_dec N.eq_dec a b then true else false.
Definition tables_check (T : list (N * list N)) (P : list (N * N * N)) : bool :=
  forallb (fun x => (fst x <? 0x100000000) && negb (eql (snd x) []) && (N.of_nat (length (snd x)) <=? 80) && forallb (fun c => c <? 0x100000000) (snd x)) T &&
  forallb (fun x => forallb (fun c => eql (mapped T c) [c]) (snd x)) T &&
  forallb (fun x => (ccc (udatum (fst x)) =? 0) || forallb (fun c => ccc (udatum c) =? ccc (udatum (fst x))) (snd x)) T &&
  forallb (fun x => negb (hangul_block (fst x))) T &&
  forallb (fun x => (fst (fst x) <? 0x100000000) && (snd (fst x) <? 0x100000000) && (snd x <? 0x100000000) && eql (mapped T (snd x)) (mapped T (fst (fst x)) ++ mapped T (snd (fst x))) &&
    (ccc (udatum (snd x)) =? 0) && forallb (fun y => negb (snd y =? snd (fst x))) P && negb (hangul_block (fst (fst x))) && negb (hangul_block (snd (fst x)))) P.
Lemma eql_spec a b : eql a b = true <-> a = b.
Proof. unfold eql. destruct (list_eq_dec N.eq_dec a b); split; congruence. Qed.
Lemma mapped_cases T c : mapped T c = [c] \/ In (c, mapped T c) T.
Proof. induction T as [|[k v] T IH]; cbn [mapped]; [left; reflexivity|]. destruct (c =? k) eqn:E; [right; left; f_equal; lia|]. destruct IH as [->|IH]; [left; reflexivity|right; right; exact IH]. Qed.
Lemma block_spec c : hangul c -> hangul_block c = true.
Proof. intros H. apply hangul_range in H. unfold hangul_block. lia. Qed.
Lemma tables_sound T P : tables_check T P = true -> normal_tables T P.
Proof.
  unfold tables_check. rewrite !andb_true_iff, !forallb_forall. intros ((((H1 & H2) & H3) & H4) & H5).
  assert (H5' : forall a b c, In (a, b, c) P -> a < 0x100000000 /\ b < 0x100000000 /\ c < 0x100000000 /\ mapped T c = mapped T a ++ mapped T b /\ ccc (udatum c) = 0 /\
    (forall y, In y P -> snd y <> b) /\ hangul_block a = false /\ hangul_block b = false).
  { intros a b c H. specialize (H5 _ H). cbn [fst snd] in H5. rewrite !andb_true_iff, !negb_true_iff, !N.ltb_lt, eql_spec, N.eqb_eq, forallb_forall in H5. destruct H5 as (((((((A & B) & C) & D) & E) & F) & G) & I).
    do 5 (split; [assumption|]). split; [|auto]. intros y Hy E'. specialize (F y Hy). cbn in F. rewrite E', N.eqb_refl in F. discriminate. }
  constructor.
  - apply Forall_forall. intros x Hx. specialize (H1 x Hx). rewrite !andb_true_iff, forallb_forall in H1. destruct H1 as (((A & B) & C) & D). split; [lia|]. split; [intros E; rewrite E in B; discriminate|]. split; [lia|].
    apply Forall_forall. intros c Hc. specialize (D c Hc). cbn in D. lia.
  - intros c x Hx. destruct (mapped_cases T c) as [E|E]; [rewrite E in Hx; destruct Hx as [<-|[]]; exact E|]. specialize (H2 _ E). cbn [snd] in H2. rewrite forallb_forall in H2. specialize (H2 x Hx). apply eql_spec. exact H2.
  - intros c Hc. destruct (mapped_cases T c) as [E|E]; [rewrite E; constructor; [reflexivity|constructor]|]. specialize (H3 _ E). cbn [fst snd] in H3. apply orb_true_iff in H3 as [H3|H3]; [lia|]. rewrite forallb_forall in H3. apply Forall_forall. intros x Hx. specialize (H3 x Hx). cbv beta in H3. lia.
  - intros c Hc. destruct (mapped_cases T c) as [E|E]; [exact E|]. specialize (H4 _ E). cbn [fst] in H4. rewrite (block_spec c Hc) in H4. discriminate.
  - intros a b c H. destruct (H5' _ _ _ H) as (A & B & C & _). unfold code32. auto.
  - intros a b c H. apply (H5' _ _ _ H).
  - intros a b c H. apply (H5' _ _ _ H).
  - intros a b c x y z Ha Hx E. destruct (H5' _ _ _ Ha) as (_ & _ & _ & _ & _ & F & _). exact (F _ Hx E).
  - intros a b c H. destruct (H5' _ _ _ H) as (_ & _ & _ & _ & _ & _ & A & B). split; intros Hh; apply block_spec in Hh; congruence.
Qed.
(** modules/inter/_NFD.txt and modules/inter/_NFC-MAP.txt, all 2061 and 941 lines. *)
Theorem C60_shipped : normal_tables nfd_source nfc_source.
Proof. apply tables_sound. vm_compute. reflexivity. Qed.
Print Assumptions C60_shipped.
Corollary C60_unicode : forall a, Forall code32 a ->
  exists nf, normalises nfd_source nfc_source a nf /\ same_text nfd_source a nf /\ in_order (map udatum nf) /\ fully_composed (pairs_of nfc_source) (map udatum nf) /\ hangul_composed nf /\
    normalises nfd_source nfc_source nf nf /\ forall b, same_text nfd_source a b -> normalises nfd_source nfc_source b nf.
Proof. intros a. apply C60_nfc. apply C60_shipped. Qed.
Print Assumptions C60_unicode.

(** ** Found: a text given up before its end leaves the module unusable.  bsdconv_init (cbinit, lines 26-39) gives the pending starter
    back but keeps the pointer; the next starter gives it back again (lines 75-77), which is undefined behaviour. *)
Theorem C60_abandoned_refuted : exists comb r, composites comb /\ star_feed (NFC comb) (mkNfc false SNull 0 []) false [udatum 0x61] = Some (r, true, []) /\
  star_stream (NFC comb) (nfc_init r) [udatum 0x61] = None.
Proof. exists (fun _ _ => None), (mkNfc true (SHeld (udatum 0x61)) 0 []). split; [constructor; discriminate|]. split; reflexivity. Qed.
Print Assumptions C60_abandoned_refuted.

(** ** Beside the theorems: concrete conversions *)
Definition nfc_part : list (N * N * N) := [(0x65, 0x301, 0xE9); (0x73, 0x323, 0x1E63); (0x1E63, 0x307, 0x1E69); (0x41, 0x307, 0x226)].
Definition nfd_part2 : list (N * list N) := (0x1E63, [0x73; 0x323]) :: nfd_part.
Example C60_ex_tables : normal_tables nfd_part2 nfc_part.
Proof. apply tables_sound. vm_compute. reflexivity. Qed.
Example C60_ex_composites : composites (pairs_of nfc_part).
Proof. apply (pairs_composites nfd_part2). exact C60_ex_tables. Qed.
(** s U+0307 U+0323 gives U+1E69; U+0226 U+0323 gives A U+0323 U+0307 with U+0323 not composable and U+0307 then composed: U+0226 U+0323; jamo give U+AC01. *)
Example C60_ex_nfc : seen_links (nfc_links UTF8 UTF16BE nfd_part2 nfc_part true 7 (mkHc 5 5))
    [give [0x73; 0xCC] false; give [0x87; 0xCC; 0xA3; 0xC8; 0xA6; 0xCC; 0xA3] false; give [0xE1; 0x84; 0x80; 0xE1; 0x85; 0xA1; 0xE1; 0x86; 0xA8] true] =
  Some ([0x1E; 0x69; 2; 0x26; 3; 0x23; 0xAC; 1], [], 0%nat, 0%nat).
Proof. vm_compute. reflexivity. Qed.
Example C60_ex_blocked : star_stream (NFC (pairs_of nfc_part)) (mkNfc false SNull 0 []) (map udatum [0x65; 0x302; 0x301]) = Some (mkNfc false SNull 230 [], map udatum [0x65; 0x302; 0x301]) /\
  star_stream (NFC (pairs_of nfc_part)) (mkNfc false SNull 0 []) (map udatum [0x65; 0x323; 0x301; 0x301]) = Some (mkNfc false SNull 230 [], map udatum [0xE9; 0x323; 0x301]).
Proof. split; vm_compute; reflexivity. Qed.
Example C60_ex_code : Forall code32 [0x73; 0x307; 0x323; 0x226; 0x323; 0x1100; 0x1161; 0x11A8] /\ Forall (reads UTF8) [0x73; 0x307; 0x323; 0x226; 0x323; 0x1100; 0x1161; 0x11A8].
Proof. split; repeat constructor; cbn; lia. Qed.

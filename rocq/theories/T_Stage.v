(** C59: conversions whose phases are of different kinds (tables, Unicode encodings, stateful modules): the phases act one after the
    other on the whole stream, however it is cut. *)
From Verif Require Import Base Types M_Engine M_Output M_Create M_Callback M_UTF8 M_UTF16 M_Modules M_Fallback M_Star M_Filter M_Inter M_Norm M_Stars M_Stage S_Session S_Unicode S_Ranges S_Inter S_Norm S_Flow P_Inter P_Norm P_Flow P_Flow5 T_Inter T_Norm T_Unicode S_Source S_Dict S_Convert S_Fallback T_Flow T_Flow2 P_Stage S_Stage S_Transcode.
From Coq Require Import Permutation ZifyBool ZifyN ZifyNat.
Local Open Scope N_scope.

(** ** The modules that can stand anywhere *)
Lemma good_steady {S} (inj : S -> priv) prj m fl ini (s0 : S) JS : (forall x, prj (inj x) = Some x) -> (fl = false -> forall x, st_flush m x = (x, [])) -> good_star m ini s0 JS -> steady_module inj prj m fl ini s0 JS.
Proof. intros H1 H2 G. constructor; try apply G; auto. Qed.
Ltac flat := repeat match goal with |- context [if ?b then _ else _] => destruct b | |- context [match ?b with _ => _ end] => destruct b end; cbn; auto.
Lemma width_calm w : calm_module PWidth get_width WIDTH false None w (fun _ => True).
Proof. split; [apply good_steady; auto using width_good|]. intros x d _ _. cbn. auto. Qed.
Lemma trim_calm aw n g : calm_module PTrim get_trim TRIM_WIDTH false (Some trim_init) (trim_create aw n g) (fun t => t_aw t = aw /\ t_width t = n).
Proof. split; [apply good_steady; auto using trim_good|]. intros x d _ _. cbn. unfold trim_conv. cbv zeta. flat. Qed.
Lemma pad_calm g : calm_module PPad get_pad AMBIGUOUS_PAD false (Some pad_init) g (fun _ => True).
Proof. split; [apply good_steady; auto using pad_good|]. intros x d _ _. cbn. unfold pad_conv. cbv zeta. flat. Qed.
Lemma unpad_calm g : calm_module PUnpad get_unpad AMBIGUOUS_UNPAD false (Some unpad_init) g (fun _ => True).
Proof. split; [apply good_steady; auto using unpad_good|]. intros x d _ _. cbn. unfold unpad_conv. flat. Qed.
Lemma count_calm f n : calm_module PNum get_num (COUNT f) false None n (fun _ => True).
Proof. split; [apply good_steady; auto using count_good|]. intros x d _ _. cbn. auto. Qed.
Lemma hdecomp_calm : calm_module put_unit get_unit HANGUL_DECOMPOSITION false None tt (fun _ => True).
Proof. split; [apply good_steady; auto using hdecomp_good; intros []; reflexivity|]. intros x d _ _. cbn. unfold hdecomp_conv. cbv zeta. flat. Qed.
Lemma order_calm : calm_module PMarks get_marks ORDER true None [] (Forall (fun x => byte_first (snd x))).
Proof. split; [apply good_steady; [auto|discriminate|apply order_good]|]. intros x d _ _. cbn. unfold order_conv. flat. Qed.
Lemma pass_steady f k n : steady_module PNum get_num (PASS f k) false (Some (fun _ => 0)) n (fun _ => True).
Proof. apply good_steady; auto using pass_good. Qed.
Lemma score_steady f n : steady_module PNum get_num (SCORE f) false None n (fun _ => True).
Proof. apply good_steady; auto using score_good. Qed.
Lemma hcomp_steady g : steady_module PHc get_hc HANGUL_COMPOSITION true (Some hcomp_init) g (fun _ => True).
Proof. apply good_steady; [auto|discriminate|apply hcomp_good]. Qed.

(** ** Tables of single characters *)
Lemma range_one b : b < 257 -> range b b = [b].
Proof.
  intros H. assert (G : forallb (fun k => if list_eq_dec N.eq_dec (range (N.of_nat k) (N.of_nat k)) [N.of_nat k] then true else false) (seq 0 257) = true) by (vm_compute; reflexivity).
  rewrite forallb_forall in G. specialize (G (N.to_nat b) ltac:(apply in_seq; lia)). cbv beta in G. rewrite N2Nat.id in G. destruct (list_eq_dec N.eq_dec (range b b) [b]) as [E|]; [exact E|discriminate].
Qed.
Lemma words_bytes w : Forall (fun b => b < 257) w -> words (map bounds (map PByte w)) = [w].
Proof. induction 1 as [|b w Hb _ IH]; [reflexivity|]. cbn [map bounds words]. rewrite range_one by exact Hb. cbn [flat_map]. rewrite IH. reflexivity. Qed.
Lemma udatum_bytes c : c < 0x100000000 -> Forall (fun b => b < 256) (udatum c).
Proof. intros H. constructor; [lia|]. apply udatum_value. exact H. Qed.
Lemma entry_words x : fst x < 0x100000000 -> words (map bounds (en_pat (char_entry x))) = [udatum (fst x)].
Proof. intros H. refine (words_bytes (udatum (fst x)) _). eapply Forall_impl; [|apply udatum_bytes; exact H]. intros b Hb. cbv beta in Hb. lia. Qed.
Lemma flat_one {A B C} (f : A -> C) (g : C -> list B) (h : A -> B) l : Forall (fun x => g (f x) = [h x]) l -> flat_map g (map f l) = map h l.
Proof. induction 1 as [|x l Hx _ IH]; [reflexivity|]. cbn [map flat_map]. rewrite Hx, IH. reflexivity. Qed.
Lemma char_dict T : char_map_ok T -> file_dict (map char_entry T) = map (fun x => (udatum (fst x), map udatum (snd x))) T.
Proof. intros HT. unfold file_dict. apply flat_one. eapply Forall_impl; [|exact HT]. intros x (Hx & _). rewrite (entry_words x Hx). reflexivity. Qed.
Lemma eqb_syms_eq a : forall b, eqb_syms a b = true <-> a = b.
Proof. induction a as [|x a IH]; intros [|y b]; cbn; try (split; congruence). rewrite andb_true_iff, IH, N.eqb_eq. split; [intros (-> & ->); reflexivity|intros E; injection E; auto]. Qed.
Lemma char_lookup T c : char_map_ok T -> c < 0x100000000 ->
  mapped T c = match lookup (map (fun x => (udatum (fst x), map udatum (snd x))) T) (udatum c) with Some _ => mapped T c | None => [c] end /\
  forall o, lookup (map (fun x => (udatum (fst x), map udatum (snd x))) T) (udatum c) = Some o -> o = map udatum (mapped T c).
Proof.
  intros HT Hc. induction HT as [|[k v] T Hx HT IH]; cbn [map lookup mapped fst snd]; [split; [reflexivity|discriminate]|].
  destruct (eqb_syms (udatum k) (udatum c)) eqn:E.
  - apply eqb_syms_eq in E. apply udatum_inj in E; [|apply Hx|exact Hc]. subst k. rewrite N.eqb_refl. split; [reflexivity|]. intros o Eo. injection Eo as <-. reflexivity.
  - destruct (c =? k) eqn:Ek; [|exact IH]. apply N.eqb_eq in Ek. subst k. exfalso. assert (eqb_syms (udatum c) (udatum c) = true) by (apply eqb_syms_eq; reflexivity). congruence.
Qed.
Lemma char_no_long T w : char_map_ok T -> In 256 w -> lookup (map (fun x => (udatum (fst x), map udatum (snd x))) T) w = None.
Proof.
  intros HT Hw. induction HT as [|x T Hx HT IH]; [reflexivity|]. cbn [map lookup fst]. destruct (eqb_syms (udatum (fst x)) w) eqn:E; [|exact IH]. apply eqb_syms_eq in E. subst w. exfalso.
  assert (H := udatum_bytes (fst x) (proj1 Hx)). apply (proj1 (Forall_forall _ _) H) in Hw. lia.
Qed.
Lemma joined_long a b r : In 256 (joined (a :: b :: r)).
Proof. cbn [joined]. apply in_or_app. right. left. reflexivity. Qed.
Lemma char_run T cps : char_map_ok T -> Forall (fun c => c < 0x100000000) cps ->
  run_phase INTER [file_dict (map char_entry T)] (map udatum cps) (map udatum (flat_map (mapped T) cps)) 0.
Proof.
  intros HT Hc. rewrite (char_dict T HT). set (D := map _ T). induction Hc as [|c cps Hc _ IH]; [constructor|]. cbn [map flat_map].
  assert (HL : forall n o, entry_at INTER D (udatum c :: map udatum cps) n o -> n = 1%nat /\ lookup D (udatum c) = Some o).
  { intros n o (Hn & Ho). cbn [length] in Hn. destruct n as [|[|n]]; [lia|split; [reflexivity|exact Ho]|].
    exfalso. unfold key_of in Ho. destruct cps as [|b cps]; [cbn in Hn; lia|]. cbn [firstn map] in Ho. unfold D in Ho. rewrite char_no_long in Ho; [discriminate|exact HT|apply joined_long]. }
  destruct (char_lookup T c HT Hc) as (L1 & L2). fold D in L1, L2. rewrite map_app. destruct (lookup D (udatum c)) as [o|] eqn:E.
  - rewrite <- (L2 o eq_refl). eapply (rp_match INTER [D] _ 1 o); [|exact IH].
    exists 0%nat, D. split; [reflexivity|]. split; [intros i D' Hi; lia|]. split; [split; [cbn [length]; lia|exact E]|]. intros m o' Hm. apply HL in Hm as (-> & _). lia.
  - rewrite L1. cbn [map app]. apply rp_pass; [reflexivity| |exact IH]. intros D' [<-|[]] n o Hn. apply HL in Hn as (_ & Hn). congruence.
Qed.
Lemma hexb_len l : length (flat_map hex_byte l) = (2 * length l)%nat.
Proof. induction l as [|x l IH]; [reflexivity|]. cbn [flat_map]. rewrite app_length, IH. cbn [hex_byte length]. lia. Qed.
Lemma udatum_len c : (length (udatum c) <= 5)%nat.
Proof. unfold udatum, be_bytes. destruct (c <? 0x100); [|destruct (c <? 0x10000); [|destruct (c <? 0x1000000)]]; cbn; lia. Qed.
Lemma text_data_len v : (length (text_data (map udatum v)) <= 11 * length v)%nat.
Proof.
  induction v as [|c v IH]; [cbn; lia|]. destruct v as [|c' v].
  - cbn [map text_data]. rewrite hexb_len. pose proof (udatum_len c). cbn [length]. lia.
  - change (map udatum (c :: c' :: v)) with (udatum c :: map udatum (c' :: v)). cbn [text_data map] in *. rewrite app_length, hexb_len. cbn [length] in *. pose proof (udatum_len c). lia.
Qed.
Lemma pat_len w : length (flat_map text_psym (map PByte w)) = (2 * length w)%nat.
Proof. induction w as [|x w IH]; [reflexivity|]. cbn [map flat_map]. rewrite app_length, IH. cbn [text_psym hex_byte length]. lia. Qed.
Lemma char_entries_ok T : char_map_ok T -> Forall entry_ok (map char_entry T).
Proof.
  induction 1 as [|[k v] T (H1 & H2 & H3 & H4) _ IH]; [constructor|]. constructor; [|exact IH]. cbn [fst snd] in *. unfold char_entry. constructor; cbn [en_pat en_out fst snd].
  - discriminate.
  - apply Forall_map. eapply Forall_impl; [|apply udatum_bytes; exact H1]. auto.
  - apply Forall_map. eapply Forall_impl; [|exact H4]. intros c. apply udatum_bytes.
  - intros _. destruct (exists_last H2) as (v' & c & ->). rewrite map_app. cbn [map]. rewrite last_last. discriminate.
  - unfold text_entry. cbn [en_pat en_out]. rewrite app_length, pat_len. cbn [length]. rewrite app_length. cbn [length]. pose proof (text_data_len v). pose proof (udatum_len k). lia.
Qed.
Lemma char_link_ok T : char_map_ok T -> link_ok (LFiles (INTER, [map char_entry T], None)).
Proof.
  intros HT. split; [auto|]. split; [left; discriminate|]. split; [constructor; [apply char_entries_ok; exact HT|constructor]|]. split; [|discriminate].
  intros es w o [<-|[]] Hl _. rewrite (char_dict T HT) in Hl. induction HT as [|[k v] T (_ & H2 & _) HT IH]; [discriminate|]. cbn [map lookup fst snd] in *. destruct (eqb_syms (udatum k) w); [|auto].
  injection Hl as <-. destruct v; [congruence|discriminate].
Qed.

(** ** C59 *)
Theorem C59_conversion : forall t8 t16 c s l out oe zs, strict_utf8 t8 -> links_ok c -> fresh (linked t8 t16 c) s -> l <> [] -> Forall (fun x => lossless (snd x)) l -> byte_data (concat (inputs l)) ->
  run_links s 1 c [concat (inputs l)] out oe zs ->
  exists s' got, runs_to s (stream_calls l) s' got /\ got ++ pending priv s' = concat out /\ i_ierr priv s' = i_ierr priv s /\ i_oerr priv s' = (i_oerr priv s + oe)%nat /\
    forall p q, In (p, q) zs -> module_state s' p q.
Proof. intros t8 t16 c s l out oe zs Hs Hc. apply links_stream; assumption. Qed.
Print Assumptions C59_conversion.
Theorem C59_created : forall t8 t16 c, strict_utf8 t8 -> links_ok c -> exists s, fresh (linked t8 t16 c) s /\ bsdconv_init priv (linked t8 t16 c) = Some s /\
  forall p S inj prj m fl ini x0, nth_error c p = Some (LMod S inj prj m fl ini x0) -> module_state s (1 + p) (inj (match ini with Some g => g x0 | None => x0 end)).
Proof.
  intros t8 t16 c Hs Hc. destruct (links_fresh t8 t16 c Hs Hc) as (s & HF & Hi). exists s. split; [exact HF|]. split; [exact Hi|].
  intros p S inj prj m fl ini x0 Hp. assert (HC : exists JS, steady_module inj prj m fl ini x0 JS).
  { destruct Hc as (_ & Hc & _). rewrite Forall_forall in Hc. exact (Hc _ (nth_error_In _ _ Hp)). }
  destruct HC as (JS & HC).
  assert (E : inj (match ini with Some g => g x0 | None => x0 end) = e_priv (init_codec (star_codec inj prj m fl ini x0))).
  { destruct ini as [g|]; [|reflexivity]. cbn. rewrite (sm_prj _ _ _ _ _ _ _ HC). reflexivity. }
  rewrite E. apply (init_state _ s _ (new_phase priv INTER [star_codec inj prj m fl ini x0]) _ Hi); [lia| |reflexivity].
  unfold linked. cbn [i_phases new_instance map app nth_error Nat.add]. rewrite map_map, nth_error_map, Hp. reflexivity.
Qed.
Print Assumptions C59_created.
Theorem C59_states : forall t8 t16 c s p S inj prj m fl ini x0 JS, strict_utf8 t8 -> links_ok c -> fresh (linked t8 t16 c) s ->
  nth_error c p = Some (LMod S inj prj m fl ini x0) -> steady_module inj prj m fl ini x0 JS -> exists x, initial ini JS x /\ module_state s (1 + p) (inj x).
Proof. intros t8 t16 c s p S inj prj m fl ini x0 JS Hs Hc. apply links_state; assumption. Qed.
Print Assumptions C59_states.

(** Modules that can stand anywhere, and modules that can stand behind a Unicode decoder or another module. *)
Definition anywhere (k : link) : Prop := link_ok k /\ forall pg, placed pg [k].
Theorem C59_modules : (anywhere (LMod _ put_unit get_unit HANGUL_DECOMPOSITION false None tt) /\ anywhere (LMod _ PMarks get_marks ORDER true None []) /\
  (forall w, anywhere (LMod _ PWidth get_width WIDTH false None w)) /\ (forall f n, anywhere (LMod _ PNum get_num (COUNT f) false None n)) /\
  (forall aw n g, anywhere (LMod _ PTrim get_trim TRIM_WIDTH false (Some trim_init) (trim_create aw n g))) /\
  (forall g, anywhere (LMod _ PPad get_pad AMBIGUOUS_PAD false (Some pad_init) g)) /\ (forall g, anywhere (LMod _ PUnpad get_unpad AMBIGUOUS_UNPAD false (Some unpad_init) g))) /\
  (forall f k n, link_ok (LMod _ PNum get_num (PASS f k) false (Some (fun _ => 0)) n)) /\ (forall f n, link_ok (LMod _ PNum get_num (SCORE f) false None n)) /\
  (forall g, link_ok (LMod _ PHc get_hc HANGUL_COMPOSITION true (Some hcomp_init) g)).
Proof.
  assert (A : forall S inj prj m fl ini (s0 : S) JS, calm_module inj prj m fl ini s0 JS -> anywhere (LMod S inj prj m fl ini s0)).
  { intros S inj prj m fl ini s0 JS H. split; [exists JS; apply H|]. intros pg. split; [right; exists JS; exact H|exact I]. }
  split; [|split; [intros f k n; eexists; apply pass_steady|split; [intros f n; eexists; apply score_steady|intros g; eexists; apply hcomp_steady]]].
  split; [eapply A; apply hdecomp_calm|]. split; [eapply A; apply order_calm|]. split; [intros w; eapply A; apply width_calm|]. split; [intros f n; eapply A; apply count_calm|].
  split; [intros aw n g; eapply A; apply trim_calm|]. split; [intros g; eapply A; apply pad_calm|]. intros g. eapply A. apply unpad_calm.
Qed.
Print Assumptions C59_modules.

(** ** NFD: the alias for _NFD:_NF-HANGUL-DECOMPOSITION:_NF-ORDER (modules/inter/alias) *)
Definition nfd_links (src dst : charset) (T : list (N * list N)) : list link :=
  [LDec src; LFiles (INTER, [map char_entry T], None); LMod _ put_unit get_unit HANGUL_DECOMPOSITION false None tt; LMod _ PMarks get_marks ORDER true None []; LEnc dst].
Lemma nfd_ok src dst T : char_map_ok T -> links_ok (nfd_links src dst T).
Proof.
  intros HT. destruct C59_modules as ((M1 & M2 & _) & _). split; [|split].
  - eexists _, _. split; [reflexivity|]. split; [reflexivity|]. repeat (apply Forall_cons; [discriminate|]). apply Forall_nil.
  - apply Forall_cons; [exact I|]. apply Forall_cons; [apply char_link_ok; exact HT|]. apply Forall_cons; [apply M1|]. apply Forall_cons; [apply M2|]. apply Forall_cons; [exact I|]. apply Forall_nil.
  - split; [exact I|]. split; [exact I|]. split; [apply M1|]. split; [apply M2|]. split; exact I.
Qed.
Lemma encoded_bytes cs c : reads cs c -> byte_data (encoded cs c).
Proof.
  intros H. pose proof (reads_lt _ _ H) as Hlt. unfold byte_data.
  destruct cs; cbn in H; unfold scalar in H; unfold encoded, utf8, utf16be, utf16le, utf32be, utf32le, utf16_units;
  repeat match goal with |- context [if ?b then _ else _] => destruct b eqn:? end; cbn [flat_map app rev]; repeat apply Forall_cons; try apply Forall_nil;
  repeat match goal with |- context [?a mod ?b] => assert (a mod b < b) by (apply N.mod_lt; lia); generalize dependent (a mod b); intros end; try lia;
  try (apply N.div_lt_upper_bound; lia).
  all: assert (c / 0x40 < 0x8000) by (apply N.div_lt_upper_bound; lia); assert (c / 0x1000 < 0x200) by (apply N.div_lt_upper_bound; lia); assert (c / 0x40000 < 8) by (apply N.div_lt_upper_bound; lia); try lia.
Qed.
Lemma text_bytes cs cps : Forall (reads cs) cps -> byte_data (flat_map (encoded cs) cps).
Proof. induction 1 as [|c cps H _ IH]; [constructor|]. apply Forall_app. split; [apply encoded_bytes; exact H|exact IH]. Qed.
Lemma mapped_lt T cps : char_map_ok T -> Forall (fun c => c < 0x100000000) cps -> Forall (fun c => c < 0x100000000) (flat_map (mapped T) cps).
Proof.
  intros HT. induction 1 as [|c cps Hc _ IH]; [constructor|]. apply Forall_app. split; [|exact IH]. clear IH. induction HT as [|[k v] T Hx _ IHT]; cbn [mapped]; [repeat constructor; exact Hc|].
  destruct (c =? k); [apply Hx|exact IHT].
Qed.
Lemma decomposed_lt cs ds : decomposed cs ds -> Forall (fun c => c < 0x100000000) cs -> Forall (fun c => c < 0x100000000) ds.
Proof.
  induction 1 as [|l v t cs ds H1 H2 H3 _ IH|c cs ds _ _ IH]; intros H; [constructor| |]; inversion H; subst.
  - apply Forall_app. split; [|auto]. unfold jamo. destruct (t =? 0); repeat constructor; unfold LBase, VBase, TBase; lia.
  - constructor; auto.
Qed.
Lemma some_chars cps : some_data (map udatum cps) = map udatum cps.
Proof. induction cps as [|c cps IH]; [reflexivity|]. cbn. f_equal. exact IH. Qed.
Lemma okchars cps : Forall (fun c => c < 0x100000000) cps -> Forall okbytes (map udatum cps).
Proof. intros H. apply Forall_map. eapply Forall_impl; [|exact H]. intros c. apply udatum_bytes. Qed.
Lemma concat_enc cs cps : concat (map (encoded cs) cps) = flat_map (encoded cs) cps.
Proof. rewrite flat_map_concat_map. reflexivity. Qed.

(** "src:NFD:dst": every character is replaced by its decomposition, Hangul syllables by their jamos, and the combining marks are
    then put in canonical order. *)
Theorem C59_nfd : forall src dst t8 t16 T s l cps ds, strict_utf8 t8 -> char_map_ok T -> fresh (linked t8 t16 (nfd_links src dst T)) s -> module_state s 4 (PMarks []) ->
  chunks l (flat_map (encoded src) cps) -> Forall (reads src) cps -> decomposed (flat_map (mapped T) cps) ds -> Forall (writes dst) ds ->
  exists s' out, streams_to s l (flat_map (encoded dst) out) s' /\ reordered (map udatum ds) (map udatum out) /\ Permutation ds out /\ module_state s' 4 (PMarks []).
Proof.
  intros src dst t8 t16 T s l cps ds Hs HT HF HM (Hl1 & Hl2 & Hl3) Hr HD Hw. pose proof (nfd_ok src dst T HT) as Hok.
  assert (Hlt : Forall (fun c => c < 0x100000000) (flat_map (mapped T) cps)) by (apply mapped_lt; [exact HT|apply (lt_text src); exact Hr]).
  assert (Hlt2 := decomposed_lt _ _ HD Hlt). destruct (C41_order (map udatum ds) (okchars ds Hlt2)) as (os & H1 & H2 & _ & HP).
  destruct (Permutation_map_inv udatum ds (Permutation_sym HP)) as (out & -> & HP2).
  destruct (C59_states t8 t16 _ s 2%nat _ _ _ _ _ _ _ _ Hs Hok HF eq_refl (proj1 hdecomp_calm)) as ([] & _ & HM3).
  destruct (C59_conversion t8 t16 _ s l (map (encoded dst) out) 0 [(3%nat, put_unit tt); (4%nat, PMarks [])] Hs Hok HF Hl1 Hl2) as (s' & got & R1 & R2 & R3 & R4 & R5).
  - rewrite Hl3. apply text_bytes. exact Hr.
  - rewrite Hl3. unfold nfd_links.
    apply (rl_cons s 1 (LDec src) _ _ (map udatum cps) _ 0 None 0 [(3%nat, put_unit tt); (4%nat, PMarks [])]).
    { split; [reflexivity|]. split; [reflexivity|]. exists cps. split; [cbn; rewrite app_nil_r; reflexivity|]. split; [exact Hr|reflexivity]. }
    apply (rl_cons s 2 (LFiles _) _ _ (map udatum (flat_map (mapped T) cps)) _ 0 None 0 [(3%nat, put_unit tt); (4%nat, PMarks [])]).
    { split; [reflexivity|]. cbn [map]. apply (fb_plain INTER [file_dict (map char_entry T)] [] (map udatum cps) (map udatum (flat_map (mapped T) cps)) _ 0 0 0); [|constructor]. cbn [seen_by]. change (run_phase INTER [file_dict (map char_entry T)] (some_data (map udatum cps)) (map udatum (flat_map (mapped T) cps)) 0).
      rewrite some_chars. apply char_run; [exact HT|apply (lt_text src); exact Hr]. }
    apply (rl_cons s 3 (LMod _ _ _ _ _ _ _) _ _ (map udatum ds) _ 0 (Some (put_unit tt)) 0 [(4%nat, PMarks [])]).
    { split; [reflexivity|]. exists tt, tt. split; [exact HM3|]. split; [|reflexivity]. rewrite some_chars. apply C40_decompose; [exact Hlt|exact HD]. }
    apply (rl_cons s 4 (LMod _ _ _ _ _ _ _) _ _ (map udatum out) _ 0 (Some (PMarks [])) 0 []).
    { split; [reflexivity|]. exists [], []. split; [exact HM|]. split; [|reflexivity]. rewrite some_chars. exact H1. }
    apply (rl_cons s 5 (LEnc dst) [] _ (map (encoded dst) out) _ 0 None 0 []); [|constructor].
    split; [reflexivity|]. split; [reflexivity|]. exists out. split; [apply some_chars|]. split; [|reflexivity]. eapply Permutation_Forall; [exact HP2|exact Hw].
  - exists s', out. split; [exists got; rewrite concat_enc in R2; rewrite Nat.add_0_r in R4; auto|]. split; [exact H2|]. split; [exact HP2|]. apply R5. right. left. reflexivity.
Qed.
Print Assumptions C59_nfd.
Theorem C59_nfd_created : forall src dst t8 t16 T, strict_utf8 t8 -> char_map_ok T -> exists s, fresh (linked t8 t16 (nfd_links src dst T)) s /\ module_state s 4 (PMarks []).
Proof.
  intros src dst t8 t16 T Hs HT. destruct (C59_created t8 t16 _ Hs (nfd_ok src dst T HT)) as (s & HF & _ & HM). exists s. split; [exact HF|]. exact (HM 3%nat _ _ _ _ _ _ _ eq_refl).
Qed.
Print Assumptions C59_nfd_created.

(** ** Beside the theorems: concrete conversions *)
Definition seen_links (c : list link) (h : list call) : option (list N * list N * nat * nat) :=
  match bsdconv_init priv (linked mem8 mem16 c) with
  | None => None
  | Some s => option_map (fun x => (snd x, pending priv (fst x), i_ierr priv (fst x), i_oerr priv (fst x))) (run_hist priv 3000 s h)
  end.
(** A part of _NFD.txt, checked as the hypothesis of C59_nfd. *)
Definition nfd_part : list (N * list N) := [(0xE9, [0x65; 0x301]); (0x1E69, [0x73; 0x323; 0x307]); (0x226, [0x41; 0x307])].
Example C59_ex_map : char_map_ok nfd_part.
Proof. repeat (apply Forall_cons; [split; [cbn; lia|]; split; [discriminate|]; split; [cbn; lia|]; repeat (apply Forall_cons; [lia|]); apply Forall_nil|]). apply Forall_nil. Qed.
(** U+1E69, U+AC00, U+0226 U+0323, cut inside the characters: 73 323 307 1100 1161 41 323 307. *)
Example C59_ex_nfd : seen_links (nfd_links UTF8 UTF16BE nfd_part) [give [0xE1; 0xB9] false; give [0xA9; 0xEA; 0xB0; 0x80; 0xC8; 0xA6; 0xCC] false; give [0xA3] true] =
  Some ([0; 0x73; 3; 0x23; 3; 7; 0x11; 0; 0x11; 0x61; 0; 0x41; 3; 0x23; 3; 7], [], 0%nat, 0%nat).
Proof. vm_compute. reflexivity. Qed.
Example C59_ex_hyps : Forall (reads UTF8) [0x1E69; 0xAC00; 0x226; 0x323] /\ decomposed (flat_map (mapped nfd_part) [0x1E69; 0xAC00; 0x226; 0x323]) [0x73; 0x323; 0x307; 0x1100; 0x1161; 0x41; 0x307; 0x323] /\
  Forall (writes UTF16BE) [0x73; 0x323; 0x307; 0x1100; 0x1161; 0x41; 0x307; 0x323].
Proof.
  split; [repeat constructor; cbn; lia|]. split; [|repeat constructor; cbn; lia]. cbn [flat_map mapped nfd_part N.eqb Pos.eqb app].
  apply de_other; [intros (x & y & z & Hx & Hy & Hz & E); unfold syllable, SBase in E; lia|]. apply de_other; [intros (x & y & z & Hx & Hy & Hz & E); unfold syllable, SBase in E; lia|]. apply de_other; [intros (x & y & z & Hx & Hy & Hz & E); unfold syllable, SBase in E; lia|].
  apply (de_syl 0 0 0 _ [0x41; 0x307; 0x323]); try lia. do 3 (apply de_other; [intros (x & y & z & Hx & Hy & Hz & E); unfold syllable, SBase in E; lia|]). apply de_nil.
Qed.
(** A table with keys of several characters, a table for the encoder with a fallback, and a counter between them: "abac" through
    a->x, ab->y; COUNT; x->"X", else "?". *)
Definition mixed_links : list link :=
  [LDec UTF8; LFiles (INTER, [[mkEntry (map PByte [1; 0x61]) [[1; 0x78]]; mkEntry (map PByte [1; 0x61] ++ PSep :: map PByte [1; 0x62]) [[1; 0x79]]]], None);
   LMod _ PNum get_num (COUNT None) false None 0; LFiles (TO, [[mkEntry (map PByte [1; 0x78]) [[0x58]]]], Some [[0x3F]])].
Example C59_ex_mixed_ok : links_ok mixed_links.
Proof.
  assert (E1 : forall p o, p <> [] -> Forall (fun b => match b with PByte b => b < 256 | _ => True end) p -> Forall (Forall (fun b => b < 256)) o -> (o <> [] -> last o [] <> []) -> (length (text_entry (mkEntry p o)) <= 1023)%nat -> entry_ok (mkEntry p o))
    by (intros; constructor; assumption).
  split; [eexists _, _; split; [reflexivity|]; split; [reflexivity|]; repeat (apply Forall_cons; [discriminate|]); apply Forall_nil|].
  destruct C59_modules as ((_ & _ & _ & MC & _) & _). split; [|split; [exact I|]; split; [exact I|]; split; [apply MC|split; exact I]].
  apply Forall_cons; [exact I|]. apply Forall_cons; [|apply Forall_cons; [apply MC|apply Forall_cons; [|apply Forall_nil]]].
  - split; [auto|]. split; [left; discriminate|]. split; [|split; [|discriminate]].
    + apply Forall_cons; [|apply Forall_nil]. apply Forall_cons; [|apply Forall_cons; [|apply Forall_nil]]; apply E1; try discriminate; try (repeat constructor; lia); vm_compute; lia.
    + intros es w o [<-|[]] Hl _. assert (G : forall D : dict, Forall (fun e => snd e <> []) D -> lookup D w = Some o -> o <> []).
      { intros D HD. induction HD as [|[k v] D Hk _ IH]; [discriminate|]. cbn [lookup]. destruct (eqb_syms k w); [|exact IH]. intros E. injection E as <-. exact Hk. }
      apply (G (file_dict [mkEntry (map PByte [1; 0x61]) [[1; 0x78]]; mkEntry (map PByte [1; 0x61] ++ PSep :: map PByte [1; 0x62]) [[1; 0x79]]])); [|exact Hl].
      vm_compute. repeat (apply Forall_cons; [discriminate|]). apply Forall_nil.
  - split; [auto|]. split; [left; discriminate|]. split; [|split].
    + apply Forall_cons; [|apply Forall_nil]. apply Forall_cons; [|apply Forall_nil]; apply E1; try discriminate; try (repeat constructor; lia); vm_compute; lia.
    + intros es w o [<-|[]] Hl _. assert (G : forall D : dict, Forall (fun e => snd e <> []) D -> lookup D w = Some o -> o <> []).
      { intros D HD. induction HD as [|[k v] D Hk _ IH]; [discriminate|]. cbn [lookup]. destruct (eqb_syms k w); [|exact IH]. intros E. injection E as <-. exact Hk. }
      apply (G (file_dict [mkEntry (map PByte [1; 0x78]) [[0x58]]])); [|exact Hl]. vm_compute. repeat (apply Forall_cons; [discriminate|]). apply Forall_nil.
    + intros d E. injection E as <-. apply Forall_cons; [|apply Forall_nil]. apply Forall_cons; [lia|apply Forall_nil].
Qed.
Example C59_ex_mixed : seen_links mixed_links [give [0x61] false; give [0x62; 0x61] false; give [0x63] true] = Some ([0x3F; 0x58; 0x3F], [], 0%nat, 0%nat).
Proof. vm_compute. reflexivity. Qed.

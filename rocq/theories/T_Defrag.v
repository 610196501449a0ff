(** C58: control sequences inside double byte characters. *)
From Verif Require Import Base Types M_Engine M_Output M_Create M_Callback M_UTF8 M_UTF16 M_Modules M_Mktable M_Filter M_Star M_Stars M_Defrag S_Source S_Dict S_Session S_Unicode S_Defrag S_Flow P_Engine1 P_Callback P_Dict P_Trans P_Pair P_Ascii P_Flow P_Flow2 P_Flow4 P_Ebcdic2 P_Machine P_Byte P_Unicode P_Flow5 P_Flow6 S_Engine.
From Verif Require T_Escape.
From Coq Require Import ZifyBool ZifyN ZifyNat.
Local Open Scope N_scope.

(** ** What the specification says *)
Definition byte_of (u : item) : list N := match u with Byte b => [b] | _ => [] end.
Definition control_of (u : item) : list (list N) := match u with Control w => [w] | _ => [] end.
(** The bytes, and the control sequences, are the same in the same order. *)
Theorem C58_kept : forall us vs, defragmented us vs -> flat_map byte_of us = flat_map byte_of vs /\ flat_map control_of us = flat_map control_of vs.
Proof.
  assert (B : forall cs, flat_map byte_of (map Control cs) = []) by (induction cs; auto). assert (C : forall cs, flat_map control_of (map Control cs) = cs) by (induction cs; cbn; congruence).
  induction 1 as [|u us vs _ _ [IH1 IH2]|b cs t us vs _ _ [IH1 IH2]]; [auto|cbn; rewrite IH1, IH2; auto|].
  cbn [flat_map byte_of control_of app]. rewrite !flat_map_app, B, C. cbn [flat_map byte_of control_of app]. rewrite ?B, ?C, IH1, IH2. auto.
Qed.
Print Assumptions C58_kept.
(** Nothing is left to do. *)
Theorem C58_stable : forall us vs, defragmented us vs -> defragmented vs vs.
Proof.
  induction 1 as [|u us vs Hu _ IH|b cs t us vs Hb _ IH]; [constructor|constructor; assumption|].
  apply (df_pair b [] t (map Control cs ++ vs) (map Control cs ++ vs) Hb). clear -IH. induction cs as [|w cs IHc]; [exact IH|]. cbn. apply df_plain; [intros []|exact IHc].
Qed.
Print Assumptions C58_stable.

Lemma split_controls us : exists cs r, us = map Control cs ++ r /\ (r = [] \/ exists t r', r = Byte t :: r').
Proof.
  induction us as [|[w|b] us IH].
  - exists [], []. auto.
  - destruct IH as (cs & r & -> & H). exists (w :: cs), r. auto.
  - exists [], (Byte b :: us). split; [reflexivity|]. right. eauto.
Qed.
(** Every text is covered, except for one that ends in a lead byte without its second byte. *)
Theorem C58_total : forall us, (exists vs, defragmented us vs) \/ exists a b cs, us = a ++ Byte b :: map Control cs /\ 0x7F < b.
Proof.
  assert (H : forall n us, (length us <= n)%nat -> (exists vs, defragmented us vs) \/ exists a b cs, us = a ++ Byte b :: map Control cs /\ 0x7F < b); [|intros us; apply (H (length us)); lia].
  induction n as [|n IH]; intros us HL; [destruct us; [left; eexists; constructor|cbn in HL; lia]|]. destruct us as [|u us]; [left; eexists; constructor|]. cbn [length] in HL.
  assert (D : lead u \/ ~ lead u) by (destruct u as [w|b]; cbn; [auto|lia]). destruct D as [D|D].
  - destruct u as [w|b]; [destruct D|]. cbn in D. destruct (split_controls us) as (cs & r & -> & [->|(t & r' & ->)]); [right; exists [], b, cs; rewrite app_nil_r; auto|].
    destruct (IH r') as [(vs & H)|(a & b' & cs' & -> & H)]; [rewrite app_length in HL; cbn in HL; lia| |].
    + left. eexists. apply df_pair; eassumption.
    + right. exists (Byte b :: map Control cs ++ Byte t :: a), b', cs'. split; [|exact H]. cbn. rewrite <- app_assoc. reflexivity.
  - destruct (IH us) as [(vs & H)|(a & b' & cs' & -> & H)]; [lia| |].
    + left. eexists. apply df_plain; eassumption.
    + right. exists (u :: a), b', cs'. auto.
Qed.
Print Assumptions C58_total.

(** ** BYTE *)
Definition byte_from_dict : dict := map (fun b => ([b], [[3; b]])) (ascii_codes 0 256).
Definition byte_to_dict : dict := map (fun b => ([3; b], [[b]])) (ascii_codes 0 256).
Lemma byte_from_is : file_dict byte_from_src = byte_from_dict. Proof. vm_compute. reflexivity. Qed.
Lemma byte_to_is : file_dict byte_to_src = byte_to_dict. Proof. vm_compute. reflexivity. Qed.
Lemma byte_to_entries : Forall entry_ok byte_to_src.
Proof. apply Forall_forall. intros e He. apply in_map_iff in He as (b & <- & Hb). apply in_map_iff in Hb as (k & <- & Hk). apply in_seq in Hk. constructor; cbn; try discriminate; try (repeat constructor; lia); lia. Qed.
Lemma byte_to_sub : sub_nonempty (file_dict byte_to_src).
Proof. intros w o H _. rewrite byte_to_is in H. apply P_Unicode.lookup_in in H. unfold byte_to_dict in H. rewrite map_map in H. cbn [snd] in H. apply in_map_iff in H as (b & <- & _). discriminate. Qed.
Definition byte_enc_spec : kspec := data_spec (file_dict byte_to_src) (compiled byte_to_src).
Strategy 1000 [compiled file_dict mktable].
Lemma byte_enc_ok : data_ok true byte_enc byte_enc_spec.
Proof. exact (tab_data_ok true _ _ (compiled_ok _ byte_to_entries) byte_to_sub). Qed.
Lemma in_256 b : b < 256 -> In b (ascii_codes 0 256).
Proof. intros Hb. apply in_map_iff. exists (N.to_nat b). split; [lia|apply in_seq; lia]. Qed.
Lemma byte_to_verdict b : b < 256 -> data_sem byte_to_dict [[3; b]] = VMatch [[b]].
Proof.
  intros Hb. assert (HM : map (fun b => data_sem byte_to_dict [[3; b]]) (ascii_codes 0 256) = map (fun b => VMatch [[b]]) (ascii_codes 0 256)) by (vm_compute; reflexivity).
  exact (ext_in_map HM b (in_256 b Hb)).
Qed.
Lemma byte_to_dead w rest : data_sem byte_to_dict [0x1B :: w] = VDead /\ scan (data_sem byte_to_dict) [] ((0x1B :: w) :: rest) None = None.
Proof.
  assert (H : data_sem byte_to_dict [0x1B :: w] = VDead).
  { unfold data_sem. cbv zeta. replace (lookup byte_to_dict (joined [0x1B :: w])) with (@None (list datum)); [replace (has_prefix byte_to_dict (joined [0x1B :: w] ++ [256])) with false; [reflexivity|]|].
    - symmetry. apply not_true_is_false. intros Hp. apply existsb_exists in Hp as (x & Hx & Hp). apply in_map_iff in Hx as (b & <- & _). cbn in Hp. discriminate.
    - unfold byte_to_dict. generalize (ascii_codes 0 256). induction l; [reflexivity|]. cbn. exact IHl. }
  split; [exact H|]. unfold scan. cbn [app]. change (data_sem byte_to_dict ([] ++ [(0x1B :: w : datum)])) with (data_sem byte_to_dict [0x1B :: w]). transitivity (match data_sem byte_to_dict [0x1B :: w] with VDead => @None (nat * list datum) | VCont => scan (data_sem byte_to_dict) [0x1B :: w] rest None | VSub d => scan (data_sem byte_to_dict) [0x1B :: w] rest (Some (1%nat, d)) | VMatch d => Some (1%nat, d) end); [reflexivity|rewrite H; reflexivity].
Qed.
Definition dat (u : item) : datum := match u with Control w => w | Byte b => [3; b] end.
Definition byte_side : list (ecodec priv * kspec) := [(byte_enc, byte_enc_spec); (ansi_enc, star_spec pass_ansi)].
Lemma control_head w : control w -> exists r, w = 0x1B :: r. Proof. intros []; eauto. Qed.
Lemma byte_ecodes : ecodes (sems (map snd byte_side)) dat spelling item_ok.
Proof.
  intros u rest Hu. unfold sems, byte_side. cbn [map snd k_v]. unfold byte_enc_spec, data_spec, star_spec. cbn [k_v]. rewrite byte_to_is. destruct u as [w|b]; cbn [dat spelling item_ok] in *.
  - destruct (control_head w Hu) as (r & ->). pose proof (proj2 (byte_to_dead r rest)) as E. unfold first_match at 1. etransitivity; [apply (f_equal (fun z => match z with Some x => Some x | None => _ end)); exact E|reflexivity].
  - pose proof (byte_to_verdict b (proj1 Hu)) as E. assert (E2 : scan (data_sem byte_to_dict) [] ([3; b] :: rest) None = match data_sem byte_to_dict [[3; b]] with VDead => None | VCont => scan (data_sem byte_to_dict) [[3; b]] rest None | VSub d => scan (data_sem byte_to_dict) [[3; b]] rest (Some (1%nat, d)) | VMatch d => Some (1%nat, d) end) by reflexivity. rewrite E in E2. unfold first_match. etransitivity; [apply (f_equal (fun z => match z with Some x => Some x | None => _ end)); exact E2|reflexivity].
Qed.
Definition byte_ph : fph := FTab TO byte_side false.
Lemma byte_ph_ok : f_ok byte_ph.
Proof.
  cbn [f_ok byte_ph]. split; [discriminate|]. split; [auto|]. split; [discriminate|]. split; [|split].
  - intros y [<-|[<-|[]]]; cbn [fst snd codec_ok byte_side]; [exact byte_enc_ok|apply star_ok; reflexivity].
  - intros y q [<-|[<-|[]]] _; exact I.
  - intros j y Hy. left. apply nth_error_In in Hy. destruct Hy as [<-|[<-|[]]]; [apply data_eof|apply star_eof].
Qed.

(** ** Decoding *)
Definition broot : tstate := match read_state (compiled byte_from_src) 0 with Some s => s | None => mkTs DEADEND [] 0 0 [] end.
Lemma broot_ok : read_state (e_tab byte_dec) 0 = Some broot. Proof. vm_compute. reflexivity. Qed.
Lemma fallb_byte b : fallb byte_dec broot b = if b <? 256 then Some [[3; b]] else None.
Proof.
  destruct (N.ltb_spec b 256) as [H|H].
  - assert (HM : map (fallb byte_dec broot) (ascii_codes 0 256) = map (fun b => Some [[3; b]]) (ascii_codes 0 256)) by (vm_compute; reflexivity). exact (ext_in_map HM b (in_256 b H)).
  - unfold fallb, next_state, get_offset. assert (E : t_end broot = 256) by (vm_compute; reflexivity). rewrite E. replace (b <? 256) with false by lia. rewrite andb_false_r. reflexivity.
Qed.
Notation tr := (btr byte_dec broot ansi_byte).
Lemma run_app : forall a b x x1 o1 x2 o2, run tr x a = Some (x1, o1) -> run tr x1 b = Some (x2, o2) -> run tr x (a ++ b) = Some (x2, o1 ++ o2).
Proof.
  induction a as [|v a IH]; intros b x x1 o1 x2 o2 H1 H2; cbn [run app] in *; [injection H1 as <- <-; exact H2|].
  destruct (tr x v) as [[y p]|]; [|discriminate]. destruct (run tr y a) as [[y2 p2]|] eqn:E; [|discriminate]. injection H1 as <- <-. rewrite (IH _ _ _ _ _ _ E H2), app_assoc. reflexivity.
Qed.
Lemma tr_more r z b : b < 256 -> ansi_ends (2 + length r) b = false -> tr (PAnsi r true, z) b = Some ((PAnsi (r ++ [b]) true, false), []).
Proof. intros H1 H2. unfold btr. cbn [fst snd ansi_byte]. replace (b <? 256) with true by lia. rewrite H2. reflexivity. Qed.
Lemma tr_last r z b : b < 256 -> ansi_ends (2 + length r) b = true -> tr (PAnsi r true, z) b = Some ((PAnsi [] false, true), [0x1B :: r ++ [b]]).
Proof. intros H1 H2. unfold btr. cbn [fst snd ansi_byte]. replace (b <? 256) with true by lia. rewrite H2. reflexivity. Qed.
Lemma run_params : forall ps r z, Forall (fun x => x < 256 /\ ~ final x) ps -> (1 <= length r)%nat -> (length r + length ps <= 28)%nat -> exists z', run tr (PAnsi r true, z) ps = Some ((PAnsi (r ++ ps) true, z'), []).
Proof.
  induction ps as [|b ps IH]; intros r z HF H1 H2; [exists z; rewrite app_nil_r; reflexivity|]. inversion HF as [|? ? [Hb Hb2] HF']; subst. cbn [length] in H2. cbn [run].
  rewrite (tr_more r z b Hb) by (unfold ansi_ends, final in *; lia). destruct (IH (r ++ [b]) false HF') as (z' & E); [rewrite app_length; cbn; lia|rewrite app_length; cbn; lia|]. exists z'. rewrite E, <- app_assoc. reflexivity.
Qed.
Lemma run_last r z b : b < 256 -> ansi_ends (2 + length r) b = true -> run tr (PAnsi r true, z) [b] = Some ((PAnsi [] false, true), [0x1B :: r ++ [b]]).
Proof. intros H1 H2. cbn [run]. rewrite (tr_last r z b H1 H2). reflexivity. Qed.
Lemma run_control w : control w -> run tr (PAnsi [] false, true) w = Some ((PAnsi [] false, true), [w]).
Proof.
  assert (E0 : run tr (PAnsi [] false, true) [0x1B] = Some ((PAnsi [] true, false), [])) by reflexivity.
  assert (E1 : run tr (PAnsi [] false, true) [0x1B; 0x5B] = Some ((PAnsi [0x5B] true, false), [])) by reflexivity.
  intros [b H1 H2|ps b HF HL Hb|ps HF HL].
  - refine (run_app [0x1B] [b] _ _ [] _ [_] E0 _). apply (run_last [] false b H1). unfold ansi_ends. cbn [length Nat.add]. replace (b =? 0x5B) with false by lia. cbn. rewrite orb_true_r. reflexivity.
  - destruct (run_params ps [0x5B] false HF) as (z & E2); [cbn; lia|cbn [length]; lia|]. change (0x1B :: 0x5B :: ps ++ [b]) with ([0x1B; 0x5B] ++ (ps ++ [b])).
    refine (run_app _ _ _ _ [] _ [_] E1 _). refine (run_app _ _ _ _ [] _ [_] E2 _). apply (run_last (0x5B :: ps)); unfold ansi_ends, final in *; lia.
  - destruct (exists_last (l := ps)) as (qs & b & ->); [intros ->; discriminate|]. apply Forall_app in HF as [HF Hb]. inversion Hb as [|? ? [Hb1 _] _]; subst. rewrite app_length in HL. cbn [length] in HL.
    destruct (run_params qs [0x5B] false HF) as (z & E2); [cbn; lia|cbn [length]; lia|]. change (0x1B :: 0x5B :: qs ++ [b]) with ([0x1B; 0x5B] ++ (qs ++ [b])).
    refine (run_app _ _ _ _ [] _ [_] E1 _). refine (run_app _ _ _ _ [] _ [_] E2 _). apply (run_last (0x5B :: qs)); [exact Hb1|]. unfold ansi_ends. cbn [length]. replace (2 + S (length qs) =? 30)%nat with true by lia. rewrite orb_true_r. reflexivity.
Qed.
Lemma run_items : forall us, Forall item_ok us -> run tr (PAnsi [] false, true) (flat_map spelling us) = Some ((PAnsi [] false, true), map dat us).
Proof.
  induction us as [|u us IH]; intros HF; [reflexivity|]. inversion HF as [|? ? Hu HF']; subst. cbn [flat_map map]. refine (run_app _ _ _ _ [_] _ _ _ (IH HF')). destruct u as [w|b]; cbn [spelling dat item_ok] in *.
  - apply run_control. exact Hu.
  - cbn [run]. unfold btr. cbn [fst snd ansi_byte]. replace (b <? 256) with true by lia. replace (b =? 0x1B) with false by lia. rewrite fallb_byte. replace (b <? 256) with true by lia. reflexivity.
Qed.
Lemma ansi_cb_k p d i sd b : nth_error d i = Some b -> ansi_cb p d i sd = mkCb priv (fst (fst (ansi_byte p b))) i (snd (fst (ansi_byte p b))) (snd (ansi_byte p b)).
Proof. intros H. unfold ansi_cb. rewrite H. destruct (ansi_byte p b) as [[? ?] ?]. reflexivity. Qed.
Definition ansi_ph g f : fph := FGen FROM [ansi_dec g f; byte_dec] (byte_spec (ansi_dec g f) byte_dec broot ansi_byte true) (byte_rel byte_dec broot ansi_byte).
Lemma ansi_ph_ok g f : f_ok (ansi_ph g f).
Proof.
  unfold ansi_ph. apply (byte_f_ok (ansi_dec g f) byte_dec broot ansi_byte ansi_cb); [reflexivity|reflexivity|exact ansi_cb_k|exact broot_ok|]. intros _. split.
  - intros p b. destruct p; try constructor. cbn [ansi_byte]. destruct anf; [destruct (ansi_ends _ _)|destruct (b =? 0x1B)]; repeat constructor.
  - intros b ds. rewrite fallb_byte. destruct (b <? 256); [|discriminate]. intros H. injection H as <-. repeat constructor.
Qed.

(** ** The module *)
Lemma feed_controls p : forall cs q ds, Forall control cs -> star_feed DEFRAG (Some p, q) true (cs ++ ds) = star_feed DEFRAG (Some p, q ++ cs) true ds.
Proof.
  induction cs as [|w cs IH]; intros q ds HF; [rewrite app_nil_r; reflexivity|]. inversion HF as [|? ? Hw HF']; subst. destruct (control_head w Hw) as (r & ->). cbn [app star_feed]. unfold star_one. cbn [st_conv DEFRAG defrag_conv fst snd].
  rewrite IH by exact HF'. rewrite <- app_assoc. cbn [app]. destruct (star_feed _ _ _ ds) as [[[? ?] ?]|]; reflexivity.
Qed.
Lemma feed_defrag us vs : defragmented us vs -> Forall item_ok us -> star_feed DEFRAG (None, []) false (map dat us) = Some ((None, []), false, map dat vs).
Proof.
  induction 1 as [|u us vs Hu _ IH|b cs t us vs Hb _ IH]; intros HF.
  - reflexivity.
  - inversion HF as [|? ? Hok HF']; subst. cbn [map star_feed]. assert (E : star_one DEFRAG (None, []) false (dat u) = Some ((None, []), false, [dat u])).
    { destruct u as [w|b]; cbn [dat item_ok lead] in *; [destruct (control_head w Hok) as (r & ->); reflexivity|]. unfold star_one. cbn [st_conv DEFRAG defrag_conv fst snd]. replace (0x7F <? b) with false by lia. reflexivity. }
    rewrite E, (IH HF'). reflexivity.
  - inversion HF as [|? ? Hok HF']; subst. apply Forall_app in HF' as [Hcs HF']. inversion HF' as [|? ? Ht HF'']; subst. assert (Hc : Forall control cs) by (clear -Hcs; induction cs; [constructor|inversion Hcs; subst; constructor; auto]).
    assert (Em : map dat (map Control cs) = cs) by (rewrite map_map; exact (map_id cs)).
    cbn [map dat star_feed]. unfold star_one at 1. cbn [st_conv DEFRAG defrag_conv fst snd]. replace (0x7F <? b) with true by lia. rewrite map_app, Em, feed_controls by exact Hc. cbn [app map dat star_feed]. unfold star_one. cbn [st_conv DEFRAG defrag_conv fst snd].
    rewrite (IH HF''). cbn [app]. rewrite map_app, Em. reflexivity.
Qed.
Lemma stream_defrag us vs : defragmented us vs -> Forall item_ok us -> star_stream DEFRAG (None, []) (map dat us) = Some ((None, []), map dat vs).
Proof. intros H1 H2. unfold star_stream. rewrite (feed_defrag us vs H1 H2). reflexivity. Qed.
Definition fne (r : frag) : Prop := (match fst r with Some p => ne p | None => True end) /\ Forall ne (snd r).
Lemma defrag_good : good_star DEFRAG (Some defrag_init) (None, []) fne.
Proof.
  assert (E : forall s, fne (fst s, snd s) -> fne s) by (intros [? ?]; auto).
  assert (H27 : forall l : list N, ne (0x1B :: l)) by (intros; cbn; lia). assert (H3 : forall l : list N, ne (3 :: l)) by (intros; cbn; lia).
  constructor.
  - split; [exact I|constructor].
  - intros g s Hg _. injection Hg as <-. split; [exact I|constructor].
  - intros [[p|] q] d [H1 H2]; cbn [fst snd] in *; cbn [st_conv DEFRAG defrag_conv fst snd].
    + repeat match goal with |- context [match ?x with _ => _ end] => is_var x; destruct x end; cbn [fst snd]; split; cbn [fst snd]; auto. apply Forall_app. auto.
    + repeat match goal with |- context [match ?x with _ => _ end] => is_var x; destruct x end; cbn [fst snd]; try (destruct (127 <? n)); split; cbn [fst snd]; auto.
  - intros [[p|] q] d [H1 H2] Hd; cbn [fst snd] in *; cbn [st_conv DEFRAG defrag_conv fst snd].
    + repeat match goal with |- context [match ?x with _ => _ end] => is_var x; destruct x end; cbn [fst snd]; auto.
    + repeat match goal with |- context [match ?x with _ => _ end] => is_var x; destruct x end; cbn [fst snd]; try (destruct (127 <? n)); cbn [snd]; auto.
  - intros s Hs. cbn. auto.
Qed.

(** ** The conversion *)
Notation md := (defrag_mod, JP put_frag fne).
Lemma md_ok m : In m [md] -> fst_ok m.
Proof. intros [<-|[]]. apply (star_fst_ok put_frag get_frag DEFRAG false (Some defrag_init) (None, []) fne); [intros [? ?]; reflexivity|reflexivity|exact defrag_good]. Qed.
Lemma defrag_inst g f : f_inst (gchain (ansi_ph g f) byte_ph [md]) = defrag_conversion g f.
Proof. reflexivity. Qed.
Lemma ansi_evolves g f q : evolves (ansi_dec g f) q -> exists r z, q = PAnsi r z.
Proof.
  induction 1 as [|h p E _ (r & z & ->)|h p d i sd E _ (r & z & ->)|h p E _ _]; [do 2 eexists; reflexivity| | |discriminate].
  - injection E as <-. do 2 eexists; reflexivity.
  - injection E as <-. unfold ansi_cb. destruct (nth_error d i); [|do 2 eexists; reflexivity]. cbn [ansi_byte]. destruct z; [destruct (ansi_ends _ _)|destruct (_ =? _)]; do 2 eexists; reflexivity.
Qed.
(** C58: "ANSI-CONTROL,BYTE:BIG5-DEFRAG:BYTE,ANSI-CONTROL" moves the control sequences that stand within double byte characters behind
    them and changes nothing else; however the text is divided into calls and whatever the instance was used for before. *)
Theorem C58_conversion : forall g f s l us vs, fresh (defrag_conversion g f) s -> chunks l (flat_map spelling us) -> Forall item_ok us -> defragmented us vs ->
  exists s', streams_to s l (flat_map spelling vs) s'.
Proof.
  intros g f s l us vs Hs (Hl1 & Hl2 & Hl3) Hok Hd. rewrite <- defrag_inst in Hs.
  assert (Hok2 : Forall item_ok vs). { clear -Hok Hd. induction Hd as [|u us vs _ _ IH|b cs t us vs _ _ IH]; [constructor|inversion Hok; subst; constructor; auto|]. inversion Hok as [|? ? A1 A2]; subst. apply Forall_app in A2 as [A2 A3]. inversion A3; subst. constructor; [exact A1|]. constructor; [assumption|]. apply Forall_app. auto. }
  assert (Hne : forall u, item_ok u -> dat u <> []) by (intros [w|b] Hu; [destruct (control_head w Hu) as (r & ->)|]; discriminate).
  assert (HM : module_state s 2 (put_frag (None, []))).
  { destruct (g_state (ansi_ph g f) byte_ph [md] md_ok eq_refl (or_introl eq_refl) s 0%nat md Hs eq_refl) as (q & Hq & HM). destruct (star_init put_frag get_frag DEFRAG false (Some defrag_init) (None, []) fne (fun x => ltac:(destruct x; reflexivity)) (fun _ _ => eq_refl) defrag_good q Hq) as (x & _ & E). cbn [fst] in HM. cbn [Nat.add] in HM. unfold defrag_mod in HM. rewrite E in HM. exact HM. }
  destruct (g_stream (ansi_ph g f) byte_ph [md] (ansi_ph_ok g f) byte_ph_ok md_ok eq_refl ltac:(discriminate) (or_introl eq_refl)
    s l [map dat us; map dat vs] [put_frag (None, [])] (filter nonempty (map spelling vs)) Hs Hl1 Hl2) as (s' & H & _).
  - econstructor; [exact HM| |constructor]. cbn [fst]. apply (star_strm put_frag get_frag DEFRAG false (Some defrag_init) (None, []) (fun x => ltac:(destruct x; reflexivity)) (fun _ _ => eq_refl)). apply stream_defrag; assumption.
  - destruct (g_phase _ _ _ s 0 _ Hs eq_refl) as (th & Eth & th0 & Hi & HC). cbn [phase_rel ansi_ph hd]. rewrite Eth. cbn [f_codecs ansi_ph] in HC.
    inversion HC as [|? c1 ? l1 (q & Hq & ->) HC1 E1 E2]. subst. inversion HC1 as [|? c2 ? l2 (q2 & _ & ->) HC2 E3 E4]. subst. inversion HC2. subst.
    destruct (ansi_evolves g f q Hq) as (r & z & ->). assert (E5 : p_codecs priv th0 = [set_priv (ansi_dec g f) (PAnsi r z); set_priv byte_dec q2]) by congruence.
    assert (Hth := P_Byte.init_two th0 th _ _ s0 Hi E5 P_Byte.star_root). rewrite Hth. cbn [p_codecs map byte_rel]. change (e_priv (init_codec (set_priv (ansi_dec g f) (PAnsi r z)))) with (PAnsi [] false).
    split; [reflexivity|]. split; [reflexivity|]. exists (PAnsi [] false, true), (map dat us). cbn [app]. rewrite concat_ne, Hl3. split; [apply run_items; exact Hok|]. split; [reflexivity|]. symmetry. apply (dat_nonempty dat item_ok Hne us Hok).
  - cbn [phase_rel byte_ph length Nat.add last]. unfold tden. split; [reflexivity|]. exists (map spelling vs), 0%nat. split; [|split; reflexivity].
    cbn [kind_of app S_Engine.inj]. rewrite (dat_nonempty dat item_ok Hne vs Hok2). exact (ecode_all _ dat spelling item_ok byte_ecodes vs Hok2).
  - exists s'. rewrite concat_ne in H. rewrite flat_map_concat_map. exact H.
Qed.
Print Assumptions C58_conversion.
(** There are such instances. *)
Theorem C58_exists : forall g f, exists s, fresh (defrag_conversion g f) s.
Proof. intros g f. rewrite <- defrag_inst. destruct (g_fresh (ansi_ph g f) byte_ph [md] (ansi_ph_ok g f) byte_ph_ok md_ok) as (s & H & _). exists s. exact H. Qed.
Print Assumptions C58_exists.

(** A colour change between the two bytes of A4A4 *)
Definition ex_items : list item := [Byte 0x41; Byte 0xA4; Control [0x1B; 0x5B; 0x31; 0x6D]; Control [0x1B; 0x5B; 0x6D]; Byte 0xA4; Control [0x1B; 0x63]; Byte 0x42].
Example C58_ex : Forall item_ok ex_items /\ defragmented ex_items [Byte 0x41; Byte 0xA4; Byte 0xA4; Control [0x1B; 0x5B; 0x31; 0x6D]; Control [0x1B; 0x5B; 0x6D]; Control [0x1B; 0x63]; Byte 0x42].
Proof.
  split.
  - assert (C1 : control [0x1B; 0x5B; 0x31; 0x6D]) by (apply (ct_csi [0x31] 0x6D); [constructor; [unfold final; lia|constructor]|cbn; lia|unfold final; lia]). assert (C2 : control [0x1B; 0x5B; 0x6D]) by (apply (ct_csi [] 0x6D); [constructor|cbn; lia|unfold final; lia]). assert (C3 : control [0x1B; 0x63]) by (apply ct_two; lia).
    unfold ex_items. do 7 (constructor; [cbn [item_ok]; first [assumption|lia]|]). constructor.
  - unfold ex_items. apply df_plain; [cbn; lia|]. apply (df_pair 0xA4 [[0x1B; 0x5B; 0x31; 0x6D]; [0x1B; 0x5B; 0x6D]] 0xA4); [lia|]. apply df_plain; [intros []|]. apply df_plain; [cbn; lia|]. constructor.
Qed.
Example C58_ex_run : T_Escape.see (defrag_conversion [1; 2; 3] true) [T_Escape.feed [0x41; 0xA4; 0x1B; 0x5B] false; T_Escape.feed [0x31; 0x6D; 0x1B; 0x5B; 0x6D; 0xA4; 0x1B; 0x63; 0x42] true] =
  Some ([0x41; 0xA4; 0xA4; 0x1B; 0x5B; 0x31; 0x6D; 0x1B; 0x5B; 0x6D; 0x1B; 0x63; 0x42], [], 0%nat, 0%nat).
Proof. vm_compute. reflexivity. Qed.
(** A lead byte at the end of the text is dropped with everything after it: the module has no flush. *)
Theorem C58_lone_lead_refuted : T_Escape.see (defrag_conversion [] false) [T_Escape.feed [0x41; 0xA4; 0x1B; 0x5B; 0x6D] true] = Some ([0x41], [], 0%nat, 0%nat).
Proof. vm_compute. reflexivity. Qed.
Print Assumptions C58_lone_lead_refuted.

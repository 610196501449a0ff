(** Decoders and encoders composed; the ASCII tables. *)
From Verif Require Import Base Types M_Engine M_Mktable M_Callback M_UTF8 M_UTF16 M_Modules S_Source S_Dict S_Table S_Unicode S_Engine P_Trans P_Engine1 P_Engine2 P_Engine5 P_Callback P_UTF8 P_UTF8b P_UTF16 P_Dict P_Mktable4.
From Coq Require Import ZifyBool ZifyN ZifyNat.
Local Open Scope N_scope.

(** ** Interfaces *)
Definition decodes (cs : list csem) (enc : N -> list N) (dom : N -> Prop) : Prop :=
  forall c rest, dom c -> first_match cs (byt (enc c) ++ rest) = Some (length (enc c), [udatum c]).
Definition encodes (cs : list csem) (enc : N -> list N) (dom : N -> Prop) : Prop :=
  forall c rest, dom c -> first_match cs (udatum c :: rest) = Some (1%nat, [enc c]).

Lemma byt_len l : length (byt l) = length l. Proof. apply map_length. Qed.
Lemma decode_all cs enc dom : decodes cs enc dom -> forall cps, Forall dom cps -> trans KFrom cs (byt (text enc cps)) = (map udatum cps, 0%nat).
Proof.
  intros H. induction cps as [|c cps IH]; intros HF; [apply trans_nil|]. inversion HF as [|? ? Hc HF']; subst. unfold text. cbn [map concat]. rewrite byt_app.
  rewrite (trans_match _ _ _ _ _ (H c _ Hc)). fold (text enc cps).
  assert (Es : skipn (length (enc c)) (byt (enc c) ++ byt (text enc cps)) = byt (text enc cps)) by (rewrite <- (byt_len (enc c)), skipn_app, skipn_all, Nat.sub_diag; reflexivity).
  rewrite Es, IH by exact HF'. reflexivity.
Qed.
Lemma encode_all cs enc dom : encodes cs enc dom -> forall cps, Forall dom cps -> trans KTo cs (map udatum cps) = (map enc cps, 0%nat).
Proof.
  intros H. induction cps as [|c cps IH]; intros HF; [apply trans_nil|]. inversion HF as [|? ? Hc HF']; subst. cbn [map].
  rewrite (trans_match _ _ _ _ _ (H c _ Hc)). cbn [skipn]. rewrite IH by exact HF'. reflexivity.
Qed.
Lemma udatum_nonempty cps : filter nonempty (map udatum cps) = map udatum cps.
Proof. induction cps; [reflexivity|]. cbn. f_equal. assumption. Qed.
Theorem transcode dcs ecs enc enc' dom : decodes dcs enc dom -> encodes ecs enc' dom -> forall cps, Forall dom cps ->
  pipeline [mkPsem KFrom dcs; mkPsem KTo ecs] (text enc cps) = (map enc' cps, 0%nat, 0%nat).
Proof.
  intros Hd He cps Hc. unfold pipeline. cbn [fold_left apply_phase ps_kind ps_cs inj concat]. rewrite app_nil_r. change (map (fun b => [b]) (text enc cps)) with (byt (text enc cps)). rewrite (decode_all _ _ _ Hd) by exact Hc. cbn [apply_phase ps_kind ps_cs inj].
  rewrite udatum_nonempty, (encode_all _ _ _ He) by exact Hc. reflexivity.
Qed.

(** ** Building blocks *)
Section Dec.
Context {Q : Type} (step : Q -> N -> Q * option (status * list datum)) (q0 : Q).
Lemma dec_decodes enc (dom : N -> Prop) :
  (forall c, dom c -> okhd (enc c) = true /\ exists R b qr, enc c = R ++ [b] /\ after step q0 R = Some qr /\ judge step qr b = VMatch [udatum c]) ->
  decodes [dec_sem step q0] enc dom.
Proof.
  intros H c rest Hc. destruct (H c Hc) as (H0 & R & b & qr & E & H1 & H2). rewrite E in *. cbn [first_match]. rewrite (dec_first step q0 R b qr [udatum c] rest H0 H1 H2). reflexivity.
Qed.
End Dec.
Lemma uni_encodes f enc (dom : N -> Prop) : (forall c, dom c -> c < 0x100000000 /\ f (udatum c) = Some [enc c]) -> encodes [uni_sem f] enc dom.
Proof.
  intros H c rest Hc. destruct (H c Hc) as (H0 & H1). cbn [first_match scan]. unfold uni_sem. cbn [app].
  assert (Hu : exists x d, udatum c = 1 :: x :: d /\ x < 257).
  { unfold udatum, be_bytes. destruct (N.ltb_spec c 256); [eexists _, _; split; [reflexivity|lia]|]. destruct (N.ltb_spec c 65536); [eexists _, _; split; [reflexivity|]; pose proof (N.div_lt_upper_bound c 256 256); lia|].
    destruct (N.ltb_spec c 16777216); eexists _, _; (split; [reflexivity|]); [pose proof (N.div_lt_upper_bound c 65536 256); lia|pose proof (N.div_lt_upper_bound c 16777216 256); lia]. }
  destruct Hu as (x & d & Hu & Hx). rewrite Hu in *. cbn [scan app]. cbn [N.eqb Pos.eqb andb]. rewrite (proj2 (N.ltb_lt _ _) Hx), H1. reflexivity.
Qed.

(** ** ASCII *)
Definition ascii_from_dict : dict := map (fun b => ([b], [[1; b]])) (ascii_codes 1 127).
Definition ascii_to_dict : dict := map (fun b => ([1; b], [[b]])) (ascii_codes 1 126) ++ [([1; 2; 0xDC], [[0x7E]]); ([1; 127], [[127]])].
Lemma ascii_from_is : file_dict ascii_from_src = ascii_from_dict. Proof. vm_compute. reflexivity. Qed.
Lemma ascii_to_is : file_dict ascii_to_src = ascii_to_dict. Proof. vm_compute. reflexivity. Qed.
Lemma ascii_from_entries : Forall entry_ok ascii_from_src.
Proof. apply Forall_forall. intros e He. apply in_map_iff in He as (b & <- & Hb). apply in_map_iff in Hb as (k & <- & Hk). apply in_seq in Hk. constructor; cbn; try discriminate; try (repeat constructor; lia); lia. Qed.
Lemma ascii_to_entries : Forall entry_ok ascii_to_src.
Proof.
  apply Forall_app. split; [|repeat constructor; cbn; try discriminate; lia].
  apply Forall_forall. intros e He. apply in_map_iff in He as (b & <- & Hb). apply in_map_iff in Hb as (k & <- & Hk). apply in_seq in Hk. constructor; cbn; try discriminate; try (repeat constructor; lia); lia.
Qed.
Lemma compiled_ok es : Forall entry_ok es -> timpl (compiled es) (file_dict es).
Proof. intros H. unfold compiled. destruct (mktable_implements es H) as (tab & -> & HT). exact HT. Qed.

Definition ascii_from_sem : csem := from_sem (file_dict ascii_from_src).
Definition ascii_to_sem : csem := data_sem (file_dict ascii_to_src).
Lemma lookup_ascii : forall l w, lookup (map (fun b => ([b], [[1; b]])) l) w = match w with [b] => if existsb (N.eqb b) l then Some [[1; b]] else None | _ => None end.
Proof.
  induction l as [|x l IH]; intros w; cbn [map lookup existsb]; [destruct w as [|? []]; reflexivity|]. rewrite IH. destruct w as [|b [|? ?]]; cbn [eqb_syms]; try reflexivity.
  - rewrite andb_true_r, (N.eqb_sym b x). destruct (N.eqb_spec x b) as [->|]; reflexivity.
  - rewrite andb_false_r. reflexivity.
Qed.
Lemma in_codes b lo n : existsb (N.eqb b) (ascii_codes lo n) = (N.of_nat lo <=? b) && (b <? N.of_nat (lo + n)).
Proof.
  destruct (existsb (N.eqb b) (ascii_codes lo n)) eqn:E.
  - apply existsb_exists in E as (x & Hx & E). apply N.eqb_eq in E. subst x. apply in_map_iff in Hx as (k & <- & Hk). apply in_seq in Hk. lia.
  - symmetry. apply not_true_is_false. intros H. apply not_true_iff_false in E. apply E. apply existsb_exists. exists b. split; [|apply N.eqb_refl]. apply in_map_iff. exists (N.to_nat b). split; [lia|]. apply in_seq. lia.
Qed.
Lemma ascii_from_verdict pre : ascii_from_sem pre = match concat pre with [b] => if (1 <=? b) && (b <? 128) then VMatch [[1; b]] else VDead | [] => VCont | _ => VDead end.
Proof.
  unfold ascii_from_sem, from_sem. rewrite ascii_from_is. cbv zeta. unfold ascii_from_dict at 1. rewrite lookup_ascii.
  destruct (concat pre) as [|b w] eqn:E; [vm_compute; reflexivity|].
  assert (HL : has_longer ascii_from_dict (b :: w) = false).
  { apply not_true_is_false. intros H. apply has_longer_spec in H as (k & o & v & r & Hin & Ek). apply in_map_iff in Hin as (x & Hx & _). injection Hx as <- _. injection Ek as _ Ek. destruct w; discriminate. }
  rewrite HL. destruct w as [|? ?]; [|reflexivity]. rewrite in_codes. change (N.of_nat 1) with 1. change (N.of_nat (1 + 127)) with 128. destruct ((1 <=? b) && (b <? 128)); reflexivity.
Qed.
Lemma ascii_from_scan b rest : scan ascii_from_sem [] ([b] :: rest) None = if (1 <=? b) && (b <? 128) then Some (1%nat, [[1; b]]) else None.
Proof. cbn [scan]. rewrite ascii_from_verdict. cbn [concat app]. destruct ((1 <=? b) && (b <? 128)); reflexivity. Qed.
Lemma ascii_to_verdict b : 1 <= b < 128 -> ascii_to_sem [[1; b]] = VMatch [[b]].
Proof.
  intros Hb. assert (HL : In b (ascii_codes 1 127)) by (apply in_map_iff; exists (N.to_nat b); split; [lia|apply in_seq; lia]).
  unfold ascii_to_sem. rewrite ascii_to_is.
  assert (HM : map (fun b => data_sem ascii_to_dict [[1; b]]) (ascii_codes 1 127) = map (fun b => VMatch [[b]]) (ascii_codes 1 127)) by (vm_compute; reflexivity).
  exact (ext_in_map HM b HL).
Qed.


(** The stateful intermediate modules inside a conversion "src:MODULE:dst" (C40-C44, C48): what the user of the library sees,
    however the input is cut into chunks and in every lossless output mode, for the stream after bsdconv_init. *)
From Verif Require Import Base Types M_Engine M_Output M_Create M_Callback M_UTF8 M_UTF16 M_Modules M_Star M_Filter M_Inter M_Norm M_Stars S_Session S_Unicode S_Ranges S_Inter S_Norm S_Flow P_Inter P_Norm P_Flow P_Flow2 P_Flow3 P_Flow4 P_Flow5 T_Inter T_Norm T_Unicode S_Transcode.
From Coq Require Import Permutation ZifyBool ZifyN ZifyNat.
Local Open Scope N_scope.

(** ** The modules keep to the rules of P_Flow *)
Ltac solve_ne := repeat first [assumption | constructor].
Lemma width_good w : good_star WIDTH None w (fun _ => True).
Proof. constructor; auto; intros; cbn; [constructor; [assumption|constructor]|split; [exact I|constructor]]. Qed.
Lemma trim_good aw n g : good_star TRIM_WIDTH (Some trim_init) (trim_create aw n g) (fun t => t_aw t = aw /\ t_width t = n).
Proof.
  constructor; auto; intros; cbn [st_conv st_flush TRIM_WIDTH no_flush fst snd].
  - injection H as <-. exact H0.
  - unfold trim_conv. cbv zeta. match goal with |- context [if ?b then _ else _] => destruct b end; exact H.
  - unfold trim_conv. cbv zeta. match goal with |- context [if ?b then _ else _] => destruct b end; cbn; [constructor; [assumption|constructor]|constructor].
  - split; [exact H|constructor].
Qed.
Lemma pad_good g : good_star AMBIGUOUS_PAD (Some pad_init) g (fun _ => True).
Proof.
  constructor; auto; intros; cbn; [|split; [exact I|constructor]]. constructor; [assumption|]. destruct d as [|x l]; [constructor|].
  repeat match goal with |- context [match ?b with _ => _ end] => destruct b end; repeat constructor.
Qed.
Lemma unpad_good g : good_star AMBIGUOUS_UNPAD (Some unpad_init) g (fun _ => True).
Proof.
  constructor; auto; intros; cbn [st_flush st_conv AMBIGUOUS_UNPAD no_flush fst snd]; [|split; [exact I|constructor]]. unfold unpad_conv.
  repeat match goal with |- context [match ?b with _ => _ end] => destruct b end; cbn; repeat constructor.
Qed.
Lemma count_good f n : good_star (COUNT f) None n (fun _ => True).
Proof. constructor; auto; intros; cbn; [constructor; [assumption|constructor]|split; [exact I|constructor]]. Qed.
Lemma pass_good f k n : good_star (PASS f k) (Some (fun _ => 0)) n (fun _ => True).
Proof.
  constructor; auto; intros; cbn; [|split; [exact I|constructor]]. destruct (accepts f d); [|constructor]. destruct (k =? 0); [|destruct (s <? k)]; cbn; try constructor; auto.
Qed.
Lemma score_good f n : good_star (SCORE f) None n (fun _ => True).
Proof. constructor; auto; intros; cbn; [destruct (f d =? 0); cbn; constructor; auto|split; [exact I|constructor]]. Qed.
Lemma emit_ucs_ne u : ne (emit_ucs u). Proof. cbn. lia. Qed.
Lemma hdecomp_good : good_star HANGUL_DECOMPOSITION None tt (fun _ => True).
Proof.
  constructor; auto; intros; cbn [st_flush st_conv HANGUL_DECOMPOSITION no_flush fst snd]; [|split; [exact I|constructor]]. unfold hdecomp_conv. cbn [snd].
  assert (HD : forall n u, Forall ne (decompose_hangul n u)).
  { induction n as [|n IH]; intros u; cbn [decompose_hangul]; [constructor|]. cbv zeta. destruct (in_range _ _); [|constructor; [apply emit_ucs_ne|constructor]].
    apply Forall_app; split; [apply IH|]. apply Forall_app; split; [apply IH|]. destruct (_ =? _)%Z; [constructor|apply IH]. }
  destruct d as [|x l]; [constructor|]. repeat match goal with |- context [match ?b with _ => _ end] => destruct b end; try apply HD; repeat constructor.
Qed.
Lemma hcomp_flush_ne r : Forall ne (snd (hcomp_flush r)).
Proof. unfold hcomp_flush. destruct (hc_status r =? 0); cbn; [constructor|]. constructor; [apply emit_ucs_ne|constructor]. Qed.
Lemma hcomp_restart_ne r u d : ne d -> Forall ne (snd (hcomp_restart r u d)).
Proof. intros Hd. unfold hcomp_restart. pose proof (hcomp_flush_ne r) as H. destruct (hcomp_flush r) as [r1 o]. cbn in H. destruct (in_range _ _); cbn; [exact H|]. apply Forall_app. auto. Qed.
Lemma hcomp_good g : good_star HANGUL_COMPOSITION (Some hcomp_init) g (fun _ => True).
Proof.
  constructor; auto; intros; cbn [st_flush st_conv HANGUL_COMPOSITION].
  - assert (HF : forall r, Forall ne (snd (let '(r1, o) := hcomp_flush r in (r1, NEXTPHASE, o ++ [d])))).
    { intros r. pose proof (hcomp_flush_ne r) as HF. destruct (hcomp_flush r) as [r1 o]. cbn in *. apply Forall_app. auto. }
    unfold hcomp_conv. destruct d as [|x l]; [apply HF|]. destruct (N.eq_dec x 1) as [->|Hx].
    2:{ destruct x as [|[p|p|]]; try apply HF. contradiction. }
    cbv zeta. destruct (hc_status s) as [|[p|p|]] eqn:Eh.
    + destruct (in_range _ _); constructor.
    + constructor.
    + destruct p; try constructor. destruct (_ && _)%bool; [|apply hcomp_restart_ne; assumption].
      match goal with |- context [hcomp_flush ?r] => pose proof (hcomp_flush_ne r) as H2; destruct (hcomp_flush r) as [r1 o] end. cbn in *. exact H2.
    + repeat match goal with |- context [if ?b then _ else _] => destruct b end; try (apply hcomp_restart_ne; assumption). constructor.
  - split; [exact I|apply hcomp_flush_ne].
Qed.
Lemma order_good : good_star ORDER None [] (Forall (fun x => ne (snd x))).
Proof.
  assert (HI : forall c d l, ne d -> Forall (fun x => ne (snd x)) l -> Forall (fun x => ne (snd x)) (order_insert c d l)).
  { intros c d l Hd Hl. unfold order_insert. apply Forall_rev. assert (HB : forall l, Forall (fun x : N * datum => ne (snd x)) l -> Forall (fun x => ne (snd x)) (order_back c d l)).
    { clear Hl l. induction 1 as [|[c' d'] l Hx Hl IH]; cbn; [constructor; [exact Hd|constructor]|]. destruct (c <? c'); constructor; auto. }
    apply HB, Forall_rev. exact Hl. }
  constructor; [constructor|discriminate| | |]; cbn [st_conv st_flush ORDER].
  - intros s d Hs. unfold order_conv. destruct (ccc_of d =? 0) eqn:E; [constructor|]. apply HI; [|exact Hs]. destruct d as [|x l]; [discriminate E|]. destruct x as [|[p|p|]]; try discriminate E. cbn. lia.
  - intros s d Hs Hd. unfold order_conv. destruct (ccc_of d =? 0); cbn; [|constructor]. apply Forall_app. split; [|constructor; [exact Hd|constructor]]. clear - Hs. induction Hs; constructor; auto.
  - intros s Hs. cbn. split; [constructor|]. clear - Hs. induction Hs; constructor; auto.
Qed.

(** ** One module *)
Section One.
Context {S : Type} (inj : S -> priv) (prj : priv -> option S) (m : star S) (fl : bool) (ini : option (S -> S)) (g0 : S) (JS : S -> Prop).
Hypothesis Hpi : forall x, prj (inj x) = Some x.
Hypothesis Hfl : fl = false -> forall x, st_flush m x = (x, []).
Hypothesis HG : good_star m ini g0 JS.
Variables (src dst : charset) (t8 : u8) (t16 : u16) (s : inst priv).
Hypothesis Hs : strict_utf8 t8.
Lemma one_ok y : In y [(star_codec inj prj m fl ini g0, JP inj JS)] -> fst_ok y.
Proof. intros [<-|[]]. apply star_fst_ok; assumption. Qed.
Theorem via_one_state : fresh (via src [star_codec inj prj m fl ini g0] dst t8 t16) s -> exists q, JS q /\ module_state s 2 (inj (match ini with Some g => g q | None => q end)).
Proof.
  intros HF. destruct (via_state src dst t8 t16 [(star_codec inj prj m fl ini g0, JP inj JS)] s 0 _ Hs one_ok HF eq_refl) as (q & Hq & HM).
  destruct (star_init inj prj m fl ini g0 JS Hpi Hfl HG q Hq) as (x & Hx & E). exists x. split; [exact Hx|]. cbn [fst] in HM. rewrite E in HM. exact HM.
Qed.
Theorem via_one_fresh : exists s, fresh (via src [star_codec inj prj m fl ini g0] dst t8 t16) s.
Proof. apply (via_fresh src dst t8 t16 [(star_codec inj prj m fl ini g0, JP inj JS)] Hs one_ok). Qed.
Theorem via_one l cps x x' out : fresh (via src [star_codec inj prj m fl ini g0] dst t8 t16) s -> chunks l (flat_map (encoded src) cps) -> Forall (reads src) cps ->
  module_state s 2 (inj x) -> star_stream m x (map udatum cps) = Some (x', map udatum out) -> Forall (writes dst) out ->
  exists s', streams_to s l (flat_map (encoded dst) out) s' /\ module_state s' 2 (inj x').
Proof.
  intros HF Hc Hr HM HS Hw. apply (star_strm inj prj m fl ini g0 Hpi Hfl) in HS.
  destruct (via_stream src dst t8 t16 [(star_codec inj prj m fl ini g0, JP inj JS)] Hs one_ok s l cps out [map udatum cps; map udatum out] [inj x'] HF Hc Hr) as (s' & H1 & H2); [|reflexivity|reflexivity|exact Hw|].
  - econstructor; [exact HM|exact HS|constructor].
  - exists s'. split; [exact H1|]. apply (H2 0%nat). reflexivity.
Qed.
(** ** Two modules *)
Context {T : Type} (inj2 : T -> priv) (prj2 : priv -> option T) (m2 : star T) (fl2 : bool) (ini2 : option (T -> T)) (g2 : T) (JS2 : T -> Prop).
Hypothesis Hpi2 : forall x, prj2 (inj2 x) = Some x.
Hypothesis Hfl2 : fl2 = false -> forall x, st_flush m2 x = (x, []).
Hypothesis HG2 : good_star m2 ini2 g2 JS2.
Notation two := [(star_codec inj prj m fl ini g0, JP inj JS); (star_codec inj2 prj2 m2 fl2 ini2 g2, JP inj2 JS2)].
Lemma two_ok y : In y two -> fst_ok y.
Proof. intros [<-|[<-|[]]]; apply star_fst_ok; assumption. Qed.
Theorem via_two_state : fresh (via src [star_codec inj prj m fl ini g0; star_codec inj2 prj2 m2 fl2 ini2 g2] dst t8 t16) s ->
  (exists q, JS q /\ module_state s 2 (inj (match ini with Some g => g q | None => q end))) /\ exists q, JS2 q /\ module_state s 3 (inj2 (match ini2 with Some g => g q | None => q end)).
Proof.
  intros HF. split.
  - destruct (via_state src dst t8 t16 two s 0 _ Hs two_ok HF eq_refl) as (q & Hq & HM). destruct (star_init inj prj m fl ini g0 JS Hpi Hfl HG q Hq) as (x & Hx & E). exists x. split; [exact Hx|]. cbn [fst] in HM. rewrite E in HM. exact HM.
  - destruct (via_state src dst t8 t16 two s 1 _ Hs two_ok HF eq_refl) as (q & Hq & HM). destruct (star_init inj2 prj2 m2 fl2 ini2 g2 JS2 Hpi2 Hfl2 HG2 q Hq) as (x & Hx & E). exists x. split; [exact Hx|]. cbn [fst] in HM. rewrite E in HM. exact HM.
Qed.
Theorem via_two l cps x x' y y' mid out : fresh (via src [star_codec inj prj m fl ini g0; star_codec inj2 prj2 m2 fl2 ini2 g2] dst t8 t16) s -> chunks l (flat_map (encoded src) cps) -> Forall (reads src) cps ->
  module_state s 2 (inj x) -> module_state s 3 (inj2 y) -> star_stream m x (map udatum cps) = Some (x', mid) -> star_stream m2 y mid = Some (y', map udatum out) -> Forall (writes dst) out ->
  exists s', streams_to s l (flat_map (encoded dst) out) s' /\ module_state s' 2 (inj x') /\ module_state s' 3 (inj2 y').
Proof.
  intros HF Hc Hr HM HM2 HS HS2 Hw. apply (star_strm inj prj m fl ini g0 Hpi Hfl) in HS. apply (star_strm inj2 prj2 m2 fl2 ini2 g2 Hpi2 Hfl2) in HS2.
  destruct (via_stream src dst t8 t16 two Hs two_ok s l cps out [map udatum cps; mid; map udatum out] [inj x'; inj2 y'] HF Hc Hr) as (s' & H1 & H2); [|reflexivity|reflexivity|exact Hw|].
  - econstructor; [exact HM|exact HS|]. econstructor; [exact HM2|exact HS2|constructor].
  - exists s'. split; [exact H1|]. split; [apply (H2 0%nat); reflexivity|apply (H2 1%nat); reflexivity].
Qed.
End One.

Lemma reads_lt src c : reads src c -> c < 0x100000000. Proof. destruct src; cbn; unfold scalar; lia. Qed.
Lemma ok_text src cps : Forall (reads src) cps -> Forall okbytes (map udatum cps).
Proof. induction 1 as [|c cps Hc _ IH]; [constructor|]. constructor; [|exact IH]. unfold udatum. constructor; [lia|]. apply udatum_value. eapply reads_lt. exact Hc. Qed.
Lemma lt_text src cps : Forall (reads src) cps -> Forall (fun c => c < 0x100000000) cps.
Proof. apply Forall_impl. intros c. apply reads_lt. Qed.
Lemma udatum_text cps : Forall unicode_datum (map udatum cps).
Proof. induction cps as [|c cps IH]; [constructor|]. constructor; [|exact IH]. unfold udatum, unicode_datum, be_bytes. destruct (c <? 0x100); [|destruct (c <? 0x10000); [|destruct (c <? 0x1000000)]]; eauto. Qed.
Lemma app_udatum cps p rest : map udatum cps = p ++ rest -> exists q r, cps = q ++ r /\ p = map udatum q /\ rest = map udatum r.
Proof. intros H. apply map_eq_app in H as (q & r & -> & E1 & E2). eauto. Qed.

(** ** C42: "src:WIDTH:dst" transcodes the text and adds to each counter the number of characters of its class. *)
Theorem C42_conversion : forall src dst t8 t16 w0 s l cps w f h a, strict_utf8 t8 -> fresh (via src [width_mod w0] dst t8 t16) s ->
  chunks l (flat_map (encoded src) cps) -> Forall (reads src) cps -> Forall (writes dst) cps -> module_state s 2 (PWidth w) ->
  counts (in_class 2) f (map udatum cps) -> counts (in_class 1) h (map udatum cps) -> counts (in_class 3) a (map udatum cps) ->
  exists s', streams_to s l (flat_map (encoded dst) cps) s' /\ module_state s' 2 (PWidth (mkW (w_full w + f) (w_half w + h) (w_ambi w + a))).
Proof.
  intros src dst t8 t16 w0 s l cps w f h a Hs HF Hc Hr Hw HM H2 H1 H3.
  apply (via_one PWidth get_width WIDTH false None w0 (fun _ => True)) with (src := src) (t8 := t8) (t16 := t16) (cps := cps) (x := w); auto using width_good.
  apply C42_width; auto. eapply ok_text. exact Hr.
Qed.
Print Assumptions C42_conversion.
Theorem C42_conversion_state : forall src dst t8 t16 w0 s, strict_utf8 t8 -> fresh (via src [width_mod w0] dst t8 t16) s -> exists w, module_state s 2 (PWidth w).
Proof.
  intros src dst t8 t16 w0 s Hs HF. destruct (via_one_state PWidth get_width WIDTH false None w0 (fun _ => True)) with (src := src) (dst := dst) (t8 := t8) (t16 := t16) (s := s) as (q & _ & HM); auto using width_good. eauto.
Qed.
Print Assumptions C42_conversion_state.

(** ** C43: "src:TRIM-WIDTH#n:dst" writes the longest prefix of the text whose width is at most [n]. *)
Theorem C43_conversion : forall src dst t8 t16 aw n g s l cps, strict_utf8 t8 -> fresh (via src [trim_mod (Z.of_N aw) (Z.of_N n) g] dst t8 t16) s ->
  chunks l (flat_map (encoded src) cps) -> Forall (reads src) cps -> Forall (writes dst) cps ->
  exists s' p rest w, streams_to s l (flat_map (encoded dst) p) s' /\ cps = p ++ rest /\ total_width aw (map udatum p) w /\ w <= n /\
    forall p' rest' w', cps = p' ++ rest' -> total_width aw (map udatum p') w' -> w' <= n -> exists q, p = p' ++ q.
Proof.
  intros src dst t8 t16 aw n g s l cps Hs HF Hc Hr Hw.
  destruct (via_one_state PTrim get_trim TRIM_WIDTH false (Some trim_init) (trim_create (Z.of_N aw) (Z.of_N n) g) _ (fun _ => eq_refl) (fun _ _ => eq_refl) (trim_good _ _ _) src dst t8 t16 s Hs HF) as (q & (Hq1 & Hq2) & HM).
  destruct (C43_trim aw n g (map udatum cps) (ok_text _ _ Hr)) as (t & p0 & rest0 & w & H1 & H2 & H3 & H4 & H5).
  destruct (app_udatum _ _ _ H2) as (p & rest & E & -> & ->).
  assert (Ei : trim_init q = trim_init (trim_create (Z.of_N aw) (Z.of_N n) g)) by (unfold trim_init, trim_create; cbn; rewrite Hq1, Hq2; reflexivity). rewrite Ei in HM.
  destruct (via_one PTrim get_trim TRIM_WIDTH false (Some trim_init) (trim_create (Z.of_N aw) (Z.of_N n) g) _ (fun _ => eq_refl) (fun _ _ => eq_refl) (trim_good _ _ _) src dst t8 t16 s Hs l cps _ _ p HF Hc Hr HM H1) as (s' & R1 & _).
  { rewrite E in Hw. apply Forall_app in Hw. tauto. }
  exists s', p, rest, w. split; [exact R1|]. split; [exact E|]. split; [exact H3|]. split; [exact H4|].
  intros p' rest' w' E' HT Hle. destruct (H5 (map udatum p') (map udatum rest') w') as (q' & Hq'); [rewrite E', map_app; reflexivity|exact HT|exact Hle|].
  exists (skipn (length p') p). assert (Hp : exists a b, p = a ++ b /\ map udatum p' = map udatum a /\ q' = map udatum b) by (apply app_udatum; exact Hq'). destruct Hp as (a & b & -> & Ha & _).
  assert (Hla : length a = length p') by (apply (f_equal (@length _)) in Ha; rewrite !map_length in Ha; auto).
  assert (a = p'). { rewrite E' in E. rewrite <- app_assoc in E. clear - E Hla. revert p' rest' E Hla. induction a as [|x a IH]; intros [|y p'] rest' E Hla; try discriminate; [reflexivity|]. cbn in E. injection E as -> E. f_equal. cbn in Hla. eapply IH; [exact E|lia]. }
  subst a. rewrite skipn_app, skipn_all, Nat.sub_diag. reflexivity.
Qed.
Print Assumptions C43_conversion.

(** ** C44: "src:AMBIGUOUS-PAD:dst" puts a no-break space after every ambiguous character; adding AMBIGUOUS-UNPAD removes them again. *)
Lemma padded_text cps ps : padded (map udatum cps) ps -> exists out, ps = map udatum out.
Proof.
  remember (map udatum cps) as ds eqn:E. intros H. revert cps E. induction H as [|d ds ps Ha H IH|d ds ps Ha H IH]; intros [|c cps] E; try discriminate; [exists []; reflexivity| |];
  cbn in E; injection E as E1 E2; destruct (IH _ E2) as (out & ->); [exists (c :: 0xA0 :: out)|exists (c :: out)]; cbn [map]; rewrite E1; reflexivity.
Qed.
Theorem C44_conversion : forall src dst t8 t16 g s l cps, strict_utf8 t8 -> fresh (via src [pad_mod g] dst t8 t16) s ->
  chunks l (flat_map (encoded src) cps) -> Forall (reads src) cps ->
  exists out, padded (map udatum cps) (map udatum out) /\ (Forall (writes dst) out -> exists s', streams_to s l (flat_map (encoded dst) out) s').
Proof.
  intros src dst t8 t16 g s l cps Hs HF Hc Hr.
  destruct (via_one_state PPad get_pad AMBIGUOUS_PAD false (Some pad_init) g _ (fun _ => eq_refl) (fun _ _ => eq_refl) (pad_good _) src dst t8 t16 s Hs HF) as (q & _ & HM).
  destruct (C44_pad q (map udatum cps) (ok_text _ _ Hr)) as (ps & H1 & H2 & _). destruct (padded_text _ _ H2) as (out & ->). exists out. split; [exact H2|]. intros Hw.
  destruct (via_one PPad get_pad AMBIGUOUS_PAD false (Some pad_init) g _ (fun _ => eq_refl) (fun _ _ => eq_refl) (pad_good _) src dst t8 t16 s Hs l cps _ _ out HF Hc Hr HM H1 Hw) as (s' & R1 & _). eauto.
Qed.
Print Assumptions C44_conversion.
Theorem C44_conversion_round_trip : forall src dst t8 t16 g g' s l cps, strict_utf8 t8 -> fresh (via src [pad_mod g; unpad_mod g'] dst t8 t16) s ->
  chunks l (flat_map (encoded src) cps) -> Forall (reads src) cps -> Forall (writes dst) cps -> exists s', streams_to s l (flat_map (encoded dst) cps) s'.
Proof.
  intros src dst t8 t16 g g' s l cps Hs HF Hc Hr Hw.
  destruct (via_two_state PPad get_pad AMBIGUOUS_PAD false (Some pad_init) g _ (fun _ => eq_refl) (fun _ _ => eq_refl) (pad_good _) src dst t8 t16 s Hs PUnpad get_unpad AMBIGUOUS_UNPAD false (Some unpad_init) g' _ (fun _ => eq_refl) (fun _ _ => eq_refl) (unpad_good _) HF) as ((q & _ & HM) & q2 & _ & HM2).
  destruct (C44_pad q (map udatum cps) (ok_text _ _ Hr)) as (ps & H1 & H2 & _).
  pose proof (C44_unpad q2 _ _ (ok_text _ _ Hr) (udatum_text cps) H2) as H3.
  destruct (via_two PPad get_pad AMBIGUOUS_PAD false (Some pad_init) g _ (fun _ => eq_refl) (fun _ _ => eq_refl) (pad_good _) src dst t8 t16 s Hs PUnpad get_unpad AMBIGUOUS_UNPAD false (Some unpad_init) g' _ (fun _ => eq_refl) (fun _ _ => eq_refl) (unpad_good _) l cps _ _ _ _ _ cps HF Hc Hr HM HM2 H1 H3 Hw) as (s' & R1 & _). eauto.
Qed.
Print Assumptions C44_conversion_round_trip.

(** ** C40: Hangul. *)
Theorem C40_decompose_conversion : forall src dst t8 t16 s l cps ds, strict_utf8 t8 -> fresh (via src [hdecomp_mod] dst t8 t16) s ->
  chunks l (flat_map (encoded src) cps) -> Forall (reads src) cps -> decomposed cps ds -> Forall (writes dst) ds -> exists s', streams_to s l (flat_map (encoded dst) ds) s'.
Proof.
  intros src dst t8 t16 s l cps ds Hs HF Hc Hr HD Hw.
  destruct (via_one_state put_unit get_unit HANGUL_DECOMPOSITION false None tt (fun _ => True) ltac:(intros []; reflexivity) (fun _ _ => eq_refl) hdecomp_good src dst t8 t16 s Hs HF) as ([] & _ & HM).
  destruct (via_one put_unit get_unit HANGUL_DECOMPOSITION false None tt (fun _ => True) ltac:(intros []; reflexivity) (fun _ _ => eq_refl) hdecomp_good src dst t8 t16 s Hs l cps tt tt ds HF Hc Hr HM) as (s' & R1 & _); [|exact Hw|eauto].
  apply C40_decompose; [eapply lt_text; exact Hr|exact HD].
Qed.
Print Assumptions C40_decompose_conversion.
Theorem C40_compose_conversion : forall src dst t8 t16 g s l cps ds, strict_utf8 t8 -> fresh (via src [hcomp_mod g] dst t8 t16) s ->
  chunks l (flat_map (encoded src) cps) -> Forall (reads src) cps -> composed cps ds -> Forall (writes dst) ds -> exists s', streams_to s l (flat_map (encoded dst) ds) s'.
Proof.
  intros src dst t8 t16 g s l cps ds Hs HF Hc Hr HD Hw.
  destruct (via_one_state PHc get_hc HANGUL_COMPOSITION true (Some hcomp_init) g _ (fun _ => eq_refl) ltac:(discriminate) (hcomp_good _) src dst t8 t16 s Hs HF) as (q & _ & HM).
  destruct (C40_compose cps ds (hcomp_init q) (lt_text _ _ Hr) eq_refl HD) as (r' & H1 & _).
  destruct (via_one PHc get_hc HANGUL_COMPOSITION true (Some hcomp_init) g _ (fun _ => eq_refl) ltac:(discriminate) (hcomp_good _) src dst t8 t16 s Hs l cps _ _ ds HF Hc Hr HM H1 Hw) as (s' & R1 & _). eauto.
Qed.
Print Assumptions C40_compose_conversion.
(** Decomposing and composing in one conversion gives back every text without bare vowel and final jamo. *)
Theorem C40_conversion_round_trip : forall src dst t8 t16 g s l cps, strict_utf8 t8 -> fresh (via src [hdecomp_mod; hcomp_mod g] dst t8 t16) s ->
  chunks l (flat_map (encoded src) cps) -> Forall (reads src) cps -> Forall (writes dst) cps -> Forall (fun c => ~ vowel c /\ ~ final c) cps ->
  exists s', streams_to s l (flat_map (encoded dst) cps) s'.
Proof.
  intros src dst t8 t16 g s l cps Hs HF Hc Hr Hw HV.
  destruct (via_two_state put_unit get_unit HANGUL_DECOMPOSITION false None tt (fun _ => True) ltac:(intros []; reflexivity) (fun _ _ => eq_refl) hdecomp_good src dst t8 t16 s Hs PHc get_hc HANGUL_COMPOSITION true (Some hcomp_init) g _ (fun _ => eq_refl) ltac:(discriminate) (hcomp_good _) HF) as (([] & _ & HM) & q & _ & HM2).
  destruct (C40_decomposed_exists cps) as (ds & Hd & _). pose proof (C40_decompose cps ds (lt_text _ _ Hr) Hd) as H1.
  destruct (C40_restores cps ds (hcomp_init q) (lt_text _ _ Hr) eq_refl HV H1) as (r' & H2 & _).
  { clear - Hd Hr. apply lt_text in Hr. induction Hd as [|l v t cs ds Hl Hv Ht Hd IH|c cs ds Hn Hd IH]; [constructor| |]; inversion Hr as [|? ? H1 H2]; subst.
    - apply Forall_app. split; [|apply IH; exact H2]. unfold jamo. destruct (t =? 0); repeat constructor; lia.
    - constructor; [exact H1|apply IH; exact H2]. }
  destruct (via_two put_unit get_unit HANGUL_DECOMPOSITION false None tt (fun _ => True) ltac:(intros []; reflexivity) (fun _ _ => eq_refl) hdecomp_good src dst t8 t16 s Hs PHc get_hc HANGUL_COMPOSITION true (Some hcomp_init) g _ (fun _ => eq_refl) ltac:(discriminate) (hcomp_good _) l cps _ _ _ _ _ cps HF Hc Hr HM HM2 H1 H2 Hw) as (s' & R1 & _). eauto.
Qed.
Print Assumptions C40_conversion_round_trip.

(** ** C41: canonical ordering. *)
Theorem C41_conversion : forall src dst t8 t16 s l cps, strict_utf8 t8 -> fresh (via src [order_mod] dst t8 t16) s -> module_state s 2 (PMarks []) ->
  chunks l (flat_map (encoded src) cps) -> Forall (reads src) cps -> Forall (writes dst) cps ->
  exists s' out, streams_to s l (flat_map (encoded dst) out) s' /\ reordered (map udatum cps) (map udatum out) /\ Permutation cps out /\ module_state s' 2 (PMarks []).
Proof.
  intros src dst t8 t16 s l cps Hs HF HM Hc Hr Hw. destruct (C41_order (map udatum cps) (ok_text _ _ Hr)) as (os & H1 & H2 & _ & HP).
  destruct (Permutation_map_inv udatum cps (Permutation_sym HP)) as (out & -> & HP2).
  destruct (via_one PMarks get_marks ORDER true None [] _ (fun _ => eq_refl) ltac:(discriminate) order_good src dst t8 t16 s Hs l cps _ _ out HF Hc Hr HM H1) as (s' & R1 & R2).
  { eapply Permutation_Forall; [|exact Hw]. exact HP2. }
  exists s', out. auto.
Qed.
Print Assumptions C41_conversion.

(** ** C48: COUNT, PASS and SCORE in a conversion. *)
Theorem C48_count_conversion : forall src dst t8 t16 f n0 s l cps n k, strict_utf8 t8 -> fresh (via src [count_mod f n0] dst t8 t16) s -> module_state s 2 (PNum n) ->
  chunks l (flat_map (encoded src) cps) -> Forall (reads src) cps -> Forall (writes dst) cps -> counts (fun d => accepts f d = true) k (map udatum cps) ->
  exists s', streams_to s l (flat_map (encoded dst) cps) s' /\ module_state s' 2 (PNum (n + k)).
Proof.
  intros src dst t8 t16 f n0 s l cps n k Hs HF HM Hc Hr Hw Hk.
  apply (via_one PNum get_num (COUNT f) false None n0 _ (fun _ => eq_refl) (fun _ _ => eq_refl) (count_good _ _) src dst t8 t16 s Hs l cps n _ cps HF Hc Hr HM); [|exact Hw]. apply C48_count. exact Hk.
Qed.
Print Assumptions C48_count_conversion.
Theorem C48_pass_conversion : forall src dst t8 t16 f lim g s l cps, strict_utf8 t8 -> fresh (via src [pass_mod f lim g] dst t8 t16) s ->
  chunks l (flat_map (encoded src) cps) -> Forall (reads src) cps -> Forall (writes dst) cps -> exists s', streams_to s l (flat_map (encoded dst) cps) s'.
Proof.
  intros src dst t8 t16 f lim g s l cps Hs HF Hc Hr Hw.
  destruct (via_one_state PNum get_num (PASS f lim) false (Some (fun _ => 0)) g _ (fun _ => eq_refl) (fun _ _ => eq_refl) (pass_good _ _ _) src dst t8 t16 s Hs HF) as (q & _ & HM).
  destruct (C48_pass f lim (map udatum cps) 0) as (n' & H1).
  destruct (via_one PNum get_num (PASS f lim) false (Some (fun _ => 0)) g _ (fun _ => eq_refl) (fun _ _ => eq_refl) (pass_good _ _ _) src dst t8 t16 s Hs l cps _ _ cps HF Hc Hr HM H1 Hw) as (s' & R1 & _). eauto.
Qed.
Print Assumptions C48_pass_conversion.
Theorem C48_score_conversion : forall src dst t8 t16 f n0 s l cps n, strict_utf8 t8 -> fresh (via src [score_mod f n0] dst t8 t16) s -> module_state s 2 (PNum n) ->
  chunks l (flat_map (encoded src) cps) -> Forall (reads src) cps -> Forall (writes dst) cps ->
  exists s', streams_to s l (flat_map (encoded dst) cps) s' /\ module_state s' 2 (PNum (n + fold_right N.add 0 (map f (map udatum cps)))).
Proof.
  intros src dst t8 t16 f n0 s l cps n Hs HF HM Hc Hr Hw.
  apply (via_one PNum get_num (SCORE f) false None n0 _ (fun _ => eq_refl) (fun _ _ => eq_refl) (score_good _ _) src dst t8 t16 s Hs l cps n _ cps HF Hc Hr HM); [|exact Hw]. apply C48_score.
Qed.
Print Assumptions C48_score_conversion.

(** The hypotheses can be met: there are such instances, and their counters are those given at creation. *)
Theorem C48_conversion_state : forall src dst t8 t16 f n0, strict_utf8 t8 -> exists s, fresh (via src [count_mod f n0] dst t8 t16) s /\ module_state s 2 (PNum n0).
Proof.
  intros src dst t8 t16 f n0 Hs.
  destruct (via_created src dst t8 t16 [(count_mod f n0, JP PNum (fun _ => True))] Hs) as (s & HF & HM); [intros y [<-|[]]; apply star_fst_ok; auto using count_good|].
  exists s. split; [exact HF|]. exact (HM 0%nat _ eq_refl).
Qed.
Print Assumptions C48_conversion_state.
Theorem C41_conversion_state : forall src dst t8 t16, strict_utf8 t8 -> exists s, fresh (via src [order_mod] dst t8 t16) s /\ module_state s 2 (PMarks []).
Proof.
  intros src dst t8 t16 Hs.
  destruct (via_created src dst t8 t16 [(order_mod, JP PMarks (Forall (fun x => ne (snd x))))] Hs) as (s & HF & HM); [intros y [<-|[]]; apply star_fst_ok; auto using order_good; discriminate|].
  exists s. split; [exact HF|]. exact (HM 0%nat _ eq_refl).
Qed.
Print Assumptions C41_conversion_state.

(** ** Beside the theorems: concrete conversions *)
Definition seen_via (src : charset) (ms : list (ecodec priv)) (dst : charset) (h : list call) : option (list N * list N * nat * nat) :=
  match bsdconv_init priv (via src ms dst mem8 mem16) with
  | None => None
  | Some s => option_map (fun x => (snd x, pending priv (fst x), i_ierr priv (fst x), i_oerr priv (fst x))) (run_hist priv 3000 s h)
  end.
(** "A가é" to UTF-16BE through decomposition, cut inside the characters; and through both. *)
Example C40_ex_decompose : seen_via UTF8 [hdecomp_mod] UTF16BE [give [0x41; 0xEA] false; give [0xB0; 0x80; 0xC3] false; give [0xA9] true] = Some ([0; 0x41; 0x11; 0; 0x11; 0x61; 0; 0xE9], [], 0%nat, 0%nat).
Proof. vm_compute. reflexivity. Qed.
Example C40_ex_both : seen_via UTF8 [hdecomp_mod; hcomp_mod (mkHc 2 9)] UTF16BE [give [0x41; 0xEA] false; give [0xB0; 0x80; 0xC3] false; give [0xA9] true] = Some ([0; 0x41; 0xAC; 0; 0; 0xE9], [], 0%nat, 0%nat).
Proof. vm_compute. reflexivity. Qed.
Example C40_ex_hyps : Forall (reads UTF8) [0x41; 0xAC00; 0xE9] /\ Forall (writes UTF16BE) [0x41; 0xAC00; 0xE9] /\ Forall (fun c => ~ vowel c /\ ~ final c) [0x41; 0xAC00; 0xE9] /\
  chunks [(Some [0x41; 0xEA], OAuto 0); (Some [0xB0; 0x80; 0xC3], OAuto 0); (Some [0xA9], OAuto 0)] (flat_map (encoded UTF8) [0x41; 0xAC00; 0xE9]).
Proof.
  split; [repeat constructor; cbn; lia|]. split; [repeat constructor; cbn; lia|]. split; [repeat (apply Forall_cons; [split; intros (x & Hx); lia|]); apply Forall_nil|].
  split; [discriminate|]. split; [repeat constructor|reflexivity].
Qed.
(** Three combining marks in the wrong order: U+0301 (230), U+0323 (220), U+0345 (240) after "a". *)
Example C41_ex : seen_via UTF8 [order_mod] UTF16BE [give [0x61; 0xCD; 0x85; 0xCC] false; give [0x81; 0xCC; 0xA3] true] = Some ([0; 0x61; 3; 0x23; 3; 1; 3; 0x45], [], 0%nat, 0%nat).
Proof. vm_compute. reflexivity. Qed.
(** The order module has no cbinit: a mark still held when a stream is abandoned (no flush) comes out in the next stream,
    in spite of bsdconv_init. *)
Theorem C41_conversion_abandoned_refuted : exists i s1 s2 s3,
  bsdconv_init priv (via UTF8 [order_mod] UTF8 mem8 mem16) = Some i /\ run_hist priv 3000 i [give [0xCC; 0x81] false] = Some (s1, []) /\
  bsdconv_init priv s1 = Some s2 /\ run_hist priv 3000 s2 [give [0x62] true] = Some (s3, [0xCC; 0x81; 0x62]).
Proof.
  assert (H : match bsdconv_init priv (via UTF8 [order_mod] UTF8 mem8 mem16) with
    | Some i => match run_hist priv 3000 i [give [0xCC; 0x81] false] with
      | Some (s1, o1) => match bsdconv_init priv s1 with
        | Some s2 => match run_hist priv 3000 s2 [give [0x62] true] with Some (_, o2) => Some (o1, o2) | None => None end
        | None => None end
      | None => None end
    | None => None end = Some ([], [0xCC; 0x81; 0x62])) by (vm_compute; reflexivity).
  destruct (bsdconv_init priv (via UTF8 [order_mod] UTF8 mem8 mem16)) as [i|]; [|discriminate].
  destruct (run_hist priv 3000 i [give [0xCC; 0x81] false]) as [[s1 o1]|] eqn:E1; [|discriminate].
  destruct (bsdconv_init priv s1) as [s2|] eqn:E2; [|discriminate].
  destruct (run_hist priv 3000 s2 [give [0x62] true]) as [[s3 o2]|] eqn:E3; [|discriminate].
  pose proof (f_equal (option_map fst) H) as H1. pose proof (f_equal (option_map snd) H) as H2. cbn in H1, H2. assert (o1 = []) by congruence. assert (o2 = [0xCC; 0x81; 0x62]) by congruence. subst.
  exists i, s1, s2, s3. auto.
Qed.
Print Assumptions C41_conversion_abandoned_refuted.
Example C42_ex : option_map (fun r => let s := fst r in match nth_error (i_phases priv s) 2 with Some th => map (fun cd => e_priv cd) (p_codecs priv th) | None => [] end)
  (match bsdconv_init priv (via UTF8 [width_mod (mkW 5 0 0)] UTF8 mem8 mem16) with Some s => run_hist priv 3000 s [give [0x41; 0xE4; 0xB8; 0xAD; 0xC2; 0xB1] true] | None => None end)
  = Some [PWidth (mkW 6 1 1)].
Proof. vm_compute. reflexivity. Qed.
Example C43_ex : seen_via UTF8 [trim_mod 1 3 77] UTF8 [give [0x41; 0xE4; 0xB8; 0xAD; 0x42; 0x43] true] = Some ([0x41; 0xE4; 0xB8; 0xAD], [], 0%nat, 0%nat).
Proof. vm_compute. reflexivity. Qed.
Example C44_ex : seen_via UTF8 [pad_mod true] UTF8 [give [0x41; 0xC2; 0xB1; 0x42] true] = Some ([0x41; 0xC2; 0xB1; 0xC2; 0xA0; 0x42], [], 0%nat, 0%nat).
Proof. vm_compute. reflexivity. Qed.

(** Theorems about fallback codecs (C55). *)
From Verif Require Import Base Types M_Engine M_Output M_Mktable M_Create M_Callback M_Modules M_Hex M_Fallback S_Session S_Rest S_Engine S_Dict S_Source S_Hex S_Convert S_Fallback
  P_Trans P_Engine1 P_Dict P_Convert P_Session P_Session2 P_Session3 P_CbSession P_Unicode P_Pair P_Hex P_EngineEx P_Fallback P_Create.

(** Input the conversion decodes: bytes, and no decoding phase without a fallback meets a symbol it cannot read. *)
Definition readable (c : list fb_source) (W : list N) : Prop := byte_data W /\ exists out oe, run_fb (fb_meaning c) [W] out 0 oe.

(** C55: in every phase that ends with a fallback exactly the symbols (bytes for a decoder, data otherwise) that no other codec of the
    phase matches are replaced by the fallback's data, one replacement each; everything else is converted as without it.  For every
    earlier use of the instance, every division of the input into calls and all lossless output modes. *)
Theorem C55_fallback_conversion : forall c s l out oe, fb_ok c -> resting true (fb_inst c) (readable c) s -> l <> [] -> Forall (fun x => lossless (snd x)) l ->
  byte_data (concat (inputs l)) -> run_fb (fb_meaning c) [concat (inputs l)] out 0 oe ->
  exists s' got, runs_to s (stream_calls l) s' got /\ got ++ pending priv s' = pending priv s ++ concat out /\
    i_ierr priv s' = i_ierr priv s /\ i_oerr priv s' = i_oerr priv s + oe /\ resting true (fb_inst c) (readable c) s'.
Proof.
  intros c s l out oe Hc HR Hne Hll HB HX. pose proof HR as HR0. rewrite <- fb_inst_is in HR.
  assert (HP : forall W o e, byte_data W -> run_fb (fb_meaning c) [W] o 0 e -> pipeline (cb_pipe (fb_conv c)) W = (o, 0, e)).
  { intros W o e HW Ho. rewrite fb_pipe_is by (intros t ess fb Hin; exact (proj1 (fo_types _ Hc _ _ _ Hin))). unfold pipeline. exact (run_fb_pipe c Hc c (incl_refl c) _ _ _ _ Ho (Forall_cons _ HW (Forall_nil _)) 0 0). }
  assert (HQ : cquiet (fb_conv c) s).
  { refine (resting_quiet (fb_conv c) (fb_conv_ok c Hc) true (readable c) (fun _ => fb_restores c) _ s HR). intros W (HW & o & e & Ho). exists o, e. apply HP; assumption. }
  destruct (cstream (fb_conv c) (fb_conv_ok c Hc) s l out oe HQ Hne Hll (HP _ _ _ HB HX)) as (s' & got & R1 & R2 & R3 & R4 & _).
  exists s', got. repeat (split; [assumption|]). eapply re_stream; try eassumption. split; [exact HB|eauto].
Qed.
Print Assumptions C55_fallback_conversion.

(** If all decoding phases have a fallback every byte string is converted, without input errors; if all encoding phases have one there
    are no output errors either.  The result is unique. *)
Theorem C55_everything_converts : forall c s l, fb_ok c -> covered FROM (fb_meaning c) -> resting true (fb_inst c) (readable c) s -> l <> [] -> Forall (fun x => lossless (snd x)) l ->
  byte_data (concat (inputs l)) ->
  exists out oe s' got, run_fb (fb_meaning c) [concat (inputs l)] out 0 oe /\ (covered TO (fb_meaning c) -> oe = 0) /\
    runs_to s (stream_calls l) s' got /\ got ++ pending priv s' = pending priv s ++ concat out /\
    i_ierr priv s' = i_ierr priv s /\ i_oerr priv s' = i_oerr priv s + oe /\ resting true (fb_inst c) (readable c) s'.
Proof.
  intros c s l Hc HC HR Hne Hll HB. destruct (run_fb_total c Hc c (incl_refl c) [concat (inputs l)]) as (out & ie & oe & H1 & H2 & H3). rewrite (H2 HC) in H1.
  destruct (C55_fallback_conversion c s l out oe Hc HR Hne Hll HB H1) as (s' & got & R1 & R2 & R3 & R4 & R5). exists out, oe, s', got. auto 10.
Qed.
Print Assumptions C55_everything_converts.
Theorem C55_result_unique : forall c ds out ie oe out' ie' oe', run_fb c ds out ie oe -> run_fb c ds out' ie' oe' -> out = out' /\ ie = ie' /\ oe = oe'.
Proof. intros c ds out ie oe out' ie' oe' H H'. exact (run_fb_det _ _ _ _ _ H _ _ _ H'). Qed.
Print Assumptions C55_result_unique.

(** Adding fallbacks to decoders and encoders changes nothing for input that converts without errors. *)
Definition without (c : list fb_phase) : list phase_desc := map fst c.
Theorem C55_convertible_unchanged : forall c ds out, (forall Ds d, ~ In (INTER, Ds, Some d) c) -> (forall t Ds fb, In (t, Ds, fb) c -> t = FROM \/ t = INTER \/ t = TO) ->
  run_conv (without c) ds out 0 0 -> run_fb c ds out 0 0.
Proof.
  assert (HP : forall t Ds d ds out e, (t = FROM \/ t = TO) -> run_phase t Ds ds out e -> e = 0 -> substitutes t Ds d ds out).
  { intros t Ds d ds out e Ht. induction 1 as [|ds n o out e Hc H IH|x ds out e E Hu H IH|x ds out e E Hu H IH|ds k out e E Hne Hu Hd H IH]; intros E0; try discriminate.
    - constructor.
    - eapply sb_match; [exact Hc|]. apply IH. exact E0.
    - subst t. destruct Ht; discriminate. }
  assert (HG : forall c ds out ie oe, (forall Ds d, ~ In (INTER, Ds, Some d) c) -> (forall t Ds fb, In (t, Ds, fb) c -> t = FROM \/ t = INTER \/ t = TO) ->
    run_conv (without c) ds out ie oe -> ie = 0 -> oe = 0 -> run_fb c ds out 0 0).
  2:{ intros c ds out Hi Ht H. exact (HG c ds out 0 0 Hi Ht H eq_refl eq_refl). }
  induction c as [|[[t Ds] fb] c IH]; intros ds out ie0 oe0 Hi Ht H Ei Eo; cbn in H.
  - inversion H; subst. constructor.
  - inversion H as [|t' Ds' r ds' mid out' e ie oe Hp Hr Et Ed Eo' E1 E2]. subst t' Ds' r ds' out'. rewrite Ei in E1. rewrite Eo in E2. clear H Ei Eo ie0 oe0.
    assert (He : e = 0 \/ t = INTER) by (destruct (Ht t Ds fb (or_introl eq_refl)) as [->|[-> | ->]]; [left; lia|right; reflexivity|left; lia]).
    assert (Hie : ie = 0 /\ oe = 0) by (destruct t; lia). destruct Hie as (Hie & Hoe).
    assert (HX : run_fb c mid out 0 0). { apply (IH mid out ie oe); [intros Ds0 d0 Hin; apply (Hi Ds0 d0); right; exact Hin|intros t0 Ds0 f0 Hin; apply (Ht t0 Ds0 f0); right; exact Hin|exact Hr|exact Hie|exact Hoe]. }
    destruct fb as [d|].
    + destruct (Ht t Ds _ (or_introl eq_refl)) as [->|[-> | ->]].
      * eapply fb_subst; [|exact HX]. eapply HP; [auto|exact Hp|]. destruct He; [assumption|discriminate].
      * exfalso. apply (Hi Ds d). left. reflexivity.
      * eapply fb_subst; [|exact HX]. eapply HP; [auto|exact Hp|]. destruct He; [assumption|discriminate].
    + pose proof (fb_plain t Ds c ds mid out e 0 0 Hp HX) as K. assert (E3 : (match t with FROM => e | _ => 0 end) = 0) by (destruct t; lia). assert (E4 : (match t with TO => e | _ => 0 end) = 0) by (destruct t; lia). rewrite E3, E4 in K. exact K.
Qed.
Print Assumptions C55_convertible_unchanged.

(** Input errors are still counted by a first decoder without a fallback (one call, one decoder). *)
Theorem C55_errors_counted : forall c s0 s W m out ie oe, fb_ok c -> used (fb_inst c) s0 -> bsdconv_init priv s0 = Some s -> lossless m -> byte_data W ->
  (forall i ess fb, nth_error c i = Some (FROM, ess, fb) -> i = 0) -> run_fb (fb_meaning c) [W] out ie oe ->
  exists s' got, runs_to s [mkCall (Some (W, [])) true m] s' got /\ got ++ pending priv s' = concat out /\ i_ierr priv s' = i_ierr priv s + ie /\ i_oerr priv s' = i_oerr priv s + oe.
Proof.
  intros c s0 s W m out ie oe Hc HU Hi Hm HB Hone HX. rewrite <- fb_inst_is in HU. destruct (creinit (fb_conv c) (fb_conv_ok c Hc) s0 HU (fb_restores c)) as (s1 & E1 & HQ & _ & _ & Hpd). assert (s1 = s) by congruence. subst s1.
  assert (HP : pipeline (cb_pipe (fb_conv c)) W = (out, ie, oe)).
  { rewrite fb_pipe_is by (intros t ess fb Hin; exact (proj1 (fo_types _ Hc _ _ _ Hin))). exact (run_fb_pipe c Hc c (incl_refl c) _ _ _ _ HX (Forall_cons _ HB (Forall_nil _)) 0 0). }
  destruct (cstream1 (fb_conv c) (fb_conv_ok c Hc) s W m out ie oe HQ) as (s' & got & R1 & R2 & R3 & R4 & _).
  - eapply init_queue0. exact Hi.
  - exact Hm.
  - intros t l x Hin Hx. destruct (fb_in _ _ _ Hin) as (ess & fb & _ & ->). eapply fb_eof. exact Hx.
  - intros i l H. unfold fb_conv in H. rewrite nth_error_map in H. destruct (nth_error c i) as [[[t ess] fb]|] eqn:E; [|discriminate]. cbn in H. injection H as -> _. exact (Hone _ _ _ E).
  - exact HP.
  - exists s', got. rewrite Hpd in R2. auto.
Qed.
Print Assumptions C55_errors_counted.

(** ** The data of the fallback, from its arguments *)
Lemma r_not_hex c : lower c = "r"%char -> c <> "."%char /\ hexval c = None.
Proof. destruct c as [[] [] [] [] [] [] [] []]; vm_compute; intros H; try discriminate H; split; congruence. Qed.
Lemma same_word_in : forall w a x, same_word a w = true -> In x w -> exists y, In y a /\ lower y = lower x.
Proof.
  induction w as [|z w IH]; intros a x H Hx; [destruct Hx|]. destruct a as [|y a]; [discriminate|]. cbn in H. apply andb_prop in H as (H1 & H2). apply Ascii.eqb_eq in H1.
  destruct Hx as [->|Hx]; [exists y; split; [left; reflexivity|exact H1]|]. destruct (IH a x H2 Hx) as (y' & I1 & I2). exists y'. split; [right; exact I1|exact I2].
Qed.
Lemma same_word_len : forall w a, same_word a w = true -> length a = length w.
Proof. induction w as [|z w IH]; intros a H; destruct a; try discriminate; [reflexivity|]. cbn in H |- *. apply andb_prop in H as (_ & H). rewrite (IH _ H). reflexivity. Qed.
Lemma hex_chars k d : hexdenotes k d -> forall c, In c k -> hexval c <> None.
Proof. induction 1 as [|c1 c2 h1 h2 s d E1 E2 H IH]; intros c Hc; [destruct Hc|]. destruct Hc as [<-|[<-|Hc]]; [congruence|congruence|apply IH; exact Hc]. Qed.
Lemma join_chars : forall ks c, In c (join_dot ks) -> c = "."%char \/ exists k, In k ks /\ In c k.
Proof.
  induction ks as [|k ks IH]; intros c Hc; [destruct Hc|]. destruct ks as [|k2 ks].
  - right. exists k. split; [left; reflexivity|exact Hc].
  - change (join_dot (k :: k2 :: ks)) with (k ++ "."%char :: join_dot (k2 :: ks)) in Hc. apply in_app_or in Hc as [Hc|[<-|Hc]]; [right; exists k; split; [left; reflexivity|exact Hc]|left; reflexivity|].
    destruct (IH c Hc) as [->|(k' & K1 & K2)]; [left; reflexivity|right; exists k'; split; [right; exact K1|exact K2]].
Qed.
Lemma hex_no_word ks ds w : Forall2 hexdenotes ks ds -> In "R"%char w -> same_word (join_dot ks) w = false.
Proof.
  intros HF HR. destruct (same_word (join_dot ks) w) eqn:E; [|reflexivity]. exfalso. destruct (same_word_in _ _ _ E HR) as (y & Hy & Ey). change (lower "R") with "r"%char in Ey. destruct (r_not_hex y Ey) as (N1 & N2).
  destruct (join_chars _ _ Hy) as [->|(k & K1 & K2)]; [congruence|]. clear -HF K1 K2 N2. induction HF as [|a b l l' H _ IH]; [destruct K1|]. destruct K1 as [->|K1]; [exact (hex_chars _ _ H _ K2 N2)|exact (IH K1)].
Qed.
(** C55: without data arguments the fallback puts out a question mark; DROP (in any case of letters) puts out nothing; data written as
    hexadecimal numbers separated by dots are put out; ERROR changes nothing about the data. *)
Theorem C55_arguments : forall t err drop ks ds, same_word err (list_ascii_of_string "ERROR") = true -> same_word drop (list_ascii_of_string "DROP") = true ->
  ks <> [] -> ks <> [[]] -> Forall2 hexdenotes ks ds ->
  any_args (any_default t) [] = Some (Some (any_default t)) /\ any_args (any_default t) [err] = Some (Some (any_default t)) /\
  any_args (any_default t) [drop] = Some (Some []) /\
  any_args (any_default t) [join_dot ks] = Some (Some ds) /\ any_args (any_default t) [join_dot ks; err] = Some (Some ds) /\ any_args (any_default t) [err; join_dot ks] = Some (Some ds).
Proof.
  intros t err drop ks ds He Hd H1 H2 HF. assert (Hde : same_word drop (list_ascii_of_string "ERROR") = false).
  { destruct (same_word drop (list_ascii_of_string "ERROR")) eqn:E; [|reflexivity]. apply same_word_len in E, Hd. cbn in E, Hd. lia. }
  assert (K1 : same_word (join_dot ks) (list_ascii_of_string "ERROR") = false) by (eapply hex_no_word; [exact HF|cbn; auto]).
  assert (K2 : same_word (join_dot ks) (list_ascii_of_string "DROP") = false) by (eapply hex_no_word; [exact HF|cbn; auto]).
  assert (K3 : str2data (Some (join_dot ks)) = DOk ds) by (apply str2data_ok; assumption).
  split; [reflexivity|]. split; [cbn [any_args]; rewrite He; reflexivity|]. split; [cbn [any_args]; rewrite Hde, Hd; reflexivity|].
  split; [cbn [any_args]; rewrite K1, K2, K3; reflexivity|]. split; cbn [any_args]; rewrite He, K1, K2, K3; reflexivity.
Qed.
Print Assumptions C55_arguments.

(** ** An example: the conversion "ASCII,3F:ASCII,3F" (3F = ANY#013F&ERROR when decoding, ANY#3F&ERROR when encoding). *)
Definition ascii_3f : list fb_source := [(FROM, [ascii_from_src], Some (any_default FROM)); (TO, [ascii_to_src], Some (any_default TO))].
Lemma ascii_3f_ok : fb_ok ascii_3f.
Proof.
  constructor.
  - eexists _, _, _. reflexivity.
  - intros t ess fb [H|[H|[]]]; injection H as <- <- <-; (split; [auto|left; discriminate]).
  - intros [|[|i]] ess fb ess' fb' H; [discriminate|discriminate|destruct i; discriminate].
  - intros t ess fb [H|[H|[]]]; injection H as <- <- <-; (constructor; [|constructor]); [apply P_Ascii.ascii_from_entries|apply P_Ascii.ascii_to_entries].
  - intros t ess fb es w o [H|[H|[]]]; injection H as <- <- <-; intros [<-|[]]; [apply ascii_from_sub|apply ascii_to_sub].
  - intros t ess d [H|[H|[]]]; injection H as <- <- <-; repeat constructor.
Qed.
Example C55_example_hypotheses : fb_ok ascii_3f /\ covered FROM (fb_meaning ascii_3f) /\ covered TO (fb_meaning ascii_3f) /\ exists s, resting true (fb_inst ascii_3f) (readable ascii_3f) s.
Proof.
  split; [exact ascii_3f_ok|]. split; [intros Ds fb [H|[H|[]]]; [apply (f_equal snd) in H; cbn in H; subst fb; discriminate|discriminate H]|]. split; [intros Ds fb [H|[H|[]]]; [discriminate H|apply (f_equal snd) in H; cbn in H; subst fb; discriminate]|].
  destruct (resting_exists (fb_conv ascii_3f) (fb_conv_ok _ ascii_3f_ok) true (readable ascii_3f)) as (s & _ & H & _). exists s. rewrite fb_inst_is in H. exact H.
Qed.
(** "A", FF, "B", 80, 81 becomes "A?B??" by the specification ... *)
Definition by_fb (c : list fb_phase) (W : list N) := fold_left (fun x ph => apply_phase ph x) (map fb_psem c) ([W], 0, 0).
Example C55_example_result : run_fb (fb_meaning ascii_3f) [[0x41; 0xFF; 0x42; 0x80; 0x81]]%N [[0x41]; [0x3F]; [0x42]; [0x3F]; [0x3F]]%N 0 0.
Proof.
  destruct (run_fb_total ascii_3f ascii_3f_ok ascii_3f (incl_refl _) [[0x41; 0xFF; 0x42; 0x80; 0x81]]%N) as (out & ie & oe & H & _).
  pose proof (run_fb_pipe ascii_3f ascii_3f_ok ascii_3f (incl_refl _) _ _ _ _ H (ltac:(repeat constructor)) 0 0) as E. change (fold_left _ _ _) with (by_fb (fb_meaning ascii_3f) [0x41; 0xFF; 0x42; 0x80; 0x81]%N) in E. cbn [plus] in E.
  assert (E2 : by_fb (fb_meaning ascii_3f) [0x41; 0xFF; 0x42; 0x80; 0x81]%N = ([[0x41]; [0x3F]; [0x42]; [0x3F]; [0x3F]]%N, 0, 0)) by (vm_compute; reflexivity). rewrite E in E2. injection E2 as -> -> ->. exact H.
Qed.
(** ... and by the engine, in two calls. *)
Example C55_example_run : match bsdconv_init priv (fb_inst ascii_3f) with
  | Some s => option_map (fun x => (snd x ++ pending priv (fst x), i_ierr priv (fst x), i_oerr priv (fst x))) (run_hist priv 200 s (stream_calls [(Some [0x41; 0xFF; 0x42], OHold); (Some [0x80; 0x81], OHold)]%N))
  | None => None end = Some ([0x41; 0x3F; 0x42; 0x3F; 0x3F]%N, 0, 0).
Proof. vm_compute. reflexivity. Qed.
Example C55_example_arguments : any_args (any_default FROM) (map list_ascii_of_string ["01FFFD"]%string) = Some (Some [[1; 0xFF; 0xFD]]%N) /\ any_args (any_default FROM) (map list_ascii_of_string ["013F"; "ERROR"]%string) = Some (Some [[1; 0x3F]]%N) /\
  any_args (any_default TO) (map list_ascii_of_string ["drop"]%string) = Some (Some []) /\ any_args (any_default TO) (map list_ascii_of_string ["xyz"]%string) = None.
Proof. vm_compute. auto. Qed.

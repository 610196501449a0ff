(** Theorems about intermediate modules at the callback interface: WIDTH, TRIM-WIDTH, padding, INSERT, REPLACE, COUNT,
    PASS, SCORE (C42-C44, C47, C48).  [star_stream m s ds]: the private state and the data after the module has been
    given the data [ds] of a complete stream, in a phase of its own; [star_feed]: without the end of the stream. *)
From Verif Require Import Base Types M_Engine M_Star M_Filter M_Inter S_Ranges S_Inter D_Ranges P_Inter.
Local Open Scope N_scope.

Lemma stream_of {S} (m : star S) s ds s' o : star_feed m s false ds = Some (s', false, o) -> star_stream m s ds = Some (s', o).
Proof. intros H. unfold star_stream. rewrite H. reflexivity. Qed.

(** C42: the text passes unchanged and each counter grows by the number of characters of its class. *)
Theorem C42_width : forall ds w f h a, Forall okbytes ds ->
  counts (in_class 2) f ds -> counts (in_class 1) h ds -> counts (in_class 3) a ds ->
  star_stream WIDTH w ds = Some (mkW (w_full w + f) (w_half w + h) (w_ambi w + a), ds).
Proof. intros ds w f h a Hd Hf Hh Ha. apply stream_of. rewrite width_feed by auto. erewrite wcount_spec by eassumption. reflexivity. Qed.
Print Assumptions C42_width.
(** Such numbers exist and are unique for every text and class, and a character has at most one class. *)
Theorem C42_counts : forall k ds, Forall okbytes ds -> exists n, counts (in_class k) n ds /\ forall m, counts (in_class k) m ds -> m = n.
Proof.
  intros k ds Hd. assert (H : exists n, counts (in_class k) n ds).
  { induction Hd as [|d ds Hd _ (n & IH)]; [exists 0; constructor|]. destruct (class_dec k d Hd); [exists (n + 1)|exists n]; constructor; assumption. }
  destruct H as (n & H). exists n. split; [assumption|]. intros m Hm. eapply counts_fun; eassumption.
Qed.
Print Assumptions C42_counts.
Theorem C42_one_class : forall j k d, in_class j d -> in_class k d -> j = k.
Proof. exact class_unique. Qed.
Print Assumptions C42_one_class.
(** Independent of how the text is split over streams. *)
Theorem C42_split : forall ds es w w1 o1, star_stream WIDTH w ds = Some (w1, o1) ->
  star_stream WIDTH w (ds ++ es) = match star_stream WIDTH w1 es with Some (w2, o2) => Some (w2, o1 ++ o2) | None => None end.
Proof.
  intros ds es w w1 o1 H. unfold star_stream in *. rewrite width_feed in * by auto. injection H as <- <-. rewrite width_feed by auto.
  assert (E : forall l m v, wcount v (l ++ m) = wcount (wcount v l) m) by (induction l as [|x l IH]; intros; [reflexivity|apply IH]). rewrite E. reflexivity.
Qed.
Print Assumptions C42_split.
Example C42_ex : star_stream WIDTH (mkW 0 0 0) [[1; 0x41]; [1; 0x4E; 0x00]; [1; 0xA1]; [3; 0x41]] =
  Some (mkW 1 1 1, [[1; 0x41]; [1; 0x4E; 0x00]; [1; 0xA1]; [3; 0x41]]).
Proof. vm_compute. reflexivity. Qed.

(** C43: after initialisation with width [n], the output is the longest prefix of the text whose width is at most [n]
    ([aw]: 1, or 2 with AMBI-AS-WIDE). *)
Theorem C43_trim : forall aw n garbage ds, Forall okbytes ds ->
  exists t p rest w, star_stream TRIM_WIDTH (trim_init (trim_create (Z.of_N aw) (Z.of_N n) garbage)) ds = Some (t, p) /\
    ds = p ++ rest /\ total_width aw p w /\ w <= n /\
    (forall p' rest' w', ds = p' ++ rest' -> total_width aw p' w' -> w' <= n -> exists q, p = p' ++ q).
Proof.
  intros aw n g ds Hd. destruct (trim_feed aw (Z.of_N n) ds (Z.of_N n) false (or_intror eq_refl)) as (t & Ht).
  destruct (tprefix_spec aw ds (Z.of_N n) ltac:(lia)) as (rest & H1 & H2 & H3).
  exists t, (tprefix aw (Z.of_N n) ds), rest, (twidth aw (tprefix aw (Z.of_N n) ds)).
  split; [apply stream_of; exact Ht|]. split; [assumption|].
  assert (Hp : Forall okbytes (tprefix aw (Z.of_N n) ds)) by (rewrite H1 in Hd; apply Forall_app in Hd; tauto).
  split; [apply twidth_spec; auto|]. split; [lia|]. intros p' rest' w' E T Hw.
  assert (Hp' : Forall okbytes p') by (rewrite E in Hd; apply Forall_app in Hd; tauto).
  apply twidth_spec in T; [|assumption]. subst w'. apply (H3 p' rest' E). lia.
Qed.
Print Assumptions C43_trim.
Example C43_ex : star_stream TRIM_WIDTH (trim_init (trim_create 1 4 77)) [[1; 0x41]; [1; 0x4E; 0x00]; [1; 0x4E; 0x01]; [1; 0x41]] =
  Some (mkTrim 1 4 (-1), [[1; 0x41]; [1; 0x4E; 0x00]]).
Proof. vm_compute. reflexivity. Qed.

(** C44: AMBIGUOUS-PAD puts a no-break space after each ambiguous character and nowhere else... *)
Theorem C44_pad : forall dopad ds, Forall okbytes ds ->
  exists ps, star_stream AMBIGUOUS_PAD (pad_init dopad) ds = Some (true, ps) /\ padded ds ps /\ forall ps', padded ds ps' -> ps' = ps.
Proof.
  intros b ds Hd. exists (pad_all ds). split; [apply stream_of, pad_feed; auto|]. split; [apply pad_padded; assumption|].
  intros ps' H. eapply padded_fun; [eassumption|apply pad_padded; assumption].
Qed.
Print Assumptions C44_pad.
(** ... and on Unicode text AMBIGUOUS-UNPAD removes exactly these. *)
Theorem C44_unpad : forall s ds ps, Forall okbytes ds -> Forall unicode_datum ds -> padded ds ps ->
  star_stream AMBIGUOUS_UNPAD (unpad_init s) ps = Some (mkUnpad false true, ds).
Proof.
  intros s ds ps Hd Hu H. rewrite (padded_fun _ _ _ H (pad_padded _ Hd)). destruct (unpad_padded ds Hu false (or_intror eq_refl)) as (p & Hp & ->).
  apply stream_of. exact Hp.
Qed.
Print Assumptions C44_unpad.
(** Without the restriction to Unicode data it is false: UNPAD deletes the other data (modules/inter/AMBIGUOUS-UNPAD.c:
    the else branch of line 44 copies nothing); and on text that was not padded it deletes characters that are not
    directly behind an ambiguous one, even those that merely begin with the byte A0. *)
Theorem C44_other_data_refuted : ~ (forall ds ps, Forall okbytes ds -> padded ds ps ->
  star_stream AMBIGUOUS_UNPAD (unpad_init (mkUnpad false false)) ps = Some (mkUnpad false true, ds)).
Proof.
  intros H. specialize (H [[3; 0x80]] [[3; 0x80]]). assert (E : star_stream AMBIGUOUS_UNPAD (unpad_init (mkUnpad false false)) [[3; 0x80]] = Some (mkUnpad false true, [])) by reflexivity.
  rewrite E in H. discriminate H; [repeat constructor|].
  constructor; [|constructor]. intros (c & (l & Hl & _) & _). discriminate.
Qed.
Print Assumptions C44_other_data_refuted.
Theorem C44_unpadded_text_refuted : exists ds, Forall unicode_datum ds /\
  star_stream AMBIGUOUS_UNPAD (unpad_init (mkUnpad false false)) ds = Some (mkUnpad false true, [[1; 0xA1]; [1; 0x41]]) /\
  ds = [[1; 0xA1]; [1; 0x41]; [1; 0xA0; 0x00]].
Proof.
  exists [[1; 0xA1]; [1; 0x41]; [1; 0xA0; 0x00]]. split; [|split; [vm_compute; reflexivity|reflexivity]].
  repeat constructor; eexists; eexists; reflexivity.
Qed.
Print Assumptions C44_unpadded_text_refuted.
Example C44_ex : star_stream AMBIGUOUS_PAD true [[1; 0x41]; [1; 0xA1]; [1; 0xA1]] = Some (true, [[1; 0x41]; [1; 0xA1]; [1; 0xA0]; [1; 0xA1]; [1; 0xA0]]) /\
  star_stream AMBIGUOUS_UNPAD (mkUnpad false true) [[1; 0x41]; [1; 0xA1]; [1; 0xA0]; [1; 0xA1]; [1; 0xA0]] = Some (mkUnpad false true, [[1; 0x41]; [1; 0xA1]; [1; 0xA1]]).
Proof. vm_compute. split; reflexivity. Qed.

(** C48: COUNT passes every datum unchanged and in order, and adds the number of data its filter accepts; PASS, alone
    in its phase, passes everything, whatever its filter and limit; SCORE adds the scores. *)
Theorem C48_count : forall f ds n k, counts (fun d => accepts f d = true) k ds -> star_stream (COUNT f) n ds = Some (n + k, ds).
Proof. intros f ds n k H. apply stream_of. apply count_feed; auto. Qed.
Print Assumptions C48_count.
Theorem C48_pass : forall f limit ds n, exists n', star_stream (PASS f limit) n ds = Some (n', ds).
Proof. intros f limit ds n. destruct (pass_feed f limit ds n) as (n' & H). exists n'. apply stream_of. exact H. Qed.
Print Assumptions C48_pass.
Theorem C48_score : forall f ds n, star_stream (SCORE f) n ds = Some (n + fold_right N.add 0 (map f ds), ds).
Proof.
  intros f ds n. apply stream_of. rewrite score_feed. reflexivity.
Qed.
Print Assumptions C48_score.
Example C48_ex : star_stream (COUNT (Some (fun d => match d with 1 :: _ => true | _ => false end))) 5 [[1; 0x41]; [3; 0x80]; [1; 0x42]] = Some (7, [[1; 0x41]; [3; 0x80]; [1; 0x42]]).
Proof. reflexivity. Qed.

(** Editing functions, whitespace, alias loop. *)
From Verif Require Import Base Types M_ConvString S_ConvString P_ConvString.
From Coq Require Import ZifyBool ZifyNat.

(** ** index arithmetic *)
Lemma phase_index_in_range len n : in_range len n ->
  (get_phase_index (Z.of_nat len) n - 1 = Z.of_nat (position len n))%Z /\ position len n < len.
Proof.
  unfold in_range, get_phase_index, position. intros H.
  destruct (n >=? Z.of_nat len)%Z eqn:E; [lia|].
  destruct (n <? 0)%Z eqn:E0.
  - rewrite Z.rem_small by lia. rewrite Z2Nat.id by lia. lia.
  - rewrite Z.rem_mod_nonneg by lia.
    replace (n + Z.of_nat len)%Z with (n + 1 * Z.of_nat len)%Z by lia.
    rewrite Z.mod_add by lia. rewrite Z.mod_small by lia. rewrite Z2Nat.id by lia. lia.
Qed.

Lemma codec_index_in_range len n : in_range len n ->
  (get_codec_index (Z.of_nat len) n = Z.of_nat (position len n))%Z /\ position len n < len.
Proof.
  intros H. pose proof (phase_index_in_range len n H) as [E L]. split; [|exact L].
  rewrite <- E. unfold get_phase_index, get_codec_index, in_range in *.
  destruct (n >=? Z.of_nat len)%Z eqn:E1; lia.
Qed.

Lemma phase_index_above len n : (Z.of_nat len <= n)%Z -> (get_phase_index (Z.of_nat len) n - 1 = Z.of_nat len)%Z.
Proof. intros H. unfold get_phase_index. destruct (n >=? Z.of_nat len)%Z eqn:E; lia. Qed.
Lemma codec_index_above len n : (Z.of_nat len <= n)%Z -> (get_codec_index (Z.of_nat len) n = Z.of_nat len)%Z.
Proof. intros H. unfold get_codec_index. destruct (n >=? Z.of_nat len)%Z eqn:E; lia. Qed.

Lemma zindex_nat {A} (l : list A) k : k < length l -> zindex l (Z.of_nat k) = Val k.
Proof.
  intros H. unfold zindex. replace ((0 <=? Z.of_nat k) && (Z.of_nat k <? Z.of_nat (length l)))%Z with true by lia.
  f_equal. lia.
Qed.
Lemma zindex_len {A} (l : list A) : zindex l (Z.of_nat (length l)) = UB.
Proof.
  unfold zindex. replace ((0 <=? Z.of_nat (length l)) && (Z.of_nat (length l) <? Z.of_nat (length l)))%Z with false by lia.
  reflexivity.
Qed.
Lemma zinsert_nat {A} (l : list A) k v : k <= length l -> zinsert l (Z.of_nat k) v = Val (insert_at k v l).
Proof.
  intros H. unfold zinsert, insert_at.
  replace ((0 <=? Z.of_nat k) && (Z.of_nat k <=? Z.of_nat (length l)))%Z with true by lia.
  rewrite Nat2Z.id. reflexivity.
Qed.

Lemma set_nth_replace {A} i (v : A) l : i < length l -> set_nth i v l = replace_at i v l.
Proof.
  unfold replace_at. revert i; induction l as [|x l IH]; intros i H; cbn in H; [lia|].
  destruct i as [|i]; [reflexivity|]. cbn. f_equal. apply IH. lia.
Qed.

(** Every index outside -len..len-1 that the wrap-around cannot serve is an out-of-bounds access. *)
Lemma phase_index_below len n : 0 < len -> (n < - Z.of_nat len)%Z ->
  (get_phase_index (Z.of_nat len) n - 1 <= 0)%Z /\
  ((get_phase_index (Z.of_nat len) n - 1 = 0)%Z <-> (Z.rem n (Z.of_nat len) = 0)%Z).
Proof.
  intros Hl H. unfold get_phase_index. destruct (n >=? Z.of_nat len)%Z eqn:E; [lia|].
  assert (Hr : (Z.rem (n + Z.of_nat len) (Z.of_nat len) = Z.rem n (Z.of_nat len))%Z).
  { pose proof (Z.rem_opp_l (- (n + Z.of_nat len)) (Z.of_nat len) ltac:(lia)) as K1.
    rewrite Z.opp_involutive in K1. rewrite K1.
    pose proof (Z.rem_opp_l (- n) (Z.of_nat len) ltac:(lia)) as K2.
    rewrite Z.opp_involutive in K2. rewrite K2. f_equal.
    rewrite !Z.rem_mod_nonneg by lia.
    replace (- n)%Z with (- (n + Z.of_nat len) + 1 * Z.of_nat len)%Z by lia.
    rewrite Z.mod_add by lia. reflexivity. }
  rewrite Hr.
  assert (Z.rem n (Z.of_nat len) <= 0)%Z by (apply Z.rem_nonpos; lia). split; [lia|]. lia.
Qed.

(** ** generic packing of a one-segment shaped list *)
Lemma emit_raw x : emit_codec (mkCodec x None) = x.
Proof.
  unfold emit_codec. cbn [desc argv]. rewrite emit_members_sepby by apply split_nonempty.
  rewrite <- (sepby_split "," x) at 2. f_equal. rewrite <- (map_id (split "," x)) at 2.
  apply map_ext. intros t. cbn. apply app_nil_r.
Qed.

Definition ptext (p : phase) : str := emit_codecs true (codecs p).

Lemma emit_rest_colon ps : (forall p, In p ps -> ptyp p = INTER \/ ptyp p = TO) ->
  emit_phases false ps = concat (map (fun p => ":"%char :: ptext p) ps).
Proof.
  induction ps as [|p ps IH]; intros H; [reflexivity|]. cbn [emit_phases map concat].
  rewrite IH by (intros q Hq; apply H; right; exact Hq).
  destruct (H p) as [-> | ->]; [left; reflexivity| |]; reflexivity.
Qed.

Lemma sepby_concat c x l : sepby c (x :: l) = x ++ concat (map (fun y => c :: y) l).
Proof.
  revert x; induction l as [|y l IH]; intros x; [cbn; rewrite app_nil_r; reflexivity|].
  rewrite sepby_cons by discriminate. rewrite IH. reflexivity.
Qed.

Lemma pack_one_segment ps : (forall p, In p (tl ps) -> ptyp p = INTER \/ ptyp p = TO) ->
  pack ps = sepby ":" (map ptext ps).
Proof.
  destruct ps as [|p ps]; [reflexivity|]. cbn [tl]. intros H. unfold pack. cbn [emit_phases app map].
  rewrite emit_rest_colon by exact H. rewrite sepby_concat, map_map. reflexivity.
Qed.

Lemma ptext_raw t x : ptext (mkPhase t [mkCodec x None]) = x.
Proof. unfold ptext. cbn [codecs]. cbn [emit_codecs app]. rewrite emit_raw. apply app_nil_r. Qed.

Definition args_nonempty (s : a_segment) : Prop := forall p c, In p s -> In c p -> argv c <> Some [].

Lemma norm_phase_id p : (forall c, In c p -> argv c <> Some []) -> norm_phase p = p.
Proof.
  intros H. unfold norm_phase. rewrite <- (map_id p) at 2. apply map_ext_in. intros c Hc.
  specialize (H c Hc). destruct c as [d [[|x a]|]]; try reflexivity. exfalso; apply H; reflexivity.
Qed.

Lemma phases_of_one s : phases_of [s] = phases_of_segment s.
Proof. unfold phases_of. cbn. apply app_nil_r. Qed.

Lemma map_codecs_phases_of_segment s : map codecs (phases_of_segment s) = s.
Proof.
  rewrite phases_of_segment_alt. rewrite map_map. cbn [codecs fst snd].
  assert (forall (ts : list ptype) (l : a_segment), length ts = length l ->
     map (fun x : ptype * list codec => snd x) (combine ts l) = l) as K.
  { induction ts as [|t ts IH]; intros [|y l] H; cbn in *; try discriminate; [reflexivity|].
    f_equal. apply IH. lia. }
  apply K. apply seg_roles_length.
Qed.

Lemma ptexts_phases_of_segment s : wf_segment s -> args_nonempty s ->
  map ptext (phases_of_segment s) = map write_phase s.
Proof.
  intros [_ Hw] Ha. rewrite <- (map_codecs_phases_of_segment s) at 2. rewrite map_map.
  apply map_ext_in. intros p Hp. unfold ptext.
  assert (Hin : In (codecs p) s).
  { rewrite <- (map_codecs_phases_of_segment s). apply in_map. exact Hp. }
  rewrite emit_codecs_wf by (apply Hw; exact Hin). rewrite norm_phase_id; [reflexivity|].
  intros c Hc. eapply Ha; eauto.
Qed.

Lemma phases_of_segment_length s : length (phases_of_segment s) = length s.
Proof. rewrite <- (map_codecs_phases_of_segment s) at 2. rewrite map_length. reflexivity. Qed.

Lemma tl_phases_of_segment s p : In p (tl (phases_of_segment s)) -> ptyp p = INTER \/ ptyp p = TO.
Proof.
  rewrite phases_of_segment_alt. destruct s as [|q s]; [intros []|].
  destruct (combine_cons_roles q s) as (t & ts & E & Hl & Hts & Ht). rewrite E. cbn [combine map tl].
  intros H. apply in_map_iff in H as [[t' c] [<- H]]. cbn [ptyp fst]. apply Hts.
  eapply in_combine_l. exact H.
Qed.

Lemma map_insert_at {A B} (f : A -> B) i x l : map f (insert_at i x l) = insert_at i (f x) (map f l).
Proof. unfold insert_at. rewrite map_app, firstn_map. cbn [map]. rewrite skipn_map. reflexivity. Qed.
Lemma map_replace_at {A B} (f : A -> B) i x l : map f (replace_at i x l) = replace_at i (f x) (map f l).
Proof. unfold replace_at. rewrite map_app, firstn_map. cbn [map]. rewrite skipn_map. reflexivity. Qed.

Lemma tl_insert_at {A} i (x : A) l y : 0 < i -> i <= length l -> In y (tl (insert_at i x l)) -> y = x \/ In y (tl l).
Proof.
  unfold insert_at. destruct i as [|i]; [lia|]. intros _. destruct l as [|z l]; cbn; [lia|]. intros _ H.
  apply in_app_or in H as [H|[H|H]]; [right|left; congruence|right].
  - rewrite <- (firstn_skipn i l). apply in_or_app. left. exact H.
  - rewrite <- (firstn_skipn i l). apply in_or_app. right. exact H.
Qed.
Lemma tl_replace_at {A} i (x : A) l y : In y (tl (replace_at i x l)) -> (0 < i /\ y = x) \/ In y (tl l).
Proof.
  unfold replace_at. destruct i as [|i]; destruct l as [|z l]; cbn; intros H.
  - destruct H.
  - right; exact H.
  - destruct H.
  - apply in_app_or in H as [H|[H|H]].
    + right. rewrite <- (firstn_skipn i l). apply in_or_app. left. exact H.
    + left. split; [lia|congruence].
    + right. rewrite <- (firstn_skipn (S i) l). apply in_or_app. right. exact H.
Qed.

(** ** the four editing functions *)
Theorem insert_phase_in_range s x t n ps :
  unpack s = Some ps -> in_range (length ps) n ->
  insert_phase s x t n = Val (Some (pack (insert_at (position (length ps) n) (mkPhase t [mkCodec x None]) ps))).
Proof.
  intros E H. unfold insert_phase. rewrite E. destruct (phase_index_in_range _ _ H) as [-> L].
  rewrite zinsert_nat by lia. reflexivity.
Qed.

Theorem insert_phase_append s x t n ps :
  unpack s = Some ps -> (Z.of_nat (length ps) <= n)%Z ->
  insert_phase s x t n = Val (Some (pack (ps ++ [mkPhase t [mkCodec x None]]))).
Proof.
  intros E H. unfold insert_phase. rewrite E, phase_index_above by exact H.
  rewrite zinsert_nat by lia. unfold insert_at. rewrite firstn_all, skipn_all. reflexivity.
Qed.

Theorem replace_phase_in_range s x t n ps :
  unpack s = Some ps -> in_range (length ps) n ->
  replace_phase s x t n = Val (Some (pack (replace_at (position (length ps) n) (mkPhase t [mkCodec x None]) ps))).
Proof.
  intros E H. unfold replace_phase. rewrite E. destruct (phase_index_in_range _ _ H) as [-> L].
  rewrite zindex_nat by exact L. rewrite set_nth_replace by exact L. reflexivity.
Qed.

Theorem replace_phase_above s x t n ps :
  unpack s = Some ps -> (Z.of_nat (length ps) <= n)%Z -> replace_phase s x t n = UB.
Proof.
  intros E H. unfold replace_phase. rewrite E, phase_index_above by exact H. rewrite zindex_len. reflexivity.
Qed.

Theorem insert_codec_in_range s x np nc ps p :
  unpack s = Some ps -> in_range (length ps) np ->
  nth_error ps (position (length ps) np) = Some p -> in_range (length (codecs p)) nc ->
  insert_codec s x np nc = Val (Some (pack (replace_at (position (length ps) np)
     (mkPhase (ptyp p) (insert_at (position (length (codecs p)) nc) (mkCodec x None) (codecs p))) ps))).
Proof.
  intros E H Ep Hc. unfold insert_codec. rewrite E. destruct (phase_index_in_range _ _ H) as [-> L].
  rewrite zindex_nat by exact L. rewrite Ep. destruct (codec_index_in_range _ _ Hc) as [-> Lc].
  rewrite zinsert_nat by lia. rewrite set_nth_replace by exact L. reflexivity.
Qed.

Theorem insert_codec_append s x np nc ps p :
  unpack s = Some ps -> in_range (length ps) np ->
  nth_error ps (position (length ps) np) = Some p -> (Z.of_nat (length (codecs p)) <= nc)%Z ->
  insert_codec s x np nc = Val (Some (pack (replace_at (position (length ps) np)
     (mkPhase (ptyp p) (codecs p ++ [mkCodec x None])) ps))).
Proof.
  intros E H Ep Hc. unfold insert_codec. rewrite E. destruct (phase_index_in_range _ _ H) as [-> L].
  rewrite zindex_nat by exact L. rewrite Ep. rewrite codec_index_above by exact Hc.
  rewrite zinsert_nat by lia. rewrite set_nth_replace by exact L. unfold insert_at.
  rewrite firstn_all, skipn_all. reflexivity.
Qed.

Theorem replace_codec_in_range s x np nc ps p :
  unpack s = Some ps -> in_range (length ps) np ->
  nth_error ps (position (length ps) np) = Some p -> in_range (length (codecs p)) nc ->
  replace_codec s x np nc = Val (Some (pack (replace_at (position (length ps) np)
     (mkPhase (ptyp p) (replace_at (position (length (codecs p)) nc) (mkCodec x None) (codecs p))) ps))).
Proof.
  intros E H Ep Hc. unfold replace_codec. rewrite E. destruct (phase_index_in_range _ _ H) as [-> L].
  rewrite zindex_nat by exact L. rewrite Ep. destruct (codec_index_in_range _ _ Hc) as [-> Lc].
  rewrite zindex_nat by exact Lc. rewrite !set_nth_replace by assumption. reflexivity.
Qed.

(** Text-level versions for a conversion of one segment. *)
Theorem insert_phase_text seg x n :
  wf [seg] -> args_nonempty seg -> in_range (length seg) n -> 0 < position (length seg) n ->
  insert_phase (write [seg]) x INTER n
  = Val (Some (sepby ":" (insert_at (position (length seg) n) x (map write_phase seg)))).
Proof.
  intros Hw Ha Hr Hp. pose proof (proj1 (wf_alt _) Hw) as [_ Hs].
  assert (Hseg : wf_segment seg) by (apply Hs; left; reflexivity).
  pose proof (unpack_write _ Hw) as E. rewrite phases_of_one in E.
  rewrite (insert_phase_in_range _ x INTER n _ E) by (rewrite phases_of_segment_length; exact Hr).
  rewrite phases_of_segment_length. f_equal. f_equal. rewrite pack_one_segment.
  - rewrite map_insert_at, ptext_raw, ptexts_phases_of_segment by assumption. reflexivity.
  - intros p H. apply tl_insert_at in H; [|exact Hp|].
    + destruct H as [-> | H]; [left; reflexivity|]. eapply tl_phases_of_segment; exact H.
    + rewrite phases_of_segment_length. apply Nat.lt_le_incl. eapply phase_index_in_range. exact Hr.
Qed.

Theorem replace_phase_text seg x t n :
  wf [seg] -> args_nonempty seg -> in_range (length seg) n ->
  (position (length seg) n = 0 \/ t = INTER \/ t = TO) ->
  replace_phase (write [seg]) x t n
  = Val (Some (sepby ":" (replace_at (position (length seg) n) x (map write_phase seg)))).
Proof.
  intros Hw Ha Hr Hp. pose proof (proj1 (wf_alt _) Hw) as [_ Hs].
  assert (Hseg : wf_segment seg) by (apply Hs; left; reflexivity).
  pose proof (unpack_write _ Hw) as E. rewrite phases_of_one in E.
  rewrite (replace_phase_in_range _ x t n _ E) by (rewrite phases_of_segment_length; exact Hr).
  rewrite phases_of_segment_length. f_equal. f_equal. rewrite pack_one_segment.
  - rewrite map_replace_at, ptext_raw, ptexts_phases_of_segment by assumption. reflexivity.
  - intros p H. apply tl_replace_at in H as [[H1 ->] | H].
    + cbn [ptyp]. destruct Hp as [Hp|Hp]; [lia|exact Hp].
    + eapply tl_phases_of_segment; exact H.
Qed.

Lemma sepby_emit_codecs p cs : wf_phase p -> (forall c, In c p -> argv c <> Some []) ->
  cs <> [] -> (forall c, In c cs -> In c p \/ argv c = None) ->
  emit_codecs true cs = sepby "," (map (fun c => match argv c with None => desc c | _ => write_codec c end) cs).
Proof.
  intros [_ Hw] Ha Hne H. rewrite emit_codecs_sepby by exact Hne. f_equal. apply map_ext_in. intros c Hc.
  destruct (H c Hc) as [Hi | Hn].
  - rewrite emit_codec_wf by (apply Hw; exact Hi).
    specialize (Ha c Hi). destruct c as [d [[|y a]|]]; try reflexivity.
    + exfalso; apply Ha; reflexivity.
    + unfold write_codec, norm_codec. cbn. apply app_nil_r.
  - destruct c as [d a]. cbn [argv] in Hn. subst a. apply emit_raw.
Qed.

Lemma nth_error_phases_of_segment s i p : nth_error (phases_of_segment s) i = Some p ->
  nth_error s i = Some (codecs p).
Proof.
  intros H. rewrite <- (map_codecs_phases_of_segment s). rewrite nth_error_map, H. reflexivity.
Qed.

Lemma nth_error_phases_of_segment' s i cs : nth_error s i = Some cs ->
  exists p, nth_error (phases_of_segment s) i = Some p /\ codecs p = cs.
Proof.
  intros H. rewrite <- (map_codecs_phases_of_segment s) in H. rewrite nth_error_map in H.
  destruct (nth_error (phases_of_segment s) i) as [p|]; [|discriminate]. injection H as H. exists p. auto.
Qed.

Lemma in_replace_at {A} i (x : A) l y : In y (replace_at i x l) -> y = x \/ In y l.
Proof.
  unfold replace_at. intros H. apply in_app_or in H as [H|[H|H]]; [right|left; congruence|right].
  - rewrite <- (firstn_skipn i l). apply in_or_app. left. exact H.
  - rewrite <- (firstn_skipn (S i) l). apply in_or_app. right. exact H.
Qed.
Lemma in_insert_at {A} i (x : A) l y : In y (insert_at i x l) -> y = x \/ In y l.
Proof.
  unfold insert_at. intros H. apply in_app_or in H as [H|[H|H]]; [right|left; congruence|right].
  - rewrite <- (firstn_skipn i l). apply in_or_app. left. exact H.
  - rewrite <- (firstn_skipn i l). apply in_or_app. right. exact H.
Qed.

Lemma replace_phase_role seg i p cs : nth_error (phases_of_segment seg) i = Some p ->
  forall q, In q (tl (replace_at i (mkPhase (ptyp p) cs) (phases_of_segment seg))) -> ptyp q = INTER \/ ptyp q = TO.
Proof.
  intros Hp q H. apply tl_replace_at in H as [[Hi ->]|H].
  - cbn [ptyp]. destruct i as [|i]; [lia|]. apply tl_phases_of_segment with (s := seg).
    destruct (phases_of_segment seg) as [|z zs]; [discriminate|]. cbn in *. eapply nth_error_In. exact Hp.
  - eapply tl_phases_of_segment; exact H.
Qed.

Definition codec_texts (p : a_phase) : list str := map write_codec p.

Lemma codec_texts_alt p : 
  map (fun c => match argv c with None => desc c | _ => write_codec c end) p = codec_texts p.
Proof.
  apply map_ext. intros [d [a|]]; [reflexivity|]. unfold write_codec. cbn. rewrite app_nil_r. reflexivity.
Qed.

Lemma insert_at_nonempty {A} i (x : A) l : insert_at i x l <> [].
Proof. unfold insert_at. destruct (firstn i l); discriminate. Qed.
Lemma replace_at_nonempty {A} i (x : A) l : replace_at i x l <> [].
Proof. unfold replace_at. destruct (firstn i l); discriminate. Qed.

Theorem insert_codec_text seg x np nc cs :
  wf [seg] -> args_nonempty seg -> in_range (length seg) np ->
  nth_error seg (position (length seg) np) = Some cs -> in_range (length cs) nc ->
  insert_codec (write [seg]) x np nc
  = Val (Some (sepby ":" (replace_at (position (length seg) np)
       (sepby "," (insert_at (position (length cs) nc) x (codec_texts cs))) (map write_phase seg)))).
Proof.
  intros Hw Ha Hr Hcs Hrc. pose proof (proj1 (wf_alt _) Hw) as [_ Hs].
  assert (Hseg : wf_segment seg) by (apply Hs; left; reflexivity).
  pose proof (unpack_write _ Hw) as E. rewrite phases_of_one in E.
  destruct (nth_error_phases_of_segment' _ _ _ Hcs) as (p & Hp & Ec).
  rewrite (insert_codec_in_range _ x np nc _ p E); rewrite ?phases_of_segment_length, ?Ec; try assumption.
  f_equal. f_equal. rewrite pack_one_segment by (apply replace_phase_role; exact Hp).
  rewrite map_replace_at, ptexts_phases_of_segment by assumption. f_equal. f_equal.
  unfold ptext. cbn [codecs].
  assert (Hin : In cs seg) by (eapply nth_error_In; exact Hcs).
  rewrite (sepby_emit_codecs cs).
  - rewrite map_insert_at, codec_texts_alt. reflexivity.
  - apply Hseg. exact Hin.
  - intros c Hc. apply (Ha cs c Hin Hc).
  - apply insert_at_nonempty.
  - intros c Hc. apply in_insert_at in Hc as [-> | Hc]; [right; reflexivity|left; exact Hc].
Qed.

Theorem replace_codec_text seg x np nc cs :
  wf [seg] -> args_nonempty seg -> in_range (length seg) np ->
  nth_error seg (position (length seg) np) = Some cs -> in_range (length cs) nc ->
  replace_codec (write [seg]) x np nc
  = Val (Some (sepby ":" (replace_at (position (length seg) np)
       (sepby "," (replace_at (position (length cs) nc) x (codec_texts cs))) (map write_phase seg)))).
Proof.
  intros Hw Ha Hr Hcs Hrc. pose proof (proj1 (wf_alt _) Hw) as [_ Hs].
  assert (Hseg : wf_segment seg) by (apply Hs; left; reflexivity).
  pose proof (unpack_write _ Hw) as E. rewrite phases_of_one in E.
  destruct (nth_error_phases_of_segment' _ _ _ Hcs) as (p & Hp & Ec).
  rewrite (replace_codec_in_range _ x np nc _ p E); rewrite ?phases_of_segment_length, ?Ec; try assumption.
  f_equal. f_equal. rewrite pack_one_segment by (apply replace_phase_role; exact Hp).
  rewrite map_replace_at, ptexts_phases_of_segment by assumption. f_equal. f_equal.
  unfold ptext. cbn [codecs].
  assert (Hin : In cs seg) by (eapply nth_error_In; exact Hcs).
  rewrite (sepby_emit_codecs cs).
  - rewrite map_replace_at, codec_texts_alt. reflexivity.
  - apply Hseg. exact Hin.
  - intros c Hc. apply (Ha cs c Hin Hc).
  - apply replace_at_nonempty.
  - intros c Hc. apply in_replace_at in Hc as [-> | Hc]; [right; reflexivity|left; exact Hc].
Qed.

(** ** whitespace *)
Theorem create_ignores_whitespace f w s s' : strip_ws s = strip_ws s' -> create f w s = create f w s'.
Proof. intros H. unfold create. rewrite H. reflexivity. Qed.

(** ** alias loop *)
Lemma words_nonempty s : words s <> [].
Proof.
  destruct s as [|x s]; cbn; [discriminate|]. destruct (is_delim x); [discriminate|]. destruct (words s); discriminate.
Qed.

Lemma words_app_delim a d b : is_delim d = true -> words (a ++ d :: b) = words a ++ words b.
Proof.
  intros Hd. induction a as [|x a IH]; cbn [app words]; [rewrite Hd; reflexivity|].
  destruct (is_delim x); [rewrite IH; reflexivity|]. rewrite IH.
  destruct (words a) as [|w ws] eqn:E; [exfalso; eapply words_nonempty; eauto|]. reflexivity.
Qed.

Lemma words_free a : (forall x, In x a -> is_delim x = false) -> words a = [a].
Proof.
  induction a as [|x a IH]; intros H; cbn [words]; [reflexivity|].
  rewrite (H x (or_introl eq_refl)). rewrite IH by (intros y Hy; apply H; right; exact Hy). reflexivity.
Qed.

Lemma names_app_delim a d b : is_delim d = true -> names (a ++ d :: b) = names a ++ names b.
Proof. intros H. unfold names. rewrite words_app_delim by exact H. apply map_app. Qed.

Lemma before_hash_app a t : In "#"%char a -> before_hash (a ++ t) = before_hash a.
Proof.
  induction a as [|x a IH]; [intros []|]. intros H. cbn [app before_hash].
  destruct (Ascii.eqb_spec x "#") as [->|Hne]; [reflexivity|]. f_equal. apply IH. destruct H; [congruence|assumption].
Qed.
Lemma before_hash_hash a t : ~ In "#"%char a -> before_hash (a ++ "#"%char :: t) = a.
Proof.
  induction a as [|x a IH]; intros H; cbn [app before_hash]; [reflexivity|].
  destruct (Ascii.eqb_spec x "#") as [->|Hne]; [exfalso; apply H; left; reflexivity|]. f_equal. apply IH.
  intros K; apply H; right; exact K.
Qed.
Lemma before_hash_free a : ~ In "#"%char a -> before_hash a = a.
Proof.
  induction a as [|x a IH]; intros H; cbn [before_hash]; [reflexivity|].
  destruct (Ascii.eqb_spec x "#") as [->|Hne]; [exfalso; apply H; left; reflexivity|]. f_equal. apply IH.
  intros K; apply H; right; exact K.
Qed.

(** appending delimiter-free text extends the last word *)
Lemma words_app_free a t : (forall x, In x t -> is_delim x = false) ->
  exists ws w, words a = ws ++ [w] /\ words (a ++ t) = ws ++ [w ++ t] /\ (forall x, In x w -> In x a).
Proof.
  intros Ht. induction a as [|x a IH]; cbn [app words].
  - exists [], []. rewrite words_free by exact Ht. cbn. repeat split. intros ? [].
  - destruct IH as (ws & w & E1 & E2 & Hin). destruct (is_delim x).
    + exists ([] :: ws), w. rewrite E1, E2. repeat split. intros y Hy. right. apply Hin. exact Hy.
    + rewrite E1, E2. destruct ws as [|v ws]; cbn.
      * exists [], (x :: w). repeat split. intros y [<-|Hy]; [left; reflexivity|right; apply Hin; exact Hy].
      * exists ((x :: v) :: ws), w. repeat split. intros y Hy. right. apply Hin. exact Hy.
Qed.

Lemma arg_suffix_nodelim a t x : (forall b, a = Some b -> free_of ["|"; ":"; ","]%char b) ->
  In x (arg_suffix a t) -> is_delim x = false.
Proof.
  intros H Hx. unfold is_delim. destruct a as [[|y a]|]; [destruct Hx| |destruct Hx].
  specialize (H _ eq_refl). cbn [arg_suffix] in Hx. destruct Hx as [<-|Hx].
  - destruct (has_char "#" t); reflexivity.
  - destruct (Ascii.eqb_spec x "|") as [->|]; [exfalso; eapply H; [|exact Hx]; cbn; tauto|].
    destruct (Ascii.eqb_spec x ":") as [->|]; [exfalso; eapply H; [|exact Hx]; cbn; tauto|].
    destruct (Ascii.eqb_spec x ",") as [->|]; [exfalso; eapply H; [|exact Hx]; cbn; tauto|]. reflexivity.
Qed.

(** a member containing '#' contains no phase separator after it *)
Definition member_ok (t : str) : Prop :=
  In "#"%char t -> exists ws w, words t = ws ++ [w] /\ In "#"%char w.

Lemma before_hash_amp w t : In "#"%char w -> before_hash (w ++ t) = before_hash w.
Proof. apply before_hash_app. Qed.

Lemma names_member a t : (forall b, a = Some b -> free_of ["|"; ":"; ","]%char b) -> member_ok t ->
  names (t ++ arg_suffix a t) = names t.
Proof.
  intros Ha Hm. destruct (words_app_free t (arg_suffix a t)) as (ws & w & E1 & E2 & Hin).
  { intros x Hx. eapply arg_suffix_nodelim; eauto. }
  unfold names. rewrite E1, E2, !map_app. f_equal. cbn [map]. f_equal.
  unfold arg_suffix. destruct a as [[|y a]|]; try (rewrite app_nil_r; reflexivity).
  destruct (has_char "#" t) eqn:Eh.
  - apply has_char_in in Eh. destruct (Hm Eh) as (ws' & w' & E' & Hw').
    rewrite E1 in E'. apply app_inj_tail in E' as [_ ->]. apply before_hash_app. exact Hw'.
  - apply has_char_false in Eh.
    assert (~ In "#"%char w) by (intros K; apply Eh, Hin, K).
    rewrite before_hash_hash by assumption. rewrite before_hash_free by assumption. reflexivity.
Qed.

(** tidy gives member_ok *)
Lemma tidy_from_mono s : tidy_from true s = true -> tidy_from false s = true.
Proof.
  induction s as [|x s IH]; [reflexivity|]. cbn [tidy_from].
  destruct (Ascii.eqb x ","); [auto|]. destruct (Ascii.eqb x "#"); [auto|].
  destruct (is_delim x); cbn; [discriminate|]. exact IH.
Qed.

Lemma tidy_true_no_delim s : ~ In ","%char s -> tidy_from true s = true -> forall x, In x s -> is_delim x = false.
Proof.
  induction s as [|y s IH]; intros Hc H x Hx; [destruct Hx|]. cbn [tidy_from] in H.
  destruct (Ascii.eqb_spec y ",") as [->|Hy]; [exfalso; apply Hc; left; reflexivity|].
  assert (Hc' : ~ In ","%char s) by (intros K; apply Hc; right; exact K).
  destruct (Ascii.eqb_spec y "#") as [->|Hy'].
  - destruct Hx as [<-|Hx]; [reflexivity|]. apply IH; assumption.
  - destruct (is_delim y) eqn:Ed; [discriminate|].
    destruct Hx as [<-|Hx]; [exact Ed|]. apply IH; assumption.
Qed.

Lemma tidy_member_ok s : ~ In ","%char s -> tidy_from false s = true -> member_ok s.
Proof.
  induction s as [|y s IH]; intros Hc H Hin; [destruct Hin|]. cbn [tidy_from] in H.
  destruct (Ascii.eqb_spec y ",") as [->|Hy]; [exfalso; apply Hc; left; reflexivity|].
  assert (Hc' : ~ In ","%char s) by (intros K; apply Hc; right; exact K).
  destruct (Ascii.eqb_spec y "#") as [->|Hy'].
  - exists [], ("#"%char :: s). rewrite words_free.
    + split; [reflexivity|left; reflexivity].
    + intros x [<-|Hx]; [reflexivity|]. eapply tidy_true_no_delim; eauto.
  - destruct Hin as [->|Hin]; [congruence|].
    cbn [words]. destruct (is_delim y) eqn:Ed.
    + cbn in H. destruct (IH Hc' H Hin) as (ws & w & E & Hw).
      exists ([] :: ws), w. rewrite E. split; [reflexivity|exact Hw].
    + destruct (IH Hc' H Hin) as (ws & w & E & Hw). rewrite E. destruct ws as [|v ws]; cbn.
      * exists [], (y :: w). split; [reflexivity|right; exact Hw].
      * exists ((y :: v) :: ws), w. split; [reflexivity|exact Hw].
Qed.

Lemma tidy_from_comma_split h s : tidy_from h s = true ->
  match split "," s with [] => True | t :: ts => tidy_from h t = true /\ forall u, In u ts -> tidy_from false u = true end.
Proof.
  revert h; induction s as [|x s IH]; intros h H; cbn [split].
  - split; [reflexivity|intros ? []].
  - cbn [tidy_from] in H. destruct (Ascii.eqb_spec x ",") as [->|Hx].
    + split; [reflexivity|]. specialize (IH _ H). destruct (split "," s) as [|t ts]; [intros ? []|].
      destruct IH as [H1 H2]. intros u [<-|Hu]; [exact H1|apply H2; exact Hu].
    + assert (Hx' : Ascii.eqb x "," = false) by (apply Ascii.eqb_neq; exact Hx).
      destruct (split "," s) as [|t ts] eqn:E; [exfalso; eapply split_nonempty; eauto|].
      destruct (Ascii.eqb x "#") eqn:Eh; [|destruct (is_delim x) eqn:Ed].
      * destruct (IH _ H) as [H1 H2]. split; [|exact H2]. cbn [tidy_from]. rewrite Hx', Eh. exact H1.
      * apply andb_prop in H as [Hn H]. destruct (IH _ H) as [H1 H2]. split; [|exact H2].
        cbn [tidy_from]. rewrite Hx', Eh, Ed, Hn, H1. reflexivity.
      * destruct (IH _ H) as [H1 H2]. split; [|exact H2]. cbn [tidy_from]. rewrite Hx', Eh, Ed. exact H1.
Qed.

Lemma names_sepby c l : is_delim c = true -> l <> [] -> names (sepby c l) = concat (map names l).
Proof.
  intros Hc. induction l as [|x l IH]; [contradiction|]. intros _. destruct l as [|y l].
  - cbn. rewrite app_nil_r. reflexivity.
  - rewrite sepby_cons by discriminate. rewrite names_app_delim by exact Hc. rewrite IH by discriminate. reflexivity.
Qed.

Definition codec_ok (c : codec) : Prop :=
  tidy (desc c) = true /\ forall a, argv c = Some a -> free_of ["|"; ":"; ","]%char a.

Lemma names_emit_codec c : codec_ok c -> names (emit_codec c) = names (desc c).
Proof.
  intros [Ht Ha]. unfold emit_codec. rewrite emit_members_sepby by apply split_nonempty.
  rewrite names_sepby; [|reflexivity|apply map_neq_nil, split_nonempty].
  rewrite <- (sepby_split "," (desc c)) at 2. rewrite names_sepby; [|reflexivity|apply split_nonempty].
  rewrite map_map. f_equal. apply map_ext_in. intros t Hin. apply names_member; [exact Ha|].
  apply tidy_member_ok; [eapply split_free; exact Hin|].
  pose proof (tidy_from_comma_split false _ Ht) as K. destruct (split "," (desc c)) as [|u us]; [destruct Hin|].
  destruct K as [K1 K2]. destruct Hin as [<-|Hin]; [exact K1|apply K2; exact Hin].
Qed.

Lemma names_pack ps : ps <> [] ->
  (forall p, In p ps -> codecs p <> [] /\ ptyp p <> FILTER /\ ptyp p <> SCORER /\ forall c, In c (codecs p) -> codec_ok c) ->
  names (pack ps) = concat (map (fun p => concat (map (fun c => names (desc c)) (codecs p))) ps).
Proof.
  intros Hne H. unfold pack. destruct ps as [|p ps]; [contradiction|]. clear Hne.
  assert (Hc : forall p, In p ps \/ p = p -> codecs p <> [] -> (forall c, In c (codecs p) -> codec_ok c) ->
     names (emit_codecs true (codecs p)) = concat (map (fun c => names (desc c)) (codecs p))).
  { intros q _ Hq Hk. rewrite emit_codecs_sepby by exact Hq.
    rewrite names_sepby; [|reflexivity|apply map_neq_nil; exact Hq]. rewrite map_map. f_equal.
    apply map_ext_in. intros c Hcc. apply names_emit_codec. apply Hk. exact Hcc. }
  cbn [emit_phases app]. revert p H. induction ps as [|q ps IH]; intros p H.
  - cbn [emit_phases]. rewrite app_nil_r. cbn [map concat]. rewrite app_nil_r. apply Hc; [right; reflexivity| |]; apply H; left; reflexivity.
  - cbn [emit_phases].
    assert (exists d, sep_of (ptyp q) = [d] /\ is_delim d = true) as (d & Ed & Hd).
    { destruct (H q) as (_ & H1 & H2 & _); [right; left; reflexivity|].
      destruct (ptyp q); try contradiction; eexists; split; reflexivity. }
    rewrite Ed. cbn [app]. rewrite names_app_delim by exact Hd.
    rewrite IH.
    + cbn [map concat]. f_equal. apply Hc; [right; reflexivity| |]; apply H; left; reflexivity.
    + intros x Hx. apply Hc. right. reflexivity.
    + intros x Hx. apply H. right. exact Hx.
Qed.

(** Output modes: exactness of each mode, and independence of the engine from the last phase's list. *)
From Verif Require Import Base Types M_Engine M_Output.
From Coq Require Import ZifyBool ZifyN ZifyNat.

(** * Buffers *)
Lemma skipn_skipn {A} : forall a b (l : list A), skipn a (skipn b l) = skipn (b + a) l.
Proof. intros a b. revert a. induction b as [|b IH]; intros a l; [reflexivity|]. destruct l; [rewrite !skipn_nil; reflexivity|]. apply IH. Qed.
Lemma memcpy_at_ok (m : mem) off (d : datum) : off + length d <= length m ->
  memcpy_at m off d = Some (firstn off m ++ map Some d ++ skipn (off + length d) m).
Proof. intros H. unfold memcpy_at. rewrite (proj2 (Nat.leb_le _ _) H). reflexivity. Qed.
Lemma memcpy_at_len m off d m' : memcpy_at m off d = Some m' -> length m' = length m.
Proof.
  unfold memcpy_at. destruct (Nat.leb_spec (off + length d) (length m)); [|discriminate].
  intros E. injection E as <-. rewrite !app_length, map_length, firstn_length, skipn_length. lia.
Qed.
Lemma total_concat q : total q = length (concat q).
Proof. induction q as [|d q IH]; [reflexivity|]. cbn [concat]. rewrite app_length, <- IH. reflexivity. Qed.

Lemma firstn_memcpy (m : mem) off (d : datum) k : off + length d <= length m -> k = off + length d ->
  firstn k (firstn off m ++ map Some d ++ skipn (off + length d) m) = firstn off m ++ map Some d.
Proof.
  intros H ->. rewrite app_assoc, firstn_app.
  replace (length (firstn off m ++ map Some d)) with (off + length d) by (rewrite app_length, firstn_length, map_length; lia).
  rewrite Nat.sub_diag. cbn. rewrite app_nil_r. apply firstn_all2. rewrite app_length, firstn_length, map_length. lia.
Qed.
Lemma skipn_memcpy (m : mem) off (d : datum) k : off + length d <= length m -> k = off + length d ->
  skipn k (firstn off m ++ map Some d ++ skipn (off + length d) m) = skipn k m.
Proof.
  intros H ->. rewrite app_assoc, skipn_app.
  replace (length (firstn off m ++ map Some d)) with (off + length d) by (rewrite app_length, firstn_length, map_length; lia).
  rewrite Nat.sub_diag. rewrite skipn_all2 by (rewrite app_length, firstn_length, map_length; lia). reflexivity.
Qed.

Lemma auto_copy_ok : forall q m off, off + length (concat q) <= length m ->
  exists m', auto_copy m off q = Some m' /\ m' = firstn off m ++ map Some (concat q) ++ skipn (off + length (concat q)) m.
Proof.
  induction q as [|d q IH]; intros m off H; cbn in *.
  - exists m. split; [reflexivity|]. rewrite Nat.add_0_r, firstn_skipn. reflexivity.
  - rewrite app_length in H. rewrite memcpy_at_ok by lia.
    set (m1 := firstn off m ++ map Some d ++ skipn (off + length d) m).
    assert (L1 : length m1 = length m). { unfold m1. rewrite !app_length, map_length, firstn_length, skipn_length. lia. }
    destruct (IH m1 (off + length d)) as (m' & E & ->); [rewrite L1; lia|]. eexists. split; [exact E|].
    unfold m1 at 1. rewrite firstn_memcpy by lia. rewrite map_app, app_length, <- !app_assoc. f_equal. f_equal. f_equal.
    rewrite <- skipn_skipn. unfold m1. rewrite skipn_memcpy by lia. rewrite skipn_skipn. f_equal. lia.
Qed.

Lemma defined_some l : flat_map (fun x : option N => match x with Some b => [b] | None => [] end) (map Some l) = l.
Proof. induction l as [|a l IH]; [reflexivity|]. cbn. f_equal. exact IH. Qed.

(** the maximal prefix of whole data that fits in [size] bytes *)
Lemma pre_copy_ok : forall q m size i tail, length m = size -> i <= size -> tail = length q ->
  exists a b, q = a ++ b /\ i + length (concat a) <= size /\
    pre_copy m size i q tail = Some (b, length b, firstn i m ++ map Some (concat a) ++ skipn (i + length (concat a)) m, i + length (concat a)) /\
    match b with [] => True | d :: _ => size < i + length (concat a) + length d end.
Proof.
  induction q as [|d q IH]; intros m size i tail Hm Hi ->.
  - exists [], []. cbn. rewrite Nat.add_0_r, firstn_skipn. auto.
  - cbn [pre_copy]. destruct (Nat.leb_spec (length d) (size - i)) as [Hle|Hgt].
    + rewrite memcpy_at_ok by lia. set (m1 := firstn i m ++ map Some d ++ skipn (i + length d) m).
      assert (L1 : length m1 = length m). { unfold m1. rewrite !app_length, map_length, firstn_length, skipn_length. lia. }
      destruct (IH m1 size (i + length d) (length (d :: q) - 1)) as (a & b & -> & H1 & H2 & H3); [lia|lia|cbn; lia|].
      exists (d :: a), b. cbn [app concat]. rewrite app_length. split; [reflexivity|]. split; [lia|]. split.
      * rewrite H2. f_equal. f_equal; [|lia]. f_equal. unfold m1 at 1. rewrite firstn_memcpy by lia.
        rewrite map_app, <- !app_assoc. f_equal. f_equal. f_equal.
        rewrite <- skipn_skipn. unfold m1. rewrite skipn_memcpy by lia. rewrite skipn_skipn. f_equal. lia.
      * destruct b; [exact I|lia].
    + exists [], (d :: q). cbn [app concat length]. rewrite Nat.add_0_r, firstn_skipn. repeat split; [lia|lia].
Qed.

Lemma fd_write_full acc : forall q k, (forall j d, In d q -> length d <= acc j d) -> fd_write acc k q = concat q.
Proof.
  induction q as [|d q IH]; intros k H; [reflexivity|]. cbn. rewrite firstn_all2 by (apply H; left; reflexivity).
  f_equal. apply IH. intros j e He. apply H. right. exact He.
Qed.

(** * The engine never reads the list of the last phase *)
Section E.
Context {P : Type}.
Notation ephase := (ephase P). Notation inst := (inst P).

Definition pfx (a : list datum) (t : ephase) : ephase := set_queue P t (a ++ p_queue P t) (length a + p_tail P t).

Lemma app_tail_pfx a t ds : app_tail P (pfx a t) ds = pfx a (app_tail P t ds).
Proof.
  destruct ds as [|d ds]; [reflexivity|]. unfold app_tail, pfx. cbn [p_tail p_queue set_queue]. unfold set_queue. cbn. f_equal.
  - rewrite firstn_app. replace (length a + p_tail P t - length a) with (p_tail P t) by lia.
    rewrite (firstn_all2 a) by lia. rewrite app_assoc. reflexivity.
  - lia.
Qed.

Definition lres_map (a : list datum) (r : lres P) : lres P :=
  match r with LRes _ pv th ie oe g => LRes P pv (pfx a th) ie oe g | LUB _ => LUB P end.

Lemma reset_pfx a t : reset P (pfx a t) = option_map (pfx a) (reset P t).
Proof. unfold reset. cbn [p_codecs pfx set_queue]. destruct (p_codecs P t) as [|c cs]; [reflexivity|]. destruct (read_state _ _); reflexivity. Qed.

Lemma feed_pfx c a t v : feed P c (pfx a t) v = option_map (pfx a) (feed P c t v).
Proof.
  unfold feed. cbn [p_state pfx set_queue p_floop p_offset]. destruct (get_offset _ _); [|reflexivity].
  destruct (read_state _ _); reflexivity.
Qed.

Lemma call_cb_pfx pv a t : call_cb P pv (pfx a t) = option_map (pfx a) (call_cb P pv t).
Proof.
  unfold call_cb. change (this_codec P (pfx a t)) with (this_codec P t). change (curr_node P pv (pfx a t)) with (curr_node P pv t).
  destruct (this_codec P t) as [c|]; [|reflexivity]. destruct (e_conv P c) as [f|]; [|reflexivity]. destruct (curr_node P pv t) as [d|]; [|reflexivity].
  change (p_i P (pfx a t)) with (p_i P t). cbn [option_map]. f_equal.
  match goal with |- set_state P ?x _ = pfx a (set_state P ?y _) => assert (E : x = pfx a y) end.
  { rewrite <- app_tail_pfx. reflexivity. }
  rewrite E. reflexivity.
Qed.

Lemma call_flush_pfx a t : call_flush P (pfx a t) = option_map (pfx a) (call_flush P t).
Proof.
  unfold call_flush. change (this_codec P (pfx a t)) with (this_codec P t).
  destruct (this_codec P t) as [c|]; [|reflexivity]. destruct (e_flush P c) as [f|]; [|reflexivity].
  destruct (f (e_priv P c)) as [p out]. cbn [option_map]. f_equal. rewrite <- app_tail_pfx. reflexivity.
Qed.

Ltac pfxs := repeat match goal with
  | |- context [set_flags P (pfx ?a ?t) ?x ?y ?z] => change (set_flags P (pfx a t) x y z) with (pfx a (set_flags P t x y z))
  | |- context [set_i P (pfx ?a ?t) ?x] => change (set_i P (pfx a t) x) with (pfx a (set_i P t x))
  | |- context [set_curr P (pfx ?a ?t) ?x] => change (set_curr P (pfx a t) x) with (pfx a (set_curr P t x))
  | |- context [set_bak P (pfx ?a ?t) ?x] => change (set_bak P (pfx a t) x) with (pfx a (set_bak P t x))
  | |- context [set_headlen P (pfx ?a ?t) ?x] => change (set_headlen P (pfx a t) x) with (pfx a (set_headlen P t x))
  | |- context [set_match_data P (pfx ?a ?t) ?x] => change (set_match_data P (pfx a t) x) with (pfx a (set_match_data P t x))
  | |- context [set_state P (pfx ?a ?t) ?x] => change (set_state P (pfx a t) x) with (pfx a (set_state P t x))
  | |- context [set_offset P (pfx ?a ?t) ?x] => change (set_offset P (pfx a t) x) with (pfx a (set_offset P t x))
  | |- context [set_index P (pfx ?a ?t) ?x] => change (set_index P (pfx a t) x) with (pfx a (set_index P t x))
  | |- context [p_fmatch P (pfx ?a ?t)] => change (p_fmatch P (pfx a t)) with (p_fmatch P t)
  | |- context [p_fpending P (pfx ?a ?t)] => change (p_fpending P (pfx a t)) with (p_fpending P t)
  | |- context [p_floop P (pfx ?a ?t)] => change (p_floop P (pfx a t)) with (p_floop P t)
  | |- context [p_match_data P (pfx ?a ?t)] => change (p_match_data P (pfx a t)) with (p_match_data P t)
  | |- context [p_bak P (pfx ?a ?t)] => change (p_bak P (pfx a t)) with (p_bak P t)
  | |- context [p_i P (pfx ?a ?t)] => change (p_i P (pfx a t)) with (p_i P t)
  | |- context [p_curr P (pfx ?a ?t)] => change (p_curr P (pfx a t)) with (p_curr P t)
  | |- context [p_headlen P (pfx ?a ?t)] => change (p_headlen P (pfx a t)) with (p_headlen P t)
  | |- context [p_index P (pfx ?a ?t)] => change (p_index P (pfx a t)) with (p_index P t)
  | |- context [p_state P (pfx ?a ?t)] => change (p_state P (pfx a t)) with (p_state P t)
  | |- context [p_type P (pfx ?a ?t)] => change (p_type P (pfx a t)) with (p_type P t)
  | |- context [codecn P (pfx ?a ?t)] => change (codecn P (pfx a t)) with (codecn P t)
  | |- context [this_codec P (pfx ?a ?t)] => change (this_codec P (pfx a t)) with (this_codec P t)
  | |- context [is_to P (pfx ?a ?t)] => change (is_to P (pfx a t)) with (is_to P t)
  | |- context [curr_len P ?pv (pfx ?a ?t)] => change (curr_len P pv (pfx a t)) with (curr_len P pv t)
  | |- context [curr_node P ?pv (pfx ?a ?t)] => change (curr_node P pv (pfx a t)) with (curr_node P pv t)
  | |- context [app_tail P (pfx ?a ?t) ?x] => rewrite (app_tail_pfx a t x)
  | |- context [reset P (pfx ?a ?t)] => rewrite (reset_pfx a t)
  | |- context [call_cb P ?pv (pfx ?a ?t)] => rewrite (call_cb_pfx pv a t)
  | |- context [call_flush P (pfx ?a ?t)] => rewrite (call_flush_pfx a t)
  | |- context [feed P ?c (pfx ?a ?t) ?v] => rewrite (feed_pfx c a t v)
  end.

Lemma from_dead_pfx pv a t : from_dead P pv (pfx a t) = lres_map a (from_dead P pv t).
Proof.
  unfold from_dead. cbv zeta. pfxs.
  destruct (p_fmatch P (set_flags P t (p_fmatch P t) false false)).
  - destruct (p_match_data _ _) as [|d ds].
    + destruct (call_flush P _) as [t1|]; cbn [option_map obind]; [|reflexivity]. pfxs. destruct (reset P _) as [t2|]; reflexivity.
    + destruct (listfree _ _ _) as [pv'|]; cbn [obind]; [|reflexivity]. pfxs. destruct (reset P _); reflexivity.
  - destruct (_ <? _).
    + destruct (this_codec P _) as [c|]; cbn [obind]; [|reflexivity]. destruct (read_state _ _); cbn [obind]; pfxs; reflexivity.
    + destruct (reset P _) as [t1|]; cbn [obind option_map]; [|reflexivity]. pfxs. destruct (listfree _ _ _); reflexivity.
Qed.

Lemma from_commit_pfx pv a t ds : from_commit P pv (pfx a t) ds = lres_map a (from_commit P pv t ds).
Proof.
  unfold from_commit. cbv zeta. pfxs. destruct (listfree _ _ _) as [pv'|]; cbn [obind]; [|reflexivity]. pfxs. destruct (reset P _); reflexivity.
Qed.

Lemma from_step_pfx pv a t pc : from_step P pv (pfx a t) pc = lres_map a (from_step P pv t pc).
Proof.
  destruct pc; cbn [from_step]; pfxs.
  - destruct (_ <? _); [|reflexivity]. cbv zeta. pfxs. reflexivity.
  - destruct (curr_len P pv t); [|reflexivity]. destruct (_ <? _); [|reflexivity].
    destruct (curr_node P pv t); [|reflexivity]. destruct (this_codec P t); [|reflexivity]. destruct (nth_error _ _); [|reflexivity]. pfxs.
    destruct (feed P _ _ _); reflexivity.
  - destruct (t_status (p_state P t)); cbv zeta; pfxs; try reflexivity; try apply from_commit_pfx; destruct (call_cb P pv t); reflexivity.
  - apply from_dead_pfx.
  - reflexivity.
Qed.

Lemma bytes_loop_pfx c a : forall bs t, bytes_loop P c (pfx a t) bs = option_map (fun x => (pfx a (fst x), snd x)) (bytes_loop P c t bs).
Proof.
  induction bs as [|b bs IH]; intros t; [reflexivity|]. cbn [bytes_loop]. pfxs. destruct (feed P c t b) as [t1|]; [|reflexivity]. cbn [option_map]. pfxs.
  destruct (t_status (p_state P t1)); pfxs; try apply IH; reflexivity.
Qed.

Lemma data_dead_pfx pv a t : data_dead P pv (pfx a t) = lres_map a (data_dead P pv t).
Proof.
  unfold data_dead. cbv zeta. pfxs.
  destruct (p_fmatch P (set_flags P t (p_fmatch P t) false false)).
  - destruct (p_match_data _ _) as [|d ds].
    + destruct (call_flush P _) as [t1|]; cbn [option_map obind]; [|reflexivity]. pfxs. destruct (reset P _) as [t2|]; reflexivity.
    + destruct (listfree _ _ _) as [pv'|]; cbn [obind]; [|reflexivity]. pfxs. destruct (reset P _); reflexivity.
  - destruct (_ <? _).
    + destruct (this_codec P _) as [c|]; cbn [obind]; [|reflexivity]. destruct (read_state _ _); cbn [obind]; pfxs; reflexivity.
    + destruct (is_to P _).
      * destruct (reset P _) as [t1|]; cbn [obind option_map]; [|reflexivity]. pfxs. destruct (listfree _ _ _); reflexivity.
      * destruct (p_queue P pv) as [|d q]; [reflexivity|]. pfxs. destruct (reset P _); reflexivity.
Qed.

Lemma data_commit_pfx pv a t ds : data_commit P pv (pfx a t) ds = lres_map a (data_commit P pv t ds).
Proof.
  unfold data_commit. cbv zeta. pfxs. destruct (listfree _ _ _) as [pv'|]; cbn [obind]; [|reflexivity]. pfxs. destruct (reset P _); reflexivity.
Qed.

Lemma data_step_pfx pv a t pc : data_step P pv (pfx a t) pc = lres_map a (data_step P pv t pc).
Proof.
  destruct pc; cbn [data_step]; pfxs.
  - destruct (_ <? _); [|reflexivity]. cbv zeta. pfxs.
    destruct (curr_node P pv _); [|reflexivity]. destruct (this_codec P _); [|reflexivity]. rewrite bytes_loop_pfx.
    destruct (bytes_loop P _ _ _) as [[t3 []]|]; reflexivity.
  - reflexivity.
  - destruct (t_status (p_state P t)); cbv zeta; pfxs; try reflexivity; try apply data_commit_pfx; try (destruct (call_cb P pv t); reflexivity).
    + destruct (_ <? _); pfxs; reflexivity.
    + destruct (is_to P t); reflexivity.
    + unfold data_hold. cbv zeta. pfxs. destruct (listfree _ _ _) as [pv'|]; cbn [obind]; [|reflexivity]. pfxs. destruct (reset P _); reflexivity.
  - apply data_dead_pfx.
  - destruct (this_codec P t); [|reflexivity]. pfxs. destruct (feed P _ t 256); cbn [option_map]; [|reflexivity]. pfxs.
    destruct (t_status _); reflexivity.
Qed.

Lemma local_step_pfx pv a t pc : local_step P pv (pfx a t) pc = lres_map a (local_step P pv t pc).
Proof.
  unfold local_step. pfxs. destruct (p_type P t); try reflexivity; [apply from_step_pfx|apply data_step_pfx|apply data_step_pfx].
Qed.
End E.

(** Termination of the alias loop of bsdconv_create. *)
From Verif Require Import Base Types M_ConvString S_ConvString P_ConvString P_ConvString2.

Definition sum (l : list nat) : nat := fold_right Nat.add 0 l.
Lemma sum_app a b : sum (a ++ b) = sum a + sum b.
Proof. unfold sum. induction a as [|x a IH]; cbn; [reflexivity|]. rewrite IH. lia. Qed.

Section Weight.
  Variable alias : ptype -> str -> option str.
  Variable rank : str -> nat.
  Hypothesis Hrank : forall t n a, alias t n = Some a -> tidy a = true /\ forall m, In m (names a) -> rank m < rank n.

  Definition type_sum (f : str -> nat) (nm : str) (t : ptype) : nat :=
    match alias t nm with None => 0 | Some a => sum (map f (names a)) end.

  Fixpoint W (n : nat) (nm : str) : nat :=
    match n with
    | 0 => 0
    | S k => 1 + (type_sum (W k) nm FROM + type_sum (W k) nm INTER + type_sum (W k) nm TO)
    end.

  Lemma type_sum_ext f g nm t : (forall m, rank m < rank nm -> f m = g m) -> type_sum f nm t = type_sum g nm t.
  Proof.
    intros H. unfold type_sum. destruct (alias t nm) as [a|] eqn:E; [|reflexivity].
    f_equal. apply map_ext_in. intros m Hm. apply H. eapply Hrank; eauto.
  Qed.

  Lemma W_stable n : forall m nm, rank nm < n -> rank nm < m -> W n nm = W m nm.
  Proof.
    induction n as [|n IH]; intros [|m] nm H1 H2; try lia. cbn [W].
    rewrite !(type_sum_ext (W n) (W m)); [reflexivity|..]; intros k Hk; apply IH; lia.
  Qed.

  Definition weight (nm : str) : nat := W (S (rank nm)) nm.

  Lemma weight_alias t nm a : t <> FILTER -> t <> SCORER -> alias t nm = Some a ->
    sum (map weight (names a)) < weight nm.
  Proof.
    intros Ht1 Ht2 E. unfold weight at 2. cbn [W].
    assert (K : sum (map weight (names a)) = type_sum (W (rank nm)) nm t).
    { unfold type_sum. rewrite E. f_equal. apply map_ext_in. intros m Hm.
      unfold weight. assert (rank m < rank nm) by (eapply Hrank; eauto). apply W_stable; lia. }
    rewrite K. destruct t; try contradiction; lia.
  Qed.

  Definition measure (s : str) : nat := sum (map weight (names s)).
  Definition phase_measure (p : phase) : nat := sum (map (fun c => measure (desc c)) (codecs p)).

  Lemma sum_concat (l : list (list nat)) : sum (concat l) = sum (map sum l).
  Proof. induction l as [|x l IH]; cbn; [reflexivity|]. rewrite sum_app, IH. reflexivity. Qed.

  Definition good_phase (p : phase) :=
    codecs p <> [] /\ ptyp p <> FILTER /\ ptyp p <> SCORER /\ forall c, In c (codecs p) -> codec_ok c.

  Lemma measure_pack ps : ps <> [] -> (forall p, In p ps -> good_phase p) ->
    measure (pack ps) = sum (map phase_measure ps).
  Proof.
    intros Hne H. unfold measure. rewrite names_pack by assumption. rewrite concat_map, sum_concat, !map_map.
    f_equal. apply map_ext. intros p. unfold phase_measure. rewrite concat_map, sum_concat, !map_map. reflexivity.
  Qed.

  (** parsed phases are good *)
  Lemma name_tidy d : free_of ["|"; ":"; ","; "#"]%char d -> tidy d = true.
  Proof.
    unfold tidy. intros H. induction d as [|x d IH]; [reflexivity|]. cbn [tidy_from].
    assert (IH' : tidy_from false d = true).
    { apply IH. intros c Hc Hd. apply (H c Hc). right. exact Hd. }
    destruct (Ascii.eqb_spec x ",") as [->|]; [exact IH'|].
    destruct (Ascii.eqb_spec x "#") as [->|]; [exfalso; apply (H "#"%char); cbn; tauto|].
    destruct (is_delim x) eqn:E; [|exact IH'].
    exfalso. unfold is_delim in E. rewrite !orb_true_iff, !Ascii.eqb_eq in E.
    destruct E as [[-> | ->] | ->]; refine (H _ _ (or_introl eq_refl)); cbn; tauto.
  Qed.

  Lemma name_names d : free_of ["|"; ":"; ","; "#"]%char d -> names d = [d].
  Proof.
    intros H. unfold names. rewrite words_free.
    - cbn [map]. rewrite before_hash_free; [reflexivity|]. apply H. cbn. tauto.
    - intros x Hx. unfold is_delim.
      destruct (Ascii.eqb_spec x "|") as [->|]; [exfalso; eapply H; [|exact Hx]; cbn; tauto|].
      destruct (Ascii.eqb_spec x ":") as [->|]; [exfalso; eapply H; [|exact Hx]; cbn; tauto|].
      destruct (Ascii.eqb_spec x ",") as [->|]; [exfalso; eapply H; [|exact Hx]; cbn; tauto|]. reflexivity.
  Qed.

  Lemma phases_of_good v : wf v -> forall p, In p (phases_of v) ->
    good_phase p /\ forall c, In c (codecs p) -> wf_codec c.
  Proof.
    intros Hw p Hp. apply wf_alt in Hw as [_ Hw]. unfold phases_of in Hp.
    apply in_concat in Hp as [l [Hl Hp]]. apply in_map_iff in Hl as [s [<- Hs]].
    specialize (Hw s Hs). assert (Hc : In (codecs p) s).
    { rewrite <- (map_codecs_phases_of_segment s). apply in_map. exact Hp. }
    destruct Hw as [_ Hw]. specialize (Hw _ Hc). destruct Hw as [H1 H2].
    assert (Ht : ptyp p = FROM \/ ptyp p = INTER \/ ptyp p = TO).
    { unfold phases_of_segment in Hp. apply in_map_iff in Hp as [[k q] [<- _]]. cbn [ptyp fst].
      unfold role. destruct (_ =? 1); [tauto|]. destruct (k =? 0); [tauto|]. destruct (k =? _); tauto. }
    split; [|exact H2]. repeat split.
    - exact H1.
    - destruct Ht as [-> | [-> | ->]]; discriminate.
    - destruct Ht as [-> | [-> | ->]]; discriminate.
    - apply name_tidy. apply H2. assumption.
    - apply H2. assumption.
  Qed.

  Lemma names_write v : wf v -> names (write v) = concat (map (fun p => concat (map (fun c => names (desc c)) (codecs p))) (phases_of v)).
  Proof.
    intros Hw. pose proof (proj1 (wf_alt v) Hw) as [Hne H].
    unfold write. rewrite names_sepby; [|reflexivity|apply map_neq_nil; exact Hne].
    rewrite map_map.
    assert (E : forall v', (forall s, In s v' -> wf_segment s) ->
      concat (map (fun s => names (write_segment s)) v') =
      concat (map (fun p => concat (map (fun c => names (desc c)) (codecs p))) (phases_of v'))).
    { clear. induction v' as [|s v' IH]; intros H; [reflexivity|].
      unfold phases_of. cbn [map concat]. fold (phases_of v'). rewrite map_app, concat_app.
      rewrite IH by (intros x Hx; apply H; right; exact Hx). f_equal.
      assert (Hs : wf_segment s) by (apply H; left; reflexivity). destruct Hs as [Hne Hs].
      unfold write_segment. rewrite names_sepby; [|reflexivity|apply map_neq_nil; exact Hne].
      rewrite <- (map_codecs_phases_of_segment s) at 1. rewrite !map_map. f_equal. apply map_ext_in. intros p Hp.
      assert (Hc : In (codecs p) s).
      { rewrite <- (map_codecs_phases_of_segment s). apply in_map. exact Hp. }
      destruct (Hs _ Hc) as [Hcne Hcw].
      unfold write_phase. rewrite names_sepby; [|reflexivity|apply map_neq_nil; exact Hcne].
      rewrite map_map. f_equal. apply map_ext_in. intros c Hin. specialize (Hcw c Hin).
      destruct Hcw as (Hd & Hf & Ha). rewrite (name_names _ Hf).
      unfold names. rewrite words_free.
      - cbn [map]. f_equal. unfold write_codec. destruct (argv c).
        + apply before_hash_hash. apply Hf. cbn. tauto.
        + rewrite app_nil_r. apply before_hash_free. apply Hf. cbn. tauto.
      - intros x Hx. pose proof (write_codec_free c (conj Hd (conj Hf Ha))) as Hfree. unfold is_delim.
        destruct (Ascii.eqb_spec x "|") as [->|]; [exfalso; eapply Hfree; [|exact Hx]; cbn; tauto|].
        destruct (Ascii.eqb_spec x ":") as [->|]; [exfalso; eapply Hfree; [|exact Hx]; cbn; tauto|].
        destruct (Ascii.eqb_spec x ",") as [->|]; [exfalso; eapply Hfree; [|exact Hx]; cbn; tauto|]. reflexivity. }
    apply E. exact H.
  Qed.

  Lemma measure_write v : wf v -> measure (write v) = sum (map phase_measure (phases_of v)).
  Proof.
    intros Hw. unfold measure. rewrite names_write by exact Hw. rewrite concat_map, sum_concat, !map_map.
    f_equal. apply map_ext. intros p. unfold phase_measure. rewrite concat_map, sum_concat, !map_map. reflexivity.
  Qed.

  Lemma sum_set_nth {A} (f : A -> nat) i (x y : A) l : nth_error l i = Some x ->
    sum (map f (set_nth i y l)) + f x = sum (map f l) + f y.
  Proof.
    revert i; induction l as [|z l IH]; intros [|i] H; try discriminate;
      unfold sum in *; cbn [set_nth map nth_error fold_right] in *.
    - injection H as ->. lia.
    - specialize (IH i H). lia.
  Qed.

  Lemma in_set_nth {A} i (y : A) l z : In z (set_nth i y l) -> z = y \/ In z l.
  Proof.
    revert i; induction l as [|x l IH]; intros [|i] H; cbn in H; try tauto.
    - destruct H as [<-|H]; [left; reflexivity|right; right; exact H].
    - destruct H as [<-|H]; [right; left; reflexivity|]. destruct (IH i H); [tauto|right; right; assumption].
  Qed.

  Lemma set_nth_nonempty {A} i (y : A) l : l <> [] -> set_nth i y l <> [].
  Proof. destruct l; [contradiction|]. destruct i; discriminate. Qed.

  Variable chk : ptype -> str -> bool.
  Let w := mkWorld chk alias.

  Lemma round_decreases s s' : create_round w s = Again s' -> measure s' < measure s.
  Proof.
    unfold create_round. destruct (unpack s) as [ps|] eqn:Eu; [|discriminate].
    destruct (find_missing w 0 ps) as [[i j]|]; [|discriminate].
    destruct (nth_error ps i) as [p|] eqn:Ep; [|discriminate].
    destruct (nth_error (codecs p) j) as [c|] eqn:Ec; [|discriminate].
    destruct (module_vital (ptyp p) (desc c)); [discriminate|].
    destruct (w_alias w (ptyp p) (desc c)) as [a|] eqn:Ea; [|discriminate]. cbn [w_alias w] in Ea.
    destruct (str_eqb a (desc c)); [discriminate|]. intros [= <-].
    apply unpack_inv in Eu as (v & Hw & <- & ->).
    assert (Hp : In p (phases_of v)) by (eapply nth_error_In; exact Ep).
    assert (Hc : In c (codecs p)) by (eapply nth_error_In; exact Ec).
    destruct (phases_of_good v Hw p Hp) as [(G1 & G2 & G3 & G4) Gw].
    rewrite measure_pack.
    - rewrite measure_write by exact Hw.
      pose proof (sum_set_nth phase_measure i p
         (mkPhase (ptyp p) (set_nth j (mkCodec a (argv c)) (codecs p))) (phases_of v) Ep) as K.
      pose proof (sum_set_nth (fun c => measure (desc c)) j c (mkCodec a (argv c)) (codecs p) Ec) as K2.
      set (p' := mkPhase (ptyp p) (set_nth j (mkCodec a (argv c)) (codecs p))) in *.
      change (sum (map (fun c => measure (desc c)) (set_nth j (mkCodec a (argv c)) (codecs p)))) with (phase_measure p') in K2.
      change (sum (map (fun c => measure (desc c)) (codecs p))) with (phase_measure p) in K2.
      cbn [desc] in K2.
      assert (K3 : measure a < measure (desc c)).
      { unfold measure. rewrite (name_names (desc c)) by (apply Gw; exact Hc). cbn [map sum fold_right].
        rewrite Nat.add_0_r. eapply weight_alias; eauto. }
      lia.
    - apply set_nth_nonempty. destruct (phases_of v); [destruct Hp|discriminate].
    - intros q Hq. apply in_set_nth in Hq as [-> | Hq]; [|apply phases_of_good with (v := v); assumption].
      repeat split; cbn [codecs ptyp].
      + apply set_nth_nonempty. exact G1.
      + exact G2.
      + exact G3.
      + apply in_set_nth in H as [-> | H]; [|apply G4; exact H]. cbn [desc]. eapply Hrank; eauto.
      + apply in_set_nth in H as [-> | H]; [|apply G4; exact H]. cbn [argv]. apply G4. exact Hc.
  Qed.

  Lemma loop_terminates fuel : forall s, measure s < fuel -> create_loop fuel w s <> None.
  Proof.
    induction fuel as [|f IH]; intros s H; [lia|]. cbn [create_loop].
    destruct (create_round w s) as [ps|e|s'] eqn:E; try discriminate.
    apply IH. apply round_decreases in E. lia.
  Qed.
End Weight.

Lemma find_codec_none w t j cs : find_codec w t j cs = None -> forall c, In c cs -> w_check w t (desc c) = true.
Proof.
  revert j; induction cs as [|d cs IH]; intros j H c Hc; [destruct Hc|]. cbn [find_codec] in H.
  destruct (w_check w t (desc d)) eqn:E; [|discriminate].
  destruct Hc as [<-|Hc]; [exact E|]. eapply IH; eauto.
Qed.
Lemma find_missing_none w i ps : find_missing w i ps = None ->
  forall p c, In p ps -> In c (codecs p) -> w_check w (ptyp p) (desc c) = true.
Proof.
  revert i; induction ps as [|q ps IH]; intros i H p c Hp Hc; [destruct Hp|]. cbn [find_missing] in H.
  destruct (find_codec w (ptyp q) 0 (codecs q)) eqn:E; [discriminate|].
  destruct Hp as [<-|Hp]; [eapply find_codec_none; eauto|]. eapply IH; eauto.
Qed.

Lemma loop_result fuel w : forall s r, create_loop fuel w s = Some r ->
  match r with
  | Resolved ps => ps <> [] /\ forall p c, In p ps -> In c (codecs p) -> w_check w (ptyp p) (desc c) = true
  | Failed _ => True
  | Again _ => False
  end.
Proof.
  induction fuel as [|f IH]; intros s r H; [discriminate|]. cbn [create_loop] in H.
  destruct (create_round w s) as [ps|e|s'] eqn:E.
  - injection H as <-. unfold create_round in E. destruct (unpack s) as [qs|] eqn:Eu; [|discriminate].
    destruct (find_missing w 0 qs) as [[i j]|] eqn:Em.
    + destruct (nth_error qs i) as [p|]; [|discriminate]. destruct (nth_error (codecs p) j) as [c|]; [|discriminate].
      destruct (module_vital _ _); [discriminate|]. destruct (w_alias _ _ _); [|discriminate].
      destruct (str_eqb _ _); discriminate.
    + injection E as ->. split.
      * apply unpack_inv in Eu as (v & Hw & _ & ->). apply wf_alt in Hw as [Hne Hs]. destruct v as [|s0 v]; [contradiction|].
        unfold phases_of. cbn [map concat]. intros K. apply app_eq_nil in K as [K _].
        eapply phases_of_segment_nonempty; [|exact K]. apply Hs. left. reflexivity.
      * eapply find_missing_none. exact Em.
  - injection H as <-. exact I.
  - eapply IH. exact H.
Qed.

Lemma loop_mono f w : forall s r, create_loop f w s = Some r -> forall f', f <= f' -> create_loop f' w s = Some r.
Proof.
  induction f as [|f IH]; intros s r H f' Hf; [discriminate|]. destruct f' as [|f']; [lia|].
  cbn [create_loop] in *. destruct (create_round w s) eqn:E; try exact H. apply IH with (f' := f') in H; [exact H|lia].
Qed.

Theorem create_terminates w s : acyclic (w_alias w) ->
  exists n r, (forall f, n <= f -> create f w s = Some r) /\
  match r with
  | Resolved ps => ps <> [] /\ forall p c, In p ps -> In c (codecs p) -> w_check w (ptyp p) (desc c) = true
  | Failed _ => True
  | Again _ => False
  end.
Proof.
  intros [rank Hr]. destruct w as [chk alias]. cbn [w_alias] in Hr.
  set (n := S (measure alias rank (strip_ws s))).
  pose proof (loop_terminates alias rank Hr chk n (strip_ws s) ltac:(unfold n; lia)) as Hn.
  destruct (create_loop n _ _) as [r|] eqn:E; [|contradiction].
  exists n, r. split.
  - intros f Hf. unfold create. eapply loop_mono; eauto.
  - apply (loop_result _ _ _ _ E).
Qed.

(** a two-cycle never ends *)
Definition cyc_world : world :=
  mkWorld (fun _ _ => false)
    (fun _ n => if str_eqb n (s_ "A") then Some (s_ "B") else if str_eqb n (s_ "B") then Some (s_ "A") else None).
Lemma cyc_loop f : create f cyc_world (s_ "A:A") = None.
Proof.
  unfold create. change (strip_ws (s_ "A:A")) with (s_ "A:A").
  assert (H : forall n, create_loop n cyc_world (s_ "A:A") = None /\ create_loop n cyc_world (s_ "B:A") = None).
  { induction n as [|n [IH1 IH2]]; [split; reflexivity|]. split.
    - cbn [create_loop]. change (create_round cyc_world (s_ "A:A")) with (Again (s_ "B:A")). exact IH2.
    - cbn [create_loop]. change (create_round cyc_world (s_ "B:A")) with (Again (s_ "A:A")). exact IH1. }
  apply H.
Qed.

(** argument parsing *)
Definition write_arg (kv : str * option str) : str :=
  fst kv ++ match snd kv with None => [] | Some v => "="%char :: v end.
Theorem parse_args_join s : s <> [] -> sepby "&" (map write_arg (parse_args (Some s))) = s.
Proof.
  intros H. unfold parse_args. destruct s as [|x s]; [contradiction|].
  rewrite map_map. rewrite <- (sepby_split "&" (x :: s)) at 2. f_equal.
  rewrite <- (map_id (split "&" (x :: s))) at 2. apply map_ext. intros t.
  pose proof (cut_spec "=" t) as K. unfold write_arg. destruct (cut "=" t) as [a b]. cbn [fst snd].
  destruct K as [_ K]. symmetry. exact K.
Qed.
Theorem parse_args_write kvs : kvs <> [] ->
  (forall k v, In (k, v) kvs -> ~ In "&"%char k /\ ~ In "="%char k /\ forall x, v = Some x -> ~ In "&"%char x) ->
  kvs <> [([], None)] ->
  parse_args (Some (sepby "&" (map write_arg kvs))) = kvs.
Proof.
  intros Hne H H1. unfold parse_args.
  assert (E : split "&" (sepby "&" (map write_arg kvs)) = map write_arg kvs).
  { apply split_sepby; [apply map_neq_nil; exact Hne|]. intros p Hp.
    apply in_map_iff in Hp as [[k v] [<- Hk]]. destruct (H k v Hk) as (K1 & K2 & K3).
    unfold write_arg. cbn [fst snd]. intros Hin. apply in_app_or in Hin as [Hin|Hin]; [exact (K1 Hin)|].
    destruct v as [x|]; [|destruct Hin]. destruct Hin as [Hin|Hin]; [discriminate|]. exact (K3 x eq_refl Hin). }
  assert (E2 : map (cut "=") (map write_arg kvs) = kvs).
  { rewrite map_map. rewrite <- (map_id kvs) at 2. apply map_ext_in. intros [k v] Hk.
    destruct (H k v Hk) as (K1 & K2 & K3). unfold write_arg. cbn [fst snd]. destruct v as [x|].
    - apply cut_app. exact K2.
    - rewrite app_nil_r. apply cut_free. exact K2. }
  destruct (sepby "&" (map write_arg kvs)) as [|x s] eqn:Es.
  - exfalso. cbn [split] in E. destruct kvs as [|kv [|kv' kvs]]; [contradiction| |discriminate].
    cbn [map] in E2, E. injection E as E. rewrite <- E in E2. apply H1. rewrite <- E2. reflexivity.
  - rewrite E. exact E2.
Qed.

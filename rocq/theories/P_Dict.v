(** Codecs that consist of a table only. *)
From Verif Require Import Base Types M_Engine S_Engine S_Dict S_Table P_Trans P_Engine1 P_Engine2 P_Engine5.
From Coq Require Import ZifyBool ZifyN ZifyNat.

Lemma eqb_syms_eq a : forall b, eqb_syms a b = true <-> a = b.
Proof.
  induction a as [|x a IH]; intros [|y b]; cbn; try (split; congruence). rewrite andb_true_iff, N.eqb_eq, IH. split; [intros (-> & ->); reflexivity|intros E; injection E; auto].
Qed.
Lemma is_prefix_spec a : forall b, is_prefix a b = true <-> exists r, b = a ++ r.
Proof.
  induction a as [|x a IH]; intros b; cbn; [split; [intros _; exists b; reflexivity|reflexivity]|]. destruct b as [|y b].
  - split; [discriminate|intros (r & H); discriminate].
  - rewrite andb_true_iff, N.eqb_eq, IH. split; [intros (-> & r & ->); exists r; reflexivity|intros (r & E); injection E as -> ->; split; [reflexivity|exists r; reflexivity]].
Qed.
Lemma lookup_in D w o : lookup D w = Some o -> In (w, o) D.
Proof.
  induction D as [|[k x] D IH]; cbn; [discriminate|]. destruct (eqb_syms k w) eqn:E; [|auto]. intros H. injection H as ->. apply eqb_syms_eq in E. subst. auto.
Qed.
Lemma has_prefix_spec D w : has_prefix D w = true <-> exists k o r, In (k, o) D /\ k = w ++ r.
Proof.
  unfold has_prefix. rewrite existsb_exists. split.
  - intros ([k o] & Hin & Hp). apply is_prefix_spec in Hp. destruct Hp as (r & E). exists k, o, r. auto.
  - intros (k & o & r & Hin & ->). exists (w ++ r, o). split; [exact Hin|]. apply is_prefix_spec. exists r. reflexivity.
Qed.
Lemma has_longer_spec D w : has_longer D w = true <-> exists k o v r, In (k, o) D /\ k = w ++ v :: r.
Proof.
  unfold has_longer. rewrite existsb_exists. split.
  - intros ([k o] & Hin & Hp). apply andb_true_iff in Hp. destruct Hp as (Hp & Hn). apply is_prefix_spec in Hp. destruct Hp as ([|v r] & E); cbn [fst] in *.
    * rewrite app_nil_r in E. subst. rewrite (proj2 (eqb_syms_eq w w) eq_refl) in Hn. discriminate.
    * exists k, o, v, r. auto.
  - intros (k & o & v & r & Hin & ->). exists (w ++ v :: r, o). split; [exact Hin|]. apply andb_true_iff. split.
    * apply is_prefix_spec. exists (v :: r). reflexivity.
    * apply negb_true_iff. destruct (eqb_syms w (fst (w ++ v :: r, o))) eqn:E; [|reflexivity]. apply eqb_syms_eq in E. cbn in E.
      exfalso. assert (H : length w = length (w ++ v :: r)) by congruence. rewrite app_length in H. cbn in H. lia.
Qed.

(** * Tables *)
Lemma walk_snoc tab : forall w off v, walk_from tab off (w ++ [v]) =
  match walk_from tab off w with
  | WAt o => match read_state tab o with
             | None => WUB
             | Some s => match get_offset s v with None => WUB | Some O => WDead | Some (S o') => WAt (S o') end
             end
  | x => x
  end.
Proof.
  induction w as [|x w IH]; intros off v; cbn; [reflexivity|]. destruct (read_state tab off) as [s|]; [|reflexivity]. destruct (get_offset s x) as [[|o]|]; [reflexivity|apply IH|reflexivity].
Qed.
Lemma walk_app tab : forall w off w', walk_from tab off (w ++ w') =
  match walk_from tab off w with WAt o => walk_from tab o w' | x => x end.
Proof.
  induction w as [|x w IH]; intros off w'; cbn; [reflexivity|]. destruct (read_state tab off) as [s|]; [|reflexivity]. destruct (get_offset s x) as [[|o]|]; [reflexivity|apply IH|reflexivity].
Qed.

(** Entries that are the beginning of longer ones are not empty. *)
Definition sub_nonempty (D : dict) : Prop := forall w o, lookup D w = Some o -> has_longer D w = true -> o <> [].

Lemma prefix_cases D w : has_prefix D w = true -> lookup D w <> None \/ has_longer D w = true.
Proof.
  rewrite has_prefix_spec. intros (k & o & [|v r] & Hin & ->).
  - left. rewrite app_nil_r in Hin. clear -Hin. induction D as [|[k x] D IH]; [contradiction|]. cbn. destruct (eqb_syms k w) eqn:E; [discriminate|].
    destruct Hin as [E2|Hin]; [|auto]. injection E2 as -> ->. rewrite (proj2 (eqb_syms_eq w w) eq_refl) in E. discriminate.
  - right. apply has_longer_spec. eauto 8.
Qed.
Lemma no_prefix_none D w : has_prefix D w = false -> lookup D w = None /\ has_longer D w = false /\ forall r, has_prefix D (w ++ r) = false.
Proof.
  intros H. repeat split.
  - destruct (lookup D w) as [o|] eqn:E; [|reflexivity]. apply lookup_in in E. assert (has_prefix D w = true) by (apply has_prefix_spec; exists w, o, []; rewrite app_nil_r; auto). congruence.
  - destruct (has_longer D w) eqn:E; [|reflexivity]. apply has_longer_spec in E. destruct E as (k & o & v & r & Hin & ->).
    assert (has_prefix D w = true) by (apply has_prefix_spec; eauto 8). congruence.
  - intros r. destruct (has_prefix D (w ++ r)) eqn:E; [|reflexivity]. apply has_prefix_spec in E. destruct E as (k & o & r' & Hin & ->). rewrite <- app_assoc in Hin.
    assert (has_prefix D w = true) by (apply has_prefix_spec; eauto 8). congruence.
Qed.

(** the codec is at the node of [w]: only the links of the state matter *)
Definition at_node (tab : table) (w : list N) (s : tstate) : Prop :=
  exists o s0, walk tab w = WAt o /\ read_state tab o = Some s0 /\ t_beg s = t_beg s0 /\ t_end s = t_end s0 /\ t_kids s = t_kids s0.

Lemma at_node_status tab w s x : at_node tab w s -> at_node tab w (with_status s x).
Proof. intros (o & s0 & H). exists o, s0. exact H. Qed.

Lemma feed_node tab D w s off v : timpl tab D -> at_node tab w s ->
  exists s' off', feed1 tab s off false v = Some (s', off') /\
    match walk tab (w ++ [v]) with
    | WAt o => o = off' /\ has_prefix D (w ++ [v]) = true /\ at_node tab (w ++ [v]) s' /\
        t_status s' = status_of (lookup D (w ++ [v])) (has_longer D (w ++ [v])) /\ (forall x, lookup D (w ++ [v]) = Some x -> t_data s' = x)
    | WDead => has_prefix D (w ++ [v]) = false /\ t_status s' = DEADEND
    | WUB => False
    end.
Proof.
  intros [(r & Hr & Hrs) Hw] (o & s0 & Ho & Hs0 & Hb & He & Hk).
  assert (Hg : get_offset s v = get_offset s0 v) by (unfold get_offset; rewrite Hb, He, Hk; reflexivity).
  assert (Hne : w ++ [v] <> []) by (destruct w; discriminate).
  specialize (Hw (w ++ [v]) Hne). unfold walk in *. rewrite walk_snoc in *. rewrite Ho, Hs0 in *. unfold feed1. rewrite Hg.
  destruct (get_offset s0 v) as [[|o']|] eqn:Eg.
  - rewrite Hr. exists r, 0. auto.
  - destruct Hw as (H1 & s' & H2 & H3 & H4). rewrite H2. exists s', (S o'). split; [reflexivity|]. repeat split; auto.
    exists (S o'), s'. unfold walk. rewrite walk_snoc, Ho, Hs0, Eg. auto.
  - contradiction.
Qed.

Section E.
Context {P : Type}.
Notation ecodec := (ecodec P).
Arguments e_tab {P}. Arguments e_conv {P}. Arguments k_v {P}. Arguments k_clean {P}. Arguments k_St {P}.

Definition from_spec (D : dict) (tab : table) : codec_spec (P:=P) :=
  mkKs (from_sem D) (fun _ => True) (fun pre s off lb p => lb = false /\ at_node tab (concat pre) s).

Lemma status_cases m more : status_of m more = match m, more with Some _, true => SUBMATCH | Some _, false => MATCH | None, true => CONTINUE | None, false => DEADEND end.
Proof. reflexivity. Qed.

Lemma concat_snoc (pre : list datum) b : concat (pre ++ [[b]]) = concat pre ++ [b].
Proof. rewrite concat_app. reflexivity. Qed.

Lemma skipn_nth_cons {A} (d : list A) i b : nth_error d i = Some b -> skipn i d = b :: skipn (S i) d.
Proof. revert i. induction d as [|x d IH]; intros [|i]; cbn; try discriminate; [congruence|apply IH]. Qed.

Theorem from_table_ok (c : ecodec) D : timpl (e_tab c) D -> sub_nonempty D -> from_ok c (from_spec D (e_tab c)).
Proof.
  intros HT Hsub. constructor.
  - destruct (ti_root _ _ HT) as (s0 & Hs0 & _). exists s0. split; [exact Hs0|]. intros off p _. cbn. split; [reflexivity|]. exists 0, s0. cbn. auto.
  - intros pre s off lb p d i b (-> & Hat) Hb. unfold fread.
    destruct (feed_node _ _ _ _ off b HT Hat) as (s' & off' & Hf & Hcase). rewrite Hf.
    pose proof (skipn_nth_cons _ _ _ Hb) as Hsk.
    assert (Hlen : S i <= length d) by (apply nth_error_Some; congruence).
    assert (Hst : t_status s' <> SUBROUTINE /\ t_status s' <> SUBMATCH_SUBROUTINE).
    { destruct (walk (e_tab c) (concat pre ++ [b])); [destruct Hcase as (_ & _ & _ & -> & _)|destruct Hcase as (_ & ->)|contradiction].
      - destruct (lookup D _); destruct (has_longer D _); cbn; split; discriminate.
      - split; discriminate. }
    exists s', off', false, p, i, [].
    split. { destruct (t_status s'); try reflexivity; tauto. }
    cbn [k_v k_clean k_St from_spec]. unfold from_sem.
    destruct (walk (e_tab c) (concat pre ++ [b])) as [o| |]; [|destruct Hcase as (Hnp & Hdead)|contradiction].
    + destruct Hcase as (-> & Hp & Hat' & Hs & Hd). 
      destruct (lookup D (concat pre ++ [b])) as [x|] eqn:El; destruct (has_longer D (concat pre ++ [b])) eqn:Em; cbn [status_of] in Hs; rewrite Hs.
      * exists []. split; [constructor|]. rewrite (Hd x eq_refl). repeat split; auto.
        -- eapply Hsub; eassumption.
        -- rewrite concat_snoc, El, Em. reflexivity.
        -- rewrite concat_snoc. exact Hat'.
      * exists []. split; [constructor|]. split; [exact I|]. split; [exact Hlen|]. exists [b]. rewrite (Hd x eq_refl). split.
        -- unfold byt. rewrite Hsk. reflexivity.
        -- cbn [app]. rewrite concat_snoc, El, Em. reflexivity.
      * exists [[b]]. split. { constructor; [|constructor]. rewrite concat_snoc, El, Em. reflexivity. }
        split; [reflexivity|]. split; [discriminate|]. split; [lia|]. split; [unfold byt; rewrite Hsk; reflexivity|]. split; [reflexivity|]. rewrite concat_snoc. exact Hat'.
      * exfalso. destruct (prefix_cases _ _ Hp) as [H|H]; congruence.
    + rewrite Hdead. exists []. split; [constructor|]. split; [reflexivity|]. split; [exact I|]. exists [b], (byt (skipn (S i) d)). split; [unfold byt; rewrite Hsk; reflexivity|].
      cbn [app]. rewrite concat_snoc. destruct (no_prefix_none _ _ Hnp) as (-> & -> & _). reflexivity.
Qed.

(** ** Intermediate and encoding codecs *)
Definition sepd (pre : list datum) : list N := concat (map (fun d => d ++ [256%N]) pre).
Lemma joined_snoc pre d : joined (pre ++ [d]) = sepd pre ++ d.
Proof.
  induction pre as [|x pre IH]; [reflexivity|]. cbn [app joined]. destruct (pre ++ [d]) as [|y l] eqn:E; [destruct pre; discriminate|]. rewrite <- E in *.
  unfold sepd in *. cbn [map concat]. rewrite IH. rewrite <- !app_assoc. reflexivity.
Qed.
Lemma sepd_snoc pre d : sepd (pre ++ [d]) = (sepd pre ++ d) ++ [256%N].
Proof. unfold sepd. rewrite map_app, concat_app. cbn. rewrite app_nil_r, app_assoc. reflexivity. Qed.

Definition data_spec (D : dict) (tab : table) : codec_spec (P:=P) :=
  mkKs (data_sem D) (fun _ => True) (fun pre s off lb p => lb = false /\ at_node tab (sepd pre) s).

Lemma bl_node tab D : timpl tab D -> forall d w s off, at_node tab w s -> d <> [] ->
  match bl tab s off false d with
  | None => False
  | Some (_, _, _, true) => has_prefix D (w ++ d) = false
  | Some (s', off', lb', false) => lb' = false /\ has_prefix D (w ++ d) = true /\ at_node tab (w ++ d) s' /\
      t_status s' = status_of (lookup D (w ++ d)) (has_longer D (w ++ d)) /\ (forall x, lookup D (w ++ d) = Some x -> t_data s' = x)
  end.
Proof.
  intros HT. induction d as [|b d IH]; intros w s off Hat Hne; [contradiction|]. cbn [bl].
  destruct (feed_node _ _ _ _ off b HT Hat) as (s' & off' & -> & Hcase).
  destruct (walk tab (w ++ [b])) as [o| |]; [|destruct Hcase as (Hnp & ->)|contradiction].
  - destruct Hcase as (<- & Hp & Hat' & Hs & Hd).
    assert (Hnd : t_status s' <> DEADEND /\ t_status s' <> SUBROUTINE /\ t_status s' <> SUBMATCH_SUBROUTINE).
    { rewrite Hs. destruct (prefix_cases _ _ Hp) as [H|H].
      - destruct (lookup D (w ++ [b])); [|congruence]. destruct (has_longer D (w ++ [b])); cbn; repeat split; discriminate.
      - rewrite H. destruct (lookup D (w ++ [b])); cbn; repeat split; discriminate. }
    replace (match t_status s' with DEADEND => Some (s', o, false, true) | SUBROUTINE | SUBMATCH_SUBROUTINE => bl tab s' o true d | _ => bl tab s' o false d end)
      with (bl tab s' o false d) by (destruct (t_status s'); tauto).
    replace (w ++ b :: d) with ((w ++ [b]) ++ d) by (rewrite <- app_assoc; reflexivity).
    destruct d as [|b2 d].
    + cbn [bl]. rewrite app_nil_r. auto.
    + apply IH; [exact Hat'|discriminate].
  - destruct (no_prefix_none _ _ Hnp) as (_ & _ & H). specialize (H d). rewrite <- app_assoc in H. exact H.
Qed.

Theorem data_table_ok (to : bool) (c : ecodec) D : timpl (e_tab c) D -> sub_nonempty D -> data_ok to c (data_spec D (e_tab c)).
Proof.
  intros HT Hsub. constructor.
  - destruct (ti_root _ _ HT) as (s0 & Hs0 & _). exists s0. split; [exact Hs0|]. intros off p _. cbn. split; [reflexivity|]. exists 0, s0. cbn. auto.
  - intros pre s off lb p x (-> & Hat). split; [reflexivity|]. apply at_node_status. exact Hat.
  - intros pre s off lb p d Hne (-> & Hat). pose proof (bl_node _ _ HT d _ _ off Hat Hne) as HB.
    cbn [k_v k_clean k_St data_spec]. unfold data_sem. rewrite joined_snoc. set (w := sepd pre ++ d) in *.
    destruct (bl (e_tab c) s off false d) as [[[[s' off'] lb'] dead]|]; [|contradiction]. destruct dead.
    + split; [|exact I]. destruct (no_prefix_none _ _ HB) as (-> & _ & Hr). rewrite Hr. reflexivity.
    + destruct HB as (-> & Hp & Hat' & Hs & Hd).
      destruct (feed_node _ _ _ _ off' 256%N HT Hat') as (s2 & off2 & Hf2 & Hcase). 
      assert (Hmore : has_prefix D (w ++ [256%N]) = true -> has_longer D w = true).
      { intros H. apply has_prefix_spec in H. destruct H as (k & o & r & Hin & ->). apply has_longer_spec. exists ((w ++ [256%N]) ++ r), o, 256%N, r. split; [exact Hin|]. rewrite <- app_assoc. reflexivity. }
      assert (Hnx : forall b : bool, (if b then false else false) = false) by (intros b; destruct b; reflexivity).
      assert (Hc2 : match t_status s2 with DEADEND => has_prefix D (w ++ [256%N]) = false | _ => has_prefix D (w ++ [256%N]) = true /\ at_node (e_tab c) (w ++ [256%N]) s2 end).
      { destruct (walk (e_tab c) (w ++ [256%N])) as [o| |]; [|destruct Hcase as (Hnp & ->); exact Hnp|contradiction].
        destruct Hcase as (_ & Hp2 & Hat2 & Hs2 & _). assert (t_status s2 <> DEADEND).
        { rewrite Hs2. destruct (prefix_cases _ _ Hp2) as [H|H]; [destruct (lookup D (w ++ [256%N])); [|congruence]; destruct (has_longer D (w ++ [256%N])); discriminate|].
          rewrite H. destruct (lookup D (w ++ [256%N])); discriminate. }
        destruct (t_status s2); auto; congruence. }
      destruct (lookup D w) as [x|] eqn:El; destruct (has_longer D w) eqn:Em; cbn [status_of] in Hs; rewrite Hs.
      * rewrite (Hd x eq_refl). split; [eapply Hsub; eassumption|]. rewrite Hf2.
        destruct (t_status s2); try (destruct Hc2 as (-> & Hat2); split; [reflexivity|split; [reflexivity|rewrite sepd_snoc; exact Hat2]]).
        rewrite Hc2. split; [reflexivity|exact I].
      * rewrite (Hd x eq_refl). assert (E : has_prefix D (w ++ [256%N]) = false) by (destruct (has_prefix D (w ++ [256%N])); [specialize (Hmore eq_refl); discriminate|reflexivity]).
        rewrite E. split; [reflexivity|exact I].
      * rewrite Hnx, Hf2. destruct (t_status s2); try (destruct Hc2 as (-> & Hat2); split; [reflexivity|split; [reflexivity|rewrite sepd_snoc; exact Hat2]]).
        rewrite Hc2. split; [reflexivity|exact I].
      * exfalso. destruct (prefix_cases _ _ Hp) as [H|H]; congruence.
Qed.

Lemma from_eof D tab : eof_clean (from_spec D tab). Proof. intros pre s off lb p _ _. exact I. Qed.
Lemma data_eof D tab : eof_clean (data_spec D tab). Proof. intros pre s off lb p _ _. exact I. Qed.
End E.

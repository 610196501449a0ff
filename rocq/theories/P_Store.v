From Coq Require Import Permutation.
From Verif Require Import Base Types M_Store S_Store.

(** * Counters *)
Definition vlook (st : cstore) (k : str) : N :=
  match find (fun e => str_eqb (fst e) k) st with Some (_, v) => v | None => 0%N end.

Lemma NoDup_snoc {A} (l : list A) x : NoDup l -> ~ In x l -> NoDup (l ++ [x]).
Proof.
  intros Hn Hi. apply NoDup_Add with (a:=x) (l:=l); [|auto].
  rewrite <- (app_nil_r l) at 1. apply Add_app.
Qed.

Lemma vlook_snoc st key k : vlook (st ++ [(key, 0%N)]) k = vlook st k.
Proof.
  unfold vlook. induction st as [|[k' v'] st IH]; cbn.
  - destruct (str_eqb key k); reflexivity.
  - destruct (str_eqb k' k); [reflexivity|exact IH].
Qed.

Lemma counter_find_spec key p : forall i,
  let '(h, q) := counter_find key i p in
  exists j, h = i + j /\ nth_error (map fst q) j = Some key /\
   ((q = p /\ j < length p) \/ (q = p ++ [(key, 0%N)] /\ j = length p /\ ~ In key (map fst p))).
Proof.
  induction p as [|[k v] p IH]; intros i; cbn.
  - exists 0. split; [lia|]. split; [reflexivity|]. right. cbn. auto.
  - destruct (str_eqb k key) eqn:E.
    + apply str_eqb_eq in E as ->. exists 0. split; [lia|]. split; [reflexivity|]. left. split; [reflexivity|lia].
    + specialize (IH (S i)). destruct (counter_find key (S i) p) as [h q].
      destruct IH as (j & -> & Hn & H). exists (S j). split; [lia|]. split; [exact Hn|].
      apply str_eqb_neq in E.
      destruct H as [[-> Hl] | (-> & -> & Hni)]; [left; split; [reflexivity|cbn; lia]|right; repeat split; auto].
      cbn. intros [-> | Hin]; [contradiction|]. exact (Hni Hin).
Qed.

Definition cinv (st : cstore) : Prop := NoDup (map fst st).

Lemma cinv_find st key h q : cinv st -> counter_find key 0 st = (h, q) ->
  cinv q /\ nth_error (map fst q) h = Some key /\ (forall i k, nth_error (map fst st) i = Some k -> nth_error (map fst q) i = Some k)
  /\ (forall k, vlook q k = vlook st k).
Proof.
  intros Hnd E. pose proof (counter_find_spec key st 0) as H. rewrite E in H.
  destruct H as (j & -> & Hn & H). cbn in Hn |- *.
  destruct H as [[-> Hl] | (-> & -> & Hni)].
  - repeat split; auto.
  - split; [|split; [exact Hn|split]].
    + unfold cinv. rewrite map_app. apply NoDup_snoc; assumption.
    + intros i k Hi. rewrite map_app. rewrite nth_error_app1; [assumption|]. apply nth_error_Some. congruence.
    + intros k. apply vlook_snoc.
Qed.

Lemma vlook_nth st k h : NoDup (map fst st) -> nth_error (map fst st) h = Some k ->
  option_map snd (nth_error st h) = Some (vlook st k).
Proof.
  revert h. induction st as [|[k' v'] st IH]; intros [|h] Hnd Hn; cbn in *; try discriminate.
  - injection Hn as ->. unfold vlook. cbn. rewrite str_eqb_refl. reflexivity.
  - inversion Hnd as [|? ? Hni Hnd']; subst. unfold vlook. cbn. destruct (str_eqb k' k) eqn:E.
    + apply str_eqb_eq in E as ->. exfalso. apply Hni. eapply nth_error_In. exact Hn.
    + exact (IH h Hnd' Hn).
Qed.

Lemma counter_write_spec st k h f : NoDup (map fst st) -> nth_error (map fst st) h = Some k ->
  exists st', counter_write st h f = Some st' /\ map fst st' = map fst st /\
    forall x, vlook st' x = if str_eqb x k then f (vlook st x) else vlook st x.
Proof.
  revert h. induction st as [|[k' v'] st IH]; intros [|h] Hnd Hn; cbn in *; try discriminate.
  - injection Hn as ->. eexists. split; [reflexivity|]. split; [reflexivity|]. intros x. unfold vlook. cbn.
    destruct (str_eqb k x) eqn:E.
    + apply str_eqb_eq in E as ->. rewrite str_eqb_refl. reflexivity.
    + destruct (str_eqb x k) eqn:E2; [apply str_eqb_eq in E2; subst; rewrite str_eqb_refl in E; discriminate|].
      reflexivity.
  - inversion Hnd as [|? ? Hni Hnd']; subst. destruct (IH h Hnd' Hn) as (st' & -> & Hm & Hv). cbn.
    eexists. split; [reflexivity|]. cbn. split; [congruence|]. intros x. unfold vlook in *. cbn.
    destruct (str_eqb k' x) eqn:E; [|apply Hv].
    apply str_eqb_eq in E as ->. destruct (str_eqb x k) eqn:E2; [|reflexivity].
    apply str_eqb_eq in E2 as ->. exfalso. apply Hni. eapply nth_error_In. exact Hn.
Qed.

(** The simulation relation. *)
Definition crel (s : cstore * list nat) (a : list str * (str -> N)) : Prop :=
  let '(st, hs) := s in let '(names, f) := a in
  cinv st /\
  Forall2 (fun h k => nth_error (map fst st) h = Some (strtoupper k)) hs names /\
  (forall k, vlook st (strtoupper k) = f k).

Lemma Forall2_nth {A B} (R : A -> B -> Prop) l1 l2 i y : Forall2 R l1 l2 -> nth_error l2 i = Some y ->
  exists x, nth_error l1 i = Some x /\ R x y.
Proof. intros H. revert i. induction H; intros [|i] Hn; cbn in *; try discriminate; eauto. injection Hn as <-. eauto. Qed.

Lemma Forall2_length {A B} (R : A -> B -> Prop) l1 l2 : Forall2 R l1 l2 -> length l1 = length l2.
Proof. intros H; induction H; cbn; congruence. Qed.

Lemma Forall2_impl' {A B} (R R' : A -> B -> Prop) l1 l2 : (forall a b, R a b -> R' a b) -> Forall2 R l1 l2 -> Forall2 R' l1 l2.
Proof. intros H H2. induction H2; constructor; auto. Qed.

Lemma cstep_sim s a o : crel s a -> cwf (length (snd s)) [o] = true ->
  exists s', cstep s o = Some s' /\ crel s' (cspec_step a o) /\
     length (snd s') = match o with CLookup _ => S (length (snd s)) | _ => length (snd s) end.
Proof.
  destruct s as [st hs], a as [names f]. intros (Hinv & Hhs & Hf) Hwf. destruct o as [k|j n|[k|]]; cbn in *.
  - unfold bsdconv_counter. destruct (counter_find (strtoupper k) 0 st) as [h q] eqn:E.
    destruct (cinv_find _ _ _ _ Hinv E) as (Hi' & Hn & Hold & Hv).
    eexists. split; [reflexivity|]. split; [|cbn; rewrite app_length; cbn; lia].
    split; [assumption|]. split.
    + apply Forall2_app; [|constructor; [exact Hn|constructor]].
      eapply Forall2_impl'; [|exact Hhs]. cbn. intros; auto.
    + intros x. rewrite Hv. apply Hf.
  - rewrite andb_true_r in Hwf. apply Nat.ltb_lt in Hwf.
    pose proof (Forall2_length _ _ _ Hhs) as Hlen.
    destruct (nth_error names j) as [k|] eqn:Ek; [|apply nth_error_None in Ek; lia].
    destruct (Forall2_nth _ _ _ _ _ Hhs Ek) as (h & -> & Hn).
    destruct (counter_write_spec st _ h (fun v => (v + n)%N) Hinv Hn) as (st' & -> & Hm & Hv).
    eexists. split; [reflexivity|]. split; [|reflexivity]. unfold crel, cinv. rewrite Hm.
    split; [auto|]. split; [assumption|]. intros x. rewrite Hv, Hf. reflexivity.
  - unfold bsdconv_counter. destruct (counter_find (strtoupper k) 0 st) as [h q] eqn:E.
    destruct (cinv_find _ _ _ _ Hinv E) as (Hnd & Hn & Hold & Hv).
    destruct (counter_write_spec q _ h (fun _ => 0%N) Hnd Hn) as (st' & -> & Hm & Hv').
    eexists. split; [reflexivity|]. split; [|reflexivity]. unfold crel, cinv. rewrite Hm.
    split; [auto|]. split.
    + eapply Forall2_impl'; [|exact Hhs]. cbn. intros; auto.
    + intros x. rewrite Hv', Hv, Hf. reflexivity.
  - eexists. split; [reflexivity|]. split; [|reflexivity]. unfold crel, cinv.
    assert (Hm : map fst (map (fun e : str * N => (fst e, 0%N)) st) = map fst st) by (rewrite map_map; reflexivity).
    rewrite Hm. split; [exact Hinv|]. split; [assumption|]. intros x. unfold vlook.
    clear. induction st as [|[k v] st IH]; cbn; [reflexivity|]. destruct (str_eqb k (strtoupper x)); [reflexivity|exact IH].
Qed.

Lemma crun_sim os : forall s a, crel s a -> cwf (length (snd s)) os = true ->
  exists s', crun s os = Some s' /\ crel s' (fold_left cspec_step os a).
Proof.
  induction os as [|o os IH]; intros s a Hr Hwf; cbn.
  - eauto.
  - assert (Hwf1 : cwf (length (snd s)) [o] = true).
    { destruct o; cbn in *; try reflexivity. apply andb_prop in Hwf as [-> _]. reflexivity. }
    destruct (cstep_sim s a o Hr Hwf1) as (s' & -> & Hr' & Hl). apply IH; [assumption|]. rewrite Hl.
    destruct o; cbn in *; try assumption. apply andb_prop in Hwf as [_ H]. exact H.
Qed.

Lemma crun_app os1 : forall s os2, crun s (os1 ++ os2) = match crun s os1 with None => None | Some s' => crun s' os2 end.
Proof. induction os1 as [|o os1 IH]; intros s os2; cbn; [reflexivity|]. destruct (cstep s o); [apply IH|reflexivity]. Qed.

Lemma counter_read_val st k : cinv st -> counter_read st k = Some (vlook st (strtoupper k)).
Proof.
  intros Hi. unfold counter_read, bsdconv_counter. destruct (counter_find (strtoupper k) 0 st) as [h q] eqn:E.
  destruct (cinv_find _ _ _ _ Hi E) as (Hnd & Hn & _ & Hv). rewrite (vlook_nth q _ h Hnd Hn), Hv. reflexivity.
Qed.

Theorem counters_map os : cwf 0 os = true ->
  exists st hs, crun ([], []) os = Some (st, hs) /\ forall k, counter_read st k = Some (snd (cspec os) k).
Proof.
  intros Hwf. destruct (crun_sim os ([], []) ([], fun _ => 0%N)) as ([st hs] & Hr & Hrel); [|exact Hwf|].
  { split; [constructor|]. split; [constructor|]. reflexivity. }
  exists st, hs. split; [exact Hr|]. intros k. unfold cspec. destruct (fold_left _ _ _) as [names f].
  destruct Hrel as (Hi & _ & Hf). rewrite counter_read_val by assumption. cbn. f_equal. apply Hf.
Qed.

(** Handles *)
Theorem counters_handles os : cwf 0 os = true ->
  exists st hs, crun ([], []) os = Some (st, hs) /\ length hs = length (fst (cspec os)) /\
    forall i j ki kj hi hj, nth_error (fst (cspec os)) i = Some ki -> nth_error (fst (cspec os)) j = Some kj ->
      nth_error hs i = Some hi -> nth_error hs j = Some hj ->
      (hi = hj <-> strtoupper ki = strtoupper kj) /\ option_map snd (nth_error st hi) = Some (snd (cspec os) ki).
Proof.
  intros Hwf. destruct (crun_sim os ([], []) ([], fun _ => 0%N)) as ([st hs] & Hr & Hrel); [|exact Hwf|].
  { split; [constructor|]. split; [constructor|]. reflexivity. }
  exists st, hs. split; [exact Hr|]. unfold cspec. destruct (fold_left _ _ _) as [names f].
  destruct Hrel as (Hi & Hhs & Hf). cbn. split; [apply (Forall2_length _ _ _ Hhs)|].
  intros i j ki kj hi hj Hki Hkj Hhi Hhj.
  destruct (Forall2_nth _ _ _ _ _ Hhs Hki) as (h1 & E1 & N1). destruct (Forall2_nth _ _ _ _ _ Hhs Hkj) as (h2 & E2 & N2).
  rewrite Hhi in E1. injection E1 as <-. rewrite Hhj in E2. injection E2 as <-. split.
  - split; [congruence|]. intros E. rewrite E in N1. unfold cinv in Hi. rewrite NoDup_nth_error in Hi. apply Hi; [|congruence].
    apply nth_error_Some. congruence.
  - rewrite (vlook_nth _ _ _ Hi N1). f_equal. apply Hf.
Qed.

(** * Hash *)
Section H.
Variable V : Type.
Notation hstore := (hstore V). Notation hmap := (hmap V).

(** all nodes live, keys distinct *)
Definition live (p : hstore) (l : list (str * V)) : Prop := p = map Some l /\ NoDup (map fst l).
Definition habs (l : list (str * V)) : hmap := fun k =>
  match find (fun e => str_eqb (fst e) k) l with Some (_, v) => Some v | None => None end.

Lemma hfind_live l key : 
  match hfind V (map Some l) key with
  | UB => False
  | Val None => habs l key = None /\ ~ In key (map fst l)
  | Val (Some i) => exists l1 v l2, l = l1 ++ (key, v) :: l2 /\ length l1 = i /\ ~ In key (map fst l1) /\ habs l key = Some v
  end.
Proof.
  induction l as [|[k v] l IH]; cbn.
  - split; [reflexivity|auto].
  - unfold habs. cbn. destruct (str_eqb k key) eqn:E.
    + apply str_eqb_eq in E as ->. exists [], v, l. cbn. auto.
    + apply str_eqb_neq in E. destruct (hfind V (map Some l) key) as [[i|]|]; [| |contradiction].
      * destruct IH as (l1 & v' & l2 & -> & Hl & Hn & Ha). exists ((k, v) :: l1), v', l2. cbn.
        split; [reflexivity|]. split; [congruence|]. split; [|exact Ha]. intros [H|H]; auto.
      * destruct IH as [Ha Hn]. split; [exact Ha|]. intros [H|H]; auto.
Qed.

Lemma nth_mid (l1 : list (str * V)) e l2 : nth_error (map Some (l1 ++ e :: l2)) (length l1) = Some (Some e).
Proof. induction l1; cbn; auto. Qed.

Lemma hput_map (l1 : list (str * V)) e l2 x : hput V (map Some (l1 ++ e :: l2)) (length l1) x = map Some l1 ++ x :: map Some l2.
Proof. induction l1 as [|a l1 IH]; cbn; [reflexivity|]. f_equal. exact IH. Qed.

Lemma hswap_split l1 key v v' l2 :
  hswap V (map Some (l1 ++ (key, v) :: l2)) (length l1) key v' =
  map Some (match l1 with [] => (key, v') :: l2 | h :: l1' => (key, v') :: l1' ++ h :: l2 end).
Proof.
  unfold hswap. destruct l1 as [|h l1]; cbn.
  - reflexivity.
  - rewrite hput_map. rewrite !map_app. cbn. reflexivity.
Qed.

Definition swapped (l1 : list (str * V)) key v' l2 := match l1 with [] => (key, v') :: l2 | h :: l1' => (key, v') :: l1' ++ h :: l2 end.

Lemma habs_notin l x : ~ In x (map fst l) -> habs l x = None.
Proof.
  unfold habs. induction l as [|[k v] l IH]; cbn; [reflexivity|]. intros H.
  destruct (str_eqb k x) eqn:E; [apply str_eqb_eq in E; subst; exfalso; apply H; auto|]. apply IH. auto.
Qed.
Lemma habs_in l x v : NoDup (map fst l) -> In (x, v) l -> habs l x = Some v.
Proof.
  unfold habs. induction l as [|[k w] l IH]; cbn; [contradiction|]. intros Hn [E|Hin].
  - injection E as -> ->. rewrite str_eqb_refl. reflexivity.
  - inversion Hn; subst. destruct (str_eqb k x) eqn:E; [|auto].
    apply str_eqb_eq in E as ->. exfalso. apply H1. apply in_map_iff. exists (x, v). auto.
Qed.
Lemma habs_ext l l' : NoDup (map fst l) -> NoDup (map fst l') -> (forall e, In e l <-> In e l') -> forall x, habs l x = habs l' x.
Proof.
  intros H H' He x. destruct (in_dec (list_eq_dec ascii_dec) x (map fst l)) as [Hin|Hni].
  - apply in_map_iff in Hin as ([k v] & E & Hin). cbn in E. subst k.
    rewrite (habs_in _ _ v H Hin). symmetry. apply habs_in; [assumption|]. apply He. exact Hin.
  - rewrite habs_notin by assumption. symmetry. apply habs_notin. intros Hin. apply Hni.
    apply in_map_iff in Hin as (e & E & Hin). apply in_map_iff. exists e. split; [assumption|]. apply He. assumption.
Qed.

Lemma swapped_perm l1 key v' l2 e : In e (swapped l1 key v' l2) <-> In e (l1 ++ (key, v') :: l2).
Proof. destruct l1 as [|h l1]; cbn; [tauto|]. rewrite !in_app_iff. cbn. tauto. Qed.

Lemma swapped_fst l1 key v v' l2 : map fst (swapped l1 key v l2) = map fst (swapped l1 key v' l2).
Proof. destruct l1; reflexivity. Qed.

Lemma swapped_Perm l1 key v' l2 : Permutation (swapped l1 key v' l2) (l1 ++ (key, v') :: l2).
Proof.
  destruct l1 as [|h l1]; cbn; [reflexivity|].
  transitivity ((key, v') :: h :: l1 ++ l2).
  - constructor. symmetry. apply Permutation_middle.
  - etransitivity; [apply perm_swap|]. constructor. apply Permutation_middle.
Qed.

Lemma swapped_nodup l1 key v v' l2 : NoDup (map fst (l1 ++ (key, v) :: l2)) -> NoDup (map fst (swapped l1 key v' l2)).
Proof.
  intros H. rewrite (swapped_fst _ _ v' v). eapply Permutation_NoDup; [|exact H].
  apply Permutation_map. symmetry. apply swapped_Perm.
Qed.

Lemma habs_set l1 key v v' l2 : NoDup (map fst (l1 ++ (key, v) :: l2)) -> forall x,
  habs (swapped l1 key v' l2) x = upd V (habs (l1 ++ (key, v) :: l2)) key (Some v') x.
Proof.
  intros H x. unfold upd. destruct (str_eqb x key) eqn:E.
  - apply str_eqb_eq in E as ->. apply habs_in; [eapply swapped_nodup; exact H|]. apply swapped_perm.
    apply in_app_iff. right. left. reflexivity.
  - apply str_eqb_neq in E. destruct (in_dec (list_eq_dec ascii_dec) x (map fst (l1 ++ (key, v) :: l2))) as [Hin|Hni].
    + apply in_map_iff in Hin as ([k w] & Ek & Hin). cbn in Ek. subst k. rewrite (habs_in _ _ w H Hin).
      apply habs_in; [eapply swapped_nodup; exact H|]. apply swapped_perm. rewrite in_app_iff in Hin |- *.
      destruct Hin as [Hin|[Hin|Hin]]; auto.
      * congruence.
      * right. right. assumption.
    + rewrite (habs_notin _ _ Hni). apply habs_notin. intros Hin. apply Hni.
      assert (Hp : Permutation (map fst (swapped l1 key v' l2)) (map fst (l1 ++ (key, v) :: l2))).
      { rewrite (swapped_fst _ _ v' v). apply Permutation_map. apply swapped_Perm. }
      eapply Permutation_in; [exact Hp|exact Hin].
Qed.

Lemma habs_touch l1 key v l2 : NoDup (map fst (l1 ++ (key, v) :: l2)) -> forall x,
  habs (swapped l1 key v l2) x = habs (l1 ++ (key, v) :: l2) x.
Proof.
  intros H. apply habs_ext; [eapply swapped_nodup; exact H|assumption|]. intros. apply swapped_perm.
Qed.

Lemma hstep_sim l m o : NoDup (map fst l) -> (forall x, habs l x = m x) ->
  idiomatic V o = true ->
  exists r l', hstep V (map Some l) o = Val (r, map Some l') /\ NoDup (map fst l') /\
    r = fst (hspec_step V m o) /\ forall x, habs l' x = snd (hspec_step V m o) x.
Proof.
  intros Hnd Hm Hid.
  assert (Hset : forall k v, exists l', bsdconv_hash_set V (map Some l) k v = Val (map Some l') /\ NoDup (map fst l') /\
     forall x, habs l' x = upd V m k (Some v) x).
  { intros k v. unfold bsdconv_hash_set. pose proof (hfind_live l k) as Hf.
    destruct (hfind V (map Some l) k) as [[i|]|]; [| |contradiction].
    - destruct Hf as (l1 & v0 & l2 & -> & <- & Hn & Ha). rewrite hswap_split.
      exists (swapped l1 k v l2). split; [reflexivity|]. split; [eapply swapped_nodup; exact Hnd|].
      intros x. rewrite (habs_set _ _ v0) by assumption. unfold upd. rewrite Hm. reflexivity.
    - destruct Hf as [Ha Hn]. exists ((k, v) :: l). split; [reflexivity|]. split; [cbn; constructor; assumption|].
      intros x. unfold upd, habs. cbn. destruct (str_eqb k x) eqn:E.
      + apply str_eqb_eq in E as ->. rewrite str_eqb_refl. reflexivity.
      + destruct (str_eqb x k) eqn:E2; [apply str_eqb_eq in E2; subst; rewrite str_eqb_refl in E; discriminate|].
        apply Hm. }
  assert (Hhas : forall k, exists l', bsdconv_hash_has V (map Some l) k = Val (match m k with Some _ => true | None => false end, map Some l')
     /\ NoDup (map fst l') /\ (forall x, habs l' x = m x) /\ 
     (forall v, m k = Some v -> exists l2, l' = (k, v) :: l2)).
  { intros k. unfold bsdconv_hash_has. pose proof (hfind_live l k) as Hf.
    destruct (hfind V (map Some l) k) as [[i|]|]; [| |contradiction].
    - destruct Hf as (l1 & v0 & l2 & El & <- & Hn & Ha). rewrite <- Hm, Ha.
      subst l. rewrite nth_mid, hswap_split.
      exists (swapped l1 k v0 l2). split; [reflexivity|]. split; [eapply swapped_nodup; exact Hnd|].
      split; [intros x; rewrite habs_touch by assumption; apply Hm|].
      intros v E. injection E as <-. destruct l1; cbn; eauto.
    - destruct Hf as [Ha Hn]. rewrite <- Hm, Ha. exists l. repeat split; auto. discriminate. }
  destruct o as [k v|k|k|k|k|k]; cbn in Hid; try discriminate; cbn [hstep hspec_step fst snd].
  - destruct (Hset k v) as (l' & -> & Hn' & Hx). eauto 8.
  - destruct (Hhas k) as (l' & -> & Hn' & Hx & _). eauto 8.
  - destruct (Hhas k) as (l' & -> & Hn' & Hx & Hhd). destruct (m k) as [v|] eqn:Ek.
    + destruct (Hhd v eq_refl) as (l2 & ->). unfold bsdconv_hash_get. cbn. rewrite str_eqb_refl. cbn.
      exists (RPtr (Some v)), ((k, v) :: l2). cbn. auto.
    + eauto 8.
  - destruct (Hhas k) as (l' & -> & Hn' & Hx & Hhd). destruct (m k) as [v|] eqn:Ek.
    + destruct (Hhd v eq_refl) as (l2 & ->). unfold bsdconv_hash_del. cbn. rewrite str_eqb_refl. cbn.
      exists RUnit, l2. cbn in Hn'. inversion Hn' as [|? ? Hni Hnd2]; subst. repeat split; auto.
      intros x. unfold upd. specialize (Hx x). unfold habs in Hx. cbn in Hx.
      destruct (str_eqb x k) eqn:E.
      * apply str_eqb_eq in E as ->. apply habs_notin. assumption.
      * destruct (str_eqb k x) eqn:E2; [apply str_eqb_eq in E2; subst; rewrite str_eqb_refl in E; discriminate|].
        exact Hx.
    + exists RUnit, l'. repeat split; auto. intros x. unfold upd. rewrite Hx.
      destruct (str_eqb x k) eqn:E; [|reflexivity]. apply str_eqb_eq in E as ->. assumption.
Qed.

Lemma hspec_ext os : forall m m', (forall x, m x = m' x) -> forallb (idiomatic V) os = true ->
  fst (hspec V m os) = fst (hspec V m' os) /\ forall x, snd (hspec V m os) x = snd (hspec V m' os) x.
Proof.
  induction os as [|o os IH]; intros m m' Hm Hid; cbn; [auto|].
  cbn in Hid. apply andb_prop in Hid as [Hid1 Hid].
  assert (H1 : fst (hspec_step V m o) = fst (hspec_step V m' o)) by (destruct o; cbn; rewrite ?Hm; reflexivity).
  assert (H2 : forall x, snd (hspec_step V m o) x = snd (hspec_step V m' o) x)
    by (intros x; destruct o; cbn; unfold upd; rewrite ?Hm; reflexivity).
  destruct (hspec_step V m o) as [r m1], (hspec_step V m' o) as [r' m1']. cbn in H1, H2. subst r'.
  specialize (IH m1 m1' H2 Hid). destruct (hspec V m1 os) as [rs m2], (hspec V m1' os) as [rs' m2']. cbn in *.
  destruct IH as [-> IH]. auto.
Qed.

Theorem hash_map os : forall l m, NoDup (map fst l) -> (forall x, habs l x = m x) ->
  forallb (idiomatic V) os = true ->
  exists rs l', hrun V (map Some l) os = Val (rs, map Some l') /\ rs = fst (hspec V m os) /\
     NoDup (map fst l') /\ forall x, habs l' x = snd (hspec V m os) x.
Proof.
  induction os as [|o os IH]; intros l m Hnd Hm Hid; cbn.
  - exists [], l. auto.
  - cbn in Hid. apply andb_prop in Hid as [Hid1 Hid].
    destruct (hstep_sim l m o Hnd Hm Hid1) as (r & l' & -> & Hnd' & -> & Hm').
    destruct (hspec_step V m o) as [r m1]. cbn in Hm'. destruct (IH l' m1 Hnd' Hm' Hid) as (rs & l'' & -> & -> & Hn & Hx).
    destruct (hspec V m1 os) as [rs m2]. cbn in *. exists (r :: rs), l''. auto.
Qed.

(** What a bare get really returns. *)
Theorem hash_get_raw l k0 v0 k v : NoDup (map fst l) -> habs l k0 = Some v0 -> habs l k = Some v ->
  exists p, hrun V (map Some l) [HHas k0; HGet k] = Val ([RBool true; RPtr (Some v0)], p).
Proof.
  intros Hnd H0 Hk.
  destruct (hash_map [HHas k0] l (habs l) Hnd (fun _ => eq_refl) eq_refl) as (rs & l' & Hr & Hrs & Hnd' & Hm').
  cbn in Hr, Hm', Hrs. rewrite H0 in Hrs. subst rs.
  pose proof (hfind_live l k0) as Hf.
  unfold hrun, hstep, bsdconv_hash_has in *. cbn beta iota in *.
  destruct (hfind V (map Some l) k0) as [[i|]|]; [| |contradiction]; [|destruct Hf; congruence].
  destruct Hf as (l1 & w & l2 & El & <- & Hn & Ha). rewrite H0 in Ha. injection Ha as <-.
  subst l. rewrite nth_mid, hswap_split in Hr |- *.
  fold (swapped l1 k0 v0 l2) in Hr |- *.
  set (q := swapped l1 k0 v0 l2) in *.
  assert (Eq : exists t, q = (k0, v0) :: t) by (unfold q; destruct l1; cbn; eauto). destruct Eq as [t Eq].
  assert (Hkq : habs q k = Some v) by (unfold q; rewrite habs_touch by assumption; exact Hk).
  unfold bsdconv_hash_get. pose proof (hfind_live q k) as Hf.
  destruct (hfind V (map Some q) k) as [[i|]|]; [| |contradiction]; [|destruct Hf; congruence].
  destruct Hf as (m1 & w & m2 & Em & <- & Hnm & Ham).
  rewrite Em, nth_mid.
  rewrite hswap_split. rewrite Eq in Em. destruct m1 as [|h m1]; cbn in Em; inversion Em; subst.
  - cbn. eauto.
  - cbn [map length nth_error]. rewrite nth_mid. eauto.
Qed.
End H.

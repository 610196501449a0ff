(** Filters and scorers are range membership. *)
From Verif Require Import Base Types M_Bsearch M_Filter D_Ranges S_Ranges P_Bsearch.
From Coq Require Import ZifyBool ZifyN ZifyNat.
Local Open Scope N_scope.

Lemma bounds2 rs : map (fun r : N * N => (f2 r, l2 r)) rs = rs.
Proof. induction rs as [|[a b] rs IH]; [reflexivity|]. cbn. rewrite IH. reflexivity. Qed.
Lemma range_filter_spec rs l : ascending rs -> rs <> [] -> Forall (fun b => b < 256) l ->
  exists b, range_filter rs (1 :: l) = Some b /\ (b = true <-> within rs (be_value l mod 0x100000000)).
Proof.
  intros A Hne Hl. unfold range_filter. rewrite u32_value by assumption. set (x := be_value l mod 0x100000000).
  destruct (find_spec f2 l2 rs x) as (o & Ho & Hs); [rewrite bounds2; assumption|assumption|]. rewrite Ho. destruct o as [[a b]|].
  - exists true. split; [reflexivity|]. split; [|reflexivity]. intros _. exists a, b. exact Hs.
  - exists false. split; [reflexivity|]. split; [discriminate|]. intros (a & b & Hi & Hx). exfalso. apply (Hs _ Hi Hx).
Qed.
Lemma range_filter_other rs d : hd 0 d <> 1 -> range_filter rs d = Some false.
Proof. destruct d as [|b l]; [reflexivity|]. cbn. intros H. destruct b as [|[ | | ]]; try reflexivity. congruence. Qed.
Lemma range_scorer_spec rs l : ascending (map fst rs) -> rs <> [] -> Forall (fun b => b < 256) l ->
  exists v, range_scorer rs (1 :: l) = Some v /\
    ((exists a b, In (a, b, v) rs /\ a <= be_value l mod 0x100000000 <= b) \/ (v = 0 /\ ~ within (map fst rs) (be_value l mod 0x100000000))).
Proof.
  intros A Hne Hl. unfold range_scorer. rewrite u32_value by assumption. set (x := be_value l mod 0x100000000).
  assert (A' : ascending (map (fun r => (f3 r, l3 r)) rs)).
  { replace (map (fun r => (f3 r, l3 r)) rs) with (map fst rs); [assumption|]. apply map_ext. intros [[a b] v]. reflexivity. }
  destruct (find_spec f3 l3 rs x A' Hne) as (o & Ho & Hs). rewrite Ho. destruct o as [[[a b] v]|].
  - exists v. split; [reflexivity|]. left. exists a, b. exact Hs.
  - exists 0. split; [reflexivity|]. right. split; [reflexivity|]. intros (a & b & Hi & Hx). apply in_map_iff in Hi as ([[a' b'] v] & E & Hi). cbn in E. injection E as -> ->. apply (Hs _ Hi). exact Hx.
Qed.
Lemma range_scorer_other rs d : hd 0 d <> 1 -> range_scorer rs d = Some 0.
Proof. destruct d as [|b l]; [reflexivity|]. cbn. intros H. destruct b as [|[ | | ]]; try reflexivity. congruence. Qed.
Lemma assoc_in {A} k (l : list (str * A)) x : assoc k l = Some x -> In (k, x) l.
Proof.
  induction l as [|[n y] l IH]; cbn; [discriminate|]. destruct (str_eqb k n) eqn:E; [|auto]. apply str_eqb_eq in E as ->. intros H. injection H as ->. auto.
Qed.
Lemma tables_ok : Forall (fun t => ascending (snd t) /\ snd t <> []) filter_tables.
Proof.
  apply Forall_forall. intros t Ht.
  assert (E : forallb (fun t => asc_b (snd t) && negb (match snd t with [] => true | _ => false end)) filter_tables = true) by (vm_compute; reflexivity).
  rewrite forallb_forall in E. specialize (E t Ht). apply andb_prop in E as (E1 & E2). split; [apply asc_b_ok; assumption|]. intros H. rewrite H in E2. discriminate.
Qed.
Lemma scorers_ok : Forall (fun t => ascending (map fst (snd t)) /\ snd t <> []) scorer_tables.
Proof.
  apply Forall_forall. intros t Ht.
  assert (E : forallb (fun t => asc_b (map fst (snd t)) && negb (match snd t with [] => true | _ => false end)) scorer_tables = true) by (vm_compute; reflexivity).
  rewrite forallb_forall in E. specialize (E t Ht). apply andb_prop in E as (E1 & E2). split; [apply asc_b_ok; assumption|]. intros H. rewrite H in E2. discriminate.
Qed.
Lemma width_ok : ascending (map fst width_table) /\ width_table <> [].
Proof. split; [apply asc_b_ok; vm_compute; reflexivity|discriminate]. Qed.
Lemma ambiguous_ok : ascending ambiguous_table /\ ambiguous_table <> [].
Proof. split; [apply asc_b_ok; vm_compute; reflexivity|discriminate]. Qed.
Lemma ccc_ok : ascending (map fst ccc_table) /\ ccc_table <> [].
Proof. split; [apply asc_b_ok; vm_compute; reflexivity|discriminate]. Qed.
Lemma gb_ok : ascending (map fst gb_from_table) /\ ascending (map fst gb_to_table).
Proof. split; apply asc_b_ok; vm_compute; reflexivity. Qed.

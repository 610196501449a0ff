(** Theorems about the arena allocator (C53). *)
From Verif Require Import Base Types M_Arena.
From Coq Require Import ZifyBool ZifyN ZifyNat.
Local Open Scope N_scope.

(** Two blocks share no byte; a block lies inside its pool. *)
Definition disjoint (b c : place * N) : Prop :=
  match fst b, fst c with
  | InPool k o, InPool k' o' => k <> k' \/ o + snd b <= o' \/ o' + snd c <= o
  | _, _ => True
  end.
Definition inside (b : place * N) : Prop := match fst b with InPool k o => (k < FMALLOC_NUM)%nat /\ o + snd b <= FMALLOC_SIZE | Heap => True end.

Definition below (a : arena) (b : place * N) : Prop :=
  match fst b with InPool k o => exists e, nth_error (rev (a_offsets a)) k = Some e /\ o + snd b <= e | Heap => True end.
Definition ainv (a : arena) : Prop := Forall (fun o => o <= FMALLOC_SIZE) (a_offsets a) /\ a_num a = length (a_offsets a) /\ (a_num a <= FMALLOC_NUM)%nat.
Lemma nth_rev_hd {A} (x : A) l : nth_error (rev (x :: l)) (length l) = Some x.
Proof. cbn. rewrite nth_error_app2 by (rewrite rev_length; lia). rewrite rev_length, Nat.sub_diag. reflexivity. Qed.
Lemma nth_rev_tl {A} (x : A) l k : (k < length l)%nat -> nth_error (rev (x :: l)) k = nth_error (rev l) k.
Proof. intros H. cbn. apply nth_error_app1. rewrite rev_length. exact H. Qed.
Lemma nth_lt {A} (l : list A) k x : nth_error l k = Some x -> (k < length l)%nat.
Proof. intros H. apply nth_error_Some. congruence. Qed.

Lemma alloc_step m a s a' p : ainv a -> s <= FMALLOC_SIZE -> fmalloc m a s = (a', p) ->
  ainv a' /\ below a' (p, s) /\ inside (p, s) /\ (forall b, below a b -> below a' b) /\ (forall b, below a b -> disjoint (p, s) b).
Proof.
  intros (H1 & H2 & H3) Hs E. unfold fmalloc in E.
  assert (KB : forall o r n, s + o <= FMALLOC_SIZE -> Forall (fun o => o <= FMALLOC_SIZE) r -> n = S (length r) -> (n <= FMALLOC_NUM)%nat ->
     ainv (mkArena ((o + s) :: r) n) /\ below (mkArena ((o + s) :: r) n) (InPool (length r) o, s) /\ inside (InPool (length r) o, s)).
  { intros o r n Ho Hr Hn Hn'. split; [split; [constructor; [lia|assumption]|split; [exact Hn|exact Hn']]|]. split; [exists (o + s); split; [apply nth_rev_hd|cbn; lia]|]. split; cbn in *; lia. }
  assert (KM : forall r m0 o0 m', (forall b, below (mkArena (o0 :: r) m0) b -> below (mkArena ((o0 + s) :: r) m') b)).
  { intros r m0 o0 m' [[k o|] z] Hb; [|exact I]. destruct Hb as (e & He & Hle). cbn [a_offsets snd] in *. pose proof (nth_lt _ _ _ He) as Hk. rewrite rev_length in Hk. cbn in Hk.
    destruct (Nat.eq_dec k (length r)) as [->|Hne].
    - rewrite nth_rev_hd in He. injection He as <-. exists (o0 + s). split; [apply nth_rev_hd|cbn; lia].
    - exists e. split; [|exact Hle]. cbn [a_offsets]. rewrite nth_rev_tl in * by lia. exact He. }
  assert (KD : forall r m0 o0, (forall b, below (mkArena (o0 :: r) m0) b -> disjoint (InPool (length r) o0, s) b)).
  { intros r m0 o0 [[k o|] z] Hb; [|exact I]. destruct Hb as (e & He & Hle). cbn [a_offsets snd] in *. unfold disjoint. cbn [fst snd].
    destruct (Nat.eq_dec (length r) k) as [<-|Hne]; [|left; exact Hne]. rewrite nth_rev_hd in He. injection He as <-. right. right. exact Hle. }
  assert (KN : forall m0 b, below a b -> below (mkArena (0 :: a_offsets a) m0) b).
  { intros m0 [[k o|] z] Hb; [|exact I]. destruct Hb as (e & He & Hle). exists e. split; [|exact Hle]. cbn [a_offsets snd] in *. rewrite nth_rev_tl; [exact He|]. pose proof (nth_lt _ _ _ He) as Hk. rewrite rev_length in Hk. exact Hk. }
  assert (HH : forall a0, a0 = a -> p = Heap -> ainv a0 /\ below a0 (p, s) /\ inside (p, s) /\ (forall b, below a b -> below a0 b) /\ (forall b, below a b -> disjoint (p, s) b)).
  { intros a0 -> ->. split; [split; auto|]. split; [exact I|]. split; [exact I|]. split; [auto|]. intros b _. exact I. }
  destruct (match a_offsets a with [] => true | o :: _ => FMALLOC_SIZE <? (o + s) mod 2 ^ 64 end) eqn:EN.
  - destruct (Nat.ltb_spec (a_num a) FMALLOC_NUM) as [Hlt|_]; [|injection E as <- <-; apply HH; reflexivity].
    destruct m; [|injection E as <- <-; apply HH; reflexivity]. unfold bump in E. cbn [a_offsets a_num] in E. injection E as <- <-.
    destruct (KB 0 (a_offsets a) (S (a_num a)) ltac:(lia) H1 ltac:(lia) ltac:(lia)) as (B1 & B2 & B3). split; [exact B1|]. split; [exact B2|]. split; [exact B3|].
    split; intros b Hb; [exact (KM _ 0%nat 0 _ b (KN _ b Hb))|eapply KD, (KN 0%nat), Hb].
  - destruct a as [os n]. cbn [a_offsets a_num] in *. destruct os as [|o r]; [discriminate|]. unfold bump in E. cbn [a_offsets a_num] in E. injection E as <- <-. inversion H1; subst.
    assert (Hsmall : o + s < 2 ^ 64). { assert (FMALLOC_SIZE + FMALLOC_SIZE < 2 ^ 64) by reflexivity. lia. }
    rewrite N.mod_small in EN by exact Hsmall.
    destruct (KB o r (length (o :: r)) ltac:(lia) H5 eq_refl H3) as (B1 & B2 & B3). split; [exact B1|]. split; [exact B2|]. split; [exact B3|].
    split; intros b Hb; [eapply KM, Hb|eapply KD, Hb].
Qed.
Lemma run_inv reqs : Forall (fun r => snd r <= FMALLOC_SIZE) reqs ->
  let '(a, bs) := run_arena reqs in ainv a /\ Forall (below a) bs /\ Forall inside bs /\ ForallOrdPairs disjoint bs /\ map snd bs = map snd reqs.
Proof.
  induction 1 as [|[m s] reqs Hs HF IH]; cbn [run_arena].
  - repeat split; try constructor; cbn; lia.
  - destruct (run_arena reqs) as [a bs]. destruct IH as (I1 & I2 & I3 & I4 & I5). destruct (fmalloc m a s) as [a' p] eqn:E.
    destruct (alloc_step _ _ _ _ _ I1 Hs E) as (A1 & A2 & A3 & A4 & A5). split; [exact A1|]. split; [constructor; [exact A2|eapply Forall_impl; [exact A4|exact I2]]|].
    split; [constructor; assumption|]. split; [constructor; [eapply Forall_impl; [exact A5|exact I2]|exact I4]|]. cbn. congruence.
Qed.

(** C53: whatever the sequence of requests (none larger than a pool) and whichever of the mappings succeed, the blocks
    handed out are pairwise disjoint and lie inside one of the at most six pools (or come from malloc). *)
Theorem C53_blocks_disjoint : forall reqs a bs, Forall (fun r => snd r <= FMALLOC_SIZE) reqs -> run_arena reqs = (a, bs) ->
  map snd bs = map snd reqs /\ ForallOrdPairs disjoint bs /\ Forall inside bs.
Proof. intros reqs a bs HF E. pose proof (run_inv reqs HF) as H. rewrite E in H. tauto. Qed.
Print Assumptions C53_blocks_disjoint.
(** fmfree gives back to the heap exactly the blocks that came from it, if no block is empty. *)
Theorem C53_free : forall reqs a bs b, Forall (fun r => 0 < snd r <= FMALLOC_SIZE) reqs -> run_arena reqs = (a, bs) -> In b bs ->
  fmfree_frees a (fst b) = true <-> fst b = Heap.
Proof.
  intros reqs a bs b HF E Hb. assert (HF' : Forall (fun r => snd r <= FMALLOC_SIZE) reqs) by (eapply Forall_impl; [|exact HF]; cbn; tauto).
  pose proof (run_inv reqs HF') as H. rewrite E in H. destruct H as (_ & H & _ & _ & HS). rewrite Forall_forall in H. specialize (H b Hb).
  assert (Hpos : 0 < snd b). { assert (In (snd b) (map snd bs)) by (apply in_map; exact Hb). rewrite HS in H0. apply in_map_iff in H0 as (r & <- & Hr). rewrite Forall_forall in HF. apply HF, Hr. }
  destruct b as [[k o|] s]; cbn in *; [|tauto]. destruct H as (e & -> & Hle). split; [|discriminate]. lia.
Qed.
Print Assumptions C53_free.
Example C53_ex : run_arena [(true, 100); (true, FMALLOC_SIZE); (true, 24); (false, 8)] =
  (mkArena [100; FMALLOC_SIZE; 24] 3, [(InPool 2 0, 100); (InPool 1 0, FMALLOC_SIZE); (InPool 0 0, 24); (Heap, 8)]).
Proof. vm_compute. reflexivity. Qed.
(** Without the bound on the size a block runs over the end of its pool: a fresh pool is not checked. *)
Theorem C53_large_block_refuted : ~ (forall reqs a bs, run_arena reqs = (a, bs) -> Forall inside bs).
Proof.
  intros H. assert (E : run_arena [(true, FMALLOC_SIZE + 1)] = (mkArena [FMALLOC_SIZE + 1] 1, [(InPool 0 0, FMALLOC_SIZE + 1)])) by reflexivity.
  specialize (H _ _ _ E). inversion H as [|? ? K _]; subst. destruct K as (_ & K). vm_compute in K. apply K. reflexivity.
Qed.
Print Assumptions C53_large_block_refuted.
(** And an empty block at the end of the used part of a pool is handed to free(). *)
Theorem C53_empty_block_refuted : exists reqs a bs b, run_arena reqs = (a, bs) /\ In b bs /\ fst b <> Heap /\ fmfree_frees a (fst b) = true.
Proof. exists [(true, 0)], (mkArena [0] 1), [(InPool 0 0, 0)], (InPool 0 0, 0). split; [reflexivity|]. split; [left; reflexivity|]. split; [discriminate|reflexivity]. Qed.
Print Assumptions C53_empty_block_refuted.

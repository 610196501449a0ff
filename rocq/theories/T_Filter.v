(** Theorems about the character-class filters and the scorers (C45, C46). *)
From Verif Require Import Base Types M_Bsearch M_Filter D_Ranges S_Ranges S_Unicode P_Bsearch P_Filter.
Local Open Scope N_scope.

(** C45: whatever filter module is loaded, its verdict on any datum is defined.  A range filter accepts exactly the
    Unicode data (type byte 01) whose code point - 32 bits, as in the code - lies in one of its ranges; a type filter
    exactly the data of its type. *)
Theorem C45_filters : forall name f d, filter_named name = Some f -> Forall (fun b => b < 256) d ->
  (exists rs, In (name, rs) filter_tables /\
    exists b, f d = Some b /\ (b = true <-> exists l, d = 1 :: l /\ within rs (be_value l mod 0x100000000))) \/
  (exists t, In (name, t) filter_types /\
    exists b, f d = Some b /\ (b = true <-> exists l, d = t :: l)).
Proof.
  intros name f d Hf Hd. unfold filter_named in Hf. destruct (assoc name filter_tables) as [rs|] eqn:E.
  - left. injection Hf as <-. exists rs. apply assoc_in in E. split; [assumption|].
    pose proof tables_ok as HT. rewrite Forall_forall in HT. destruct (HT _ E) as (A & Hne).
    destruct d as [|b0 l]; [exists false; split; [reflexivity|split; [discriminate|intros (l & H & _); discriminate]]|].
    destruct (N.eq_dec b0 1) as [->|Hb].
    + inversion Hd as [|? ? _ Hl]; subst. destruct (range_filter_spec rs l A Hne Hl) as (b & H1 & H2). exists b. split; [assumption|]. rewrite H2. split.
      * intros H. exists l. auto.
      * intros (l' & H & H'). injection H as <-. assumption.
    + rewrite range_filter_other by (cbn; assumption). exists false. split; [reflexivity|]. split; [discriminate|]. intros (l' & H & _). congruence.
  - destruct (assoc name filter_types) as [t|] eqn:E2; [|discriminate]. right. injection Hf as <-. exists t. split; [apply assoc_in; assumption|].
    destruct d as [|b0 l]; cbn.
    + exists false. split; [reflexivity|]. split; [discriminate|]. intros (l & H). discriminate.
    + exists (b0 =? t). split; [reflexivity|]. rewrite N.eqb_eq. split; [intros ->; eauto|intros (l' & H); congruence].
Qed.
Print Assumptions C45_filters.
(** ... in particular for the internal form of a character. *)
Theorem C45_code_points : forall name rs c, In (name, rs) filter_tables -> c < 0x1000000 ->
  exists b, range_filter rs (udatum c) = Some b /\ (b = true <-> within rs c).
Proof.
  intros name rs c Hin Hc. pose proof tables_ok as HT. rewrite Forall_forall in HT. destruct (HT _ Hin) as (A & Hne). unfold udatum.
  assert (HB : Forall (fun b => b < 256) (be_bytes c) /\ be_value (be_bytes c) = c).
  { pose proof (N.div_mod c 0x100 ltac:(discriminate)). pose proof (N.mod_lt c 0x100 ltac:(discriminate)).
    pose proof (N.div_mod (c / 0x100) 0x100 ltac:(discriminate)). pose proof (N.mod_lt (c / 0x100) 0x100 ltac:(discriminate)).
    assert (E : c / 0x10000 = c / 0x100 / 0x100) by (rewrite N.div_div by discriminate; reflexivity).
    unfold be_bytes. destruct (N.ltb_spec c 0x100); [|destruct (N.ltb_spec c 0x10000); [|destruct (N.ltb_spec c 0x1000000); [|lia]]];
      (split; [repeat constructor; try rewrite E; lia|cbn -[N.div N.modulo N.mul]; change (256 ^ 0) with 1; change (256 ^ 1) with 256; change (256 ^ 2) with 65536; try rewrite E; lia]). }
  destruct HB as (HB & HV). destruct (range_filter_spec rs _ A Hne HB) as (b & H1 & H2). exists b. split; [assumption|]. rewrite H2, HV, N.mod_small by lia. tauto.
Qed.
Print Assumptions C45_code_points.
(** All shipped range tables are sorted, with disjoint non-empty ranges, as the search requires: the filters', the
    scorers', and those of the intermediate modules and of GB18030. *)
Theorem C45_tables_sorted :
  Forall (fun t => ascending (snd t) /\ snd t <> []) filter_tables /\
  Forall (fun t => ascending (map fst (snd t)) /\ snd t <> []) scorer_tables /\
  ascending (map fst width_table) /\ ascending ambiguous_table /\ ascending (map fst ccc_table) /\
  ascending (map fst gb_from_table) /\ ascending (map fst gb_to_table).
Proof. split; [exact tables_ok|]. split; [exact scorers_ok|]. split; [apply width_ok|]. split; [apply ambiguous_ok|]. split; [apply ccc_ok|exact gb_ok]. Qed.
Print Assumptions C45_tables_sorted.
(** The search itself, for every ascending table and value. *)
Theorem C45_search : forall rs x, ascending rs -> rs <> [] ->
  exists o, bs_find f2 l2 rs x = Some o /\ (o <> None <-> within rs x).
Proof.
  intros rs x A Hne. destruct (find_spec f2 l2 rs x) as (o & Ho & Hs); [rewrite bounds2; assumption|assumption|]. exists o. split; [assumption|]. destruct o as [[a b]|].
  - split; [intros _; exists a, b; exact Hs|discriminate].
  - split; [congruence|]. intros (a & b & Hi & Hx). exfalso. apply (Hs _ Hi Hx).
Qed.
Print Assumptions C45_search.
(** Sortedness is needed: on an unsorted table the search misses members. *)
Theorem C45_unsorted_refuted : exists rs x, within rs x /\ bs_find f2 l2 rs x = Some None.
Proof. exists [(1, 5); (20, 30); (10, 12); (40, 50)], 11. split; [exists 10, 12; cbn; split; [tauto|lia]|vm_compute; reflexivity]. Qed.
Print Assumptions C45_unsorted_refuted.
(** The PRINT filter also accepts the control character U+001F. *)
Theorem C45_print_control_refuted : exists f, filter_named (s_ "PRINT") = Some f /\ f (udatum 0x1F) = Some true.
Proof. eexists. split; [reflexivity|vm_compute; reflexivity]. Qed.
Print Assumptions C45_print_control_refuted.
Example C45_hiragana : exists f, filter_named (s_ "HIRAGANA") = Some f /\ f (udatum 0x3042) = Some true /\ f (udatum 0x30A2) = Some false /\ f [3; 0x42] = Some false.
Proof. eexists. split; [reflexivity|]. vm_compute. auto. Qed.
Example C45_cjk_within : within filter_CJK 0x4E2D.
Proof. exists 0x4E00, 0x9FFF. vm_compute. split; [|split; discriminate]. do 17 (first [left; reflexivity | right]). tauto. Qed.

(** C46: a scorer returns the score of the range that contains the code point, 0 when there is none; the range is
    unique. *)
Theorem C46_scorers : forall name f d, scorer_named name = Some f -> Forall (fun b => b < 256) d ->
  exists rs v, In (name, rs) scorer_tables /\ f d = Some v /\
    ((exists l a b, d = 1 :: l /\ In (a, b, v) rs /\ a <= be_value l mod 0x100000000 <= b) \/
     (v = 0 /\ forall l, d = 1 :: l -> ~ within (map fst rs) (be_value l mod 0x100000000))).
Proof.
  intros name f d Hf Hd. unfold scorer_named in Hf. destruct (assoc name scorer_tables) as [rs|] eqn:E; [|discriminate]. injection Hf as <-. apply assoc_in in E.
  pose proof scorers_ok as HT. rewrite Forall_forall in HT. destruct (HT _ E) as (A & Hne). exists rs.
  destruct d as [|b0 l]; [exists 0; repeat split; auto; right; split; [reflexivity|discriminate]|].
  destruct (N.eq_dec b0 1) as [->|Hb].
  - inversion Hd as [|? ? _ Hl]; subst. destruct (range_scorer_spec rs l A Hne Hl) as (v & H1 & H2). exists v. split; [assumption|]. split; [assumption|].
    destruct H2 as [(a & b & H2 & H3)|(H2 & H3)]; [left; exists l, a, b; auto|right; split; [assumption|]]. intros l' H. injection H as <-. assumption.
  - exists 0. split; [assumption|]. split; [apply range_scorer_other; cbn; assumption|]. right. split; [reflexivity|]. intros l' H. congruence.
Qed.
Print Assumptions C46_scorers.
Theorem C46_unique : forall name rs x a b v a' b' v', In (name, rs) scorer_tables -> In (a, b, v) rs -> In (a', b', v') rs ->
  a <= x <= b -> a' <= x <= b' -> v = v'.
Proof.
  intros name rs x a b v a' b' v' Hin H1 H2 Hx Hx'. pose proof scorers_ok as HT. rewrite Forall_forall in HT. destruct (HT _ Hin) as (A & _).
  assert (E : (a, b, v) = (a', b', v')); [|congruence]. eapply (asc_unique f3 l3 rs x); try eassumption.
  replace (map (fun r => (f3 r, l3 r)) rs) with (map fst rs); [assumption|]. apply map_ext. intros [[? ?] ?]. reflexivity.
Qed.
Print Assumptions C46_unique.
Example C46_cjk : exists f, scorer_named (s_ "CJK") = Some f /\ f (udatum 0x4E2D) = Some 5 /\ f (udatum 0x20001) = Some 1 /\ f (udatum 0x400) = Some 0.
Proof. eexists. split; [reflexivity|]. vm_compute. auto. Qed.

(** C62: what bsdconv_solve_alias returns. *)
From Verif Require Import Base Types M_Engine M_Output M_Create M_Callback M_Hex M_UTF8 M_UTF16 M_Modules M_SolveAlias S_Unicode S_SolveAlias P_SolveAlias P_Aliases D_Aliases.
From Verif Require T_Escape T_Replace.
From Coq Require Import ZifyBool ZifyN ZifyNat.

(** The result is given by the spelling of the upper-cased name; NULL exactly when some character is not part of an alias. *)
Theorem C62_lookup : forall T w out n, table_ok T -> ascii_name w -> spelled T (strtoupper w) out n ->
  exists f0, forall f, f0 <= f -> solve_alias T f w = if (0 <? n)%N then SolveNull else SolveName (bytes out).
Proof. intros T w out n. apply (solve_correct T_Escape.tu8 T_Escape.tu16). apply T_Replace.C47_example. Qed.

(** Every name has a spelling. *)
Lemma begins_dec k w : {begins k w} + {~ begins k w}.
Proof.
  destruct (list_eq_dec Ascii.ascii_dec (firstn (length k) w) k) as [E|E].
  - left. exists (skipn (length k) w). rewrite <- E at 1. symmetry. apply firstn_skipn.
  - right. intros (r & ->). apply E. rewrite firstn_app, Nat.sub_diag, firstn_all. apply app_nil_r.
Qed.
Lemma longest_begin (T : list (str * str)) w : (exists k v, In (k, v) T /\ begins k w) ->
  exists k v, In (k, v) T /\ begins k w /\ forall k' v', In (k', v') T -> begins k' w -> length k' <= length k.
Proof.
  induction T as [|(k1, v1) T IH]; intros (k & v & Hin & Hb); [destruct Hin|].
  assert (HD : (exists k v, In (k, v) T /\ begins k w) \/ ~ exists k v, In (k, v) T /\ begins k w).
  { clear. induction T as [|(k2, v2) T IH]; [right; intros (k & v & [] & _)|]. destruct (begins_dec k2 w) as [H|H]; [left; exists k2, v2; split; [left; reflexivity|exact H]|].
    destruct IH as [(k & v & A & B)|IH]; [left; exists k, v; split; [right; exact A|exact B]|]. right. intros (k & v & [A|A] & B); [injection A as -> ->; contradiction|]. apply IH. eauto. }
  destruct HD as [HD|HD].
  - destruct (IH HD) as (k2 & v2 & A & B & C). destruct (begins_dec k1 w) as [H1|H1].
    + destruct (le_lt_dec (length k1) (length k2)) as [L|L].
      * exists k2, v2. split; [right; exact A|]. split; [exact B|]. intros k' v' [E|E] Hk; [injection E as <- <-; exact L|exact (C k' v' E Hk)].
      * exists k1, v1. split; [left; reflexivity|]. split; [exact H1|]. intros k' v' [E|E] Hk; [injection E as <- <-; lia|specialize (C k' v' E Hk); lia].
    + exists k2, v2. split; [right; exact A|]. split; [exact B|]. intros k' v' [E|E] Hk; [injection E as <- <-; contradiction|exact (C k' v' E Hk)].
  - destruct Hin as [E|Hin]; [injection E as -> ->|exfalso; apply HD; eauto]. exists k, v. split; [left; reflexivity|]. split; [exact Hb|]. intros k' v' [E|E] Hk; [injection E as <- <-; lia|exfalso; apply HD; eauto].
Qed.
Theorem C62_total : forall T, table_ok T -> forall w, exists out n, spelled T w out n.
Proof.
  intros T HT. assert (H : forall n w, length w <= n -> exists out k, spelled T w out k).
  { induction n as [|n IH]; intros w Hn.
    - destruct w; [|cbn in Hn; lia]. exists [], 0%N. constructor.
    - destruct w as [|c w]; [exists [], 0%N; constructor|].
      assert (HD : (exists k v, In (k, v) T /\ begins k (c :: w)) \/ ~ exists k v, In (k, v) T /\ begins k (c :: w)).
      { clear. induction T as [|(k2, v2) T IH]; [right; intros (k & v & [] & _)|]. destruct (begins_dec k2 (c :: w)) as [H|H]; [left; exists k2, v2; split; [left; reflexivity|exact H]|].
        destruct IH as [(k & v & A & B)|IH]; [left; exists k, v; split; [right; exact A|exact B]|]. right. intros (k & v & [A|A] & B); [injection A as -> ->; contradiction|]. apply IH. eauto. }
      destruct HD as [HD|HD].
      + destruct (longest_begin T (c :: w) HD) as (k & v & A & (r & E) & C). destruct (in_has T k v A) as (v' & Hv).
        assert (Hk : k <> []) by (unfold table_ok in HT; rewrite Forall_forall in HT; apply (HT _ A)).
        destruct (IH r) as (out & m & Ho). { apply (f_equal (@length _)) in E. rewrite app_length in E. cbn in E, Hn. destruct k; [contradiction|cbn in E; lia]. }
        exists (v' ++ out), m. rewrite E. constructor; [exact Hv| |exact Ho]. rewrite <- E. exact C.
      + destruct (IH w) as (out & m & Ho); [cbn in Hn; lia|]. exists (c :: out), (m + 1)%N. constructor; [|exact Ho]. intros k v A B. apply HD. eauto. }
  intros w. apply (H (length w)). lia.
Qed.

(** An alias gives its target. *)
Lemma exact_spelled T k v : table_ok T -> has_alias T k v -> spelled T k v 0.
Proof.
  intros HT Hk. rewrite <- (app_nil_r k), <- (app_nil_r v). constructor; [exact Hk| |constructor].
  rewrite app_nil_r. intros k' v' _ (r & E). rewrite E, app_length. lia.
Qed.
Corollary C62_exact : forall T w v, table_ok T -> ascii_name w -> has_alias T (strtoupper w) v ->
  exists f0, forall f, f0 <= f -> solve_alias T f w = SolveName (bytes v).
Proof. intros T w v HT HW Hk. exact (C62_lookup T w v 0 HT HW (exact_spelled T _ v HT Hk)). Qed.

(** A result that is not NULL: the name is a concatenation of aliases, the result that of their targets. *)
Lemma spelled_names T w out n : spelled T w out n -> n = 0%N -> exists ks vs, Forall2 (has_alias T) ks vs /\ w = concat ks /\ out = concat vs.
Proof.
  induction 1 as [|k v rest out n Hk _ _ IH|c rest out n _ _ IH]; intros E; [exists [], []; repeat split; constructor| |lia].
  destruct (IH E) as (ks & vs & A & -> & ->). exists (k :: ks), (v :: vs). split; [constructor; assumption|]. split; reflexivity.
Qed.
Lemma two_results (g : nat -> solved) f0 f1 a b : (forall f, f0 <= f -> g f = a) -> (forall f, f1 <= f -> g f = SolveName b) -> a = SolveNull -> False.
Proof. intros H H1 ->. pose proof (H (f0 + f1) ltac:(lia)) as E1. rewrite (H1 (f0 + f1) ltac:(lia)) in E1. discriminate. Qed.
Corollary C62_result : forall T w, table_ok T -> ascii_name w -> exists f0, forall f, f0 <= f ->
  match solve_alias T f w with
  | SolveName b => exists ks vs, Forall2 (has_alias T) ks vs /\ strtoupper w = concat ks /\ b = bytes (concat vs)
  | SolveNull => forall v, ~ has_alias T (strtoupper w) v
  | SolveStuck => False
  end.
Proof.
  intros T w HT HW. destruct (C62_total T HT (strtoupper w)) as (out & n & HS). destruct (C62_lookup T w out n HT HW HS) as (f0 & H). revert H. destruct (N.ltb_spec 0 n) as [Hn|Hn]; intros H.
  - assert (HD : (exists v, has_alias T (strtoupper w) v) \/ ~ exists v, has_alias T (strtoupper w) v).
    { clear. induction T as [|(k1, v1) T IH]; [right; intros (v & H); inversion H|]. destruct (list_eq_dec Ascii.ascii_dec (strtoupper w) k1) as [->|Hne]; [left; exists v1; constructor|].
      destruct IH as [(v & IH)|IH]; [left; exists v; constructor; assumption|]. right. intros (v & Hv). inversion Hv; subst; [contradiction|]. apply IH. eauto. }
    destruct HD as [(v & Hv)|HD].
    + exfalso. destruct (C62_exact T w v HT HW Hv) as (f1 & H1). exact (two_results (fun f => solve_alias T f w) f0 f1 _ _ H H1 eq_refl).
    + exists f0. intros f Hf. rewrite (H f Hf). intros v Hv. apply HD. eauto.
  - assert (n = 0%N) by lia. subst n. exists f0. intros f Hf. rewrite (H f Hf). destruct (spelled_names T _ _ _ HS eq_refl) as (ks & vs & A & B & ->). exists ks, vs. auto.
Qed.

(** ** The shipped tables *)
Definition shipped_table (t : ptype) : list (str * str) := match t with FROM => alias_from | INTER => alias_inter | TO => alias_to | FILTER => alias_filter | SCORER => [] end.
Definition ascii_nameb (s : str) : bool := forallb (fun c => (1 <=? N_of_ascii c)%N && (N_of_ascii c <? 128)%N) s.
Definition rowb (kv : str * str) : bool :=
  negb (length (fst kv) =? 0) && negb (length (snd kv) =? 0) && ascii_nameb (fst kv) && ascii_nameb (snd kv) && (5 * length (fst kv) + 5 * length (snd kv) + 2 <=? 1023).
Lemma ascii_nameb_ok s : ascii_nameb s = true -> ascii_name s.
Proof. unfold ascii_nameb, ascii_name. intros H. rewrite forallb_forall in H. apply Forall_forall. intros c Hc. specialize (H c Hc). lia. Qed.
Lemma rows_ok T : forallb rowb T = true -> table_ok T.
Proof.
  intros H. rewrite forallb_forall in H. apply Forall_forall. intros (k, v) Hin. specialize (H _ Hin). unfold rowb in H. cbn [fst snd] in *. rewrite !andb_true_iff in H. destruct H as ((((H1 & H2) & H3) & H4) & H5).
  split; [destruct k; [discriminate|discriminate]|]. split; [destruct v; [discriminate|discriminate]|]. split; [apply ascii_nameb_ok; exact H3|]. split; [apply ascii_nameb_ok; exact H4|]. apply Nat.leb_le. exact H5.
Qed.
Theorem C62_shipped_tables : forall t, table_ok (shipped_table t).
Proof. intros t. apply rows_ok. destruct t; vm_compute; reflexivity. Qed.
Lemma assoc_has T k v : assoc k T = Some v -> has_alias T k v.
Proof.
  induction T as [|(k1, v1) T IH]; cbn [assoc]; [discriminate|]. destruct (str_eqb k k1) eqn:E.
  - apply str_eqb_eq in E. intros H. injection H as ->. subst. constructor.
  - intros H. constructor; [intros ->; rewrite (proj2 (str_eqb_eq _ _) eq_refl) in E; discriminate|auto].
Qed.
Corollary C62_shipped : forall t w v, ascii_name w -> shipped_alias t w = Some v ->
  exists f0, forall f, f0 <= f -> solve_alias (shipped_table t) f w = SolveName (bytes v).
Proof. intros t w v HW H. apply C62_exact; [apply C62_shipped_tables|exact HW|]. apply assoc_has. exact H. Qed.

(** The documented meaning, "NULL unless the name is an alias", does not hold: "BIG5BIG5" is none, and is solved. *)
Theorem C62_only_aliases_refuted : ~ forall t w, ascii_name w -> (forall v, ~ has_alias (shipped_table t) (strtoupper w) v) ->
  exists f0, forall f, f0 <= f -> solve_alias (shipped_table t) f w = SolveNull.
Proof.
  intros H. specialize (H FROM (s_ "BIG5BIG5") ltac:(apply ascii_nameb_ok; vm_compute; reflexivity)).
  destruct H as (f0 & H).
  - intros v Hv. apply has_in in Hv. assert (HX : forallb (fun kv => negb (str_eqb (fst kv) (s_ "BIG5BIG5"))) (shipped_table FROM) = true) by (vm_compute; reflexivity).
    rewrite forallb_forall in HX. specialize (HX _ Hv). cbn [fst] in HX. change (strtoupper (s_ "BIG5BIG5")) with (s_ "BIG5BIG5") in HX. rewrite (proj2 (str_eqb_eq _ _) eq_refl) in HX. discriminate.
  - assert (HS : spelled (shipped_table FROM) (strtoupper (s_ "BIG5BIG5")) (s_ "UAO250UAO250") 0).
    { change (strtoupper (s_ "BIG5BIG5")) with (s_ "BIG5" ++ (s_ "BIG5" ++ [])). change (s_ "UAO250UAO250") with (s_ "UAO250" ++ (s_ "UAO250" ++ [])).
      assert (HK : has_alias (shipped_table FROM) (s_ "BIG5") (s_ "UAO250")) by (apply assoc_has; vm_compute; reflexivity).
      assert (HL : forall r, (r = [] \/ r = s_ "BIG5") -> forall k v, In (k, v) (shipped_table FROM) -> begins k (s_ "BIG5" ++ r) -> length k <= length (s_ "BIG5")).
      { intros r Hr k v Hin (x & E).
        assert (HX : forallb (fun kv => negb (str_eqb (fst kv) (firstn (length (fst kv)) (s_ "BIG5BIG5"))) || (length (fst kv) <=? 4)) (shipped_table FROM) = true) by (vm_compute; reflexivity).
        rewrite forallb_forall in HX. specialize (HX _ Hin). cbn [fst] in HX. apply orb_true_iff in HX as [HX|HX]; [|apply Nat.leb_le in HX; exact HX].
        destruct (str_eqb k (firstn (length k) (s_ "BIG5BIG5"))) eqn:EK; [discriminate|]. exfalso.
        assert (EB : firstn (length k) (s_ "BIG5BIG5") = k).
        { destruct Hr as [-> | ->].
          - rewrite app_nil_r in E. change (s_ "BIG5BIG5") with (s_ "BIG5" ++ s_ "BIG5"). rewrite E, <- app_assoc, firstn_app, Nat.sub_diag, firstn_all. apply app_nil_r.
          - change (s_ "BIG5BIG5") with (s_ "BIG5" ++ s_ "BIG5"). rewrite E, firstn_app, Nat.sub_diag, firstn_all. apply app_nil_r. }
        rewrite EB, (proj2 (str_eqb_eq _ _) eq_refl) in EK. discriminate. }
      apply sp_name; [exact HK|apply HL; right; reflexivity|]. apply sp_name; [exact HK|apply HL; left; reflexivity|constructor]. }
    destruct (C62_lookup (shipped_table FROM) (s_ "BIG5BIG5") (s_ "UAO250UAO250") 0%N (C62_shipped_tables FROM) ltac:(apply ascii_nameb_ok; vm_compute; reflexivity) HS) as (f1 & H1).
    exact (two_results (fun f => solve_alias (shipped_table FROM) f (s_ "BIG5BIG5")) f0 f1 _ _ H H1 eq_refl).
Qed.
(** A case of the hypotheses: "utf-8" as an input. *)
Example C62_example : ascii_name (s_ "utf-8") /\ shipped_alias FROM (s_ "utf-8") = Some (s_ "ASCII,_UTF-8") /\ shipped_alias TO (s_ "Utf-8") = Some (s_ "_UTF-8,ASCII").
Proof. split; [apply ascii_nameb_ok; vm_compute; reflexivity|]. split; vm_compute; reflexivity. Qed.
Print Assumptions C62_lookup.
Print Assumptions C62_total.
Print Assumptions C62_exact.
Print Assumptions C62_result.
Print Assumptions C62_shipped.
Print Assumptions C62_shipped_tables.
Print Assumptions C62_only_aliases_refuted.

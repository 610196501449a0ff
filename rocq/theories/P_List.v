(** The list of modules. *)
From Verif Require Import Base Types M_ConvString M_List S_List.
From Coq Require Import ZifyBool ZifyN ZifyNat.
Local Arguments N_of_ascii : simpl never.

(** ** The array *)
Definition good (a : table) (names : list str) : Prop := a_len a = length names /\ exists rest, a_cells a = map CStr names ++ rest /\ 1 <= length (a_cells a).
Lemma set_app l y r x : set_nth (l ++ y :: r) (length l) x = Some (l ++ x :: r).
Proof. induction l as [|z l IH]; [reflexivity|]. cbn [app length set_nth]. rewrite IH. reflexivity. Qed.
Lemma grow_good a names : good a names -> exists y rest, a_cells (grow a) = map CStr names ++ y :: rest /\ a_len (grow a) = length names.
Proof.
  intros (HL & rest & HC & _). unfold grow. rewrite HC, HL. rewrite app_length, map_length. destruct (Nat.leb_spec (length names + length rest) (length names)) as [H|H].
  - destruct rest; [|cbn in H; lia]. cbn [a_cells a_len]. rewrite app_nil_r. eexists _, _. split; [reflexivity|reflexivity].
  - destruct rest as [|y rest]; [cbn in H; lia|]. eexists _, _. split; [exact HC|exact HL].
Qed.
Lemma put_good a names s : good a names -> exists a', put a s = Some a' /\ good a' (names ++ [s]).
Proof.
  intros H. destruct (grow_good a names H) as (y & rest & E1 & E2). unfold put. cbv zeta. rewrite E1, E2.
  pose proof (set_app (map CStr names) y rest (CStr s)) as HS. rewrite map_length in HS. rewrite HS. eexists. split; [reflexivity|]. split; cbn [a_len a_cells].
  - rewrite app_length. cbn [length]. lia.
  - exists rest. rewrite map_app, <- app_assoc. split; [reflexivity|]. rewrite app_length. cbn [length]. lia.
Qed.
Definition somes (l : list (option str)) : list str := flat_map (fun o => match o with Some s => [s] | None => [] end) l.
Lemma put_all_good l : forall a names, good a names -> exists a', put_all a l = Some a' /\ good a' (names ++ somes l).
Proof.
  induction l as [|[s|] l IH]; intros a names H; cbn [put_all somes flat_map app].
  - exists a. rewrite app_nil_r. auto.
  - destruct (put_good a names s H) as (a1 & -> & H1). destruct (IH a1 _ H1) as (a' & E & H'). exists a'. rewrite <- app_assoc in H'. auto.
  - apply IH. exact H.
Qed.

(** ** Sorting *)
Lemma str_leb_le a : forall b, str_leb a b = true -> str_le a b.
Proof.
  induction a as [|x a IH]; intros [|y b] H; try discriminate; [apply sl_nil|apply sl_nil|]. cbn [str_leb] in H. destruct (Ascii.eqb_spec x y) as [->|]; [apply sl_eq; auto|apply sl_lt; lia].
Qed.
Lemma str_leb_total a : forall b, str_leb a b = false -> str_leb b a = true.
Proof.
  induction a as [|x a IH]; intros [|y b] H; try discriminate; try reflexivity. cbn [str_leb] in *. destruct (Ascii.eqb_spec x y) as [->|Hne].
  - rewrite Ascii.eqb_refl. auto.
  - destruct (Ascii.eqb_spec y x) as [->|_]; [contradiction|]. assert (N_of_ascii x <> N_of_ascii y) by (intros E; apply Hne; rewrite <- (ascii_N_embedding x), <- (ascii_N_embedding y), E; reflexivity). lia.
Qed.
Lemma str_le_trans a b : str_le a b -> forall c, str_le b c -> str_le a c.
Proof.
  induction 1 as [b|x y a b Hxy|x a b H IH]; intros c Hc; [constructor| |].
  - inversion Hc as [|? z ? c' Hz|? ? c' Hc']; subst; [apply sl_lt; lia|apply sl_lt; exact Hxy].
  - inversion Hc as [|? z ? c' Hz|? ? c' Hc']; subst; [apply sl_lt; exact Hz|apply sl_eq; auto].
Qed.
Fixpoint sinsert (x : str) (l : list str) : list str := match l with [] => [x] | y :: r => if str_leb x y then x :: l else y :: sinsert x r end.
Lemma insert_str x l : insert (CStr x) (map CStr l) = map CStr (sinsert x l).
Proof. induction l as [|y l IH]; [reflexivity|]. cbn [map insert sinsert cell_leb]. destruct (str_leb x y); [reflexivity|]. rewrite IH. reflexivity. Qed.
Lemma qsort_str l : qsort (map CStr l) = map CStr (fold_right sinsert [] l).
Proof. induction l as [|x l IH]; [reflexivity|]. unfold qsort in *. cbn [map fold_right]. rewrite IH. apply insert_str. Qed.
Lemma sinsert_perm x l : Permutation (sinsert x l) (x :: l).
Proof. induction l as [|y l IH]; [apply Permutation_refl|]. cbn [sinsert]. destruct (str_leb x y); [apply Permutation_refl|]. eapply perm_trans; [apply perm_skip; exact IH|apply perm_swap]. Qed.
Lemma sort_perm l : Permutation (fold_right sinsert [] l) l.
Proof. induction l as [|x l IH]; [constructor|]. cbn [fold_right]. eapply perm_trans; [apply sinsert_perm|apply perm_skip; exact IH]. Qed.
Lemma sinsert_sorted x l : StronglySorted str_le l -> StronglySorted str_le (sinsert x l).
Proof.
  induction 1 as [|y l HS IH HF]; [repeat constructor|]. cbn [sinsert]. destruct (str_leb x y) eqn:E.
  - apply str_leb_le in E. constructor; [constructor; assumption|]. constructor; [exact E|]. eapply Forall_impl; [|exact HF]. intros z. apply str_le_trans. exact E.
  - apply str_leb_total, str_leb_le in E. constructor; [exact IH|]. apply Forall_forall. intros z Hz. apply (Permutation_in _ (sinsert_perm x l)) in Hz. destruct Hz as [<-|Hz]; [exact E|]. rewrite Forall_forall in HF. auto.
Qed.
Lemma sort_sorted l : StronglySorted str_le (fold_right sinsert [] l).
Proof. induction l as [|x l IH]; [constructor|]. cbn [fold_right]. apply sinsert_sorted. exact IH. Qed.

(** ** Any directory, any file *)
Definition dirs (dir : option (list str)) : list str := match dir with Some d => d | None => [] end.
Definition bufs (alias : option str) : list str := match alias with Some s => fgets_all (length s) s | None => [] end.
Lemma list_any t dir alias : exists names rest, modules_list (Some t) dir alias = Some (map CStr names ++ CNull :: rest) /\
  Permutation names (somes (map (dir_name t) (dirs dir)) ++ somes (map line_name (bufs alias))) /\ StronglySorted str_le names.
Proof.
  unfold modules_list. fold (dirs dir). fold (bufs alias).
  assert (H0 : good empty_table []) by (split; [reflexivity|]; eexists; split; [reflexivity|cbn; lia]).
  destruct (put_all_good (map (dir_name t) (dirs dir)) empty_table [] H0) as (a1 & -> & H1). destruct (put_all_good (map line_name (bufs alias)) a1 _ H1) as (a2 & -> & H2). cbn [app] in H2. cbv zeta.
  set (ns := somes (map (dir_name t) (dirs dir)) ++ somes (map line_name (bufs alias))) in *. destruct (grow_good a2 ns H2) as (y & rest & E1 & E2). rewrite E1, E2.
  assert (EF : firstn (length ns) (map CStr ns ++ y :: rest) = map CStr ns) by (rewrite <- (map_length CStr ns), firstn_app, Nat.sub_diag, firstn_all; apply app_nil_r).
  assert (ES : skipn (length ns) (map CStr ns ++ y :: rest) = y :: rest) by (rewrite <- (map_length CStr ns), skipn_app, Nat.sub_diag, skipn_all; reflexivity).
  rewrite EF, ES, qsort_str.
  pose proof (set_app (map CStr (fold_right sinsert [] ns)) y rest CNull) as HS. rewrite map_length, (Permutation_length (sort_perm ns)) in HS. rewrite HS.
  exists (fold_right sinsert [] ns), rest. split; [reflexivity|]. split; [apply sort_perm|apply sort_sorted].
Qed.

(** ** File names and lines *)
Lemma is_prefix_iff p : forall s, is_prefix p s = true <-> exists r, s = p ++ r.
Proof.
  induction p as [|a p IH]; intros s; cbn [is_prefix].
  - split; [intros _; exists s; reflexivity|auto].
  - destruct s as [|b s]; [split; [discriminate|intros (r & H); discriminate]|]. rewrite andb_true_iff, IH. destruct (Ascii.eqb_spec a b) as [->|Hne]; split; intros H.
    + destruct H as (_ & r & ->). exists r. reflexivity.
    + destruct H as (r & H). injection H as ->. split; [reflexivity|exists r; reflexivity].
    + destruct H as (H & _). discriminate.
    + destruct H as (r & H). injection H as -> _. contradiction.
Qed.
Lemma contains_iff p s : contains p s = true <-> occurs p s.
Proof.
  induction s as [|c s IH]; cbn [contains]; rewrite orb_true_iff, is_prefix_iff.
  - split; [intros [(r & H)|H]; [exists [], r; exact H|discriminate]|]. intros (a & b & H). left. destruct a; [exists b; exact H|discriminate].
  - rewrite IH. split.
    + intros [(r & H)|(a & b & ->)]; [exists [], r; exact H|exists (c :: a), b; reflexivity].
    + intros (a & b & H). destruct a as [|x a]; [left; exists b; exact H|right]. injection H as -> ->. exists a, b. reflexivity.
Qed.
Lemma dot_in s : contains (s_ ".") s = true <-> In dot s.
Proof.
  rewrite contains_iff. split; [intros (a & b & ->); apply in_or_app; right; left; reflexivity|]. intros H. apply in_split in H as (a & b & ->). exists a, b. reflexivity.
Qed.
Lemma upto_split c s : ~ In nul s -> In c s -> exists r, s = upto c s ++ c :: r /\ ~ In c (upto c s).
Proof.
  induction s as [|x s IH]; intros Hn Hc; [destruct Hc|]. cbn [upto]. destruct (Ascii.eqb_spec x c) as [->|Hne]; cbn [orb]; [exists s; split; [reflexivity|intros []]|].
  destruct (Ascii.eqb_spec x nul) as [->|_]; [exfalso; apply Hn; left; reflexivity|]. destruct Hc as [Hc|Hc]; [contradiction|]. destruct IH as (r & E & N); [intros H; apply Hn; right; exact H|exact Hc|].
  exists r. split; [cbn [app]; congruence|]. intros [H|H]; [congruence|contradiction].
Qed.
Lemma split_unique (c : ascii) a : forall r b q, ~ In c a -> ~ In c b -> a ++ c :: r = b ++ c :: q -> a = b.
Proof.
  induction a as [|x a IH]; intros r [|y b] q Ha Hb H; [reflexivity| | |].
  - injection H as E _. exfalso. apply Hb. left. symmetry. exact E.
  - injection H as E _. exfalso. apply Ha. left. exact E.
  - injection H as -> H. f_equal. eapply IH; [| |exact H]; intros K; [apply Ha|apply Hb]; right; exact K.
Qed.
Lemma dir_name_ok t d : file_name d -> match dir_name t d with Some n => module_file t d n | None => forall n, ~ module_file t d n end.
Proof.
  intros Hd. assert (HP : forall d, match (if contains (s_ ".") d || str_eqb d (s_ "alias") then None else Some d) with Some n => ~ In dot d /\ d <> s_ "alias" /\ n = d | None => forall n, ~ (~ In dot d /\ d <> s_ "alias" /\ n = d) end).
  { clear. intros d. pose proof (dot_in d) as HD. destruct (contains (s_ ".") d); cbn [orb]; [intros n (H & _); apply H, HD; reflexivity|]. destruct (str_eqb d (s_ "alias")) eqn:E.
    - apply str_eqb_eq in E. intros n (_ & H & _). contradiction.
    - split; [intros H; apply HD in H; discriminate|]. split; [intros ->; rewrite (proj2 (str_eqb_eq _ _) eq_refl) in E; discriminate|reflexivity]. }
  assert (HS : match (if negb (contains (s_ ".so") d) || str_eqb d (s_ "alias") then None else Some (upto dot d)) with Some n => occurs (s_ ".so") d /\ ~ In dot n /\ exists r, d = n ++ dot :: r | None => forall n, ~ (occurs (s_ ".so") d /\ ~ In dot n /\ exists r, d = n ++ dot :: r) end).
  { pose proof (contains_iff (s_ ".so") d) as HC. destruct (contains (s_ ".so") d); cbn [negb orb].
    - pose proof (proj1 HC eq_refl) as HO. destruct (str_eqb d (s_ "alias")) eqn:E.
      + apply str_eqb_eq in E. subst d. assert (HX : contains (s_ ".so") (s_ "alias") = false) by reflexivity. rewrite (proj2 (contains_iff _ _) HO) in HX. discriminate.
      + assert (HI : In dot d) by (destruct HO as (a & b & ->); apply in_or_app; right; left; reflexivity). destruct (upto_split dot d Hd HI) as (r & E1 & E2). split; [exact HO|]. split; [exact E2|]. exists r. exact E1.
    - intros n (H & _). apply HC in H. discriminate. }
  destruct t; [apply HP|apply HP|apply HP|exact HS|exact HS].
Qed.
Lemma dir_selected t d : Forall file_name d -> selected (module_file t) d (somes (map (dir_name t) d)).
Proof.
  induction 1 as [|x d Hx _ IH]; [constructor|]. cbn [map somes flat_map]. pose proof (dir_name_ok t x Hx) as H. destruct (dir_name t x); [apply se_take; assumption|apply se_skip; assumption].
Qed.
Lemma fgets_line l : forall n r, length l < n -> ~ In nl l -> fgets n (l ++ nl :: r) = (l ++ [nl], r).
Proof.
  induction l as [|c l IH]; intros [|n] r Hn Hl; cbn [length] in Hn; try lia; cbn [app fgets].
  - rewrite Ascii.eqb_refl. reflexivity.
  - destruct (Ascii.eqb_spec c nl) as [->|_]; [exfalso; apply Hl; left; reflexivity|]. rewrite IH; [reflexivity|lia|intros H; apply Hl; right; exact H].
Qed.
Lemma fgets_file ls : Forall short_line ls -> forall fuel, length (file_of ls) <= fuel -> fgets_all fuel (file_of ls) = map (fun l => l ++ [nl]) ls.
Proof.
  induction 1 as [|l ls (H1 & H2 & H3) _ IH]; intros fuel Hf; [destruct fuel; reflexivity|]. unfold file_of in *. cbn [map concat] in *. rewrite <- app_assoc in *. cbn [app] in *. rewrite app_length in Hf. cbn [length] in Hf.
  destruct fuel as [|fuel]; [lia|]. assert (HE : forall s : str, (match s with [] => [] | _ :: _ => let '(a, b) := fgets 255 s in a :: fgets_all fuel b end) = fgets_all (S fuel) s) by (intros [|? ?]; reflexivity).
  rewrite <- HE. destruct (l ++ nl :: concat (map (fun l => l ++ [nl]) ls)) as [|x y] eqn:E; [destruct l; discriminate|]. rewrite <- E, fgets_line by (try assumption; lia). rewrite IH by lia. reflexivity.
Qed.
Lemma line_name_ok l : short_line l -> ((exists r, l = hash :: r) \/ In tab l) -> match line_name (l ++ [nl]) with Some n => alias_line l n | None => forall n, ~ alias_line l n end.
Proof.
  intros (_ & Hnl & Hnul) Ht. destruct l as [|c l].
  - destruct Ht as [(r & H)|[]]. discriminate.
  - cbn [line_name app]. destruct (Ascii.eqb_spec c hash) as [->|Hc]; [intros n (H & _); apply (H l); reflexivity|].
    destruct Ht as [(r & H)|Ht]; [congruence|]. destruct (upto_split tab (c :: l ++ [nl])) as (r & E1 & E2).
    + intros H. change (c :: l ++ [nl]) with ((c :: l) ++ [nl]) in H. apply in_app_or in H as [H|[H|[]]]; [contradiction|discriminate].
    + change (c :: l ++ [nl]) with ((c :: l) ++ [nl]). apply in_or_app. left. exact Ht.
    + destruct (upto_split tab (c :: l) Hnul Ht) as (r2 & F1 & F2).
      assert (EU : upto tab (c :: l ++ [nl]) = upto tab (c :: l)).
      { apply (split_unique tab _ r _ (r2 ++ [nl]) E2 F2). rewrite <- E1. change (tab :: r2 ++ [nl]) with ((tab :: r2) ++ [nl]). rewrite app_assoc, <- F1. reflexivity. }
      rewrite EU. split; [intros q H; congruence|]. split; [exact F2|]. exists r2. exact F1.
Qed.
Lemma lines_selected ls : Forall short_line ls -> Forall (fun l => (exists r, l = hash :: r) \/ In tab l) ls -> selected alias_line ls (somes (map line_name (map (fun l => l ++ [nl]) ls))).
Proof.
  induction 1 as [|l ls Hl _ IH]; intros HF; [constructor|]. inversion HF as [|? ? H1 H2]; subst. cbn [map somes flat_map]. pose proof (line_name_ok l Hl H1) as H. destruct (line_name (l ++ [nl])); [apply se_take; auto|apply se_skip; auto].
Qed.

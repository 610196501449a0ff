(** C57: STRINGS keeps exactly the runs that are long enough. *)
From Verif Require Import Base Types M_Engine M_Output M_Create M_Callback M_UTF8 M_UTF16 M_Modules M_Star M_Stars M_Strings S_Strings S_Session S_Unicode S_Flow P_Norm P_Flow P_Flow5 T_Flow D_Ranges M_Filter S_Ranges T_Filter S_Transcode.
From Coq Require Import ZifyBool ZifyN ZifyNat.
Local Open Scope N_scope.

(** The result of STRINGS#MIN-LEN=n&BEFORE=before&AFTER=after on a list: each run with its neighbours. *)
Definition strings_of {A} (n : nat) (before after : list A) (rs : list (list A)) : list A :=
  flat_map (fun r => if (n <=? length r)%nat then before ++ r ++ after else []) rs.

(** ** The runs, computed *)
Section Runs.
Context {A : Type} (f : A -> bool).
Fixpoint runsf (acc l : list A) : list (list A) :=
  match l with
  | [] => match acc with [] => [] | _ => [acc] end
  | x :: r => if f x then runsf (acc ++ [x]) r else match acc with [] => runsf [] r | _ => acc :: runsf [] r end
  end.
Lemma runs_skip x l rs : f x = false -> runs_of f l rs -> runs_of f (x :: l) rs.
Proof.
  intros Hx H. destruct H as [l Hl|a r l rs Ha Hr Hf Hl H]; [apply ru_none; constructor; assumption|].
  change (x :: a ++ r ++ l) with ((x :: a) ++ r ++ l). apply ru_run; auto.
Qed.
Lemma runsf_ok : forall l acc, Forall (fun x => f x = true) acc -> runs_of f (acc ++ l) (runsf acc l).
Proof.
  induction l as [|x l IH]; intros acc Ha; cbn [runsf].
  - destruct acc as [|y acc]; [apply ru_none; constructor|]. apply (ru_run f [] (y :: acc) [] []); auto; [discriminate|]. apply ru_none. constructor.
  - destruct (f x) eqn:E.
    + replace (acc ++ x :: l) with ((acc ++ [x]) ++ l) by (rewrite <- app_assoc; reflexivity). apply IH. apply Forall_app. auto.
    + assert (Hl : runs_of f (x :: l) (runsf [] l)) by (apply runs_skip; [exact E|]; apply (IH []); constructor).
      destruct acc as [|y acc]; [exact Hl|]. apply (ru_run f [] (y :: acc) (x :: l)); auto; [discriminate|]. right. exists x, l. auto.
Qed.
Lemma runsf_run : forall r acc l, Forall (fun x => f x = true) r -> runsf acc (r ++ l) = runsf (acc ++ r) l.
Proof.
  induction r as [|x r IH]; intros acc l H; [rewrite app_nil_r; reflexivity|]. inversion H; subst. cbn [app runsf]. rewrite H2, IH by assumption. rewrite <- app_assoc. reflexivity.
Qed.
Lemma runsf_none : forall a l, Forall (fun x => f x = false) a -> runsf [] (a ++ l) = runsf [] l.
Proof. induction a as [|x a IH]; intros l H; [reflexivity|]. inversion H; subst. cbn [app runsf]. rewrite H2. apply IH. assumption. Qed.
Lemma runs_unique l rs : runs_of f l rs -> rs = runsf [] l.
Proof.
  induction 1 as [l Hl|a r l rs Ha Hr Hf Hl _ IH].
  - rewrite <- (app_nil_r l), runsf_none by exact Hl. reflexivity.
  - rewrite runsf_none by exact Ha. rewrite runsf_run by exact Hf. cbn [app]. subst rs. destruct r as [|y r]; [congruence|]. destruct Hl as [->|(x & l' & -> & Hx)]; cbn [runsf]; [reflexivity|]. rewrite Hx. reflexivity.
Qed.
End Runs.
(** The specification has exactly one result. *)
Theorem C57_runs_total : forall {A} (f : A -> bool) l, exists rs, runs_of f l rs /\ forall rs', runs_of f l rs' -> rs' = rs.
Proof. intros A f l. exists (runsf f [] l). split; [apply (runsf_ok f l []); constructor|]. intros rs'. apply runs_unique. Qed.
Print Assumptions C57_runs_total.

(** ** The module *)
Section M.
Variables (f : datum -> bool) (n : nat) (before after : list datum).
Hypothesis Hn : N.of_nat n < 0x80000000.
Notation m := (STRINGS f (Z.of_nat n) before after).
Lemma long_len k : N.of_nat k < 0x100000000 -> long_enough (Z.of_nat n) (N.of_nat k) = (n <=? k)%nat.
Proof. intros Hk. unfold long_enough. rewrite Z.mod_small by lia. lia. Qed.
Definition fin (x : option (strs * bool * list datum)) : option (strs * list datum) :=
  match x with Some (s, p, o) => if p then let '(s', o') := st_flush m s in Some (s', o ++ o') else Some (s, o) | None => None end.
Definition emit (acc : list datum) : list datum := strings_of n before after (match acc with [] => [] | _ => [acc] end).
Lemma flush_emit acc : N.of_nat (length acc) < 0x100000000 -> strings_flush (Z.of_nat n) before after (acc, N.of_nat (length acc)) = (([], 0), emit acc).
Proof.
  intros H. destruct acc as [|d acc]; [reflexivity|]. unfold strings_flush. cbn [fst snd]. rewrite long_len by exact H. unfold emit, strings_of. cbn [flat_map]. rewrite app_nil_r. reflexivity.
Qed.
Lemma feed_strings : forall ds acc, N.of_nat (length acc + length ds) < 0x100000000 ->
  fin (star_feed m (acc, N.of_nat (length acc)) (match acc with [] => false | _ => true end) ds) = Some (([], 0), strings_of n before after (runsf f acc ds)).
Proof.
  induction ds as [|d ds IH]; intros acc HL; cbn [length] in HL; cbn [star_feed runsf].
  - unfold fin. destruct acc as [|y acc]; [reflexivity|]. cbn [st_flush STRINGS]. rewrite flush_emit by lia. reflexivity.
  - unfold star_one. cbn [st_conv STRINGS]. unfold strings_conv. destruct (f d) eqn:E.
    + cbn [fst snd]. replace ((N.of_nat (length acc) + 1) mod 0x100000000) with (N.of_nat (length (acc ++ [d]))) by (rewrite app_length, N.mod_small by lia; cbn [length]; lia).
      specialize (IH (acc ++ [d])). rewrite app_length in IH. cbn [length] in IH. specialize (IH ltac:(lia)).
      replace (match acc ++ [d] with [] => false | _ :: _ => true end) with true in IH by (destruct acc; reflexivity). rewrite app_length. cbn [length].
      destruct (star_feed m (acc ++ [d], N.of_nat (length acc + 1)) true ds) as [[[s2 p2] o2]|]; [|discriminate]. rewrite <- IH. destruct acc; reflexivity.
    + rewrite flush_emit by lia. cbn iota beta. specialize (IH [] ltac:(cbn; lia)). cbn [length] in IH. change (N.of_nat 0) with 0 in IH.
      destruct (star_feed m ([], 0) false ds) as [[[s2 p2] o2]|]; [|discriminate]. cbn [fin] in IH |- *. destruct p2.
      * destruct (st_flush m s2) as [s3 o3]. injection IH as -> IH. f_equal. f_equal. rewrite <- app_assoc, IH. unfold emit. destruct acc; [reflexivity|]. unfold strings_of. cbn [flat_map]. rewrite app_nil_r. reflexivity.
      * injection IH as -> IH. f_equal. f_equal. rewrite IH. unfold emit. destruct acc; [reflexivity|]. unfold strings_of. cbn [flat_map]. rewrite app_nil_r. reflexivity.
Qed.
Lemma stream_strings ds : N.of_nat (length ds) < 0x100000000 -> star_stream m ([], 0) ds = Some (([], 0), strings_of n before after (runsf f [] ds)).
Proof. intros H. exact (feed_strings ds [] H). Qed.
Lemma strings_good g : (forall d, f d = true -> ne d) -> Forall ne before -> Forall ne after -> good_star m (Some strings_init) ([], g) (fun s => Forall ne (fst s)).
Proof.
  intros Hf Hb Ha. assert (HF : forall s, Forall ne (fst s) -> Forall ne (fst (fst (strings_flush (Z.of_nat n) before after s))) /\ Forall ne (snd (strings_flush (Z.of_nat n) before after s))).
  { intros [[|d q] k] Hs; [split; constructor|]. unfold strings_flush. cbn [fst snd]. split; [constructor|]. destruct (long_enough _ _); [|constructor]. apply Forall_app. split; [exact Hb|]. apply Forall_app. auto. }
  constructor.
  - constructor.
  - intros g0 s E _. injection E as <-. constructor.
  - intros s d Hs. cbn. unfold strings_conv. destruct (f d) eqn:E; cbn [fst snd]; [apply Forall_app; split; [exact Hs|constructor; [apply Hf; exact E|constructor]]|].
    specialize (HF s Hs). destruct (strings_flush _ _ _ s). apply HF.
  - intros s d Hs _. cbn. unfold strings_conv. destruct (f d) eqn:E; cbn [fst snd]; [constructor|]. specialize (HF s Hs). destruct (strings_flush _ _ _ s). apply HF.
  - intros s Hs. cbn. apply (HF s Hs).
Qed.
End M.

Lemma runsf_map {A B} (h : A -> B) f : forall l acc, runsf f (map h acc) (map h l) = map (map h) (runsf (fun x => f (h x)) acc l).
Proof.
  induction l as [|x l IH]; intros acc; cbn [runsf map].
  - destruct acc; reflexivity.
  - destruct (f (h x)).
    + specialize (IH (acc ++ [x])). rewrite map_app in IH. exact IH.
    + specialize (IH []). cbn [map] in IH. destruct acc; cbn [map]; rewrite IH; reflexivity.
Qed.
Lemma strings_map {A B} (h : A -> B) n b a rs : strings_of n (map h b) (map h a) (map (map h) rs) = map h (strings_of n b a rs).
Proof.
  unfold strings_of. induction rs as [|r rs IH]; [reflexivity|]. cbn [map flat_map]. rewrite map_length, IH, map_app. destruct (n <=? length r)%nat; [rewrite !map_app|]; reflexivity.
Qed.
Lemma strings_sub {A} (Q : A -> Prop) n b a rs : Forall Q b -> Forall Q a -> Forall (Forall Q) rs -> Forall Q (strings_of n b a rs).
Proof.
  intros Hb Ha. induction 1 as [|r rs Hr _ IH]; [constructor|]. unfold strings_of. cbn [flat_map]. apply Forall_app. split; [|exact IH]. destruct (n <=? length r)%nat; [|constructor]. rewrite !Forall_app. auto.
Qed.
Lemma runsf_sub {A} f (Q : A -> Prop) : forall l acc, Forall Q acc -> Forall Q l -> Forall (Forall Q) (runsf f acc l).
Proof.
  induction l as [|x l IH]; intros acc Ha Hl; cbn [runsf].
  - destruct acc; [constructor|]. constructor; [exact Ha|constructor].
  - inversion Hl; subst. destruct (f x); [apply IH; [apply Forall_app; auto|assumption]|]. destruct acc; [apply IH; [constructor|assumption]|]. constructor; [exact Ha|]. apply IH; [constructor|assumption].
Qed.

(** C57: "src:STRINGS#FOR=...&MIN-LEN=n&BEFORE=...&AFTER=...:dst" puts out, for each maximal run of at least [n] characters that pass
    the filter, the run with what stands before and after it, and nothing else; however the text was divided into calls, and
    whatever the instance was used for before. *)
Theorem C57_conversion : forall src dst t8 t16 f n before after g s l cps rs, strict_utf8 t8 -> N.of_nat n < 0x80000000 -> N.of_nat (length cps) < 0x100000000 ->
  (forall d, f d = true -> exists b r, d = b :: r /\ b < 256) ->
  fresh (via src [strings_mod f (Z.of_nat n) (map udatum before) (map udatum after) g] dst t8 t16) s ->
  chunks l (flat_map (encoded src) cps) -> Forall (reads src) cps -> Forall (writes dst) (before ++ after ++ cps) ->
  runs_of (fun c => f (udatum c)) cps rs ->
  exists s', streams_to s l (flat_map (encoded dst) (strings_of n before after rs)) s'.
Proof.
  intros src dst t8 t16 f n before after g s l cps rs Hs Hn Hlen Hf HF Hc Hr Hw HR. apply runs_unique in HR.
  assert (Hne : forall l0, Forall ne (map udatum l0)) by (intros l0; apply Forall_forall; intros x Hx; apply in_map_iff in Hx as (c & <- & _); cbn; lia).
  assert (HG := strings_good f n (map udatum before) (map udatum after) g (fun d Hd => ltac:(destruct (Hf d Hd) as (b & r & -> & Hb); cbn; lia)) (Hne _) (Hne _)).
  assert (Hpi : forall x, get_strs (put_strs x) = Some x) by (intros [a b]; reflexivity).
  destruct (via_one_state put_strs get_strs (STRINGS f (Z.of_nat n) (map udatum before) (map udatum after)) true (Some strings_init) ([], g) _ Hpi ltac:(discriminate) HG src dst t8 t16 s Hs HF) as (q & _ & HM).
  pose proof (stream_strings f n (map udatum before) (map udatum after) Hn (map udatum cps)) as HS. rewrite map_length in HS. specialize (HS Hlen). pose proof (runsf_map udatum f cps []) as HM0. cbn [map] in HM0. rewrite HM0, strings_map, <- HR in HS.
  destruct (via_one put_strs get_strs (STRINGS f (Z.of_nat n) (map udatum before) (map udatum after)) true (Some strings_init) ([], g) _ Hpi ltac:(discriminate) HG src dst t8 t16 s Hs l cps _ _ (strings_of n before after rs) HF Hc Hr HM HS) as (s' & R1 & _); [|eauto].
  apply Forall_app in Hw as [W1 Hw]. apply Forall_app in Hw as [W2 W3]. rewrite HR. apply strings_sub; [exact W1|exact W2|]. apply (runsf_sub (fun c => f (udatum c)) (writes dst) cps []); [constructor|exact W3].
Qed.
Print Assumptions C57_conversion.
(** There are such instances, in every one the codec could be created as. *)
Theorem C57_conversions_exist : forall src dst t8 t16 f n before after g, strict_utf8 t8 -> (forall d, f d = true -> exists b r, d = b :: r /\ b < 256) ->
  exists s, fresh (via src [strings_mod f (Z.of_nat n) (map udatum before) (map udatum after) g] dst t8 t16) s.
Proof.
  intros src dst t8 t16 f n before after g Hs Hf.
  assert (Hne : forall l0, Forall ne (map udatum l0)) by (intros l0; apply Forall_forall; intros x Hx; apply in_map_iff in Hx as (c & <- & _); cbn; lia).
  assert (HG := strings_good f n (map udatum before) (map udatum after) g (fun d Hd => ltac:(destruct (Hf d Hd) as (b & r & -> & Hb); cbn; lia)) (Hne _) (Hne _)).
  assert (Hpi : forall x, get_strs (put_strs x) = Some x) by (intros [a b]; reflexivity).
  exact (via_one_fresh put_strs get_strs (STRINGS f (Z.of_nat n) (map udatum before) (map udatum after)) true (Some strings_init) ([], g) _ Hpi ltac:(discriminate) HG src dst t8 t16 Hs).
Qed.
Print Assumptions C57_conversions_exist.

(** With the filter of one of the scripts of C45, FOR=name: the runs are those of the characters in the ranges of the script. *)
Lemma runs_ext {A} (f h : A -> bool) l rs : (forall x, In x l -> f x = h x) -> runs_of f l rs -> runs_of h l rs.
Proof.
  intros He H. revert He. induction H as [l Hl|a r l rs Ha Hr Hf Hl H IH]; intros He.
  - apply ru_none. rewrite Forall_forall in *. intros x Hx. rewrite <- He; auto.
  - assert (E1 : forall x, In x a -> f x = h x) by (intros x Hx; apply He; apply in_or_app; auto). assert (E2 : forall x, In x r -> f x = h x) by (intros x Hx; apply He; rewrite !in_app_iff; auto). assert (E3 : forall x, In x l -> f x = h x) by (intros x Hx; apply He; rewrite !in_app_iff; auto).
    apply ru_run; auto; rewrite ?Forall_forall in *; [intros x Hx; rewrite <- E1; auto|intros x Hx; rewrite <- E2; auto|].
    destruct Hl as [->|(x & l' & -> & Hx)]; [left; reflexivity|right; exists x, l'; split; [reflexivity|rewrite <- E3; [exact Hx|left; reflexivity]]].
Qed.
Definition passes (rs : list (N * N)) (d : datum) : bool := match range_filter rs d with Some b => b | None => false end.
Theorem C57_script : forall name ranges src dst t8 t16 n before after g s l cps h rs, In (name, ranges) filter_tables -> strict_utf8 t8 -> N.of_nat n < 0x80000000 -> N.of_nat (length cps) < 0x100000000 ->
  fresh (via src [strings_mod (passes ranges) (Z.of_nat n) (map udatum before) (map udatum after) g] dst t8 t16) s ->
  chunks l (flat_map (encoded src) cps) -> Forall (reads src) cps -> Forall (fun c => c < 0x1000000) cps -> Forall (writes dst) (before ++ after ++ cps) ->
  (forall c, In c cps -> h c = true <-> within ranges c) -> runs_of h cps rs ->
  exists s', streams_to s l (flat_map (encoded dst) (strings_of n before after rs)) s'.
Proof.
  intros name ranges src dst t8 t16 n before after g s l cps h rs Hin Hs Hn Hlen HF Hc Hr Hlt Hw Hh HR.
  apply (C57_conversion src dst t8 t16 (passes ranges) n before after g s l cps rs Hs Hn Hlen); try assumption.
  - intros [|b r] H; [discriminate|]. unfold passes, range_filter in H. destruct b as [|[ | | ]]; try discriminate. exists 1, r. split; [reflexivity|lia].
  - apply (runs_ext h); [|exact HR]. intros c Hin2. rewrite Forall_forall in Hlt. destruct (C45_code_points name ranges c Hin (Hlt c Hin2)) as (b & E1 & E2). unfold passes. rewrite E1. specialize (Hh c Hin2). destruct (h c), b; intuition congruence.
Qed.
Print Assumptions C57_script.

(** With a negative MIN-LEN, which cbcreate takes, no run is long enough: the comparison is done in unsigned int. *)
Theorem C57_negative_min_refuted : forall k, (k < 0)%Z -> (-0x80000000 <= k)%Z -> forall n, n < 0x80000000 -> long_enough k n = false.
Proof.
  intros k H1 H2 n Hn. unfold long_enough. replace (Z.modulo k 0x100000000) with (k + 0x100000000)%Z; [lia|]. symmetry. rewrite <- (Z.mod_add k 1) by lia. rewrite Z.mod_small by lia. lia.
Qed.
Print Assumptions C57_negative_min_refuted.

(** "UTF-8:STRINGS#FOR=PRINT&MIN-LEN=3:UTF-8" on 01 "abc" 02 "de" 03 "fghi", a line feed after each string *)
Example C57_ex_runs : runs_of (fun c => passes filter_PRINT (udatum c)) [1; 0x61; 0x62; 0x63; 2; 0x64; 0x65; 3; 0x66; 0x67; 0x68; 0x69] [[0x61; 0x62; 0x63]; [0x64; 0x65]; [0x66; 0x67; 0x68; 0x69]] /\
  strings_of 3 [] [0x0A] [[0x61; 0x62; 0x63]; [0x64; 0x65]; [0x66; 0x67; 0x68; 0x69]] = [0x61; 0x62; 0x63; 0x0A; 0x66; 0x67; 0x68; 0x69; 0x0A].
Proof. split; [|reflexivity]. exact (runsf_ok (fun c => passes filter_PRINT (udatum c)) [1; 0x61; 0x62; 0x63; 2; 0x64; 0x65; 3; 0x66; 0x67; 0x68; 0x69] [] (Forall_nil _)). Qed.
Example C57_ex_run : seen_via UTF8 [strings_mod (passes filter_PRINT) 3 [] [[1; 0x0A]] 77] UTF8 [T_Unicode.give [1; 0x61] false; T_Unicode.give [0x62; 0x63; 2; 0x64; 0x65; 3; 0x66; 0x67] false; T_Unicode.give [0x68; 0x69] true] =
  Some ([0x61; 0x62; 0x63; 0x0A; 0x66; 0x67; 0x68; 0x69; 0x0A], [], 0%nat, 0%nat) /\
  seen_via UTF8 [strings_mod (passes filter_PRINT) (-1) [] [[1; 0x0A]] 77] UTF8 [T_Unicode.give [1; 0x61; 0x62] true] = Some ([], [], 0%nat, 0%nat).
Proof. split; vm_compute; reflexivity. Qed.

(** C65: what bsdconv-completion prints. *)
From Verif Require Import Base Types M_ConvString M_List S_List P_List T_List M_Complete S_Complete.
From Coq Require Import ZifyBool ZifyN ZifyNat.

(** ** The argument *)
Lemma quote_is c : quote c = true <-> is_quote c.
Proof.
  unfold quote, is_quote. destruct (Ascii.eqb_spec c "'") as [->|H1]; [split; auto|]. destruct (Ascii.eqb_spec c """") as [->|H2]; [split; auto|]. cbn. split; [discriminate|tauto].
Qed.
Lemma quote_not c : quote c = false <-> ~ is_quote c.
Proof. rewrite <- quote_is. destruct (quote c); split; congruence. Qed.
Lemma rev_eq {A} (l : list A) x y : rev l = x :: y -> l = rev y ++ [x].
Proof. intros H. rewrite <- (rev_involutive l), H. reflexivity. Qed.
Lemma unquote_bare a : a <> [] -> exists b, unquote a = Some b /\ bare a b.
Proof.
  intros Hne. destruct a as [|c r]; [contradiction|]. cbn [unquote]. destruct (quote c) eqn:Ec.
  - apply quote_is in Ec. destruct (rev r) as [|z y] eqn:Er.
    + exists r. split; [reflexivity|]. apply br_front; [exact Ec|]. intros y z ->. rewrite rev_app_distr in Er. discriminate.
    + pose proof (rev_eq _ _ _ Er) as ->. destruct (quote z) eqn:Ez.
      * exists (rev y). split; [reflexivity|]. apply br_both; [exact Ec|apply quote_is; exact Ez].
      * exists (rev y ++ [z]). split; [reflexivity|]. apply br_front; [exact Ec|]. intros y' z' E. apply app_inj_tail in E as (_ & <-). apply quote_not. exact Ez.
  - apply quote_not in Ec. destruct (rev (c :: r)) as [|z y] eqn:Er; [cbn [rev] in Er; destruct (rev r); discriminate|].
    pose proof (rev_eq _ _ _ Er) as E. rewrite E. destruct (quote z) eqn:Ez.
    + exists (rev y). split; [reflexivity|]. apply br_end; [|apply quote_is; exact Ez]. intros q x E1. rewrite <- E in E1. injection E1 as <- _. exact Ec.
    + exists (rev y ++ [z]). split; [reflexivity|]. apply br_none; [intros q x E1; rewrite <- E in E1; injection E1 as <- _; exact Ec|].
      intros y' z' E1. apply app_inj_tail in E1 as (_ & <-). apply quote_not. exact Ez.
Qed.
Lemma scan_arg_is : forall s p part t, Forall (fun c => ~ separator c) part -> (p = [] \/ exists q c, p = q ++ [c] /\ separator c) -> ends_in (p ++ part) t ->
  exists p' part' t', scan_arg p part t s = (p', part', t') /\ last_name (p ++ part ++ s) p' part' /\ ends_in (p ++ part ++ s) t'.
Proof.
  assert (HE : forall a b c t, ends_in a t -> ~ (c = ":" \/ c = "|")%char -> b = a ++ [c] -> ends_in b t).
  { intros a b c t H Hc ->. destruct H; rewrite <- ?app_assoc; cbn [app]; [apply ei_to|apply ei_bar|apply ei_start]; (apply Forall_app; split; [assumption|constructor; [tauto|constructor]]). }
  induction s as [|c s IH]; intros p part t HF HP HT; cbn [scan_arg].
  - exists p, part, t. split; [reflexivity|]. rewrite app_nil_r. split; [split; [reflexivity|]; split; assumption|exact HT].
  - assert (AS : p ++ part ++ c :: s = (p ++ part ++ [c]) ++ [] ++ s) by (rewrite <- !app_assoc; reflexivity).
    destruct (Ascii.eqb_spec c ":") as [->|H1]; [|destruct (Ascii.eqb_spec c "|") as [->|H2]; [|destruct (Ascii.eqb_spec c ",") as [->|H3]]].
    + rewrite AS. apply IH; [constructor|right; exists (p ++ part), ":"%char; split; [apply app_assoc|left; reflexivity]|]. rewrite app_nil_r, app_assoc. apply ei_to. constructor.
    + rewrite AS. apply IH; [constructor|right; exists (p ++ part), "|"%char; split; [apply app_assoc|right; left; reflexivity]|]. rewrite app_nil_r, app_assoc. apply ei_bar. constructor.
    + rewrite AS. apply IH; [constructor|right; exists (p ++ part), ","%char; split; [apply app_assoc|right; right; reflexivity]|]. rewrite app_nil_r. eapply HE; [exact HT| |apply app_assoc]. intros [H|H]; discriminate.
    + replace (p ++ part ++ c :: s) with (p ++ (part ++ [c]) ++ s) by (rewrite <- !app_assoc; reflexivity). apply IH; [apply Forall_app; split; [exact HF|constructor; [unfold separator; tauto|constructor]]|exact HP|].
      eapply HE; [exact HT| |apply app_assoc]. tauto.
Qed.

(** ** The list of names *)
Lemma prefix_is p s : is_prefix p s = true <-> begins_with p s.
Proof.
  revert s. induction p as [|a p IH]; intros s; cbn [is_prefix]; [split; [exists s; reflexivity|reflexivity]|]. destruct s as [|b s].
  - split; [discriminate|intros (r & E); discriminate].
  - destruct (Ascii.eqb_spec a b) as [->|H]; cbn [andb]; [rewrite IH; split; intros (r & E); exists r; [rewrite E; reflexivity|injection E as E; exact E]|split; [discriminate|intros (r & E); injection E as E _; congruence]].
Qed.
Lemma in_array x l : item_in_array x l = true <-> In x l.
Proof. unfold item_in_array. rewrite existsb_exists. split; [intros (y & Hy & E); apply str_eqb_eq in E; subst; exact Hy|intros H; exists x; split; [exact H|apply str_eqb_eq; reflexivity]]. Qed.
Lemma offered_seen part : forall l seen seen' out, (forall x, In x seen <-> In x seen') -> offered part seen l out -> offered part seen' l out.
Proof.
  intros l seen seen' out HS H. revert seen' HS. induction H as [seen|seen n l out Hb Hn H IH|seen n l out Hb H IH]; intros seen' HS; [constructor|apply of_new; [exact Hb|rewrite <- HS; exact Hn|apply IH; intros x; cbn; rewrite HS; tauto]|apply of_old; [rewrite <- HS; exact Hb|apply IH; exact HS]].
Qed.
Lemma gather_is part : forall l cap acc, length acc + length l < cap -> exists out, gather cap part acc l = Some (acc ++ out) /\ offered part acc l out /\ length out <= length l.
Proof.
  induction l as [|x l IH]; intros cap acc Hc; cbn [gather length] in *; [exists []; rewrite app_nil_r; split; [reflexivity|split; [apply of_end|apply le_n]]|].
  destruct (is_prefix part x && negb (item_in_array x acc)) eqn:E.
  - rewrite app_length. cbn [length]. replace (length acc + 1 <? cap) with true by lia. destruct (IH cap (acc ++ [x])) as (out & E1 & E2 & E3); [rewrite app_length; cbn [length]; lia|].
    exists (x :: out). rewrite E1, <- app_assoc. split; [reflexivity|]. split; [|cbn [length]; lia]. apply andb_prop in E as (P1 & P2). apply of_new; [apply prefix_is; exact P1| |].
    + intros Hi. apply in_array in Hi. rewrite Hi in P2. discriminate.
    + eapply offered_seen; [|exact E2]. intros y. rewrite in_app_iff. cbn. tauto.
  - replace (length acc <? cap) with true by lia. destruct (IH cap acc) as (out & E1 & E2 & E3); [lia|]. exists out. split; [exact E1|]. split; [|lia]. apply of_old; [|exact E2].
    rewrite <- prefix_is, <- in_array. destruct (is_prefix part x), (item_in_array x acc); try discriminate; [right; reflexivity|left; discriminate|left; discriminate].
Qed.
Lemma lines_is arg p : length p <= length arg -> forall l, lines arg p l = Some (map (app p) l).
Proof. intros H. induction l as [|x l IH]; cbn [lines map]; [reflexivity|]. replace (length p + length x + 1 <=? length arg + length x + 1) with true by lia. rewrite IH. reflexivity. Qed.

(** Every argument that is not empty is completed, without leaving the bounds of the array and of the lines. *)
Theorem C65_completion : forall lists a, a <> [] -> exists b p part t o1 o2,
  bare a b /\ last_name (strtoupper b) p part /\ ends_in (strtoupper b) t /\ offered part [] (lists INTER) o1 /\ offered part o1 (lists t) o2 /\
  completion lists (Some a) = Some (map (app p) (o1 ++ o2)).
Proof.
  intros lists a Hne. destruct (unquote_bare a Hne) as (b & E & HB). unfold completion. rewrite E.
  destruct (scan_arg_is (strtoupper b) [] [] FROM (Forall_nil _) (or_introl eq_refl) (ei_start [] (Forall_nil _))) as (p & part & t & ES & HL & HT). rewrite ES. cbn [app] in HL, HT.
  destruct (gather_is part (lists INTER) (length (lists INTER) + length (lists t) + 1) []) as (o1 & G1 & G2 & G3); [cbn [length]; lia|]. rewrite G1. cbn [app].
  destruct (gather_is part (lists t) (length (lists INTER) + length (lists t) + 1) o1) as (o2 & G4 & G5 & G6); [lia|]. rewrite G4.
  exists b, p, part, t, o1, o2. repeat (split; [assumption|]). apply lines_is. destruct HL as (HL & _). rewrite HL, app_length. lia.
Qed.
Print Assumptions C65_completion.

(** The parts of the argument are determined. *)
Lemma snoc_last {A} (l : list A) x y z w : l ++ [x] = y :: z ++ [w] -> x = w.
Proof. intros H. change (y :: z ++ [w]) with ((y :: z) ++ [w]) in H. apply app_inj_tail in H. apply H. Qed.
Theorem C65_bare_unique : forall a b b', a <> [] -> bare a b -> bare a b' -> b = b'.
Proof.
  assert (HU : forall a b, bare a b -> a <> [] -> unquote a = Some b).
  { intros a b H Hne. destruct H as [q z b Hq Hz|q b Hq Hl|b z Hf Hz|b Hf Hl].
    - cbn [unquote]. rewrite (proj2 (quote_is q) Hq), rev_app_distr. cbn [rev app]. rewrite (proj2 (quote_is z) Hz), rev_involutive. reflexivity.
    - cbn [unquote]. rewrite (proj2 (quote_is q) Hq). destruct (rev b) as [|z y] eqn:E; [reflexivity|]. pose proof (rev_eq _ _ _ E) as ->. rewrite (proj2 (quote_not z) (Hl _ _ eq_refl)). reflexivity.
    - destruct (b ++ [z]) as [|q r] eqn:E; [destruct b; discriminate|]. cbn [unquote]. rewrite (proj2 (quote_not q) (Hf _ _ eq_refl)). rewrite <- E, rev_app_distr. cbn [rev app]. rewrite (proj2 (quote_is z) Hz), rev_involutive. reflexivity.
    - destruct b as [|q r]; [contradiction|]. cbn [unquote]. rewrite (proj2 (quote_not q) (Hf _ _ eq_refl)). destruct (rev (q :: r)) as [|z y] eqn:E; [reflexivity|]. rewrite (proj2 (quote_not z) (Hl _ _ (rev_eq _ _ _ E))). reflexivity. }
  intros a b b' Hne H H'. apply HU in H, H'; try assumption. congruence.
Qed.
Lemma free_suffix (P : ascii -> Prop) : forall p q c part x y d, p ++ part = x ++ d :: y -> Forall (fun c => ~ P c) part -> P d -> Forall (fun c => ~ P c) y -> (p = [] \/ p = q ++ [c] /\ P c) -> p = x ++ [d] /\ part = y.
Proof.
  intros p q c part x y d E HF Hd HY HP. destruct HP as [->|(-> & Hc)].
  - cbn [app] in E. subst part. apply Forall_app in HF as (_ & HF). inversion HF; contradiction.
  - rewrite <- app_assoc in E. cbn [app] in E. revert x E. induction q as [|u q IH]; intros x E.
    + destruct x as [|v x]; [injection E as -> ->; split; reflexivity|]. injection E as -> E. subst part. apply Forall_app in HF as (_ & HF). inversion HF; contradiction.
    + destruct x as [|v x]; [injection E as -> E; subst y; apply Forall_app in HY as (_ & HY); inversion HY; contradiction|]. injection E as -> E. destruct (IH x E) as (E1 & E2). cbn [app] in *. rewrite E1. split; [reflexivity|exact E2].
Qed.
Theorem C65_last_unique : forall a p part p' part', last_name a p part -> last_name a p' part' -> p = p' /\ part = part'.
Proof.
  intros a p part p' part' (-> & F & H) (E & F' & H'). destruct H' as [->|(q' & c' & -> & Hc')].
  - cbn [app] in E. destruct H as [->|(q & c & -> & Hc)]; [split; [reflexivity|exact E]|]. subst part'. exfalso. rewrite <- app_assoc in F'. apply Forall_app in F' as (_ & F'). inversion F'; contradiction.
  - rewrite <- app_assoc in E. cbn [app] in E. destruct H as [->|(q & c & -> & Hc)].
    + cbn [app] in E. subst part. exfalso. apply Forall_app in F as (_ & F). inversion F; contradiction.
    + apply (free_suffix separator (q ++ [c]) q c part q' part' c' E F Hc' F' (or_intror (conj eq_refl Hc))).
Qed.
Theorem C65_kind_unique : forall a t t', ends_in a t -> ends_in a t' -> t = t'.
Proof.
  assert (HN : forall y, Forall (fun c => c <> ":"%char /\ c <> "|"%char) y -> Forall (fun c => ~ (c = ":" \/ c = "|")%char) y) by (intros y H; eapply Forall_impl; [|exact H]; cbn; tauto).
  assert (H2 : forall x y d x' y' d', (d = ":" \/ d = "|")%char -> (d' = ":" \/ d' = "|")%char -> Forall (fun c => c <> ":"%char /\ c <> "|"%char) y -> Forall (fun c => c <> ":"%char /\ c <> "|"%char) y' -> x ++ d :: y = x' ++ d' :: y' -> d = d').
  { intros x y d x' y' d' Hd Hd' F F' E. replace (x ++ d :: y) with ((x ++ [d]) ++ y) in E by (rewrite <- app_assoc; reflexivity).
    destruct (free_suffix (fun c => c = ":" \/ c = "|")%char (x ++ [d]) x d y x' y' d' E (HN _ F) Hd' (HN _ F') (or_intror (conj eq_refl Hd))) as (E1 & _). apply app_inj_tail in E1. apply E1. }
  assert (H0 : forall x d y, (d = ":" \/ d = "|")%char -> ~ Forall (fun c => c <> ":"%char /\ c <> "|"%char) (x ++ d :: y)) by (intros x d y Hd H; apply Forall_app in H as (_ & H); inversion H; subst; destruct Hd; tauto).
  assert (HS : forall a t, ends_in a t -> (exists x d y, a = x ++ d :: y /\ (d = ":" \/ d = "|")%char /\ Forall (fun c => c <> ":"%char /\ c <> "|"%char) y /\ t = (if Ascii.eqb d ":" then TO else FROM)) \/ (Forall (fun c => c <> ":"%char /\ c <> "|"%char) a /\ t = FROM)).
  { intros a t [x y F|x y F|y F]; [left; exists x, ":"%char, y; auto|left; exists x, "|"%char, y; auto|right; auto]. }
  intros a t t' H H'. destruct (HS _ _ H) as [(x & d & y & E & Hd & F & ->)|(F & ->)]; destruct (HS _ _ H') as [(x' & d' & y' & E' & Hd' & F' & ->)|(F' & ->)].
  - rewrite E in E'. rewrite (H2 _ _ _ _ _ _ Hd Hd' F F' E'). reflexivity.
  - rewrite E in F'. destruct (H0 _ _ _ Hd F').
  - rewrite E' in F. destruct (H0 _ _ _ Hd' F).
  - reflexivity.
Qed.

(** The printed lines: no line twice; each is the argument, upper-cased and completed by a name of the list; all such names are there. *)
Lemma offered_in part : forall l seen out, offered part seen l out -> (forall n, In n out <-> In n l /\ begins_with part n /\ ~ In n seen) /\ NoDup out.
Proof.
  assert (D : forall x y : str, x = y \/ x <> y) by (intros x y; destruct (list_eq_dec Ascii.ascii_dec x y); auto).
  induction 1 as [seen|seen n l out Hb Hn H (IH & ND)|seen n l out Hb H (IH & ND)].
  - split; [cbn; tauto|constructor].
  - split.
    + intros m. cbn [In]. rewrite IH. cbn [In]. split; [intros [<-|(A & B & C)]; [auto|split; [auto|split; [exact B|tauto]]]|].
      intros ([<-|A] & B & C); [left; reflexivity|]. destruct (D n m) as [E|E]; [left; exact E|right; split; [exact A|split; [exact B|tauto]]].
    + constructor; [|exact ND]. rewrite IH. cbn [In]. tauto.
  - split; [|exact ND]. intros m. rewrite IH. cbn [In]. split; [tauto|]. intros ([<-|A] & B & C); [destruct Hb; contradiction|auto].
Qed.
Theorem C65_lines : forall lists a b p part t, a <> [] -> bare a b -> last_name (strtoupper b) p part -> ends_in (strtoupper b) t ->
  exists out, completion lists (Some a) = Some out /\ NoDup out /\
    (forall line, In line out <-> exists n, line = p ++ n /\ begins_with part n /\ (In n (lists INTER) \/ In n (lists t))) /\
    (forall line, In line out -> begins_with (strtoupper b) line).
Proof.
  intros lists a b p part t Hne HB HL HT. destruct (C65_completion lists a Hne) as (b' & p' & part' & t' & o1 & o2 & B1 & L1 & T1 & G1 & G2 & E).
  pose proof (C65_bare_unique _ _ _ Hne HB B1) as <-. destruct (C65_last_unique _ _ _ _ _ HL L1) as (<- & <-). pose proof (C65_kind_unique _ _ _ HT T1) as <-.
  destruct (offered_in _ _ _ _ G1) as (I1 & N1). destruct (offered_in _ _ _ _ G2) as (I2 & N2).
  assert (HI : forall line, In line (map (app p) (o1 ++ o2)) <-> exists n, line = p ++ n /\ begins_with part n /\ (In n (lists INTER) \/ In n (lists t))).
  { intros line. rewrite in_map_iff. split.
    - intros (n & <- & Hn). exists n. split; [reflexivity|]. apply in_app_or in Hn as [Hn|Hn]; [apply I1 in Hn|apply I2 in Hn]; tauto.
    - intros (n & -> & Hb & Hn). exists n. split; [reflexivity|]. apply in_or_app. destruct (in_dec (list_eq_dec Ascii.ascii_dec) n o1) as [H1|H1]; [left; exact H1|].
      destruct Hn as [Hn|Hn]; [left; apply I1; cbn; tauto|right; apply I2; auto]. }
  exists (map (app p) (o1 ++ o2)). split; [exact E|]. split; [|split; [exact HI|]].
  - assert (ND : NoDup (o1 ++ o2)).
    { assert (HX : forall n, In n o2 -> ~ In n o1) by (intros n Hn; apply I2 in Hn; tauto). clear - N1 N2 HX. induction N1 as [|x o1 Hx N1 IH]; [exact N2|]. cbn [app]. constructor.
      - intros Hi. apply in_app_or in Hi as [Hi|Hi]; [contradiction|]. apply (HX x Hi). left. reflexivity.
      - apply IH. intros n Hn H1. apply (HX n Hn). right. exact H1. }
    apply FinFun.Injective_map_NoDup; [|exact ND]. intros x y. apply app_inv_head.
  - intros line Hl. apply HI in Hl as (n & -> & (r & ->) & _). exists r. destruct HL as (-> & _). apply app_assoc.
Qed.
(** Every installed module that begins with the typed name is offered. *)
Lemma same_names names names' rest rest' : map CStr names ++ CNull :: rest = map CStr names' ++ CNull :: rest' -> names = names'.
Proof.
  revert names'. induction names as [|x names IH]; intros [|y names'] E; cbn [map app] in E; try discriminate; [reflexivity|]. injection E as -> E. f_equal. apply IH. exact E.
Qed.
Theorem C65_modules_offered : forall (lists : ptype -> list str) dir als a b p part t n k,
  (forall t, exists rest, modules_list (Some t) (Some (dir t)) (option_map file_of (als t)) = Some (map CStr (lists t) ++ CNull :: rest)) ->
  (forall t, Forall file_name (dir t) /\ Forall short_line (match als t with Some ls => ls | None => [] end) /\
             Forall (fun l => (exists r, l = hash :: r) \/ In tab l) (match als t with Some ls => ls | None => [] end)) ->
  a <> [] -> bare a b -> last_name (strtoupper b) p part -> ends_in (strtoupper b) t -> k = INTER \/ k = t ->
  module_check k (dir k) n = true -> ~ In dot (strtoupper n) -> begins_with part (strtoupper n) ->
  exists out, completion lists (Some a) = Some out /\ In (p ++ strtoupper n) out.
Proof.
  intros lists dir als a b p part t n k HL HW Hne HB HP HT Hk HC Hd Hb. destruct (C65_lines lists a b p part t Hne HB HP HT) as (out & E & _ & HI & _). exists out. split; [exact E|]. apply HI.
  exists (strtoupper n). split; [reflexivity|]. split; [exact Hb|].
  assert (In (strtoupper n) (lists k)).
  { destruct (HL k) as (rest & EL). destruct (HW k) as (W1 & W2 & W3). destruct (C63_list k (Some (dir k)) (als k) W1 W2 W3) as (names & dn & an & rest' & E1 & S1 & _ & PM & _).
    rewrite E1 in EL. injection EL as EL. rewrite (same_names _ _ _ _ (eq_sym EL)). apply (Permutation_in _ (Permutation_sym PM)). apply in_or_app. left. exact (C63_found_is_listed k (dir k) n dn HC Hd S1). }
  destruct Hk as [->|Hk]; [left; assumption|right; rewrite <- Hk; assumption].
Qed.
(** Without an argument, or with an empty one, the program reads before the beginning of a block. *)
Theorem C65_no_argument_refuted : forall lists, completion lists None = None /\ completion lists (Some []) = None.
Proof. intros lists. split; reflexivity. Qed.
Print Assumptions C65_bare_unique. Print Assumptions C65_last_unique. Print Assumptions C65_kind_unique.
Print Assumptions C65_lines. Print Assumptions C65_modules_offered. Print Assumptions C65_no_argument_refuted.
(** A case. *)
Definition some_lists (t : ptype) : list str := match t with INTER => [s_ "UPPER"; s_ "WIDTH"] | TO => [s_ "UTF-16LE"; s_ "UPPER"; s_ "UTF-8"] | _ => [s_ "UTF-8"] end.
Example C65_example : completion some_lists (Some (s_ "'utf-8:u")) = Some [s_ "UTF-8:UPPER"; s_ "UTF-8:UTF-16LE"; s_ "UTF-8:UTF-8"] /\
  completion some_lists (Some (s_ "utf-8:upper|ascii,u'")) = Some [s_ "UTF-8:UPPER|ASCII,UPPER"; s_ "UTF-8:UPPER|ASCII,UTF-8"] /\
  bare (s_ "'utf-8:u") (s_ "utf-8:u") /\ last_name (s_ "UTF-8:U") (s_ "UTF-8:") (s_ "U") /\ ends_in (s_ "UTF-8:U") TO.
Proof.
  split; [reflexivity|]. split; [reflexivity|]. split; [|split].
  - apply (br_front "'"%char (s_ "utf-8:u")); [left; reflexivity|]. intros y z E. change (s_ "utf-8:u") with (s_ "utf-8:" ++ s_ "u") in E. apply app_inj_tail in E as (_ & <-). intros [H|H]; discriminate.
  - split; [reflexivity|]. split; [constructor; [intros [H|[H|H]]; discriminate|constructor]|]. right. exists (s_ "UTF-8"), ":"%char. split; [reflexivity|left; reflexivity].
  - apply (ei_to (s_ "UTF-8") (s_ "U")). constructor; [split; discriminate|constructor].
Qed.
(** The case meets the hypotheses of C65_modules_offered: two directories and an alias file. *)
Definition some_dir (t : ptype) : list str := match t with INTER => [s_ "UPPER"] | TO => [s_ "UTF-16LE"; s_ "."] | _ => [] end.
Definition some_aliases (t : ptype) : option (list str) := match t with TO => Some [s_ "U8" ++ tab :: s_ "_UTF-8"] | _ => None end.
Definition installed (t : ptype) : list str := match t with INTER => [s_ "UPPER"] | TO => [s_ "U8"; s_ "UTF-16LE"] | _ => [] end.
Example C65_modules_example :
  (forall t, exists rest, modules_list (Some t) (Some (some_dir t)) (option_map file_of (some_aliases t)) = Some (map CStr (installed t) ++ CNull :: rest)) /\
  (forall t, Forall file_name (some_dir t) /\ Forall short_line (match some_aliases t with Some ls => ls | None => [] end) /\
             Forall (fun l => (exists r, l = hash :: r) \/ In tab l) (match some_aliases t with Some ls => ls | None => [] end)) /\
  module_check TO (some_dir TO) (s_ "utf-16le") = true /\ ~ In dot (strtoupper (s_ "utf-16le")) /\ begins_with (s_ "U") (strtoupper (s_ "utf-16le")).
Proof.
  split; [intros [| | | |]; eexists; vm_compute; reflexivity|]. split.
  - assert (D : forall (c : ascii) l, existsb (Ascii.eqb c) l = false -> ~ In c l).
    { intros c l E Hi. rewrite (proj2 (existsb_exists (Ascii.eqb c) l)) in E; [discriminate|]. exists c. split; [exact Hi|apply Ascii.eqb_refl]. }
    intros t. split; [|split]; destruct t; cbn [some_dir some_aliases]; try apply Forall_nil;
      repeat (first [apply Forall_cons|apply Forall_nil]); try (apply D; reflexivity).
    + split; [cbn; lia|split; apply D; reflexivity].
    + right. right. right. left. reflexivity.
  - split; [reflexivity|]. split; [intros [H|H]; cbn in *; intuition discriminate|]. exists (s_ "TF-16LE"). reflexivity.
Qed.

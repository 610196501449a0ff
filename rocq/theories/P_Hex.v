From Coq Require Import ZifyBool ZifyN ZifyNat.
From Verif Require Import Base Types D_Maps M_Hex S_Hex.

Lemma hex_spec c : hex (byte_of c) = match hexval c with Some h => Z.of_N h | None => (-1)%Z end.
Proof. destruct c as [[] [] [] [] [] [] [] []]; vm_compute; reflexivity. Qed.

Lemma hexval_lt c h : hexval c = Some h -> (h < 16)%N.
Proof.
  unfold hexval. intros H. cbv zeta in H.
  destruct ((48 <=? N_of_ascii c) && (N_of_ascii c <=? 57))%N eqn:E1; [injection H as <-; lia|].
  destruct ((65 <=? N_of_ascii c) && (N_of_ascii c <=? 70))%N eqn:E2; [injection H as <-; lia|].
  destruct ((97 <=? N_of_ascii c) && (N_of_ascii c <=? 102))%N eqn:E3; [injection H as <-; lia|discriminate].
Qed.

Lemma fold_some (l : list N) : fold_right (fun o acc => match o, acc with Some b, Some l => Some (b :: l) | _, _ => None end)
              (Some []) (map Some l) = Some l.
Proof. induction l as [|x l IH]; cbn [map fold_right]; [reflexivity|]. rewrite IH. reflexivity. Qed.

Lemma put_at (l : list N) (x y : option N) r : firstn (length l) (map Some l ++ x :: r) ++ y :: skipn (S (length l)) (map Some l ++ x :: r) = map Some l ++ y :: r.
Proof.
  rewrite firstn_app, map_length, Nat.sub_diag, firstn_O, app_nil_r.
  rewrite firstn_all2 by (rewrite map_length; lia).
  rewrite skipn_app, skipn_all2 by (rewrite map_length; lia). rewrite map_length.
  replace (S (length l) - length l) with 1 by lia. reflexivity.
Qed.

(** the loop on a string of pairs *)
Lemma hex_loop_denotes s d : hexdenotes s d -> forall (l : list N) r,
  length s / 2 <= length r ->
  hex_loop s (map Some l ++ r) (length l) false = HOk (l ++ d).
Proof.
  induction 1 as [|c1 c2 h1 h2 s d H1 H2 Hd IH]; intros l r Hr.
  - cbn [hex_loop]. rewrite firstn_app, map_length, Nat.sub_diag, firstn_O, app_nil_r.
    rewrite firstn_all2 by (rewrite map_length; lia). rewrite fold_some, app_nil_r. reflexivity.
  - cbn [length] in Hr. replace (S (S (length s))) with (length s + 1 * 2) in Hr by lia.
    rewrite Nat.div_add in Hr by lia. destruct r as [|x r]; cbn [length] in Hr; [lia|].
    cbn [hex_loop]. rewrite !hex_spec, H1, H2.
    replace (Z.of_N h1 <? 0)%Z with false by lia. replace (Z.of_N h2 <? 0)%Z with false by lia.
    rewrite put_at.
    assert (Hl : forall y, (length l <? length (map Some l ++ y :: r)) = true).
    { intros y. rewrite app_length, map_length. cbn. apply Nat.ltb_lt. lia. }
    rewrite !Hl. cbn [negb].
    rewrite app_nth2 by (rewrite map_length; lia). rewrite map_length, Nat.sub_diag. cbn [nth].
    rewrite put_at. rewrite !N2Z.id.
    assert (E : ((((h1 * 16) mod 256 + h2) mod 256) = 16 * h1 + h2)%N).
    { apply hexval_lt in H1. apply hexval_lt in H2. rewrite (N.mod_small (h1 * 16)) by lia. rewrite N.mod_small by lia. lia. }
    rewrite E. specialize (IH (l ++ [16 * h1 + h2]%N) r ltac:(lia)).
    rewrite map_app in IH. cbn [map] in IH. rewrite <- app_assoc in IH. cbn [app] in IH.
    rewrite app_length in IH. cbn [length] in IH. rewrite Nat.add_1_r in IH. rewrite IH.
    rewrite <- app_assoc. reflexivity.
Qed.

(** general: run on the even prefix *)
Lemma hex_loop_prefix s d : hexdenotes s d -> forall t (l : list N) r,
  length s / 2 <= length r ->
  exists r', length r' = length r - length s / 2 /\
  hex_loop (s ++ t) (map Some l ++ r) (length l) false = hex_loop t (map Some (l ++ d) ++ r') (length (l ++ d)) false.
Proof.
  induction 1 as [|c1 c2 h1 h2 s d H1 H2 Hd IH]; intros t l r Hr.
  - exists r. cbn. rewrite app_nil_r. split; [lia|reflexivity].
  - cbn [length] in Hr |- *. replace (S (S (length s))) with (length s + 1 * 2) in * by lia.
    rewrite Nat.div_add in * by lia. destruct r as [|x r]; cbn [length] in Hr |- *; [lia|].
    cbn [hex_loop app]. rewrite !hex_spec, H1, H2.
    replace (Z.of_N h1 <? 0)%Z with false by lia. replace (Z.of_N h2 <? 0)%Z with false by lia.
    rewrite put_at.
    assert (Hl : forall y, (length l <? length (map Some l ++ y :: r)) = true).
    { intros y. rewrite app_length, map_length. cbn. apply Nat.ltb_lt. lia. }
    rewrite !Hl. cbn [negb].
    rewrite app_nth2 by (rewrite map_length; lia). rewrite map_length, Nat.sub_diag. cbn [nth].
    rewrite put_at. rewrite !N2Z.id.
    assert (E : ((((h1 * 16) mod 256 + h2) mod 256) = 16 * h1 + h2)%N).
    { apply hexval_lt in H1. apply hexval_lt in H2. rewrite (N.mod_small (h1 * 16)) by lia. rewrite N.mod_small by lia. lia. }
    rewrite E. specialize (IH t (l ++ [16 * h1 + h2]%N) r ltac:(lia)). destruct IH as (r' & Hr' & IH).
    rewrite map_app in IH. cbn [map] in IH. rewrite <- app_assoc in IH. cbn [app] in IH.
    rewrite app_length in IH. cbn [length] in IH. rewrite Nat.add_1_r in IH.
    exists r'. split; [lia|]. cbn [map app] in IH |- *. rewrite IH.
    rewrite <- !app_assoc. cbn [app]. reflexivity.
Qed.

(** every string is an even hex prefix followed by: nothing, one hex digit, a bad char, or a hex digit and a bad char *)
Lemma hex_cases s : exists p d, hexdenotes p d /\
  ( s = p \/ (exists c h, hexval c = Some h /\ s = p ++ [c])
    \/ (exists c t, hexval c = None /\ s = p ++ c :: t)
    \/ (exists c1 h c2 t, hexval c1 = Some h /\ hexval c2 = None /\ s = p ++ c1 :: c2 :: t)).
Proof.
  enough (H : forall n s, length s < n -> exists p d, hexdenotes p d /\
  ( s = p \/ (exists c h, hexval c = Some h /\ s = p ++ [c])
    \/ (exists c t, hexval c = None /\ s = p ++ c :: t)
    \/ (exists c1 h c2 t, hexval c1 = Some h /\ hexval c2 = None /\ s = p ++ c1 :: c2 :: t))) by (apply (H (S (length s))); lia).
  clear s. induction n as [|n IH]; intros s Hs; [lia|].
  destruct s as [|c1 s]; [exists [], []; split; [constructor|auto]|].
  destruct (hexval c1) as [h1|] eqn:E1.
  2: { exists [], []. split; [constructor|]. right. right. left. exists c1, s. auto. }
  destruct s as [|c2 s]; [exists [], []; split; [constructor|]; right; left; eauto|].
  destruct (hexval c2) as [h2|] eqn:E2.
  2: { exists [], []. split; [constructor|]. right. right. right. exists c1, h1, c2, s. auto. }
  cbn in Hs. destruct (IH s) as (p & d & Hd & H); [lia|].
  exists (c1 :: c2 :: p), (16 * h1 + h2 :: d)%N. split; [constructor; assumption|].
  destruct H as [-> | [(c & h & Hc & ->) | [(c & t & Hc & ->) | (a & h & c & t & Ha & Hc & ->)]]].
  - left; reflexivity.
  - right; left; exists c, h; auto.
  - right; right; left; exists c, t; auto.
  - right; right; right. exists a, h, c, t. auto.
Qed.

Lemma hexdenotes_even s d : hexdenotes s d -> exists n, length s = 2 * n /\ length d = n.
Proof. induction 1 as [|c1 c2 h1 h2 s d H1 H2 Hd (n & E1 & E2)]; [exists 0; auto|]. exists (S n). cbn. lia. Qed.
Lemma hexdenotes_all s d : hexdenotes s d -> all_hex s.
Proof. induction 1; constructor; [congruence|]. constructor; [congruence|assumption]. Qed.

Definition hexlit (s : str) : hexres := hex_loop s (repeat None (length s / 2)) 0 false.

Theorem hexlit_char s :
  (exists d, hexdenotes s d /\ hexlit s = HOk d) \/
  (~ all_hex s /\ hexlit s = HEinval) \/
  (all_hex s /\ Nat.odd (length s) = true /\ hexlit s = HUB).
Proof.
  destruct (hex_cases s) as (p & d & Hd & H). unfold hexlit.
  destruct (hexdenotes_even _ _ Hd) as (n & Hn & Hdn).
  assert (Hn2 : length p / 2 = n) by (rewrite Hn, Nat.mul_comm; apply Nat.div_mul; lia).
  destruct H as [-> | [(c & h & Hc & ->) | [(c & t & Hc & ->) | (a & h & c & t & Ha & Hc & ->)]]].
  - left. exists d. split; [assumption|].
    apply (hex_loop_denotes p d Hd [] (repeat None (length p / 2))). rewrite repeat_length. lia.
  - right. right. split; [|split].
    + apply Forall_app. split; [eapply hexdenotes_all; eassumption|]. constructor; [congruence|constructor].
    + rewrite app_length. cbn. rewrite Hn. replace (2 * n + 1) with (S (2 * n)) by lia.
      rewrite Nat.odd_succ. rewrite Nat.even_mul. reflexivity.
    + rewrite app_length. cbn [length]. rewrite Hn.
      assert (E : (2 * n + 1) / 2 = n). { rewrite Nat.add_comm, Nat.mul_comm, Nat.div_add by lia. reflexivity. }
      rewrite E. destruct (hex_loop_prefix p d Hd [c] [] (repeat None n)) as (r' & Hr' & Hx); [rewrite repeat_length; lia|].
      cbn [map app length] in Hx. rewrite Hx. rewrite repeat_length, Hn2, Nat.sub_diag in Hr'. destruct r'; [|discriminate].
      rewrite app_nil_r. cbn [hex_loop]. rewrite hex_spec, Hc. replace (Z.of_N h <? 0)%Z with false by lia.
      rewrite map_length, Nat.ltb_irrefl. reflexivity.
  - right. left. split.
    + intros Hall. apply Forall_app in Hall as [_ Hall]. inversion Hall. contradiction.
    + assert (Hle : n <= length (p ++ c :: t) / 2).
      { rewrite app_length, Hn. rewrite <- (Nat.div_mul n 2) at 1 by lia. apply Nat.div_le_mono; cbn [length]; lia. }
      destruct (hex_loop_prefix p d Hd (c :: t) [] (repeat None (length (p ++ c :: t) / 2))) as (r' & Hr' & Hx).
      { rewrite repeat_length. lia. }
      cbn [map app length] in Hx. rewrite Hx. cbn [hex_loop]. rewrite hex_spec, Hc. reflexivity.
  - right. left. split.
    + intros Hall. apply Forall_app in Hall as [_ Hall]. inversion Hall as [|? ? _ Hall']. inversion Hall'. contradiction.
    + assert (Hle : S n <= length (p ++ a :: c :: t) / 2).
      { rewrite app_length, Hn. rewrite <- (Nat.div_mul (S n) 2) at 1 by lia. apply Nat.div_le_mono; cbn [length]; lia. }
      destruct (hex_loop_prefix p d Hd (a :: c :: t) [] (repeat None (length (p ++ a :: c :: t) / 2))) as (r' & Hr' & Hx).
      { rewrite repeat_length. lia. }
      cbn [map app length] in Hx. rewrite Hx. rewrite repeat_length in Hr'. destruct r' as [|x r']; cbn [length] in Hr'; [lia|].
      cbn [hex_loop]. rewrite !hex_spec, Ha, Hc. replace (Z.of_N h <? 0)%Z with false by lia.
      rewrite app_length, map_length. cbn [length]. replace (length d <? length d + S (length r')) with true by (symmetry; apply Nat.ltb_lt; lia).
      reflexivity.
Qed.

Lemma strsep_dot_nonnil s : strsep_dot s <> [].
Proof. destruct s as [|c s]; cbn; [discriminate|]. destruct (Ascii.eqb c "."); [discriminate|]. destruct (strsep_dot s); discriminate. Qed.

Lemma strsep_dot_join s : join_dot (strsep_dot s) = s /\ Forall (fun k => ~ In "."%char k) (strsep_dot s).
Proof.
  induction s as [|c s [IH1 IH2]]; cbn; [split; [reflexivity|constructor; auto]|].
  destruct (Ascii.eqb_spec c ".") as [->|Hc].
  - split; [|constructor; auto]. cbn. pose proof (strsep_dot_nonnil s). destruct (strsep_dot s) eqn:E; [contradiction|].
    rewrite IH1. reflexivity.
  - destruct (strsep_dot s) as [|k ks] eqn:E; [exfalso; eapply strsep_dot_nonnil; eassumption|].
    inversion IH2; subst. split.
    + destruct ks; reflexivity.
    + constructor; [|assumption]. intros [->|Hin]; contradiction.
Qed.

Lemma join_dot_inj ks : ks <> [] -> Forall (fun k => ~ In "."%char k) ks -> strsep_dot (join_dot ks) = ks.
Proof.
  induction ks as [|k ks IH]; intros Hn Hf; [contradiction|]. inversion Hf as [|? ? Hk Hf']; subst.
  destruct ks as [|k2 ks].
  - cbn. clear -Hk. induction k as [|c k IH]; cbn; [reflexivity|].
    destruct (Ascii.eqb_spec c "."); [subst; exfalso; apply Hk; left; reflexivity|].
    rewrite IH; [reflexivity|]. intros H; apply Hk; right; exact H.
  - specialize (IH ltac:(discriminate) Hf'). change (join_dot (k :: k2 :: ks)) with (k ++ "."%char :: join_dot (k2 :: ks)).
    set (j := join_dot (k2 :: ks)) in *. clearbody j. clear -Hk IH. induction k as [|c k IHk]; cbn.
    + rewrite IH. reflexivity.
    + destruct (Ascii.eqb_spec c "."); [subst; exfalso; apply Hk; left; reflexivity|].
      rewrite IHk; [reflexivity|]. intros H; apply Hk; right; exact H.
Qed.

Lemma all_hex_nodot k : all_hex k -> ~ In "."%char k.
Proof. intros H Hin. unfold all_hex in H. rewrite Forall_forall in H. apply (H _ Hin). reflexivity. Qed.

Lemma str2data_loop_ok ks ds : Forall2 hexdenotes ks ds -> str2data_loop ks = DOk ds.
Proof.
  induction 1 as [|k d ks ds Hk _ IH]; cbn [str2data_loop]; [reflexivity|].
  destruct (hexlit_char k) as [(d' & Hd' & E) | [(Hn & E) | (Hall & Ho & E)]]; unfold hexlit in E; rewrite E.
  - rewrite IH. f_equal. f_equal. clear -Hk Hd'. revert d' Hd'. induction Hk; intros d' Hd'; inversion Hd'; subst; [reflexivity|].
    f_equal; [congruence|]. apply IHHk. assumption.
  - exfalso. apply Hn. eapply hexdenotes_all. eassumption.
  - exfalso. destruct (hexdenotes_even _ _ Hk) as (n & Hn & _). rewrite Hn in Ho. rewrite Nat.odd_mul in Ho. cbn in Ho. discriminate.
Qed.

(** first bad component decides *)
Lemma str2data_loop_bad ks1 k ks2 ds : Forall2 hexdenotes ks1 ds -> ~ all_hex k -> str2data_loop (ks1 ++ k :: ks2) = DEinval.
Proof.
  induction 1 as [|k1 d ks ds' Hk _ IH]; intros Hn; cbn [str2data_loop app].
  - destruct (hexlit_char k) as [(d' & Hd' & E) | [(Hn' & E) | (Hall & Ho & E)]]; unfold hexlit in E; rewrite E; auto; exfalso; auto.
    apply Hn. eapply hexdenotes_all; eassumption.
  - pose proof (str2data_loop_ok [k1] [d] ltac:(constructor; [assumption|constructor])) as H1. cbn [str2data_loop] in H1.
    destruct (hex_loop k1 _ 0 false); try discriminate. rewrite IH by assumption. reflexivity.
Qed.
Lemma str2data_loop_odd ks1 k ks2 ds : Forall2 hexdenotes ks1 ds -> all_hex k -> Nat.odd (length k) = true -> str2data_loop (ks1 ++ k :: ks2) = DUB.
Proof.
  induction 1 as [|k1 d ks ds' Hk _ IH]; intros Hn Ho; cbn [str2data_loop app].
  - destruct (hexlit_char k) as [(d' & Hd' & E) | [(Hn' & E) | (Hall & Ho' & E)]]; unfold hexlit in E; rewrite E; auto; exfalso; auto.
    destruct (hexdenotes_even _ _ Hd') as (n & Hn' & _). rewrite Hn' in Ho. rewrite Nat.odd_mul in Ho. cbn in Ho. discriminate.
  - pose proof (str2data_loop_ok [k1] [d] ltac:(constructor; [assumption|constructor])) as H1. cbn [str2data_loop] in H1.
    destruct (hex_loop k1 _ 0 false); try discriminate. rewrite IH by assumption. reflexivity.
Qed.

Theorem str2data_ok ks ds : ks <> [] -> ks <> [[]] -> Forall2 hexdenotes ks ds -> str2data (Some (join_dot ks)) = DOk ds.
Proof.
  intros Hn Hn2 H. unfold str2data.
  assert (Hj : join_dot ks <> []).
  { destruct ks as [|k [|k2 ks]]; [contradiction| |]; cbn.
    - congruence.
    - destruct k; discriminate. }
  destruct (join_dot ks) eqn:E; [contradiction|]. rewrite <- E. rewrite join_dot_inj.
  - apply str2data_loop_ok. assumption.
  - assumption.
  - clear -H. induction H; constructor; auto. apply all_hex_nodot. eapply hexdenotes_all; eassumption.
Qed.

(** complete case analysis of str2data *)
Lemma ks_cases ks : (exists ds, Forall2 hexdenotes ks ds) \/
  (exists ks1 ds k ks2, ks = ks1 ++ k :: ks2 /\ Forall2 hexdenotes ks1 ds /\
     (~ all_hex k \/ (all_hex k /\ Nat.odd (length k) = true))).
Proof.
  induction ks as [|k ks IH]; [left; exists []; constructor|].
  destruct (hexlit_char k) as [(d & Hd & _) | [(Hn & _) | (Ha & Ho & _)]].
  - destruct IH as [(ds & H) | (ks1 & ds & k' & ks2 & -> & H & Hk)].
    + left. exists (d :: ds). constructor; assumption.
    + right. exists (k :: ks1), (d :: ds), k', ks2. split; [reflexivity|]. split; [constructor; assumption|assumption].
  - right. exists [], [], k, ks. split; [reflexivity|]. split; [constructor|auto].
  - right. exists [], [], k, ks. split; [reflexivity|]. split; [constructor|auto].
Qed.

Theorem str2data_char s : s <> [] -> exists ks, s = join_dot ks /\ Forall (fun k => ~ In "."%char k) ks /\ (
  (exists ds, Forall2 hexdenotes ks ds /\ str2data (Some s) = DOk ds) \/
  (exists ks1 ds k ks2, ks = ks1 ++ k :: ks2 /\ Forall2 hexdenotes ks1 ds /\
     ((~ all_hex k /\ str2data (Some s) = DEinval) \/
      (all_hex k /\ Nat.odd (length k) = true /\ str2data (Some s) = DUB)))).
Proof.
  intros Hs. exists (strsep_dot s). destruct (strsep_dot_join s) as [Hj Hf]. split; [auto|]. split; [assumption|].
  assert (E : str2data (Some s) = str2data_loop (strsep_dot s)) by (destruct s; [contradiction|reflexivity]).
  rewrite E. destruct (ks_cases (strsep_dot s)) as [(ds & H) | (ks1 & ds & k & ks2 & Ek & H & Hk)].
  - left. exists ds. split; [assumption|]. apply str2data_loop_ok. assumption.
  - right. exists ks1, ds, k, ks2. split; [assumption|]. split; [assumption|]. rewrite Ek.
    destruct Hk as [Hk | [Ha Ho]].
    + left. split; [assumption|]. eapply str2data_loop_bad; eassumption.
    + right. split; [assumption|]. split; [assumption|]. eapply str2data_loop_odd; eassumption.
Qed.

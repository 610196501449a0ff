(** The table compiler reads back the source text it is given. *)
From Coq Require Import ZifyBool ZifyN ZifyNat.
From Verif Require Import Base Types M_Engine M_Mktable S_Dict S_Table S_Source P_Mktable3.

Lemma hexd_char d : (d < 16)%N -> hexd (hex_char d) = d.
Proof. intros H. unfold hexd, hex_char. destruct (N.ltb_spec d 10). - replace ((48 <=? 48 + d) && (48 + d <=? 57))%N with true by lia. lia. - replace ((48 <=? 55 + d) && (55 + d <=? 57))%N with false by lia. replace ((97 <=? 55 + d) && (55 + d <=? 102))%N with false by lia. replace ((65 <=? 55 + d) && (55 + d <=? 70))%N with true by lia. lia. Qed.
Definition digit (c : N) : Prop := (48 <= c <= 57 \/ 65 <= c <= 70)%N.
Lemma hex_digit d : (d < 16)%N -> digit (hex_char d).
Proof. intros H. unfold digit, hex_char. destruct (N.ltb_spec d 10); lia. Qed.
Lemma nib b : (b < 256)%N -> (b / 16 < 16)%N /\ (b mod 16 < 16)%N /\ (b / 16 * 16 + b mod 16 = b)%N.
Proof. intros H. pose proof (N.div_mod' b 16). pose proof (N.mod_lt b 16 ltac:(lia)). assert (b / 16 < 16)%N by (apply N.div_lt_upper_bound; lia). lia. Qed.

Lemma pattern_back : forall p, Forall (fun s => match s with PByte b => (b < 256)%N | _ => True end) p -> parse_pattern (flat_map text_psym p) = Some (map bounds p).
Proof.
  induction p as [|s p IH]; intros H; [reflexivity|]. inversion H as [|? ? Hs Hp]; subst. specialize (IH Hp). destruct s as [b| |]; cbn [flat_map text_psym hex_byte app map bounds].
  - destruct (nib b Hs) as (H1 & H2 & H3). cbn [parse_pattern]. pose proof (hex_digit _ H1) as HD. unfold digit in HD.
    replace (hex_char (b / 16) =? 42)%N with false by lia. replace (hex_char (b / 16) =? 44)%N with false by lia. rewrite IH, !hexd_char by assumption. cbn. rewrite H3. reflexivity.
  - cbn. rewrite IH. reflexivity.
  - cbn. rewrite IH. reflexivity.
Qed.

Lemma out_bytes_back d : forall t c, Forall (fun b => (b < 256)%N) d -> exists c', parse_out (flat_map hex_byte d ++ t) c false = d ++ parse_out t c' false.
Proof.
  induction d as [|b d IH]; intros t c H; [exists c; reflexivity|]. inversion H as [|? ? Hb Hd]; subst. cbn [flat_map hex_byte app]. destruct (nib b Hb) as (H1 & H2 & H3).
  pose proof (hex_digit _ H1) as D1. pose proof (hex_digit _ H2) as D2. unfold digit in D1, D2. cbn [parse_out].
  replace (hex_char (b / 16) =? 44)%N with false by lia. replace (hex_char (b mod 16) =? 44)%N with false by lia. rewrite !hexd_char by assumption. rewrite H3.
  destruct (IH t b Hd) as (c' & E). exists c'. cbn [app]. f_equal. exact E.
Qed.
Lemma out_back : forall ds c, Forall (Forall (fun b => (b < 256)%N)) ds -> parse_out (text_data ds) c false = joined ds.
Proof.
  induction ds as [|d ds IH]; intros c H; [reflexivity|]. inversion H as [|? ? Hd Hds]; subst. destruct ds as [|d' ds].
  - cbn [text_data joined]. destruct (out_bytes_back d [] c Hd) as (c' & E). rewrite app_nil_r in E. rewrite E. cbn. apply app_nil_r.
  - change (text_data (d :: d' :: ds)) with (flat_map hex_byte d ++ 44%N :: text_data (d' :: ds)). change (joined (d :: d' :: ds)) with (d ++ 256%N :: joined (d' :: ds)).
    destruct (out_bytes_back d (44%N :: text_data (d' :: ds)) c Hd) as (c' & E). rewrite E. cbn [parse_out N.eqb Pos.eqb]. rewrite IH by exact Hds. reflexivity.
Qed.

(** cells undoes joined *)
Lemma cells_sep x : cells (256%N :: x) = [] :: cells x.
Proof. reflexivity. Qed.
Lemma cells_byte c x : (c < 256)%N -> cells (c :: 256%N :: x) = [c] :: cells x.
Proof. intros H. cbn. replace (c =? 256)%N with false by lia. reflexivity. Qed.
Lemma cells_bytes : forall d x, Forall (fun b => (b < 256)%N) d -> cells (d ++ 256%N :: x) = d :: cells x.
Proof.
  induction d as [|c d IH]; intros x H; [reflexivity|]. inversion H as [|? ? Hc Hd]; subst. destruct d as [|c' d].
  - apply cells_byte. exact Hc.
  - cbn [app]. specialize (IH x Hd). cbn [app] in IH. inversion Hd as [|? ? Hc' Hd']; subst.
    change (cells (c :: c' :: d ++ 256%N :: x)) with (if (c =? 256)%N then [] :: cells (c' :: d ++ 256%N :: x) else if (c' =? 256)%N then [c] :: cells (d ++ 256%N :: x) else match cells (c' :: d ++ 256%N :: x) with [] => [[c]] | y :: r => (c :: y) :: r end).
    replace (c =? 256)%N with false by lia. replace (c' =? 256)%N with false by lia. rewrite IH. reflexivity.
Qed.
Lemma cells_last : forall d, Forall (fun b => (b < 256)%N) d -> d <> [] -> cells d = [d].
Proof.
  induction d as [|c d IH]; intros H Hne; [contradiction|]. inversion H as [|? ? Hc Hd]; subst. destruct d as [|c' d]; [cbn; replace (c =? 256)%N with false by lia; reflexivity|].
  inversion Hd as [|? ? Hc' Hd']; subst.
  change (cells (c :: c' :: d)) with (if (c =? 256)%N then [] :: cells (c' :: d) else if (c' =? 256)%N then [c] :: cells d else match cells (c' :: d) with [] => [[c]] | y :: r => (c :: y) :: r end).
  replace (c =? 256)%N with false by lia. replace (c' =? 256)%N with false by lia. rewrite IH by (try assumption; discriminate). reflexivity.
Qed.
Lemma cells_joined : forall ds, Forall (Forall (fun b => (b < 256)%N)) ds -> (ds <> [] -> last ds [] <> []) -> cells (joined ds) = ds.
Proof.
  induction ds as [|d ds IH]; intros H HL; [reflexivity|]. inversion H as [|? ? Hd Hds]; subst. destruct ds as [|d' ds].
  - cbn [joined]. apply cells_last; [exact Hd|]. apply HL. discriminate.
  - change (joined (d :: d' :: ds)) with (d ++ 256%N :: joined (d' :: ds)). rewrite cells_bytes by exact Hd. f_equal. apply IH; [exact Hds|]. intros _. apply HL. discriminate.
Qed.

(** *** lines *)
Definition quietc (c : N) : Prop := (c <> 0 /\ c <> 9 /\ c <> 10 /\ c <> 13 /\ c <> 32 /\ c <> 33 /\ c <> 35 /\ c <> 63)%N.
Lemma hex_byte_quiet b : (b < 256)%N -> Forall quietc (hex_byte b).
Proof. intros H. destruct (nib b H) as (H1 & H2 & _). pose proof (hex_digit _ H1) as D1. pose proof (hex_digit _ H2) as D2. unfold digit in *. repeat constructor; unfold quietc; lia. Qed.
Lemma pat_quiet p : Forall (fun s => match s with PByte b => (b < 256)%N | _ => True end) p -> Forall quietc (flat_map text_psym p).
Proof. induction 1 as [|s p Hs Hp IH]; [constructor|]. cbn. apply Forall_app. split; [|exact IH]. destruct s; cbn [text_psym]; [apply hex_byte_quiet; exact Hs| |]; repeat constructor; unfold quietc; lia. Qed.
Lemma bytes_quiet d : Forall (fun b => (b < 256)%N) d -> Forall quietc (flat_map hex_byte d).
Proof. induction 1; [constructor|]. cbn [flat_map]. apply Forall_app. split; [apply hex_byte_quiet; assumption|assumption]. Qed.
Lemma data_quiet : forall ds, Forall (Forall (fun b => (b < 256)%N)) ds -> Forall quietc (text_data ds).
Proof.
  induction ds as [|d ds IH]; intros H; [constructor|]. inversion H; subst. destruct ds as [|d' ds]; [apply bytes_quiet; assumption|].
  change (text_data (d :: d' :: ds)) with (flat_map hex_byte d ++ 44%N :: text_data (d' :: ds)). apply Forall_app. split; [apply bytes_quiet; assumption|]. constructor; [unfold quietc; lia|]. apply IH. assumption.
Qed.

Lemma fgets_line n : forall a room acc rest, Forall (fun c => c <> 10%N) a -> length a < room -> fgets_go n room acc (a ++ 10%N :: rest) = (rev acc ++ a ++ [10%N]) :: fgets_go n n [] rest.
Proof.
  induction a as [|c a IH]; intros room acc rest H HL; cbn [length app] in *.
  - destruct room; [lia|]. cbn. rewrite ?app_nil_r. reflexivity.
  - inversion H; subst. destruct room; [lia|]. cbn [fgets_go]. replace (c =? 10)%N with false by lia. rewrite IH by (try assumption; lia). cbn [rev]. rewrite <- app_assoc. reflexivity.
Qed.

Lemma cstr_quiet a : Forall (fun c => c <> 0%N) a -> cstr a = a.
Proof. induction 1 as [|c a Hc Ha IH]; [reflexivity|]. cbn. replace (c =? 0)%N with false by lia. rewrite IH. reflexivity. Qed.
Lemma strsep_app d a c rest : Forall (fun x => d x = false) a -> d c = true -> strsep d (a ++ c :: rest) = (a, Some rest).
Proof. induction 1 as [|x a Hx Ha IH]; intros Hc; cbn; [rewrite Hc; reflexivity|]. rewrite Hx, IH by exact Hc. reflexivity. Qed.

Definition to_line (e : sentry) : sline := mkLine false (map bounds (en_pat e)) false (joined (en_out e)).

Lemma line_back e : entry_ok e -> parse_line (text_entry e) = Some (Some (to_line e)).
Proof.
  intros [Hp Hb Hd _ _]. pose proof (pat_quiet _ Hb) as QP. pose proof (data_quiet _ Hd) as QD. unfold text_entry. set (P := flat_map text_psym (en_pat e)) in *. set (T := text_data (en_out e)) in *.
  assert (HP : exists c P', P = c :: P'). { unfold P. destruct (en_pat e) as [|s p]; [contradiction|]. destruct s; cbn; eauto. }
  assert (HC : cstr (P ++ 9%N :: T ++ [10%N]) = P ++ 9%N :: T ++ [10%N]).
  { apply cstr_quiet. apply Forall_app. split; [eapply Forall_impl; [|exact QP]; unfold quietc; lia|]. constructor; [lia|]. apply Forall_app. split; [eapply Forall_impl; [|exact QD]; unfold quietc; lia|]. repeat constructor; lia. }
  assert (HS : split_line (P ++ 9%N :: T ++ [10%N]) = Some (Some (P, T))).
  { unfold split_line. rewrite HC. destruct HP as (c & P' & EP).
    assert (H35 : forall X Y, (match P ++ 9%N :: T ++ [10%N] with 35%N :: _ => X | _ => Y end) = Y :> option (option (list N * list N))).
    { intros X Y. rewrite EP. cbn [app]. inversion QP as [|? ? Hq _ Eq]; [congruence|]. rewrite EP in *. inversion Eq; subst. unfold quietc in Hq. destruct c as [|q]; [reflexivity|]. do 6 (destruct q as [q|q|]; try reflexivity). destruct Hq as (_ & _ & _ & _ & _ & _ & Hq & _). congruence. }
    rewrite H35. rewrite (strsep_app is_blank P 9%N) by first [reflexivity | eapply Forall_impl; [|exact QP]; unfold quietc, is_blank; lia].
    assert (HB : skip_blank (T ++ [10%N]) = Some (T ++ [10%N])). { destruct T as [|t T']; [reflexivity|]. inversion QD; subst. cbn. replace (is_blank t) with false by (unfold is_blank, quietc in *; lia). reflexivity. }
    rewrite HB. rewrite (strsep_app is_delim T 10%N []) by first [reflexivity | eapply Forall_impl; [|exact QD]; unfold quietc, is_delim; lia]. reflexivity. }
  unfold parse_line. rewrite HS. destruct HP as (c & P' & EP).
  assert (H33 : (match P with 33%N :: f' => (true, f') | _ => (false, P) end) = (false, P)).
  { rewrite EP. rewrite EP in QP. inversion QP as [|? ? Hq _]; subst. unfold quietc in Hq. destruct c as [|q]; [reflexivity|]. do 6 (destruct q as [q|q|]; try reflexivity). lia. }
  rewrite H33. assert (H63 : (match T with 63%N :: t' => (true, t') | _ => (false, T) end) = (false, T)).
  { destruct T as [|t T'] eqn:ET; [reflexivity|]. inversion QD as [|? ? Hq _]; subst. unfold quietc in Hq. destruct t as [|q]; [reflexivity|]. do 6 (destruct q as [q|q|]; try reflexivity). lia. }
  rewrite H63. unfold P, T. rewrite pattern_back by exact Hb. rewrite out_back by exact Hd. reflexivity.
Qed.

Lemma text_entry_shape e : entry_ok e -> exists a, text_entry e = a ++ [10%N] /\ Forall (fun c => c <> 10%N) a /\ length a < 1023.
Proof.
  intros [Hp Hb Hd _ HL]. pose proof (pat_quiet _ Hb) as QP. pose proof (data_quiet _ Hd) as QD. exists (flat_map text_psym (en_pat e) ++ 9%N :: text_data (en_out e)).
  assert (E : text_entry e = (flat_map text_psym (en_pat e) ++ 9%N :: text_data (en_out e)) ++ [10%N]) by (unfold text_entry; rewrite <- app_assoc; reflexivity).
  split; [exact E|]. split.
  - apply Forall_app. split; [eapply Forall_impl; [|exact QP]; unfold quietc; lia|]. constructor; [lia|]. eapply Forall_impl; [|exact QD]. unfold quietc. lia.
  - rewrite E, app_length in HL. cbn [length] in HL. lia.
Qed.

Lemma parse_source_go n es : n = 1023 -> Forall entry_ok es -> parse_lines (fgets_go n n [] (text_file es)) = Some (map to_line es).
Proof.
  intros En. induction 1 as [|e es He Hes IH]; [subst n; reflexivity|]. unfold text_file. cbn [flat_map map]. destruct (text_entry_shape e He) as (a & E & H1 & H2). rewrite E, <- app_assoc. cbn [app].
  rewrite fgets_line by (try assumption; subst n; exact H2). fold (text_file es). change (rev [] ++ a ++ [10%N]) with (a ++ [10%N]). rewrite <- E.
  cbn [parse_lines]. rewrite (line_back e He). rewrite IH. reflexivity.
Qed.
Lemma parse_source_back es : Forall entry_ok es -> parse_source (text_file es) = Some (map to_line es).
Proof. unfold parse_source, fgets_lines. intros H. apply (parse_source_go 1023 es eq_refl H). Qed.

Lemma to_line_plain e : entry_ok e -> plain (to_line e).
Proof.
  intros [Hp Hb _ _ _]. constructor; try reflexivity; cbn.
  - destruct (en_pat e); [contradiction|discriminate].
  - induction Hb as [|s p Hs Hb IH]; [constructor|]. cbn. constructor; [destruct s; cbn; lia|]. destruct p; [constructor|]. apply IH. discriminate.
Qed.

Theorem mktable_implements es : Forall entry_ok es -> exists tab, mktable (text_file es) = Some tab /\ timpl tab (file_dict es).
Proof.
  intros H. exists (to_table (build (map to_line es))). unfold mktable. rewrite parse_source_back by exact H. split; [reflexivity|].
  assert (E : source_dict (map to_line es) = file_dict es).
  { unfold source_dict, file_dict. induction H as [|e es He Hes IH]; [reflexivity|]. cbn [map flat_map]. rewrite IH. f_equal. cbn [to_line sl_out sl_pat]. rewrite cells_joined by (apply He). reflexivity. }
  rewrite <- E. apply build_implements. apply Forall_forall. intros ln Hln. apply in_map_iff in Hln as (e & <- & He). apply to_line_plain. rewrite Forall_forall in H. apply H. exact He.
Qed.

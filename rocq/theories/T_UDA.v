(** Theorems about the user-defined areas of CP950 (C36). *)
From Verif Require Import Base Types M_Engine M_Output M_Create M_Modules M_UDA M_UTF8 M_UTF16 S_Session S_Unicode S_Transcode S_Rest S_UDA P_CbSession P_Unicode P_Pair P_UDA.
Local Open Scope N_scope.

(** bsdconv_create("CP950-UDA:dst"); [x], [y]: memory that the decoder leaves uninitialised. *)
Definition uda_inst (dst : charset) (x y : N) : inst priv := new_instance priv [(FROM, [uda_dec x y]); (TO, encoder_of dst)].
Definition uda_text (W : list N) : Prop := exists ns, Forall (fun n => (n < uda_count)%nat) ns /\ W = flat_map uda_code ns.

(** Every text made of codes of the user-defined areas is converted to the corresponding private use characters: in order,
    without errors, in any chunking, into every Unicode encoding, on a new instance and again and again. *)
Theorem C36_converts : forall dst x y ns, Forall (fun n => (n < uda_count)%nat) ns ->
  converts false (uda_inst dst x y) uda_text (flat_map uda_code ns) (flat_map (fun n => encoded dst (uda_char n)) ns).
Proof.
  intros dst x y ns Hns. unfold uda_inst. rewrite uda_conv. destruct (uda_side_ok x y) as (D1 & D2). destruct (enc_side_ok dst) as (E1 & E2).
  apply (pair_converts (uda_side x y) (enc_side dst) false uda_code (fun n => udatum (uda_char n)) (fun n => encoded dst (uda_char n)) (fun n => (n < uda_count)%nat)); auto using enc_side_ne; try discriminate.
  - exact uda_dcodes.
  - apply (enc_ecodes dst uda_char). intros a Ha. apply uda_encodable. exact Ha.
Qed.
Print Assumptions C36_converts.
Theorem C36_initialises : forall dst x y, exists s, bsdconv_init priv (uda_inst dst x y) = Some s /\ resting false (uda_inst dst x y) uda_text s /\ pending priv s = [].
Proof.
  intros dst x y. unfold uda_inst. rewrite uda_conv. destruct (uda_side_ok x y) as (D1 & D2). destruct (enc_side_ok dst) as (E1 & E2).
  assert (ND : uda_side x y <> []) by discriminate.
  destruct (resting_exists (pconv (uda_side x y) (enc_side dst)) (pconv_ok _ _ ND (enc_side_ne dst) D1 D2 E1 E2) false uda_text) as (s & H1 & H2 & H3 & _). eauto.
Qed.
(** Different codes give different characters, which are all in the private use area; there are 6217 of each, U+E000 to
    U+F848. *)
Theorem C36_injective : forall n m, (n < uda_count)%nat -> (m < uda_count)%nat ->
  (uda_code n = uda_code m <-> uda_char n = uda_char m) /\ 0xE000 <= uda_char n <= 0xF848 /\ exists a b, uda_code n = [a; b] /\ a < 256 /\ b < 256.
Proof.
  intros n m Hn Hm. split; [|split].
  - split.
    + intros E. f_equal. pose proof (code_good n Hn) as Gn. pose proof (code_good m Hm) as Gm. rewrite <- E in Gm. unfold good_code in *. destruct (uda_code n) as [|h [|l [|]]]; try discriminate.
      apply andb_prop in Gn as (_ & Gn). apply andb_prop in Gm as (_ & Gm). destruct (ustep uq0 h) as [q [[[] o]|]]; try discriminate. destruct (ustep q l) as [q2 [[[] [|d [|]]]|]]; try discriminate.
      destruct (list_eq_dec N.eq_dec d (udatum (uda_char n))) as [->|]; [|discriminate]. destruct (list_eq_dec N.eq_dec (udatum (uda_char n)) (udatum (uda_char m))) as [Eu|]; [|discriminate].
      unfold uda_char, uda_count in *. unfold udatum, be_bytes in Eu.
      replace (0xE000 + N.of_nat n <? 256) with false in Eu by (symmetry; apply N.ltb_ge; lia). replace (0xE000 + N.of_nat n <? 65536) with true in Eu by (symmetry; apply N.ltb_lt; lia).
      replace (0xE000 + N.of_nat m <? 256) with false in Eu by (symmetry; apply N.ltb_ge; lia). replace (0xE000 + N.of_nat m <? 65536) with true in Eu by (symmetry; apply N.ltb_lt; lia).
      pose proof (f_equal (fun l => nth 1 l 0) Eu) as E1. pose proof (f_equal (fun l => nth 2 l 0) Eu) as E2. cbn [nth] in E1, E2. pose proof (N.div_mod (0xE000 + N.of_nat n) 256 ltac:(lia)) as A1. pose proof (N.div_mod (0xE000 + N.of_nat m) 256 ltac:(lia)) as A2. rewrite E1, E2 in A1. lia.
    + unfold uda_char. intros E. f_equal. lia.
  - unfold uda_char, uda_count in *. lia.
  - assert (HF : forallb (fun c => match c with [a; b] => (a <? 256) && (b <? 256) | _ => false end) uda_codes = true) by (vm_compute; reflexivity).
    pose proof (proj1 (forallb_forall _ _) HF (uda_code n)) as H. assert (Hin : In (uda_code n) uda_codes) by (apply nth_In; rewrite codes_length; exact Hn). specialize (H Hin).
    revert H. clear. generalize (uda_code n) as c. intros c H. destruct c as [|a [|b [|]]]; try discriminate. apply andb_prop in H as (H1 & H2). apply N.ltb_lt in H1, H2. exists a, b. auto.
Qed.
Print Assumptions C36_injective.

(** ** Beside the theorems: concrete conversions *)
Definition uda_seen (h : list call) : option (list N * list N * nat * nat) :=
  match bsdconv_init priv (uda_inst UTF32BE 7 9) with
  | None => None
  | Some s => option_map (fun x => (snd x, pending priv (fst x), i_ierr priv (fst x), i_oerr priv (fst x))) (run_hist priv 3000 s h)
  end.
Definition uda_give (d : list N) (fl : bool) : call := mkCall (Some (d, [])) fl (OAuto 0).
Example C36_ex : uda_seen [uda_give [0xFA; 0x40; 0xC6] false; uda_give [0xA1; 0xC8; 0xFE] true] = Some ([0; 0; 0xE0; 0; 0; 0; 0xF6; 0xB1; 0; 0; 0xF8; 0x48], [], 0%nat, 0%nat).
Proof. vm_compute. reflexivity. Qed.
Example C36_ex_codes : uda_code 0 = [0xFA; 0x40] /\ uda_code (N.to_nat 0x16B1) = [0xC6; 0xA1] /\ uda_code (N.to_nat 6216) = [0xC8; 0xFE].
Proof. vm_compute. repeat split. Qed.

(** ** Where the code departs from the property *)
(** Two-byte strings that are no codes of Big5 (the trail byte is none) are accepted, and give the characters of other codes. *)
Theorem C36_invalid_trail_refuted :
  uda_seen [uda_give [0xFB; 0x00] true] = Some ([0; 0; 0xE0; 0x5D], [], 0%nat, 0%nat) /\ uda_seen [uda_give [0xFA; 0xBF] true] = Some ([0; 0; 0xE0; 0x5D], [], 0%nat, 0%nat) /\ ~ In 0x00 trails /\ In [0xFA; 0xBF] uda_codes.
Proof.
  split; [vm_compute; reflexivity|]. split; [vm_compute; reflexivity|]. split.
  - assert (H : forallb (fun b => negb (b =? 0)) trails = true) by (vm_compute; reflexivity). intros Hin. apply (proj1 (forallb_forall _ _) H) in Hin. discriminate.
  - apply in_or_app. left. apply in_flat_map. exists 0xFA. split; [left; reflexivity|]. apply (in_map (fun l => [0xFA; l])). apply in_or_app. right. apply in_map_iff. exists 30%nat. split; [reflexivity|apply in_seq; cbn; lia].
Qed.
(** bsdconv_init does not reset the decoder: the first byte of an abandoned stream is combined with the next stream. *)
Theorem C36_reinit_keeps_lead_refuted :
  match bsdconv_init priv (uda_inst UTF32BE 7 9) with
  | Some s => match run_hist priv 3000 s [uda_give [0xFA] false] with
              | Some (s1, _) => match bsdconv_init priv s1 with
                                | Some s2 => option_map (fun x => (snd x, i_ierr priv (fst x))) (run_hist priv 3000 s2 [uda_give [0x41] true])
                                | None => None end
              | None => None end
  | None => None end = Some ([0; 0; 0xE0; 0x01], 0%nat).
Proof. vm_compute. reflexivity. Qed.

(** The CP950 user-defined area decoder. *)
From Verif Require Import Base Types M_Engine M_Output M_Create M_Callback M_Modules M_UDA M_UTF8 M_UTF16 S_Session S_Unicode S_Transcode S_Engine S_UDA P_Engine1 P_Engine2 P_Callback P_CbSession P_Ascii P_Unicode P_Pair.
From Coq Require Import ZifyBool ZifyN ZifyNat.
Local Open Scope N_scope.

Definition uq0 : uda := mkUda 0 0 0.
Definition unorm (w : uda) : uda := if ud_h w =? 0 then uq0 else w.
Definition ustep (q : uda) (b : N) : uda * option (status * list datum) := let '(q', r) := uda_step q b in (unorm q', r).
Lemma ustep_ok q b : True -> let '(q', r) := ustep q b in
  match r with
  | None => True
  | Some (NEXTPHASE, _) => q' = uq0
  | Some (DEADEND, o) => q' = uq0 /\ o = []
  | Some (CONTINUE, o) => True /\ o = []
  | _ => False
  end.
Proof.
  intros _. unfold ustep, uda_step. destruct (ud_h q =? 0) eqn:E0.
  - repeat (match goal with |- context [if ?c then _ else _] => destruct c eqn:?E end; [cbn; tauto|]). split; [|reflexivity]. unfold unorm. rewrite E0. reflexivity.
  - match goal with |- context [if ?c then _ else _] => destruct c end; cbn; [reflexivity|auto].
Qed.
Lemma usim w b : True -> let '(w', r) := uda_step w b in True /\ ustep (unorm w) b = (unorm w', r).
Proof.
  intros _. unfold ustep, unorm at 1. destruct (ud_h w =? 0) eqn:E0; [|destruct (uda_step w b); auto].
  unfold uda_step. rewrite E0. cbn [uq0 ud_h]. change (0 =? 0) with true. cbv iota.
  repeat (match goal with |- context [if ?c then _ else _] => destruct c eqn:?E end; [split; [exact I|reflexivity]|]). split; [exact I|]. unfold unorm. rewrite E0. reflexivity.
Qed.
Definition uda_spec : kspec := dec_spec PUda (fun _ => True) unorm ustep uq0.
Lemma uda_ok x y : from_ok (uda_dec x y) uda_spec.
Proof. apply (dec_ok PUda get_uda (fun q => eq_refl) uda_step (fun _ => True) unorm ustep uq0 (fun _ => True) I ustep_ok usim); reflexivity. Qed.

Definition uda_side (x y : N) : list (ecodec priv * kspec) := [(uda_dec x y, uda_spec)].
Lemma uda_side_ok x y : cod_good FROM (uda_side x y) /\ eof_good FROM (uda_side x y).
Proof.
  split.
  - intros c [<-|[]]. cbn [fst snd codec_ok]. split; [apply uda_ok|]. cbn. exists (mkUda 0 x y). split; [reflexivity|]. split; [exact I|reflexivity].
  - intros j c Hx. destruct j; [injection Hx as <-; right|destruct j; discriminate]. split; [reflexivity|]. split; [reflexivity|]. apply dec_no_sub.
Qed.

Definition good_code (n : nat) (c : list N) : bool :=
  match c with
  | [h; l] => (h <? 257) && match ustep uq0 h with
              | (q, Some (CONTINUE, _)) => match ustep q l with (_, Some (NEXTPHASE, [d])) => if list_eq_dec N.eq_dec d (udatum (uda_char n)) then true else false | _ => false end
              | _ => false end
  | _ => false
  end.
Lemma codes_length : length uda_codes = uda_count. Proof. vm_compute. reflexivity. Qed.
Lemma codes_good : forallb (fun x => good_code (fst x) (snd x)) (combine (seq 0 uda_count) uda_codes) = true.
Proof. vm_compute. reflexivity. Qed.
Lemma code_good n : (n < uda_count)%nat -> good_code n (uda_code n) = true.
Proof.
  intros Hn. pose proof (proj1 (forallb_forall _ _) codes_good (n, uda_code n)) as H. apply H. replace (n, uda_code n) with (nth n (combine (seq 0 uda_count) uda_codes) (0%nat, [])).
  - apply nth_In. rewrite combine_length, seq_length, codes_length. lia.
  - rewrite combine_nth by (rewrite seq_length, codes_length; reflexivity). rewrite seq_nth by exact Hn. reflexivity.
Qed.
Lemma uda_dcodes : dcodes [dec_sem ustep uq0] uda_code (fun n => udatum (uda_char n)) (fun n => (n < uda_count)%nat).
Proof.
  intros n rest Hn. pose proof (code_good n Hn) as H. unfold good_code in H. destruct (uda_code n) as [|h [|l [|]]]; try discriminate.
  apply andb_prop in H as (H0 & H). destruct (ustep uq0 h) as [q [[[] o]|]] eqn:E1; try discriminate. destruct (ustep q l) as [q2 [[[] [|d [|]]]|]] eqn:E2; try discriminate.
  destruct (list_eq_dec N.eq_dec d (udatum (uda_char n))) as [->|]; [|discriminate].
  cbn [first_match]. change [h; l] with ([h] ++ [l]). rewrite (dec_first ustep uq0 [h] l q [udatum (uda_char n)] rest).
  - reflexivity.
  - exact H0.
  - cbn [after]. rewrite E1. reflexivity.
  - unfold judge. rewrite E2. reflexivity.
Qed.
Lemma enc_ecodes dst {A} (val : A -> N) (dom : A -> Prop) : (forall a, dom a -> encodable dst (val a)) -> ecodes (map (fun y => k_v (snd y)) (enc_side dst)) (fun a => udatum (val a)) (fun a => encoding dst (val a)) dom.
Proof.
  intros H a rest Ha. pose proof (side_encodes dst (val a) rest (H a Ha)) as E. replace (map (fun y => k_v (snd y)) (enc_side dst)) with (enc_csems dst) by (destruct dst; reflexivity). exact E.
Qed.
Lemma enc_side_ne dst : enc_side dst <> []. Proof. destruct dst; discriminate. Qed.
Lemma uda_encodable dst n : (n < uda_count)%nat -> encodable dst (uda_char n).
Proof. unfold uda_char, uda_count, encodable, P_Charset.u8_put_value. intros. destruct dst; lia. Qed.
Lemma uda_conv dst x y : new_instance priv [(FROM, [uda_dec x y]); (TO, encoder_of dst)] = cb_inst (pconv (uda_side x y) (enc_side dst)).
Proof. unfold cb_inst, pconv. cbn [map fst snd]. rewrite enc_side_codecs. reflexivity. Qed.

(** Property theorems about hexadecimal parsing (C16). *)
From Verif Require Import Base Types D_Maps M_Hex S_Hex P_Hex.

(** C16, one datum: a string of pairs of hexadecimal digits is parsed to the bytes it denotes, with
    every write inside the allocated block. *)
Theorem C16_datum : forall s d, hexdenotes s d -> str2datum (Some s) = HOk d.
Proof.
  intros s d H. pose proof (str2data_loop_ok [s] [d] ltac:(constructor; [assumption|constructor])) as E.
  cbn [str2data_loop str2datum] in E |- *. destruct (hex_loop s _ 0 false); congruence.
Qed.
Print Assumptions C16_datum.

(** A string with a non-hexadecimal character is rejected, without a write outside the block. *)
Theorem C16_rejects : forall s, ~ all_hex s -> str2datum (Some s) = HEinval.
Proof.
  intros s H. destruct (hexlit_char s) as [(d & Hd & _) | [(_ & E) | (Ha & _)]]; [|exact E|contradiction].
  exfalso. apply H. eapply hexdenotes_all; eassumption.
Qed.
Print Assumptions C16_rejects.

(** The remaining strings — an odd number of digits — make the parser write one byte past the block,
    so the last clause of C16 fails for every one of them. *)
Theorem C16_odd_length_refuted : forall s, all_hex s -> Nat.odd (length s) = true -> str2datum (Some s) = HUB.
Proof.
  intros s H Ho. destruct (hexlit_char s) as [(d & Hd & _) | [(Hn & _) | (_ & _ & E)]]; [|contradiction|exact E].
  exfalso. destruct (hexdenotes_even _ _ Hd) as (n & Hn & _). rewrite Hn in Ho. rewrite Nat.odd_mul in Ho. discriminate.
Qed.
Print Assumptions C16_odd_length_refuted.

(** C16, several data separated by '.': exactly the listed data (an empty item is an empty datum). *)
Theorem C16_data : forall ks ds, ks <> [] -> ks <> [[]] -> Forall2 hexdenotes ks ds ->
  str2data (Some (join_dot ks)) = DOk ds.
Proof. exact str2data_ok. Qed.
Print Assumptions C16_data.

(** C16, the complete behaviour on every non-empty string: the first component that is not a string of
    digit pairs decides between rejection and overflow. *)
Theorem C16_data_complete : forall s, s <> [] ->
  exists ks, s = join_dot ks /\ Forall (fun k => ~ In "."%char k) ks /\ (
  (exists ds, Forall2 hexdenotes ks ds /\ str2data (Some s) = DOk ds) \/
  (exists ks1 ds k ks2, ks = ks1 ++ k :: ks2 /\ Forall2 hexdenotes ks1 ds /\
     ((~ all_hex k /\ str2data (Some s) = DEinval) \/
      (all_hex k /\ Nat.odd (length k) = true /\ str2data (Some s) = DUB)))).
Proof. exact str2data_char. Qed.
Print Assumptions C16_data_complete.

(** The empty text is the empty list (a single empty datum cannot be written); no text at all is rejected. *)
Theorem C16_data_empty : str2data (Some []) = DOk [] /\ str2data None = DEinval.
Proof. split; reflexivity. Qed.
Print Assumptions C16_data_empty.

Example C16_example : hexdenotes (s_ "01aF") [1; 175]%N /\ Forall2 hexdenotes [s_ "01aF"; []; s_ "7e"] [[1; 175]; []; [126]]%N.
Proof.
  assert (H : hexdenotes (s_ "01aF") [1; 175]%N).
  { apply (hd_cons "0" "1" 0 1); [reflexivity|reflexivity|]. apply (hd_cons "a" "F" 10 15); [reflexivity|reflexivity|constructor]. }
  split; [exact H|]. constructor; [exact H|]. constructor; [constructor|]. constructor; [|constructor].
  apply (hd_cons "7" "e" 7 14); [reflexivity|reflexivity|constructor].
Qed.
Example C16_odd_example : all_hex (s_ "123") /\ Nat.odd (length (s_ "123")) = true /\ ~ all_hex (s_ "1g").
Proof.
  split; [|split; [reflexivity|]].
  - repeat constructor; discriminate.
  - intros H. inversion H as [|? ? _ H2]; subst. inversion H2 as [|? ? H3]; subst. apply H3. reflexivity.
Qed.

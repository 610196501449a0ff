(** Theorems about the compiled table file (C30). *)
From Verif Require Import Base Types M_Engine S_Dict S_Table S_Source P_Source M_Mktable M_Layout P_Layout2 P_Layout3 P_Layout4 P_Mktable3 P_Mktable4 T_Table.

(** [z] is memory into which the file is mapped: it is the file up to its size and anything beyond. *)
Definition mapped (z : nat -> N) (f : (nat -> N) * nat) : Prop := forall x, x < snd f -> z x = fst f x.
(** Offsets are 32 bits wide. *)
Definition fits (f : (nat -> N) * nat) : Prop := (N.of_nat (snd f) < 2 ^ 32)%N.

(** C30: for every source the compiler accepts - also with '?' and '!' lines - every state and data list of the table is
    read back unchanged by the runtime accessors, as long as the file has less than 2^32 bytes; nothing outside the file is
    looked at (the bytes beyond the file in [z] are arbitrary).  State number [i] is at 16*i. *)
Theorem C30_states_read_back : forall src tab f z, mktable src = Some tab -> table_file src = Some f -> fits f -> mapped z f ->
  forall i s, read_state tab i = Some s ->
  let r := rt_read_state z (16 * i) in
  r_status r = status_code (t_status s) /\ r_beg r = t_beg s /\ r_end r = t_end s /\
  listcpy_st z (r_data r) (t_data s) /\
  forall v, exists k, get_offset s v = Some k /\ rt_get_offset z r v = 16 * k /\ k < length tab.
Proof.
  intros src tab f z HT HF HS HZ i s Hs. unfold mktable in HT. unfold table_file in HF. destruct (parse_source src) as [ls|]; [|discriminate]. cbn in HT, HF. injection HT as <-. injection HF as <-.
  pose proof (build_wf ls) as W. unfold read_state, to_table in Hs. rewrite nth_error_map in Hs. destruct (nth_error (build ls) i) as [m|] eqn:Em; [|discriminate]. cbn in Hs. injection Hs as <-.
  destruct (layout_read_back _ W HS z HZ i m Em) as (A & B & C & D & E). split; [exact A|]. split; [exact B|]. split; [exact C|]. split; [exact D|].
  intros v. exists (kid_off m v). split; [|split; [apply E|]].
  - apply get_offset_kid. intros k K. apply (wf_kid _ W i m v k Em K).
  - unfold to_table. rewrite map_length. unfold kid_off. destruct (kid m v) as [k|] eqn:Ek; [apply (wf_kid _ W i m v k Em Ek)|apply (wf_len _ W)].
Qed.
Print Assumptions C30_states_read_back.

(** What is written are bytes. *)
Theorem C30_bytes : forall src f x, table_file src = Some f -> (fst f x < 256)%N.
Proof.
  intros src f x HF. unfold table_file in HF. destruct (parse_source src) as [ls|] eqn:E; [|discriminate]. injection HF as <-. cbn [fst]. apply file_byte, build_sym. eapply parse_lines_sym, E.
Qed.
Print Assumptions C30_bytes.

(** Together with C29, from source text to lookups in the mapped file: following the symbols [w] from the start of the file
    leads to a state with the data of the first line that matches [w] exactly when there is one. *)
Theorem C30_lookup_in_file : forall es f z, Forall entry_ok es -> table_file (text_file es) = Some f -> fits f -> mapped z f ->
  forall w, w <> [] ->
  (forall e, first_match es w e -> exists p, file_walk z 0 w = Some p /\ listcpy_st z (r_data (rt_read_state z p)) (en_out e) /\
      ((extended es w /\ r_status (rt_read_state z p) = status_code SUBMATCH) \/ (~ extended es w /\ r_status (rt_read_state z p) = status_code MATCH))) /\
  (Forall (fun e => ~ matches e w) es -> extended es w -> exists p, file_walk z 0 w = Some p /\ r_status (rt_read_state z p) = status_code CONTINUE) /\
  (Forall (fun e => ~ matches e w) es -> ~ extended es w -> file_walk z 0 w = None).
Proof.
  intros es f z HE HF HS HZ w Hw. destruct (compiled_lookup es HE) as (tab & HT & HL). destruct (HL w Hw) as (L1 & L2 & L3).
  pose proof (C30_states_read_back _ _ _ _ HT HF HS HZ) as RB.
  assert (HWK : match walk tab w with WAt k => k < length tab /\ file_walk z 0 w = Some (16 * k) | WDead => file_walk z 0 w = None | WUB => False end).
  { unfold mktable in HT. unfold table_file in HF. destruct (parse_source (text_file es)) as [ls|]; [|discriminate]. cbn in HT, HF. injection HT as <-. injection HF as <-. unfold to_table. rewrite map_length.
    apply (file_walk_table (build ls) z (build_wf ls) HS HZ w 0). apply (wf_len _ (build_wf ls)). }
  split; [|split].
  - intros e He. destruct (L1 e He) as (off & s & E1 & E2 & E3 & E4). rewrite E1 in HWK. destruct HWK as (_ & HWK). destruct (RB off s E2) as (R1 & _ & _ & R4 & _). exists (16 * off). split; [exact HWK|]. split; [rewrite <- E3; exact R4|].
    rewrite R1. destruct E4 as [(E4 & ->)|(E4 & ->)]; [left|right]; auto.
  - intros H1 H2. destruct (L2 H1 H2) as (off & s & E1 & E2 & E3). rewrite E1 in HWK. destruct HWK as (_ & HWK). destruct (RB off s E2) as (R1 & _). exists (16 * off). split; [exact HWK|]. rewrite R1, E3. reflexivity.
  - intros H1 H2. rewrite (L3 H1 H2) in HWK. exact HWK.
Qed.
Print Assumptions C30_lookup_in_file.

(** The file of the example of C29: its size, and lookups of "AB", "A", "C,D" and "AC". *)
Definition ex_file := table_file (text_file ex_src).
Definition bytes_at (z : nat -> N) (p n : nat) : list N := map (fun i => z (p + i)) (seq 0 n).
Definition seen (f : (nat -> N) * nat) (w : list N) : option (N * list N) :=
  option_map (fun p => let r := rt_read_state (fst f) p in let d := r_data r in
    (r_status r, bytes_at (fst f) (N.to_nat (rd32 (fst f) d)) (N.to_nat (rd32 (fst f) (d + 4))))) (file_walk (fst f) 0 w).
Example C30_ex_seen : option_map (fun f => (N.of_nat (snd f), seen f [65; 66], seen f [65], seen f [67; 256; 68], seen f [65; 67]))%N ex_file =
  Some (11158, Some (2, [1]), Some (3, [4]), Some (2, [6]), None)%N.
Proof. vm_compute. reflexivity. Qed.
Example C30_ex_hyps : exists f, ex_file = Some f /\ fits f /\ mapped (fst f) f.
Proof. eexists. split; [reflexivity|]. split; [vm_compute; reflexivity|]. intros x _. reflexivity. Qed.

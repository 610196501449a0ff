(** Concrete cases for C17-C19 and their limits. *)
From Verif Require Import Base Types M_Engine M_Output M_Mktable M_Create S_Session S_Source S_Convert P_Create P_EngineEx T_Table T_Engine2.

Definition ex_s : inst unit := match start ex_c with Some s => s | None => new_instance unit [] end.
Example ex_s_reachable : reachable ex_s.
Proof.
  destruct (create_from_sources (texts ex_c)) as [s0|] eqn:E; [|vm_compute in E; discriminate].
  apply (re_init s0); [|unfold ex_s, start; rewrite E; destruct (bsdconv_init unit s0) eqn:E2; [reflexivity|]].
  - assert (H : match create_from_sources (texts ex_c) with Some s => (2 <=? length (i_phases unit s)) = true | None => False end) by (vm_compute; reflexivity). rewrite E in H. apply Nat.leb_le. exact H.
  - assert (H : match create_from_sources (texts ex_c) with Some s => bsdconv_init unit s <> None | None => False end) by (vm_compute; discriminate). rewrite E in H. contradiction.
Qed.
(** "AABB..." read with a two-byte buffer, then a size query, then a file, then an automatic buffer. *)
Definition ex_h : list call := [
  mkCall (Some (ex_input, [])) true (OPre (Some [0; 0]%N));
  mkCall None false (OPre None);
  mkCall (Some ([65]%N, [])) false (OPre (Some [0]%N));
  mkCall None false OHold;
  mkCall None false OFile;
  mkCall (Some ([66]%N, [])) true (OAuto 5)].
Example ex_h_lossless : Forall (fun c => lossless (c_mode c)) ex_h.
Proof. repeat constructor. Qed.
Example C17_ex : option_map report (run_hist unit 2000 ex_s ex_h) = Some ([97; 122; 98; 99; 122]%N, [], 1, 1) /\
  option_map report (run_hist unit 2000 ex_s (map hold ex_h)) = Some ([], [97; 122; 98; 99; 122]%N, 1, 1).
Proof. split; vm_compute; reflexivity. Qed.
Example C18_ex : match bsdconv_call unit 2000 ex_s (Some (ex_input, [])) true (OPre (Some [0; 0; 0]%N)) with
  | CDone _ s r => or_len r = Some 3 /\ or_buf r = [Some 97; Some 122; Some 98]%N /\ waiting s = [[99]]%N | _ => False end.
Proof. vm_compute. auto. Qed.
Example C18_ex_query : match bsdconv_call unit 2000 ex_s (Some (ex_input, [])) true (OPre None) with
  | CDone _ s r => or_len r = Some 4 /\ length (waiting s) = 4 | _ => False end.
Proof. vm_compute. auto. Qed.
Example C19_ex : match bsdconv_call unit 2000 ex_s (Some (ex_input, [])) true (OAuto 2) with
  | CDone _ s r => or_len r = Some 4 /\ or_buf r = [Some 97; Some 122; Some 98; Some 99; None; None]%N /\ waiting s = [] | _ => False end.
Proof. vm_compute. auto. Qed.

(** C17 for descriptors: the result of write() is ignored, so bytes a descriptor does not accept (a full pipe,
    an error) are lost. *)
Theorem C17_short_write_refuted : exists s acc s', reachable s /\
  run_hist unit 2000 s [mkCall (Some (ex_input, [])) true (OFd acc)] = Some (s', []) /\ pending unit s' = [] /\
  option_map report (run_hist unit 2000 s [mkCall (Some (ex_input, [])) true OHold]) = Some ([], [97; 122; 98; 99]%N, 1, 1).
Proof. exists ex_s, (fun _ _ => 0). eexists. split; [exact ex_s_reachable|]. split; [vm_compute; reflexivity|]. split; vm_compute; reflexivity. Qed.
Print Assumptions C17_short_write_refuted.

(** C18, the size query when the conversion ends with a decoder: the answer includes the length of the bytes
    the decoder has already consumed. *)
Theorem C18_query_after_decoder_refuted : exists s, start [(FROM, [dec])] = Some s /\
  match bsdconv_call unit 2000 s (Some ([65; 66]%N, [])) true (OPre None) with
  | CDone _ s' r => or_len r = Some 4 /\ length (pending unit s') = 2 | _ => False end.
Proof. eexists. split; [vm_compute; reflexivity|]. vm_compute. auto. Qed.
Print Assumptions C18_query_after_decoder_refuted.

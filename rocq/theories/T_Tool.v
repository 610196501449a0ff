(** Theorems about the command line tool (C50, C51). *)
From Verif Require Import Base Types M_Engine M_Output M_Tool S_Session S_Engine S_Dict S_Table S_Convert S_Streams S_Tool P_Tool T_Engine.

(** C51: whatever the sequence of reads, the calls the tool makes carry every byte of the file once and in order, all
    write to the output file, every call brings an input, and flush is set on the last call and on no other. *)
Theorem C51_calls : forall content reads, reading IBUFLEN content reads ->
  exists before last, file_loop reads = Some (before ++ [last]) /\
    concat (map (fun c => match c_input c with Some (d, []) => d | _ => [] end) (before ++ [last])) = content /\
    Forall (fun c => c_flush c = false) before /\ c_flush last = true /\
    Forall (fun c => c_mode c = OFile /\ exists d, c_input c = Some (d, [])) (before ++ [last]).
Proof.
  intros content reads H. induction H as [|b content r Hb Hn H (before & last & E & EC & H1 & H2 & H3)].
  - exists [], (mkCall (Some ([], [])) true OFile). split; [reflexivity|]. split; [reflexivity|]. split; [constructor|]. split; [reflexivity|].
    constructor; [|constructor]. split; [reflexivity|]. exists []. reflexivity.
  - exists (mkCall (Some (b, [])) false OFile :: before), last. split.
    + cbn [file_loop]. destruct b as [|x b]; [contradiction|]. cbn [length Nat.eqb]. rewrite E. reflexivity.
    + split; [cbn; f_equal; exact EC|]. split; [constructor; [reflexivity|assumption]|]. split; [assumption|]. constructor; [|exact H3]. split; [reflexivity|]. exists b. reflexivity.
Qed.
Print Assumptions C51_calls.

(** ... so that the output is the conversion of the whole file, for every way of reading it, for the first file as well
    as for any later one (the instance may have any past). *)
Theorem C51_whole_file : forall (P : Type) c (s0 s : inst P) content reads out oe,
  conv_ok c -> implements P s0 c -> resets s0 -> used s0 s -> reading IBUFLEN content reads -> run_conv c [content] out 0 oe ->
  exists s' fuel0, forall fuel, fuel0 <= fuel -> bsdconv_file P fuel s reads = Some (s', concat out) /\ used s0 s' /\
    i_ierr P s' = i_ierr P s /\ i_oerr P s' = i_oerr P s + oe.
Proof.
  intros P c s0 s content reads out oe Hok Him Hr HU Hrd HR.
  destruct (reading_loop _ _ _ Hrd) as (l & Hl & El & _ & EC & HF & _).
  destruct (P_Session3.ginit c s0 Hok Him) as (a & Ha & _).
  assert (Hb : exists b, bsdconv_init P s = Some b).
  { pose proof (P_Create.used_same_setup s0 s HU Hr) as HS. eapply init_def; [exact HS| |exact Ha]. intros E. unfold same_setup in HS. rewrite E in HS. inversion HS as [H|]. destruct (co_first _ Hok) as (Ds & r & Ec). pose proof (im_len _ _ _ Him) as HL. rewrite Ec in HL. destruct (i_phases P s0) as [|x [|y z]]; try discriminate. }
  destruct Hb as (b & Hb).
  assert (Hm : Forall (fun x => lossless (snd x)) (l ++ l)). { assert (H : Forall (fun x : option datum * omode => lossless (snd x)) l) by (eapply Forall_impl; [|exact HF]; cbn; intros ? ->; exact I). apply Forall_app. auto. }
  rewrite <- EC in HR.
  destruct (C26_chunking P c s0 a l l out oe Hok Him Ha Hl Hl Hm eq_refl HR) as (a' & got & _ & _ & (f0 & R) & _ & EG & _ & I1 & _ & O1 & _).
  assert (HM : Forall (fun c => c_mode c = OFile) (stream_calls l)).
  { clear -HF. induction HF as [|[i m] l Hx HF IH]; [constructor|]. cbn in Hx. subst m. destruct l; cbn [stream_calls]; constructor; auto. }
  assert (HN : stream_calls l <> []) by (destruct l as [|[i m] [|]]; [contradiction| |]; discriminate).
  pose proof (C28_reinit_isolates P s0 s a b (stream_calls l) f0 HU Hr Ha Hb) as HI. rewrite (R f0 (le_n _)) in HI.
  destruct (run_hist P f0 b (stream_calls l)) as [[b' ob]|] eqn:EB; [|contradiction]. destruct HI as (<- & EP & EI & EO).
  exists b', f0. intros fuel Hf.
  pose proof (C28_reinit_isolates P s0 s a b (stream_calls l) fuel HU Hr Ha Hb) as HI. rewrite (R fuel Hf) in HI.
  destruct (run_hist P fuel b (stream_calls l)) as [[b2 ob2]|] eqn:EB2; [|contradiction].
  assert (E2 : Some (b2, ob2) = Some (b', got)) by (rewrite <- EB2; eapply P_Create.hist_mono; eassumption). injection E2 as -> ->.
  unfold bsdconv_file. rewrite Hb, El, EB2. rewrite (file_pending _ _ _ _ _ HN HM (R fuel Hf)), app_nil_r in EG. subst got.
  split; [reflexivity|]. split; [eapply used_hist; [|exact EB]; eapply us_init; eassumption|].
  destruct (init_errs _ _ Hb) as (Hi1 & Hi2). lia.
Qed.
Print Assumptions C51_whole_file.
(** Several files in one run of the tool: the output is the concatenation of the conversions of the files. *)
Inductive all_converted (c : list phase_desc) : list (list datum) -> list N -> Prop :=
| ac_nil : all_converted c [] []
| ac_cons content reads out oe fs rest : reading IBUFLEN content reads -> run_conv c [content] out 0 oe -> all_converted c fs rest ->
    all_converted c (reads :: fs) (concat out ++ rest).
Theorem C51_files : forall (P : Type) c (s0 s : inst P) files out,
  conv_ok c -> implements P s0 c -> resets s0 -> used s0 s -> all_converted c files out ->
  exists s' fuel0, forall fuel, fuel0 <= fuel -> convert_files P fuel s files = Some (s', out).
Proof.
  intros P c s0 s files out Hok Him Hr HU HA. revert s HU. induction HA as [|content reads out oe fs rest Hrd HR HA IH]; intros s HU.
  - exists s, 0. reflexivity.
  - destruct (C51_whole_file P c s0 s content reads out oe Hok Him Hr HU Hrd HR) as (s1 & f1 & H1).
    destruct (IH s1 (proj1 (proj2 (H1 f1 (le_n _))))) as (s2 & f2 & H2). exists s2, (max f1 f2). intros fuel Hf. cbn [convert_files].
    rewrite (proj1 (H1 fuel ltac:(lia))), (H2 fuel ltac:(lia)). reflexivity.
Qed.
Print Assumptions C51_files.
(** A file whose length is a multiple of the buffer size, and a file read in small pieces. *)
Example C51_ex_multiple : reading IBUFLEN (repeat 65%N 1024 ++ []) [repeat 65%N 1024; []] /\
  file_loop [repeat 65%N 1024; []] = Some [mkCall (Some (repeat 65%N 1024, [])) false OFile; mkCall (Some ([], [])) true OFile].
Proof. split; [|vm_compute; reflexivity]. apply rd_some; [discriminate|rewrite repeat_length; unfold IBUFLEN; lia|constructor]. Qed.
Example C51_ex_short : reading IBUFLEN [65; 66; 67]%N [[65]; [66; 67]; []]%N.
Proof. apply (rd_some _ [65]%N [66; 67]%N); [discriminate|cbn; unfold IBUFLEN; lia|]. apply (rd_some _ [66; 67]%N []); [discriminate|cbn; unfold IBUFLEN; lia|constructor]. Qed.

(** C50: stop the tool anywhere - after any number of operations, with the C library having written out any part of the
    buffer: the original content is still under the name of the file, or the complete converted content is there or
    under the temporary name; no other file is touched; and at the end the converted content has replaced the file. *)
Theorem C50_crash_safe : forall (d : disk) target tmp original writes spills done rest,
  tmp <> target -> d target = Some original -> inplace_ops target tmp writes spills = done ++ rest ->
  let now := w_disk (run_ops done (mkWorld d [])) in
  (now target = Some original \/ now target = Some (concat writes) \/ now tmp = Some (concat writes)) /\
  (forall other, other <> tmp -> other <> target -> now other = d other) /\
  (rest = [] -> now target = Some (concat writes) /\ now tmp = None).
Proof. intros d target tmp original writes spills done rest Hne Ht E. exact (inplace_states d target tmp original (concat writes) Hne Ht spills writes eq_refl done rest E). Qed.
Print Assumptions C50_crash_safe.
(** Not true: that the file always exists under its own name (between unlink and rename it does not) ... *)
Theorem C50_name_always_there_refuted : ~ (forall (d : disk) target tmp original writes spills done rest,
  tmp <> target -> d target = Some original -> inplace_ops target tmp writes spills = done ++ rest ->
  w_disk (run_ops done (mkWorld d [])) target <> None).
Proof.
  intros H. apply (H (set_file (fun _ => None) [1]%N (Some [65]%N)) [1]%N [2]%N [65]%N [[66]%N] (fun _ => [])
    [Mkstemp [2]%N; Fwrite [66]%N; Fclose [2]%N; Unlink [1]%N] [Rename [2]%N [1]%N]); [discriminate|reflexivity|reflexivity|]. vm_compute. reflexivity.
Qed.
Print Assumptions C50_name_always_there_refuted.
(** ... and nothing is safe if the device is full, since no result of a write is checked: the original is deleted. *)
Theorem C50_full_device_refuted : exists (d : disk) target tmp original writes spills,
  tmp <> target /\ d target = Some original /\ concat writes <> [] /\
  let after := w_disk (fold_left (fun w o => do_op_full o w) (inplace_ops target tmp writes spills) (mkWorld d [])) in
  after target = Some [] /\ after tmp = None.
Proof.
  exists (set_file (fun _ => None) [1]%N (Some [65]%N)), [1]%N, [2]%N, [65]%N, [[66]%N], (fun _ => []).
  split; [discriminate|]. split; [reflexivity|]. split; [discriminate|]. vm_compute. auto.
Qed.
Print Assumptions C50_full_device_refuted.
Example C50_ex : let w := run_ops [Mkstemp [2]%N; Fwrite [66; 67]%N; Spill [2]%N 1; Fclose [2]%N; Unlink [1]%N; Rename [2]%N [1]%N]
                               (mkWorld (set_file (fun _ => None) [1]%N (Some [65]%N)) []) in
  w_disk w [1]%N = Some [66; 67]%N /\ w_disk w [2]%N = None /\
  inplace_ops [1]%N [2]%N [[66; 67]%N] (fun _ => [1]) = [Mkstemp [2]%N; Fwrite [66; 67]%N; Spill [2]%N 1; Fclose [2]%N; Unlink [1]%N; Rename [2]%N [1]%N].
Proof. vm_compute. auto. Qed.

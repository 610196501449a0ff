(** Concrete conversions for the theorems of T_Engine, and the limits of C20-C27: conversions outside their
    hypotheses for which the property fails. *)
From Verif Require Import Base Types M_Engine M_Output M_Mktable M_Create S_Session S_Engine S_Dict S_Table S_Source S_Convert S_Segment S_Streams P_Convert P_Session3 P_Create P_EngineEx T_Table T_Engine.

Ltac entries := repeat first [constructor | cbn; discriminate | cbn; intros; discriminate | cbn; lia].

(** The instance made from sources, initialised. *)
Definition start (c : list (ptype * list (list sentry))) : option (inst unit) :=
  match create_from_sources (texts c) with None => None | Some s0 => bsdconv_init unit s0 end.
Definition report (x : inst unit * list N) := (snd x, pending unit (fst x), i_ierr unit (fst x), i_oerr unit (fst x)).
Definition run (c : list (ptype * list (list sentry))) (h : list call) :=
  match start c with None => None | Some s => option_map report (run_hist unit 2000 s h) end.
(** Every sufficiently fuelled run gives this report (what the program receives, what waits, error counts). *)
Definition reports (c : list (ptype * list (list sentry))) (h : list call) (r : list N * list N * nat * nat) : Prop :=
  exists s s' out, start c = Some s /\ runs_to s h s' out /\ report (s', out) = r.
Lemma run_reports c h r : run c h = Some r -> reports c h r.
Proof.
  unfold run, reports. destruct (start c) as [s|]; [|discriminate]. destruct (run_hist unit 2000 s h) as [[s' out]|] eqn:E; [|discriminate]. cbn [option_map]. intros H. injection H as H. exists s, s', out. split; [reflexivity|]. split; [eapply hist_runs; exact E|exact H].
Qed.

Definition call1 (d : list N) (fl : bool) : call := mkCall (Some (d, [])) fl (OAuto 0).

(** *** An ordinary conversion: a decoder with a two-byte entry and two codecs, a replacing intermediate codec
    whose key spans two data, an encoder. *)
Definition ex_dec1 : list sentry := [mkEntry [PByte 65] [[1; 65]]; mkEntry [PByte 65; PByte 66] [[1; 80]; [1; 81]]; mkEntry [PByte 67] [[1; 67]]]%N.
Definition ex_dec2 : list sentry := [mkEntry [PByte 66] [[1; 66]]; mkEntry [PByte 68] [[1; 68]]]%N.
Definition ex_int : list sentry := [mkEntry [PByte 1; PByte 80; PSep; PByte 1; PByte 81] [[1; 90]]]%N.
Definition ex_enc : list sentry := [mkEntry [PByte 1; PByte 65] [[97]]; mkEntry [PByte 1; PByte 66] [[98]]; mkEntry [PByte 1; PByte 67] [[99]]; mkEntry [PByte 1; PByte 90] [[122]]]%N.
Definition ex_c : list (ptype * list (list sentry)) := [(FROM, [ex_dec1; ex_dec2]); (INTER, [ex_int]); (TO, [ex_enc])].
Example ex_c_entries : Forall (fun x => Forall (Forall entry_ok) (snd x)) ex_c.
Proof. entries. Qed.
Example ex_c_ok : conv_ok (meaning ex_c).
Proof. apply conv_chk_ok. vm_compute. reflexivity. Qed.
Example ex_c_one : one_decoder (meaning ex_c).
Proof. intros [|[|[|i]]] Ds H; cbn in H; try discriminate; [reflexivity|destruct i; discriminate]. Qed.
Example ex_c_keys : single_datum_keys (last (map file_dict [ex_enc]) []).
Proof. intros k o H. vm_compute in H. repeat (destruct H as [H|H]; [injection H as <- _; cbn; intuition discriminate|]). destruct H. Qed.
(** "AABB\255CD": A -> a, AB -> z (through the intermediate codec), B -> b by the second decoder, 255 is an
    input error, C -> c, D is decoded but cannot be encoded. *)
Definition ex_input : list N := [65; 65; 66; 66; 255; 67; 68]%N.
Example ex_c_spec : run_conv (meaning ex_c) [ex_input] [[97]; [122]; [98]; [99]]%N 1 1.
Proof. apply by_phases_ok; [exact ex_c_ok|]. vm_compute. reflexivity. Qed.
Example C22_ex : reports ex_c [call1 ex_input true] ([97; 122; 98; 99]%N, [], 1, 1).
Proof. apply run_reports. vm_compute. reflexivity. Qed.
Example C26_ex_spec : run_conv (meaning ex_c) [[65; 65; 66; 66; 67; 68]]%N [[97]; [122]; [98]; [99]]%N 0 1.
Proof. apply by_phases_ok; [exact ex_c_ok|]. vm_compute. reflexivity. Qed.
Example C26_ex : reports ex_c [call1 [65; 65] false; call1 [66; 66; 67] false; call1 [] false; call1 [68] true]%N ([97; 122; 98; 99]%N, [], 0, 1).
Proof. apply run_reports. vm_compute. reflexivity. Qed.
Example C27_ex : reports ex_c [call1 ex_input true; call1 [65] false; call1 [66] true; call1 [67] true]%N ([97; 122; 98; 99; 122; 99]%N, [], 1, 1).
Proof. apply run_reports. vm_compute. reflexivity. Qed.
Example C27_ex_streams : streams_ok (meaning ex_c) [[(Some [65], OAuto 0); (Some [66], OAuto 0)]; [(Some [67], OAuto 0)]]%N [[122]; [99]]%N 0.
Proof.
  change [[122]; [99]]%N with ([[122]] ++ [[99]] ++ [])%N. change 0 with (0 + (0 + 0)).
  constructor; [discriminate|repeat constructor| |constructor; [discriminate|repeat constructor| |constructor]]; (apply by_phases_ok; [exact ex_c_ok|vm_compute; reflexivity]).
Qed.

(** *** C26 without its hypothesis: a decoding error after a chunk boundary *)
Definition dec : list sentry := [mkEntry [PByte 65] [[65]]; mkEntry [PByte 66] [[66]]; mkEntry [PByte 67] [[67]]]%N.
(** "AA\255BBCCCC" at once and in two chunks: in the second case two bytes are lost. *)
Theorem C26_chunked_error_refuted :
  reports [(FROM, [dec])] [call1 [65; 65; 255; 66; 66; 67]%N true] ([65; 65; 66; 66; 67]%N, [], 1, 0) /\
  reports [(FROM, [dec])] [call1 [65; 65]%N false; call1 [255; 66; 66; 67]%N true] ([65; 65; 67]%N, [], 1, 0).
Proof. split; apply run_reports; vm_compute; reflexivity. Qed.
Print Assumptions C26_chunked_error_refuted.

(** The same happens across a flush: the second stream does not start from a clean state (C27). *)
Theorem C27_error_after_flush_refuted :
  reports [(FROM, [dec])] [call1 [255; 66; 66; 67]%N true] ([66; 66; 67]%N, [], 1, 0) /\
  reports [(FROM, [dec])] [call1 [65; 65]%N true; call1 [255; 66; 66; 67]%N true] ([65; 65; 67]%N, [], 1, 0).
Proof. split; apply run_reports; vm_compute; reflexivity. Qed.
Print Assumptions C27_error_after_flush_refuted.

(** *** C22 without [one_decoder]: an error in a second decoding phase loses bytes *)
Definition dec3 : list sentry := [mkEntry [PByte 65] [[65; 65]]; mkEntry [PByte 67] [[68; 66; 66]]]%N.
Definition inter0 : list sentry := [mkEntry [PByte 90] [[90]]]%N.
Definition two_dec := [(FROM, [dec3]); (INTER, [inter0]); (FROM, [dec])].
Theorem C22_second_decoder_refuted : conv_ok (meaning two_dec) /\
  run_conv (meaning two_dec) [[65; 67]]%N [[65]; [65]; [66]; [66]]%N 1 0 /\
  reports two_dec [call1 [65; 67]%N true] ([65; 65]%N, [], 1, 0).
Proof.
  assert (H : conv_ok (meaning two_dec)) by (apply conv_chk_ok; vm_compute; reflexivity). split; [exact H|].
  split; [apply by_phases_ok; [exact H|vm_compute; reflexivity]|apply run_reports; vm_compute; reflexivity].
Qed.
Print Assumptions C22_second_decoder_refuted.

(** Two adjacent decoding phases ("a|b:c") make the engine read an uninitialised pointer. *)
Theorem C22_adjacent_decoders_refuted : exists s, start [(FROM, [dec]); (FROM, [[mkEntry [PByte 67] [[67]]]%N; dec])] = Some s /\
  forall fuel, 200 <= fuel -> bsdconv_call unit fuel s (Some ([65; 65]%N, [])) true OHold = CUB unit.
Proof.
  assert (Hm : forall f f' (s : inst unit) pc, f <= f' -> grun unit f s pc = RUB unit -> grun unit f' s pc = RUB unit).
  { induction f as [|f IH]; intros f' s pc Hf E; [discriminate|]. destruct f'; [lia|]. cbn [grun] in *. destruct (gstep unit s pc); auto. apply IH; [lia|exact E]. }
  eexists. split; [vm_compute; reflexivity|]. intros fuel Hf. unfold bsdconv_call, bsdconv_engine. cbv zeta. rewrite (Hm 200 fuel _ _ Hf); [reflexivity|]. vm_compute. reflexivity.
Qed.
Print Assumptions C22_adjacent_decoders_refuted.

(** *** C23 without the condition on prefix entries: an entry with empty output that is the beginning of a
    longer entry loses the rest of the chunk, without an error *)
Definition dec_empty : list sentry := [mkEntry [PByte 65] []; mkEntry [PByte 65; PByte 66] [[66]]; mkEntry [PByte 67] [[67]]]%N.
Theorem C23_empty_prefix_refuted : reports [(FROM, [dec_empty])] [call1 [65; 67; 67; 67]%N true] ([], [], 0, 0).
Proof. apply run_reports. vm_compute. reflexivity. Qed.
Print Assumptions C23_empty_prefix_refuted.

(** *** C25 without single-datum keys: three data are dropped and one output error is counted *)
Definition enc_multi : list sentry := [mkEntry [PByte 65; PSep; PByte 66; PSep; PByte 66] [[1]]; mkEntry [PByte 67] [[67]]]%N.
Theorem C25_multi_datum_refuted : reports [(FROM, [dec]); (TO, [enc_multi])] [call1 [65; 66; 67; 67]%N true] ([67]%N, [], 0, 1).
Proof. apply run_reports. vm_compute. reflexivity. Qed.
Print Assumptions C25_multi_datum_refuted.

(** *** C20: a second chained input loses data (phase 0's data_tail points to the first node of the chain) *)
Theorem C20_second_pass_refuted :
  reports [(FROM, [dec])] [mkCall (Some ([65], [[66]; [67]])) true (OAuto 0); mkCall (Some ([65], [[66]])) true (OAuto 0)]%N ([65; 66; 67; 66]%N, [], 0, 0).
Proof. apply run_reports. vm_compute. reflexivity. Qed.
Print Assumptions C20_second_pass_refuted.

(** *** C21 fails for an empty prefix entry in the second of two intermediate codecs: bsdconv() never returns *)
Definition int_empty : list sentry := [mkEntry [PByte 65] []; mkEntry [PByte 65; PSep; PByte 66] [[66]]]%N.
Theorem C21_endless_loop_refuted : exists s, start [(FROM, [dec]); (INTER, [inter0; int_empty])] = Some s /\
  forall fuel mode fl, bsdconv_call unit fuel s (Some ([65; 67; 66]%N, [])) fl mode = CFuel unit.
Proof.
  eexists. split; [vm_compute; reflexivity|]. intros fuel mode fl. unfold bsdconv_call, bsdconv_engine. cbv zeta.
  match goal with |- context [grun unit fuel ?a ?pc] => assert (H : grun unit fuel a pc = RFuel unit) by (eapply (grun_loops 100 12); vm_compute; reflexivity); rewrite H end. reflexivity.
Qed.
Print Assumptions C21_endless_loop_refuted.

(** *** C28: the hypothesis [resets] holds for every conversion made of tables *)
Example C28_ex : forall c s0, create_from_sources c = Some s0 -> resets s0.
Proof.
  intros c s0 H th cd p _ _. destruct cd as [tab cv fl ini pr]. unfold set_priv, init_codec. cbn. destruct p, pr. reflexivity.
Qed.

(** C21: every call returns. *)
From Verif Require Import Base Types M_Engine M_Output M_Mktable M_Create S_Session S_Engine S_Dict S_Table S_Source S_Convert P_Create P_Session3 P_EngineEx P_Safe P_Safe2 T_Table T_Engine T_Engine2.

(** No data linked behind the input block (ins->input.next = NULL), as in every use but BSDCONV_PASS. *)
Definition plain_inputs (h : list call) : Prop := Forall (fun k => match c_input k with Some (_, chain) => chain = [] | None => True end) h.

(** C21: on an initialised instance with any past, any sequence of calls whatsoever — any inputs, any
    chunking, decoding errors anywhere, any flush flags, any output modes, with or without input — returns,
    and no call reads or writes through a bad pointer or outside a table or buffer.  [runs_to] asks for
    termination of every call and absence of undefined behaviour. *)
Theorem C21_every_call_returns : forall (P : Type) c (s0 s1 s : inst P) h,
  conv_ok c -> implements P s0 c -> used s0 s1 -> bsdconv_init P s1 = Some s -> plain_inputs h ->
  exists s' out, runs_to s h s' out.
Proof.
  intros P c s0 s1 s h Hok Him HU Hi Hh. pose proof (used_implements _ _ _ HU Him) as Him1. pose proof (init_gs c s1 s Hok Him1 Hi) as HG.
  destruct (@hist_safe P c (co_adj _ Hok)) with (h := h) (s := s) as (fuel & s' & out & E & _); [destruct (co_first _ Hok) as (Ds & r & ->); cbn; lia|exact HG|exact Hh|].
  exists s', out. eapply hist_runs. exact E.
Qed.
Print Assumptions C21_every_call_returns.

(** Initialisation of such an instance always succeeds. *)
Theorem C21_init_succeeds : forall (P : Type) c (s0 s1 : inst P), conv_ok c -> implements P s0 c -> used s0 s1 -> exists s, bsdconv_init P s1 = Some s.
Proof.
  intros P c s0 s1 Hok Him HU. destruct (ginit c s1 Hok (used_implements _ _ _ HU Him)) as (s & H & _). exists s. exact H.
Qed.
Print Assumptions C21_init_succeeds.

(** C26: chunking cannot hide a decoding error: however a stream is cut into calls, the calls return, and the
    input error counter grows exactly if decoding the stream in one piece meets an error. *)
Theorem C26_errors_not_hidden : forall (P : Type) c (s0 s1 s : inst P) l out ie oe,
  conv_ok c -> implements P s0 c -> used s0 s1 -> bsdconv_init P s1 = Some s ->
  l <> [] -> Forall (fun x => lossless (snd x)) l -> run_conv c [concat (inputs l)] out ie oe ->
  exists s' got, runs_to s (stream_calls l) s' got /\ (i_ierr P s' = i_ierr P s <-> ie = 0).
Proof.
  intros P c s0 s1 s l out ie oe Hok Him HU Hi Hne Hll HR. pose proof (used_implements _ _ _ HU Him) as Him1.
  assert (Hpl : plain_inputs (stream_calls l)).
  { clear. unfold plain_inputs. induction l as [|[[d|] m] [|x l] IH]; cbn [stream_calls]; repeat constructor; exact IH. }
  destruct (C21_every_call_returns P c s0 s1 s (stream_calls l) Hok Him HU Hi Hpl) as (s' & got & Hrun). exists s', got. split; [exact Hrun|].
  destruct (ginit c s1 Hok Him1) as (s2 & H2 & HQ). assert (s2 = s) by congruence. subst s2. split; intros He.
  - destruct ie as [|ie]; [reflexivity|]. pose proof (gdetect c s1 Hok Him1 s l out (S ie) oe s' got HQ Hne Hll HR ltac:(lia) Hrun). lia.
  - destruct (gstream c s1 Hok Him1 s l out ie oe HQ Hne Hll HR (or_introl He)) as (s3 & g3 & R1 & _ & R2 & _). destruct (runs_unique _ _ _ _ _ _ R1 Hrun) as (<- & _). lia.
Qed.
Print Assumptions C26_errors_not_hidden.

(** Beside it: a conversion with two decoders and an intermediate codec, calls with a truncated entry, errors
    across chunk boundaries, an empty chunk, flushes in the middle and all kinds of output modes. *)
Definition safe_h : list call := [call1 [65; 255] false; mkCall (Some ([255; 66; 65], [])) false OHold; mkCall None false (OPre None); mkCall (Some ([], [])) true (OPre (Some [0; 0])); mkCall (Some ([65; 66; 255], [])) true ONull; call1 [67] true]%N.
Example C21_ex_plain : plain_inputs safe_h. Proof. repeat constructor. Qed.
Example C21_ex : reports ex_c safe_h ([97; 99]%N, [], 3, 0).
Proof. apply run_reports. vm_compute. reflexivity. Qed.

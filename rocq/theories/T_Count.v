(** C61: a phase that ends with COUNT (tables first, what no table matches is counted and passes unchanged). *)
From Verif Require Import Base Types M_Engine M_Output M_Create M_Callback M_UTF8 M_UTF16 M_Modules M_Fallback M_Star M_Inter M_Stars M_Stage M_Count S_Session S_Unicode S_Source S_Dict S_Convert S_Fallback S_Flow S_Transcode S_Stage S_Count P_Trans P_Engine1 P_Dict P_Convert P_Session3 P_Fallback P_Ascii P_Unicode P_Count4 P_SolveAlias.
From Coq Require Import ZifyBool ZifyN ZifyNat.
Local Open Scope N_scope.

(** The whole stream goes through one stage after the other; a COUNT stage has its dictionaries' matches replaced, passes the rest
    unchanged, and its counter goes up by the number of data it passed (that its filter accepts). *)
Theorem C61_conversion : forall t8 t16 c s l out oe zs, strict_utf8 t8 -> stages_ok c -> fresh (staged t8 t16 c) s ->
  l <> [] -> Forall (fun x => lossless (snd x)) l -> byte_data (concat (inputs l)) ->
  run_stages s 1 c [concat (inputs l)] out oe zs ->
  exists s' got, runs_to s (stream_calls l) s' got /\ got ++ pending priv s' = concat out /\ i_ierr priv s' = i_ierr priv s /\ i_oerr priv s' = (i_oerr priv s + oe)%nat /\
    forall p q, In (p, q) zs -> last_state s' p q.
Proof. intros t8 t16 c s l out oe zs Hs Hc. apply stages_stream; assumption. Qed.
(** Every created conversion of this kind initialises; its counters are then the created ones. *)
Theorem C61_created : forall t8 t16 c, strict_utf8 t8 -> stages_ok c -> exists s, fresh (staged t8 t16 c) s /\ bsdconv_init priv (staged t8 t16 c) = Some s /\
  forall p ess f n, nth_error c p = Some (SCount ess f n) -> last_state s (S p) (PNum n).
Proof.
  intros t8 t16 c Hs Hc. destruct (stages_fresh t8 t16 c Hs Hc) as (s & HF & Hi). exists s. split; [exact HF|]. split; [exact Hi|]. intros p ess f n. apply stages_count_new with (t8 := t8) (t16 := t16) (c := c). exact Hi.
Qed.
(** Whatever was done with the instance before, it has a counter there (bsdconv_init does not reset it). *)
Theorem C61_has_counter : forall t8 t16 c s p ess f n, strict_utf8 t8 -> stages_ok c -> fresh (staged t8 t16 c) s ->
  nth_error c p = Some (SCount ess f n) -> exists k, last_state s (S p) (PNum k).
Proof. intros t8 t16 c s p ess f n Hs Hc. apply stages_count; assumption. Qed.

(** What a COUNT stage does is defined for every input and unique. *)
Theorem C61_total : forall Ds f ds, exists out k, passed Ds f ds out k.
Proof.
  intros Ds f. assert (H : forall n ds, (length ds <= n)%nat -> exists out k, passed Ds f ds out k).
  { induction n as [|n IH]; intros ds Hn.
    - destruct ds; [|cbn in Hn; lia]. exists [], 0. constructor.
    - destruct ds as [|x r]; [exists [], 0; constructor|]. assert (HF : Forall (sym_ok INTER) (x :: r)) by (apply Forall_forall; intros d _ H; discriminate).
      pose proof (first_match_dict INTER (or_intror (or_introl eq_refl)) Ds (x :: r) HF) as HM. destruct (S_Engine.first_match _ (x :: r)) as [[k o]|] eqn:EM.
      + pose proof (first_match_bound _ _ _ _ EM) as Hk. destruct (IH (skipn k (x :: r))) as (out & j & Ho); [rewrite skipn_length; cbn [length] in *; lia|]. exists (o ++ out), j. eapply pa_match; eassumption.
      + destruct (IH r) as (out & j & Ho); [cbn in Hn; lia|]. exists (x :: out), (wanted f x + j). apply pa_other; assumption. }
  intros ds. apply (H (length ds)). lia.
Qed.
Theorem C61_unique : forall Ds f ds out k, passed Ds f ds out k -> forall out' k', passed Ds f ds out' k' -> out = out' /\ k = k'.
Proof.
  intros Ds f ds out k. induction 1 as [|ds n o out k Hc H IH|x ds out k Hu H IH]; intros out' k' H'; inversion H' as [|ds2 n2 o2 out2 k2 Hc2 H2|x2 ds2 out2 k2 Hu2 H2]; subst; try (exfalso; eapply chosen_matched; eassumption).
  - auto.
  - destruct Hc2 as (j & D & _ & _ & ((H0 & H0') & _) & _). cbn in H0'. lia.
  - destruct Hc as (j & D & _ & _ & ((H0 & H0') & _) & _). cbn in H0'. lia.
  - destruct (chosen_det _ _ _ _ _ _ _ Hc Hc2) as (-> & ->). destruct (IH _ _ H2) as (-> & ->). auto.
  - destruct (IH _ _ H2) as (-> & ->). auto.
Qed.
(** Nothing is lost: without matches the stream is unchanged and everything accepted is counted. *)
Corollary C61_only_counts : forall Ds f ds, (forall pre suf, ds = pre ++ suf -> suf <> [] -> unmatched INTER Ds suf) ->
  passed Ds f ds ds (fold_right (fun d n => wanted f d + n) 0 ds).
Proof.
  intros Ds f. induction ds as [|x ds IH]; intros H; [constructor|]. cbn [fold_right]. constructor; [apply (H []); [reflexivity|discriminate]|]. apply IH. intros pre suf E. apply (H (x :: pre)). rewrite E. reflexivity.
Qed.

(** An instance: ASCII:T,COUNT:ASCII with a table that turns "A" "B" into "C", on "xABy": the result is "xCy", counted 2. *)
Definition ex_tab : list sentry := [mkEntry [PByte 1; PByte 65; PSep; PByte 1; PByte 66] [[1; 67]]].
Definition ex_c : list stage := [SLink (LFiles (FROM, [ascii_from_src], None)); SCount [ex_tab] None 5; SLink (LFiles (TO, [ascii_to_src], None))].
Example C61_example_ok : stages_ok ex_c.
Proof.
  split; [|split].
  - eexists _, _. split; [reflexivity|]. split; [reflexivity|]. constructor; [discriminate|]. constructor; [discriminate|constructor].
  - constructor; [|constructor; [|constructor; [|constructor]]].
    + split; [left; reflexivity|]. split; [left; discriminate|]. split; [constructor; [exact ascii_from_entries|constructor]|]. split; [|discriminate]. intros es w o [<-|[]]. apply ascii_from_sub.
    + split; [discriminate|]. split.
      * constructor; [|constructor]. constructor; [|constructor]. constructor; cbn [en_pat en_out].
        -- discriminate.
        -- repeat constructor.
        -- repeat constructor.
        -- intros _. discriminate.
        -- apply Nat.leb_le. vm_compute. reflexivity.
      * intros es w o [<-|[]] Hl _. change (file_dict ex_tab) with [([1; 65; 256; 1; 66], [[1; 67]])] in Hl. cbn [lookup] in Hl. destruct (eqb_syms _ w); [injection Hl as <-; discriminate|discriminate].
    + split; [right; right; reflexivity|]. split; [left; discriminate|]. split; [constructor; [exact ascii_to_entries|constructor]|]. split; [|discriminate]. intros es w o [<-|[]]. apply ascii_to_sub.
  - cbn. auto 10.
Qed.
Lemma ex_look w o : lookup (file_dict ex_tab) w = Some o -> w = [1; 65; 256; 1; 66] /\ o = [[1; 67]].
Proof.
  change (file_dict ex_tab) with [([1; 65; 256; 1; 66], [[1; 67]])]. cbn [lookup]. destruct (eqb_syms _ w) eqn:E; [|discriminate]. intros H. injection H as <-. split; [|reflexivity].
  apply P_SolveAlias.eqb_syms_true in E. symmetry. exact E.
Qed.
Example C61_example : passed (map file_dict [ex_tab]) None [[1; 120]; [1; 65]; [1; 66]; [1; 121]] [[1; 120]; [1; 67]; [1; 121]] 2.
Proof.
  apply (pa_other _ None [1; 120] _ _ 1).
  - intros D [<-|[]] n o (Hn & HE). apply ex_look in HE as (HE & _). destruct n as [|[|n]]; [lia|discriminate|]. injection HE. discriminate.
  - apply (pa_match _ None _ 2 [[1; 67]] [[1; 121]] 1).
    + exists 0%nat, (file_dict ex_tab). split; [reflexivity|]. split; [intros i D' Hi; lia|]. split.
      * split; [cbn; lia|reflexivity].
      * intros m o' (Hm & HE). apply ex_look in HE as (HE & _). destruct m as [|[|[|m]]]; [lia|lia|lia|]. cbn in Hm. apply (f_equal (@length N)) in HE. destruct m as [|m]; [discriminate|lia].
    + apply (pa_other _ None [1; 121] _ _ 0); [|constructor]. intros D [<-|[]] n o (Hn & HE). apply ex_look in HE as (HE & _). destruct n as [|[|n]]; [lia|discriminate|cbn in Hn; lia].
Qed.
Print Assumptions C61_conversion.
Print Assumptions C61_created.
Print Assumptions C61_has_counter.
Print Assumptions C61_total.
Print Assumptions C61_unique.
Print Assumptions C61_only_counts.

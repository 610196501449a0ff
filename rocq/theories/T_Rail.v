(** C49: WHITESPACE-RERAIL puts back what WHITESPACE-DERAIL took out. *)
From Verif Require Import Base Types M_Engine M_Rail S_Ranges S_Inter P_Inter P_Rail.

(** However the engine schedules the two phases, and whatever the phases between them make of each datum (one datum [g d] for
    each datum): when all input has been read and has arrived, and the stream has ended, the output is the text with
    the whitespace in its place; the structure is as before, so the next stream starts the same way.
    [r]: the structure after initialisation, or after an earlier stream. *)
Theorem C49_restored : forall g ds sch r s, r_queue r = [] -> r_offA r = r_offB r -> s = turns (fun d => [g d]) sch (mkLine ds [] r []) ->
  l_rest s = [] -> l_wire s = [] ->
  exists r', rerail_end (l_rail s) = (r', skipn (length (l_out s)) (map (fun d => if is_ws d then d else g d) ds)) /\
    l_out s ++ snd (rerail_end (l_rail s)) = map (fun d => if is_ws d then d else g d) ds /\
    r_queue r' = [] /\ r_offA r' = r_offB r'.
Proof.
  intros g ds sch r s Hq Ho -> HR HW.
  destruct (turns_ok g ds sch (mkLine ds [] r [])) as (done & Ha & HA & HQ & HO & HF).
  { exists []. split; [reflexivity|]. unfold ok_line. cbn. rewrite Hq. repeat split; auto. lia. }
  set (s := turns _ sch _) in *. rewrite HR, app_nil_r in Ha. subst done. rewrite HW in *. cbn [length merge] in *.
  assert (E : snd (rerail_end (l_rail s)) = map snd (r_queue (l_rail s))).
  { unfold rerail_end. destruct (r_flag (l_rail s)); [reflexivity|]. rewrite HF by auto. reflexivity. }
  exists (fst (rerail_end (l_rail s))). rewrite E. split; [|split; [exact HO|]].
  - rewrite (surjective_pairing (rerail_end (l_rail s))). cbn [fst]. rewrite E. f_equal. rewrite <- HO, skipn_app, skipn_all, Nat.sub_diag. reflexivity.
  - unfold rerail_end. destruct (r_flag (l_rail s)); cbn; [split; [reflexivity|lia]|]. split; [apply HF; auto|lia].
Qed.
Print Assumptions C49_restored.
(** With nothing between them the text itself comes back. *)
Corollary C49_identity : forall ds sch r s, r_queue r = [] -> r_offA r = r_offB r -> s = turns (fun d => [d]) sch (mkLine ds [] r []) ->
  l_rest s = [] -> l_wire s = [] -> l_out s ++ snd (rerail_end (l_rail s)) = ds.
Proof.
  intros ds sch r s H1 H2 H3 H4 H5. destruct (C49_restored (fun d => d) ds sch r s H1 H2 H3 H4 H5) as (_ & _ & H & _). rewrite H. clear.
  induction ds as [|d ds IH]; [reflexivity|]. cbn. rewrite IH. destruct (is_ws d); reflexivity.
Qed.
Print Assumptions C49_identity.
(** The whitespace is what the English says, and DERAIL keeps it from the phases in between. *)
Theorem C49_whitespace : forall d, okbytes d -> is_ws d = true <-> exists c, code d c /\ (c = 0x09 \/ c = 0x0A \/ c = 0x0D \/ c = 0x20)%N.
Proof. exact is_ws_spec. Qed.
Print Assumptions C49_whitespace.
Theorem C49_taken_out : forall r d, snd (derail_conv r d) = if is_ws d then [] else [d].
Proof. intros r d. unfold derail_conv. destruct (is_ws d); reflexivity. Qed.
Theorem C49_init : forall r, r_queue (rail_init r) = [] /\ r_offA (rail_init r) = r_offB (rail_init r).
Proof. split; reflexivity. Qed.
(** There are schedules that complete. *)
Theorem C49_completes : forall g ds r, exists sch s, s = turns (fun d => [g d]) sch (mkLine ds [] r []) /\ l_rest s = [] /\ l_wire s = [].
Proof.
  assert (G : forall g ds w r o, exists sch s, s = turns (fun d => [g d]) sch (mkLine ds w r o) /\ l_rest s = [] /\ l_wire s = []).
  { intros g ds. induction ds as [|d ds IH]; intros w r o.
    - revert r o. induction w as [|x w IHw]; intros r o; [exists [], (mkLine [] [] r o); auto|].
      destruct (rerail_conv r x) as [r' o'] eqn:E. destruct (IHw r' (o ++ o')) as (sch & s & -> & H). exists (false :: sch). eexists. split; [|exact H]. cbn. rewrite E. reflexivity.
    - destruct (derail_conv r d) as [r' o'] eqn:E. destruct (IH (w ++ flat_map (fun d => [g d]) o') r' o) as (sch & s & -> & H). exists (true :: sch). eexists. split; [|exact H]. cbn. rewrite E. reflexivity. }
  intros. apply G.
Qed.
Print Assumptions C49_completes.
(** The condition that every datum arrives is needed: if a phase in between drops data, trailing whitespace is lost,
    because the flags RERAIL sets are cleared by the engine. *)
Theorem C49_dropped_refuted : exists g ds sch s, s = turns g sch (mkLine ds [] (mkRail [] 0 0 false) []) /\ l_rest s = [] /\ l_wire s = [] /\
  ds = [[1; 0x61]; [1; 0x62]; [1; 0x20]]%N /\ l_out s ++ snd (rerail_end (l_rail s)) = [[1; 0x61]]%N.
Proof.
  exists (fun d => match d with [1; 0x62] => [] | _ => [d] end)%N, [[1; 0x61]; [1; 0x62]; [1; 0x20]]%N, [true; true; true; false]. eexists. split; [reflexivity|]. vm_compute. auto.
Qed.
Print Assumptions C49_dropped_refuted.
Example C49_ex : let s := turns (fun d => [d]) [true; true; true; false; true; true; false; false] (mkLine [[1; 0x20]; [1; 0x61]; [1; 0x62]; [1; 0x0A]; [1; 0x63]; [1; 0x09]]%N [] (mkRail [] 7 7 true) []) in
  l_rest s = [[1; 0x09]]%N /\ l_out s = [[1; 0x20]; [1; 0x61]; [1; 0x62]; [1; 0x0A]; [1; 0x63]]%N.
Proof. vm_compute. auto. Qed.

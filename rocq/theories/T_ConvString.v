(** Property theorems C01-C11 and C54: conversion strings. *)
From Verif Require Import Base Types M_ConvString S_ConvString P_ConvString P_ConvString2 P_ConvString3 P_Aliases S_Resolve P_Resolve.

(** Example conversion used throughout:  "a,b#k=v:c|d:e#1:f" *)
Definition ex_conv : a_conv :=
  [ [ [mkCodec (s_ "a") None; mkCodec (s_ "b") (Some (s_ "k=v"))]; [mkCodec (s_ "c") None] ];
    [ [mkCodec (s_ "d") None]; [mkCodec (s_ "e") (Some (s_ "1"))]; [mkCodec (s_ "f") None] ] ].
Ltac free_tac := let c := fresh in let H := fresh in let K := fresh in
  intros c H K; cbn in H, K; intuition congruence.
Ltac wf_tac := 
  repeat match goal with
  | |- wf _ => split; [discriminate|]
  | |- forall s, In s _ -> _ => intros ? ?
  | H : In _ _ |- _ => cbn in H; repeat (destruct H as [<- | H]); try destruct H
  | |- _ /\ _ => split
  | |- _ <> _ => discriminate
  | |- wf_codec _ => unfold wf_codec; cbn [desc argv]
  | |- free_of _ _ => let c := fresh in let H := fresh in let K := fresh in
       intros c H K; cbn in H, K; intuition congruence
  | |- forall a, _ = Some a -> _ => let E := fresh in intros ? E; try discriminate E; injection E as <-
  end.
Example ex_conv_wf : wf ex_conv.
Proof. unfold ex_conv. wf_tac. Qed.
Example ex_conv_text : write ex_conv = s_ "a,b#k=v:c|d:e#1:f".
Proof. reflexivity. Qed.

(** C01/C02.  A string parses exactly when it is the text of a well-formed conversion; the parsed
    phases are that conversion's phases with the roles given by their position. *)
Theorem C01_unpack_grammar : forall (s : str) (ps : list phase),
  unpack s = Some ps <-> exists v, wf v /\ write v = s /\ ps = phases_of v.
Proof.
  intros s ps. split.
  - exact (unpack_inv s ps).
  - intros (v & Hw & <- & ->). exact (unpack_write v Hw).
Qed.
Print Assumptions C01_unpack_grammar.
Example C01_ex : unpack (s_ "a,b#k=v:c|d:e#1:f") = Some (phases_of ex_conv).
Proof. exact (unpack_write ex_conv ex_conv_wf). Qed.
Example C01_ex_reject : unpack (s_ "a::b") = None /\ unpack (s_ "a,:b") = None /\ unpack (s_ "#x:b") = None /\ unpack [] = None.
Proof. repeat split. Qed.

(** Rejection, spelled out: parsing fails exactly when no well-formed conversion has that text. *)
Theorem C01_unpack_rejects : forall s, unpack s = None <-> ~ exists v, wf v /\ write v = s.
Proof.
  intros s. split.
  - intros H (v & Hw & E). rewrite <- E, (unpack_write v Hw) in H. discriminate.
  - intros H. destruct (unpack s) as [ps|] eqn:E; [|reflexivity].
    exfalso. apply H. apply unpack_inv in E as (v & Hw & E & _). exists v. auto.
Qed.
Print Assumptions C01_unpack_rejects.

(** C02.  Roles: the k-th phase of the j-th segment. *)
Theorem C02_roles : forall v ps, wf v -> unpack (write v) = Some ps ->
  ps = phases_of v /\
  (forall seg k p, In seg v -> nth_error (phases_of_segment seg) k = Some p ->
     nth_error seg k = Some (codecs p) /\
     (length seg = 1 -> ptyp p = INTER) /\
     (2 <= length seg -> k = 0 -> ptyp p = FROM) /\
     (2 <= length seg -> k = length seg - 1 -> ptyp p = TO) /\
     (2 <= length seg -> 0 < k < length seg - 1 -> ptyp p = INTER)).
Proof.
  intros v ps Hw E. rewrite (unpack_write v Hw) in E. injection E as <-. split; [reflexivity|].
  intros seg k p Hs Hp. split; [apply nth_error_phases_of_segment; exact Hp|].
  assert (Hk : k < length seg).
  { rewrite <- phases_of_segment_length. apply nth_error_Some. congruence. }
  assert (Ht : ptyp p = role (length seg) k).
  { rewrite phases_of_segment_alt in Hp. rewrite nth_error_map in Hp.
    match type of Hp with option_map _ ?x = _ => destruct x as [[t c]|] eqn:E end; [|discriminate].
    cbn in Hp. injection Hp as <-. cbn [ptyp].
    assert (E1 : nth_error (seg_roles (length seg)) k = Some t).
    { clear -E. revert k E. generalize (seg_roles (length seg)) as l. intros l. revert seg.
      induction l as [|x l IH]; intros [|y seg] [|k] E; cbn in *; try discriminate.
      - congruence.
      - eapply IH. exact E. }
    unfold seg_roles in E1. rewrite nth_error_map in E1.
    destruct (nth_error (seq 0 (length seg)) k) as [m|] eqn:E2; [|discriminate]. cbn in E1. injection E1 as <-.
    assert (m = k) as ->; [|reflexivity].
    apply nth_error_nth with (d := 0) in E2. rewrite seq_nth in E2 by exact Hk. lia. }
  rewrite Ht. unfold role. repeat split; intros.
  - rewrite (proj2 (Nat.eqb_eq _ _)) by assumption. reflexivity.
  - destruct (Nat.eqb_spec (length seg) 1); [lia|]. subst k. reflexivity.
  - destruct (Nat.eqb_spec (length seg) 1); [lia|]. destruct (Nat.eqb_spec k 0); [lia|].
    rewrite (proj2 (Nat.eqb_eq _ _)) by assumption. reflexivity.
  - destruct (Nat.eqb_spec (length seg) 1); [lia|]. destruct (Nat.eqb_spec k 0); [lia|].
    destruct (Nat.eqb_spec k (length seg - 1)); [lia|reflexivity].
Qed.
Print Assumptions C02_roles.
Example C02_ex : option_map (map ptyp) (unpack (s_ "a,b#k=v:c|d:e#1:f")) = Some [FROM; TO; FROM; INTER; TO]
  /\ option_map (map ptyp) (unpack (s_ "x|a:b")) = Some [INTER; FROM; TO].
Proof. split; reflexivity. Qed.

(** C03.  Exact round trip. *)
Theorem C03_pack_unpack_roundtrip : forall v ps, wf v ->
  (forall s p c, In s v -> In p s -> In c p -> argv c <> Some []) ->
  (forall s, In s (tl v) -> length s <> 1) ->
  unpack (write v) = Some ps -> pack ps = write v.
Proof. exact pack_unpack_exact. Qed.
Print Assumptions C03_pack_unpack_roundtrip.
Example C03_ex : option_map pack (unpack (s_ "a,b#k=v:c|d:e#1:f")) = Some (s_ "a,b#k=v:c|d:e#1:f").
Proof. reflexivity. Qed.

(** C03.  In general re-serialising gives the normal form ... *)
Theorem C03_pack_unpack_normal : forall s ps, unpack s = Some ps ->
  exists v, wf v /\ write v = s /\ pack ps = write (normal v).
Proof. exact pack_unpack_normal. Qed.
Print Assumptions C03_pack_unpack_normal.
(** ... which parses again, and is stable. *)
Theorem C03_pack_stable : forall s ps, unpack s = Some ps ->
  exists ps', unpack (pack ps) = Some ps' /\ pack ps' = pack ps.
Proof.
  intros s ps H. destruct (unpack_pack_some s ps H) as [ps' H']. exists ps'. split; [exact H'|].
  exact (pack_unpack_idem s ps ps' H H').
Qed.
Print Assumptions C03_pack_stable.
(** The unconditional round trip is false of the code: a one-phase segment after the first is glued to
    the previous segment (changing the roles), and an empty argument list disappears. *)
Theorem C03_roundtrip_refuted :
  (exists ps, unpack (s_ "a:b|c|d:e") = Some ps /\ pack ps = s_ "a:b:c|d:e" /\
     exists ps', unpack (pack ps) = Some ps' /\ map ptyp ps' <> map ptyp ps) /\
  (exists ps, unpack (s_ "a#:b") = Some ps /\ pack ps = s_ "a:b").
Proof.
  split.
  - eexists. split; [reflexivity|]. split; [reflexivity|]. eexists. split; [reflexivity|]. vm_compute. discriminate.
  - eexists. split; reflexivity.
Qed.
Print Assumptions C03_roundtrip_refuted.

(** C04.  strlen(result)+1 never exceeds the allocation; holds for any codec names (commas included). *)
Theorem C04_pack_buffer : forall ps, ps <> [] -> (forall p, In p ps -> codecs p <> []) ->
  length (pack ps) + 1 <= pack_len ps.
Proof. exact pack_fits. Qed.
Print Assumptions C04_pack_buffer.
Example C04_ex : let ps := [mkPhase FROM [mkCodec (s_ "A,B#x") (Some (s_ "q"))]; mkPhase TO [mkCodec (s_ "C") None]] in
  pack ps = s_ "A#q,B#x&q:C" /\ length (pack ps) + 1 = pack_len ps.
Proof. split; reflexivity. Qed.

(** C05.  Packing a codec whose name was replaced by an alias expansion (a list of codecs) gives
    the argument to each member. *)
Theorem C05_alias_distributes : forall t (cs : list codec) a, cs <> [] -> (forall c, In c cs -> wf_codec c) ->
  pack [mkPhase t [mkCodec (write_phase cs) (Some a)]] = write_phase (map (give_arg a) cs) /\
  pack [mkPhase t [mkCodec (write_phase cs) None]] = write_phase cs.
Proof.
  intros t cs a Hne Hw. unfold pack. cbn [emit_phases emit_codecs codecs app]. rewrite !app_nil_r. split.
  - apply emit_codec_alias. split; assumption.
  - apply emit_codec_alias_none. split; assumption.
Qed.
Print Assumptions C05_alias_distributes.
Example C05_ex : pack [mkPhase FROM [mkCodec (s_ "ASCII,ANY#013F&ERROR") (Some (s_ "x=1"))]] = s_ "ASCII#x=1,ANY#013F&ERROR&x=1".
Proof. reflexivity. Qed.
(** An expansion with several phases gives the argument to the last one only, and when an earlier phase
    has an argument of its own the text is corrupted: 'B' becomes the codec 'B&x'. *)
Theorem C05_multiphase_alias_refuted :
  exists ps, unpack (pack [mkPhase INTER [mkCodec (s_ "A#y:B") (Some (s_ "x"))]]) = Some ps /\
    map (fun p => map desc (codecs p)) ps = [[s_ "A"]; [s_ "B&x"]].
Proof. eexists. split; reflexivity. Qed.
Print Assumptions C05_multiphase_alias_refuted.

(** C06.  White space (tab, line feed, form feed, carriage return, space) anywhere in the text changes nothing. *)
Theorem C06_whitespace : forall fuel w s s', spaced s s' -> create fuel w s' = create fuel w s.
Proof. intros fuel w s s' H. unfold create. rewrite (spaced_strip _ _ H). reflexivity. Qed.
Print Assumptions C06_whitespace.
(** Nothing else is removed: with no white space in it the text is resolved as it stands. *)
Theorem C06_only_whitespace : forall fuel w s, (forall c, In c s -> ~ white c) -> create fuel w s = create_loop fuel w s.
Proof.
  intros fuel w s H. unfold create. f_equal. induction s as [|c s IH]; [reflexivity|]. unfold strip_ws in *. cbn [filter].
  destruct (is_ws c) eqn:E; [exfalso; apply (H c); [left; reflexivity|apply is_ws_white; exact E]|]. cbn [negb]. f_equal.
  apply IH. intros x Hx. apply H. right. exact Hx.
Qed.
Print Assumptions C06_only_whitespace.
Example C06_ex : spaced (s_ "a:b") (s_ "a : b" ++ [ascii_of_nat 10; ascii_of_nat 12]) /\ ~ white "a" /\ ~ white (ascii_of_nat 11).
Proof.
  split; [|split; cbn; intuition discriminate]. apply sp_char. apply sp_white; [cbn; tauto|]. apply sp_char. apply sp_white; [cbn; tauto|]. apply sp_char.
  apply sp_white; [cbn; tauto|]. apply sp_white; [cbn; tauto|]. apply sp_nil.
Qed.

(** C07.  Termination and outcome of alias resolution. *)
Theorem C07_alias_resolution : forall w s, acyclic (w_alias w) ->
  exists n r, (forall f, n <= f -> create f w s = Some r) /\
  match r with
  | Resolved ps => ps <> [] /\ forall p c, In p ps -> In c (codecs p) -> w_check w (ptyp p) (desc c) = true
  | Failed _ => True
  | Again _ => False
  end.
Proof. exact create_terminates. Qed.
Print Assumptions C07_alias_resolution.
(** The shipped alias tables satisfy the hypothesis, for any set of installed modules. *)
Theorem C07_shipped_aliases_acyclic :
  acyclic (fun t n => match t with FILTER => None | _ => shipped_alias t n end).
Proof. exact shipped_acyclic. Qed.
Print Assumptions C07_shipped_aliases_acyclic.
Definition ex_world := mkWorld
  (fun _ n => existsb (str_eqb n) [s_ "ASCII"; s_ "_UTF-8"; s_ "ANY"])
  (fun t n => match t with FILTER => None | _ => shipped_alias t n end).
Example C07_ex : create 10 ex_world (s_ "utf-8, 3F : utf-8") =
  Some (Resolved [mkPhase FROM [mkCodec (s_ "ASCII") None; mkCodec (s_ "_UTF-8") None; mkCodec (s_ "ANY") (Some (s_ "013F&ERROR"))];
                  mkPhase TO [mkCodec (s_ "_UTF-8") None; mkCodec (s_ "ASCII") None]]).
Proof. vm_compute. reflexivity. Qed.
(** With a cyclic alias table the loop never ends. *)
Theorem C07_cyclic_alias_refuted : exists w s, forall fuel, create fuel w s = None.
Proof. exists cyc_world, (s_ "A:A"). exact cyc_loop. Qed.
Print Assumptions C07_cyclic_alias_refuted.

(** The outcome is the one of the specification S_Resolve.resolves: names that are not modules are replaced by their
    alias text, arguments kept, first missing name first, until everything is installed or it fails, and how. *)
Theorem C07_outcome : forall w s t r, acyclic (w_alias w) -> spaced t s -> (forall c, In c t -> ~ white c) ->
  (exists n, forall f, n <= f -> exists x, create f w s = Some x /\ of_round x = Some r) <-> resolves w t r.
Proof.
  intros w s t r Hac Hs Hw. rewrite (create_resolves w s r Hac), <- (spaced_strip _ _ Hs). replace (strip_ws t) with t; [reflexivity|].
  symmetry. clear Hs. induction t as [|c t IH]; [reflexivity|]. unfold strip_ws in *. cbn [filter].
  destruct (is_ws c) eqn:E; [exfalso; apply (Hw c); [left; reflexivity|apply is_ws_white; exact E]|]. cbn [negb]. f_equal.
  apply IH. intros x Hx. apply Hw. right. exact Hx.
Qed.
Print Assumptions C07_outcome.
Theorem C07_outcome_unique : forall w t r r', resolves w t r -> resolves w t r' -> r = r'.
Proof. intros w t r r' H H'. exact (resolves_unique w t r H r' H'). Qed.
Print Assumptions C07_outcome_unique.
(** "COUNT" missing is a broken installation; "nosuch" is unknown. *)
Example C07_outcome_ex : resolves ex_world (s_ "ASCII:count:ASCII") Broken_installation /\ resolves ex_world (s_ "ASCII:nosuch:ASCII") Unknown_name /\
  resolves ex_world (s_ "ASCII::ASCII") Syntax_error.
Proof.
  assert (K : forall s x o, create_loop 5 ex_world s = Some x -> of_round x = Some o -> resolves ex_world s o).
  { intros s x o Hx Ho. destruct (loop_resolves _ _ _ _ Hx) as (o' & Ho' & H). congruence. }
  split; [|split]; (eapply K; [vm_compute; reflexivity|reflexivity]).
Qed.

(** C08 *)
Theorem C08_args_join : forall s, s <> [] ->
  sepby "&" (map (fun kv => fst kv ++ match snd kv with None => [] | Some v => "="%char :: v end) (parse_args (Some s))) = s.
Proof. exact parse_args_join. Qed.
Print Assumptions C08_args_join.
Theorem C08_args_parse : forall kvs : list (str * option str), kvs <> [] ->
  (forall k v, In (k, v) kvs -> ~ In "&"%char k /\ ~ In "="%char k /\ forall x, v = Some x -> ~ In "&"%char x) ->
  kvs <> [([], None)] ->
  parse_args (Some (sepby "&" (map (fun kv => fst kv ++ match snd kv with None => [] | Some v => "="%char :: v end) kvs))) = kvs.
Proof. exact parse_args_write. Qed.
Print Assumptions C08_args_parse.
Theorem C08_args_none : parse_args None = [] /\ parse_args (Some []) = [].
Proof. split; reflexivity. Qed.
Print Assumptions C08_args_none.
Example C08_ex : parse_args (Some (s_ "AFTER=002C&x=a=b&flag")) =
  [(s_ "AFTER", Some (s_ "002C")); (s_ "x", Some (s_ "a=b")); (s_ "flag", None)].
Proof. reflexivity. Qed.

(** C09.  Phase editing: phase lists ... *)
Theorem C09_insert_phase : forall s x t n ps, unpack s = Some ps ->
  (in_range (length ps) n ->
     insert_phase s x t n = Val (Some (pack (insert_at (position (length ps) n) (mkPhase t [mkCodec x None]) ps)))) /\
  ((Z.of_nat (length ps) <= n)%Z ->
     insert_phase s x t n = Val (Some (pack (ps ++ [mkPhase t [mkCodec x None]])))).
Proof.
  intros s x t n ps E. split; intros H.
  - exact (insert_phase_in_range s x t n ps E H).
  - exact (insert_phase_append s x t n ps E H).
Qed.
Print Assumptions C09_insert_phase.
Theorem C09_replace_phase : forall s x t n ps, unpack s = Some ps -> in_range (length ps) n ->
  replace_phase s x t n = Val (Some (pack (replace_at (position (length ps) n) (mkPhase t [mkCodec x None]) ps))).
Proof. exact replace_phase_in_range. Qed.
Print Assumptions C09_replace_phase.
(** ... and the resulting text, for a conversion of one segment: only the addressed phase's text changes. *)
Theorem C09_insert_phase_text : forall seg x n, wf [seg] ->
  (forall p c, In p seg -> In c p -> argv c <> Some []) -> in_range (length seg) n -> 0 < position (length seg) n ->
  insert_phase (write [seg]) x INTER n
  = Val (Some (sepby ":" (insert_at (position (length seg) n) x (map write_phase seg)))).
Proof. exact insert_phase_text. Qed.
Print Assumptions C09_insert_phase_text.
Theorem C09_replace_phase_text : forall seg x t n, wf [seg] ->
  (forall p c, In p seg -> In c p -> argv c <> Some []) -> in_range (length seg) n ->
  (position (length seg) n = 0 \/ t = INTER \/ t = TO) ->
  replace_phase (write [seg]) x t n
  = Val (Some (sepby ":" (replace_at (position (length seg) n) x (map write_phase seg)))).
Proof. exact replace_phase_text. Qed.
Print Assumptions C09_replace_phase_text.
Example C09_ex :
  insert_phase (s_ "utf-8:upper:big5") (s_ "full,x") INTER (-1) = Val (Some (s_ "utf-8:upper:full,x:big5")) /\
  insert_phase (s_ "utf-8:big5") (s_ "full") INTER 1 = Val (Some (s_ "utf-8:full:big5")) /\
  insert_phase (s_ "utf-8:big5") (s_ "x") INTER 7 = Val (Some (s_ "utf-8:big5:x")) /\
  replace_phase (s_ "utf-8:upper:big5") (s_ "gbk") TO (-1) = Val (Some (s_ "utf-8:upper:gbk")).
Proof. repeat split. Qed.
(** Out of range: replace_phase with index >= number of phases writes outside the array. *)
Theorem C09_replace_phase_out_of_range_refuted : forall s x t n ps,
  unpack s = Some ps -> (Z.of_nat (length ps) <= n)%Z -> replace_phase s x t n = UB.
Proof. exact replace_phase_above. Qed.
Print Assumptions C09_replace_phase_out_of_range_refuted.

(** C10 *)
Theorem C10_insert_codec : forall s x np nc ps p, unpack s = Some ps -> in_range (length ps) np ->
  nth_error ps (position (length ps) np) = Some p ->
  (in_range (length (codecs p)) nc ->
     insert_codec s x np nc = Val (Some (pack (replace_at (position (length ps) np)
       (mkPhase (ptyp p) (insert_at (position (length (codecs p)) nc) (mkCodec x None) (codecs p))) ps)))) /\
  ((Z.of_nat (length (codecs p)) <= nc)%Z ->
     insert_codec s x np nc = Val (Some (pack (replace_at (position (length ps) np)
       (mkPhase (ptyp p) (codecs p ++ [mkCodec x None])) ps)))).
Proof.
  intros s x np nc ps p E H Ep. split; intros Hc.
  - exact (insert_codec_in_range s x np nc ps p E H Ep Hc).
  - exact (insert_codec_append s x np nc ps p E H Ep Hc).
Qed.
Print Assumptions C10_insert_codec.
Theorem C10_replace_codec : forall s x np nc ps p, unpack s = Some ps -> in_range (length ps) np ->
  nth_error ps (position (length ps) np) = Some p -> in_range (length (codecs p)) nc ->
  replace_codec s x np nc = Val (Some (pack (replace_at (position (length ps) np)
     (mkPhase (ptyp p) (replace_at (position (length (codecs p)) nc) (mkCodec x None) (codecs p))) ps))).
Proof. exact replace_codec_in_range. Qed.
Print Assumptions C10_replace_codec.
Theorem C10_insert_codec_text : forall seg x np nc cs, wf [seg] ->
  (forall p c, In p seg -> In c p -> argv c <> Some []) -> in_range (length seg) np ->
  nth_error seg (position (length seg) np) = Some cs -> in_range (length cs) nc ->
  insert_codec (write [seg]) x np nc
  = Val (Some (sepby ":" (replace_at (position (length seg) np)
       (sepby "," (insert_at (position (length cs) nc) x (map write_codec cs))) (map write_phase seg)))).
Proof. exact insert_codec_text. Qed.
Print Assumptions C10_insert_codec_text.
Theorem C10_replace_codec_text : forall seg x np nc cs, wf [seg] ->
  (forall p c, In p seg -> In c p -> argv c <> Some []) -> in_range (length seg) np ->
  nth_error seg (position (length seg) np) = Some cs -> in_range (length cs) nc ->
  replace_codec (write [seg]) x np nc
  = Val (Some (sepby ":" (replace_at (position (length seg) np)
       (sepby "," (replace_at (position (length cs) nc) x (map write_codec cs))) (map write_phase seg)))).
Proof. exact replace_codec_text. Qed.
Print Assumptions C10_replace_codec_text.
Example C10_ex :
  insert_codec (s_ "utf-8:big5,cp950:x") (s_ "any#3f") 1 (-1) = Val (Some (s_ "utf-8:big5,any#3f,cp950:x")) /\
  insert_codec (s_ "utf-8:big5") (s_ "any") (-1) 5 = Val (Some (s_ "utf-8:big5,any")) /\
  replace_codec (s_ "utf-8,iso:big5") (s_ "gbk") 0 1 = Val (Some (s_ "utf-8,gbk:big5")).
Proof. repeat split. Qed.

(** C11.  Indexes -n .. n-1 address the documented element. *)
Theorem C11_index_in_range : forall len n, in_range len n ->
  (get_phase_index (Z.of_nat len) n = Z.of_nat (position len n) + 1)%Z /\
  (get_codec_index (Z.of_nat len) n = Z.of_nat (position len n))%Z /\ position len n < len.
Proof.
  intros len n H. destruct (phase_index_in_range len n H) as [E L]. destruct (codec_index_in_range len n H) as [E' _].
  repeat split; [lia|exact E'|exact L].
Qed.
Print Assumptions C11_index_in_range.
Theorem C11_index_above : forall len n, (Z.of_nat len <= n)%Z ->
  get_phase_index (Z.of_nat len) n = (Z.of_nat len + 1)%Z /\ get_codec_index (Z.of_nat len) n = Z.of_nat len.
Proof.
  intros len n H. pose proof (phase_index_above len n H). pose proof (codec_index_above len n H). lia.
Qed.
Print Assumptions C11_index_above.
(** Below -n the C remainder is negative (or zero on multiples): the index falls outside 1..n. *)
Theorem C11_index_below_refuted : forall len n, 0 < len -> (n < - Z.of_nat len)%Z ->
  (get_phase_index (Z.of_nat len) n <= 1)%Z /\
  ((1 <= get_phase_index (Z.of_nat len) n)%Z <-> (Z.rem n (Z.of_nat len) = 0)%Z).
Proof.
  intros len n Hl H. destruct (phase_index_below len n Hl H) as [H1 H2]. split; [lia|].
  rewrite <- H2. split; lia.
Qed.
Print Assumptions C11_index_below_refuted.
Example C11_ex : get_phase_index 3 (-1) = 3%Z /\ get_phase_index 3 (-3) = 1%Z /\ get_phase_index 3 2 = 3%Z /\
  get_phase_index 3 (-4) = 0%Z /\ insert_phase (s_ "a:b:c") (s_ "x") INTER (-4) = UB.
Proof. repeat split. Qed.

(** C54.  Every error number has a message; the four documented ones have their own. *)
Theorem C54_error_strings : forall ed eo em ei n : Z,
  ed <> eo -> ed <> em -> ed <> ei -> eo <> em -> eo <> ei -> em <> ei ->
  error_string ed eo em ei n <> [] /\
  error_string ed eo em ei ed = s_ "Unexpected condition" /\
  error_string ed eo em ei eo = s_ "Unsupported charset/encoding or filter" /\
  error_string ed eo em ei em = s_ "Mmap failed" /\
  error_string ed eo em ei ei = s_ "Conversion syntax error" /\
  (n <> ed -> n <> eo -> n <> em -> n <> ei -> error_string ed eo em ei n = s_ "Unknown error").
Proof.
  intros ed eo em ei n H1 H2 H3 H4 H5 H6. unfold error_string. repeat split; intros;
  repeat match goal with |- context [Z.eqb ?a ?b] => destruct (Z.eqb_spec a b); try congruence end; try discriminate; reflexivity.
Qed.
Print Assumptions C54_error_strings.
Example C54_ex : error_string 88 95 12 22 22 = s_ "Conversion syntax error".
Proof. reflexivity. Qed.

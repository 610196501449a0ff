(** Conversions with one intermediate phase between a decoding and an encoding phase. *)
From Verif Require Import Base Types M_Engine M_Output M_Create M_Callback M_Modules S_Session S_Engine S_Rest P_Trans P_Engine1 P_Engine2 P_Engine5 P_Callback P_Session P_Session3 P_Create P_CbSession P_Ascii P_Unicode P_Pair P_UDA P_Escape P_Escape2.

Definition tconv (D M E : list (ecodec priv * kspec)) : list (ptype * list (ecodec priv * kspec)) := [(FROM, D); (INTER, M); (TO, E)].
Lemma tconv_ok D M E : D <> [] -> M <> [] -> E <> [] -> cod_good FROM D -> eof_good FROM D -> cod_good INTER M -> eof_good INTER M -> cod_good TO E -> eof_good TO E -> cb_ok (tconv D M E).
Proof.
  intros ND NM NE D1 D2 M1 M2 E1 E2. constructor.
  - eexists _, _. reflexivity.
  - intros t l [H|[H|[H|[]]]]; injection H as <- <-; (split; [auto|]); assumption.
  - intros [|[|[|i]]] l l'; cbn; try discriminate; destruct i; discriminate.
  - intros t l x [H|[H|[H|[]]]]; injection H as <- <-; intros Hx; [apply D1|apply M1|apply E1]; exact Hx.
  - intros t l j x [H|[H|[H|[]]]]; injection H as <- <-; intros Hx; [apply D2|apply M2|apply E2]; exact Hx.
Qed.
Lemma tconv_restores D M E : calm M -> calm E -> (forall x q, In x D -> evolves (fst x) q -> k_clean (snd x) (e_priv priv (init_codec priv (set_priv priv (fst x) q)))) -> restores (tconv D M E).
Proof. intros HM HE HD t l x q [H|[H|[H|[]]]]; injection H as <- <-; intros Hx Hev; [apply HD; assumption|apply HM; assumption|apply HE; assumption]. Qed.

Section Tri.
Context {A : Type}.
Theorem tri_pipe dcs mcs ecs (sp : A -> list N) (dat : A -> datum) (out : A -> list N) (dom dom' : A -> Prop) (g : list A -> list A) : (forall a, dom a -> dat a <> []) -> (forall a, dom' a -> dat a <> []) ->
  dcodes dcs sp dat dom -> ecodes ecs dat out dom' ->
  forall xs, Forall dom xs -> Forall dom' (g xs) -> trans KInter mcs (map dat xs) = (map dat (g xs), 0%nat) ->
  pipeline [mkPsem KFrom dcs; mkPsem KInter mcs; mkPsem KTo ecs] (flat_map sp xs) = (map out (g xs), 0%nat, 0%nat).
Proof.
  intros Hne Hne' Hd He xs Hx Hg Hm. unfold pipeline. cbn [fold_left apply_phase ps_kind ps_cs S_Engine.inj concat]. rewrite app_nil_r. change (map (fun b => [b]) (flat_map sp xs)) with (byt (flat_map sp xs)).
  rewrite (dcode_all _ _ _ _ Hd) by exact Hx. cbn [apply_phase ps_kind ps_cs S_Engine.inj].
  rewrite (dat_nonempty _ _ Hne) by exact Hx. rewrite Hm. cbn [apply_phase ps_kind ps_cs S_Engine.inj].
  rewrite (dat_nonempty _ _ Hne'), (ecode_all _ _ _ _ He) by exact Hg. reflexivity.
Qed.
Theorem tri_converts D M E again (sp : A -> list N) (dat : A -> datum) (out : A -> list N) (dom dom' : A -> Prop) (g : list A -> list A) : D <> [] -> M <> [] -> E <> [] ->
  cod_good FROM D -> eof_good FROM D -> cod_good INTER M -> eof_good INTER M -> cod_good TO E -> eof_good TO E ->
  (again = true -> restores (tconv D M E)) -> (forall a, dom a -> dat a <> []) -> (forall a, dom' a -> dat a <> []) ->
  dcodes (map (fun y => k_v (snd y)) D) sp dat dom -> ecodes (map (fun y => k_v (snd y)) E) dat out dom' ->
  (forall xs, Forall dom xs -> Forall dom' (g xs) /\ trans KInter (map (fun y => k_v (snd y)) M) (map dat xs) = (map dat (g xs), 0%nat)) ->
  forall xs, Forall dom xs -> converts again (cb_inst (tconv D M E)) (fun W => exists xs, Forall dom xs /\ W = flat_map sp xs) (flat_map sp xs) (flat_map out (g xs)).
Proof.
  intros ND NM NE D1 D2 M1 M2 E1 E2 HR Hne Hne' Hd He Hg xs Hx. rewrite (flat_map_concat_map out).
  assert (HP : forall xs, Forall dom xs -> pipeline (cb_pipe (tconv D M E)) (flat_map sp xs) = (map out (g xs), 0%nat, 0%nat)).
  { intros ys Hy. destruct (Hg ys Hy) as (G1 & G2). unfold cb_pipe, tconv. cbn [map fst snd kind_of]. apply (tri_pipe _ _ _ _ dat _ dom dom' g); assumption. }
  apply converts_by; [apply tconv_ok; assumption|exact HR| |eauto|apply HP; exact Hx].
  intros W (ys & Hy & ->). eexists _, _. apply HP. exact Hy.
Qed.
End Tri.

(** An intermediate phase of one "*" codec that handles each datum by itself. *)
Section Each.
Variable f : datum -> option (list datum).
Lemma each_trans : forall ds : list datum, Forall (fun d : datum => exists x r, d = x :: r /\ (x < 257)%N) ds -> trans KInter [star_sem f] ds = (flat_map (fun d => match f d with Some o => o | None => [d] end) ds, 0%nat).
Proof.
  induction 1 as [|d ds Hd _ IH]; [apply trans_nil|]. cbn [flat_map].
  assert (E : first_match [star_sem f] (d :: ds) = option_map (fun o => (1%nat, o)) (f d)).
  { destruct Hd as (x & r & -> & Hx). apply N.ltb_lt in Hx. cbn [first_match scan app star_sem]. rewrite Hx. destruct (f (x :: r)); reflexivity. }
  destruct (f d) as [o|] eqn:Ef.
  - rewrite (trans_match _ _ _ _ _ E). cbn [skipn]. rewrite IH. reflexivity.
  - rewrite (trans_fail_inter _ _ _ E), IH. reflexivity.
Qed.
End Each.

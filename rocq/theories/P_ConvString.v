(** Proofs about the conversion-string functions. *)
From Verif Require Import Base Types M_ConvString S_ConvString.

Lemma split_nonempty c s : split c s <> [].
Proof.
  destruct s as [|x s]; cbn; [discriminate|].
  destruct (Ascii.eqb x c); [discriminate|]. destruct (split c s); discriminate.
Qed.

Lemma sepby_cons c x l : l <> [] -> sepby c (x :: l) = x ++ c :: sepby c l.
Proof. destruct l; [contradiction|reflexivity]. Qed.

Lemma sepby_split c s : sepby c (split c s) = s.
Proof.
  induction s as [|x s IH]; [reflexivity|]. cbn [split].
  destruct (Ascii.eqb_spec x c) as [->|Hne].
  - rewrite sepby_cons by apply split_nonempty. rewrite IH. reflexivity.
  - destruct (split c s) as [|p ps] eqn:E; [exfalso; eapply split_nonempty; eauto|].
    rewrite <- IH. destruct ps; reflexivity.
Qed.

Lemma split_free c s p : In p (split c s) -> ~ In c p.
Proof.
  revert p; induction s as [|x s IH]; intros p; cbn [split].
  - intros [<-|[]] [].
  - destruct (Ascii.eqb_spec x c) as [->|Hne].
    + intros [<-|H]; [intros []|]. apply IH. exact H.
    + destruct (split c s) as [|q qs] eqn:E; [exfalso; eapply split_nonempty; eauto|].
      intros [<-|H].
      * intros [->|H]; [congruence|]. apply (IH q); [left; reflexivity|exact H].
      * apply IH. right. exact H.
Qed.

Lemma split_app_free c p s : ~ In c p -> split c (p ++ c :: s) = p :: split c s.
Proof.
  induction p as [|x p IH]; intros H; cbn [app split].
  - rewrite Ascii.eqb_refl. reflexivity.
  - destruct (Ascii.eqb_spec x c) as [->|Hne]; [exfalso; apply H; left; reflexivity|].
    rewrite IH; [reflexivity|]. intros K. apply H. right. exact K.
Qed.

Lemma split_free_id c p : ~ In c p -> split c p = [p].
Proof.
  induction p as [|x p IH]; intros H; cbn [split]; [reflexivity|].
  destruct (Ascii.eqb_spec x c) as [->|Hne]; [exfalso; apply H; left; reflexivity|].
  rewrite IH; [reflexivity|]. intros K. apply H. right. exact K.
Qed.

Lemma split_sepby c l : l <> [] -> (forall p, In p l -> ~ In c p) -> split c (sepby c l) = l.
Proof.
  induction l as [|x l IH]; intros Hne H; [contradiction|].
  destruct l as [|y l].
  - cbn. apply split_free_id. apply H. left. reflexivity.
  - rewrite sepby_cons by discriminate. rewrite split_app_free by (apply H; left; reflexivity).
    rewrite IH; [reflexivity|discriminate|]. intros p Hp. apply H. right. exact Hp.
Qed.

Lemma in_split_in c s p x : In p (split c s) -> In x p -> In x s.
Proof.
  revert p; induction s as [|y s IH]; intros p; cbn [split].
  - intros [<-|[]] [].
  - destruct (Ascii.eqb_spec y c) as [->|Hne].
    + intros [<-|H] Hx; [destruct Hx|]. right. eapply IH; eauto.
    + destruct (split c s) as [|q qs] eqn:E; [exfalso; eapply split_nonempty; eauto|].
      intros [<-|H] Hx.
      * destruct Hx as [->|Hx]; [left; reflexivity|]. right. eapply IH; [left; reflexivity|exact Hx].
      * right. eapply IH; [right; exact H|exact Hx].
Qed.

Lemma in_sepby c l x : In x (sepby c l) -> x = c \/ exists p, In p l /\ In x p.
Proof.
  induction l as [|p l IH]; [intros []|].
  destruct l as [|q l].
  - cbn. intros H. right. exists p. split; [left; reflexivity|exact H].
  - rewrite sepby_cons by discriminate. intros H. apply in_app_or in H as [H|[H|H]].
    + right. exists p. split; [left; reflexivity|exact H].
    + left. symmetry. exact H.
    + destruct (IH H) as [->|[r [Hr Hx]]]; [left; reflexivity|].
      right. exists r. split; [right; exact Hr|exact Hx].
Qed.

(** cut *)
Lemma cut_spec c s : 
  let '(a, b) := cut c s in
  ~ In c a /\ s = a ++ match b with None => [] | Some t => c :: t end.
Proof.
  induction s as [|x s IH]; cbn [cut]; [split; [intros []|reflexivity]|].
  destruct (Ascii.eqb_spec x c) as [->|Hne].
  - split; [intros []|reflexivity].
  - destruct (cut c s) as [a b]. destruct IH as [H1 H2]. split.
    + intros [->|H]; [congruence|contradiction].
    + rewrite H2 at 1. reflexivity.
Qed.

Lemma cut_app c a t : ~ In c a -> cut c (a ++ c :: t) = (a, Some t).
Proof.
  induction a as [|x a IH]; intros H; cbn [app cut].
  - rewrite Ascii.eqb_refl. reflexivity.
  - destruct (Ascii.eqb_spec x c) as [->|Hne]; [exfalso; apply H; left; reflexivity|].
    rewrite IH; [reflexivity|]. intros K; apply H; right; exact K.
Qed.

Lemma cut_free c a : ~ In c a -> cut c a = (a, None).
Proof.
  induction a as [|x a IH]; intros H; cbn [cut]; [reflexivity|].
  destruct (Ascii.eqb_spec x c) as [->|Hne]; [exfalso; apply H; left; reflexivity|].
  rewrite IH; [reflexivity|]. intros K; apply H; right; exact K.
Qed.

Lemma codec_eta c : mkCodec (desc c) (argv c) = c.
Proof. destruct c; reflexivity. Qed.

Lemma mk_codec_write c : wf_codec c -> mk_codec (write_codec c) = Some c.
Proof.
  destruct c as [d a]. intros (Hne & Hf & _). unfold mk_codec, write_codec. cbn [desc argv] in *.
  assert (Hh : ~ In "#"%char d) by (apply Hf; cbn; tauto).
  destruct a as [a|].
  - rewrite cut_app by exact Hh. destruct d; [contradiction|reflexivity].
  - rewrite app_nil_r, cut_free by exact Hh. destruct d; [contradiction|reflexivity].
Qed.

Lemma mk_codec_inv s c :
  mk_codec s = Some c ->
  write_codec c = s /\ desc c <> [] /\ ~ In "#"%char (desc c).
Proof.
  unfold mk_codec. pose proof (cut_spec "#" s) as H. destruct (cut "#" s) as [d a].
  destruct H as [H1 H2]. destruct d as [|x d]; [discriminate|]. intros [= <-]. cbn.
  split; [|split; [discriminate|exact H1]]. rewrite H2. reflexivity.
Qed.

Lemma all_some_map {A B} (f : A -> option B) (g : B -> A) l :
  (forall b, In b l -> f (g b) = Some b) -> all_some (map f (map g l)) = Some l.
Proof.
  induction l as [|b l IH]; intros H; cbn; [reflexivity|].
  rewrite H by (left; reflexivity). rewrite IH; [reflexivity|].
  intros b' Hb. apply H. right. exact Hb.
Qed.

Lemma all_some_inv {A B} (f : A -> option B) l r :
  all_some (map f l) = Some r -> Forall2 (fun a b => f a = Some b) l r.
Proof.
  revert r; induction l as [|a l IH]; cbn; intros r H.
  - injection H as <-. constructor.
  - destruct (f a) as [b|] eqn:E; [|discriminate].
    destruct (all_some (map f l)) as [r'|]; [|discriminate]. injection H as <-.
    constructor; auto.
Qed.

Lemma all_some_none {A B} (f : A -> option B) l :
  all_some (map f l) = None -> exists a, In a l /\ f a = None.
Proof.
  induction l as [|a l IH]; cbn; [discriminate|].
  destruct (f a) eqn:E.
  - destruct (all_some (map f l)); [discriminate|]. intros _.
    destruct IH as [a' [Hi Hn]]; [reflexivity|]. exists a'. auto.
  - intros _. exists a. auto.
Qed.

(** The segment loop. *)
Definition seg_roles (n : nat) : list ptype := map (role n) (seq 0 n).

Lemma set_nth_app_r {A} i (v : A) l l' : 
  length l <= i -> set_nth i v (l ++ l') = l ++ set_nth (i - length l) v l'.
Proof.
  revert i; induction l as [|x l IH]; intros i H; cbn in *.
  - rewrite Nat.sub_0_r. reflexivity.
  - destruct i as [|i]; [lia|]. cbn. f_equal. apply IH. lia.
Qed.

Lemma set_nth_repeat_last {A} n (v w : A) :
  set_nth n v (repeat w (S n)) = repeat w n ++ [v].
Proof. induction n as [|n IH]; [reflexivity|]. cbn in *. f_equal. exact IH. Qed.

Lemma seg_roles_SS n : seg_roles (S (S n)) = FROM :: repeat INTER n ++ [TO].
Proof.
  change (seg_roles (S (S n))) with (FROM :: map (role (S (S n))) (seq 1 (S n))). f_equal.
  rewrite seq_S, map_app. cbn [map]. f_equal.
  - assert (forall k m, 0 < k -> k + m <= S n -> map (role (S (S n))) (seq k m) = repeat INTER m) as H.
    { intros k m; revert k; induction m as [|m IH]; intros k Hk Hm; [reflexivity|].
      cbn [seq map repeat]. rewrite IH by lia. f_equal. unfold role.
      destruct (Nat.eqb_spec (S (S n)) 1); [lia|].
      destruct (Nat.eqb_spec k 0); [lia|].
      destruct (Nat.eqb_spec k (S (S n) - 1)); [lia|reflexivity]. }
    apply H; lia.
  - unfold role.
    destruct (Nat.eqb_spec (S (S n)) 1); [lia|].
    destruct (Nat.eqb_spec (1 + n) 0); [lia|].
    destruct (Nat.eqb_spec (1 + n) (S (S n) - 1)); [reflexivity|lia].
Qed.

Lemma mark_segment_roles acc f : 0 < f ->
  mark_segment f (acc ++ repeat INTER f) = acc ++ seg_roles f.
Proof.
  intros Hf. unfold mark_segment. destruct (Nat.ltb_spec 1 f) as [H|H].
  - destruct f as [|[|n]]; [lia|lia|]. rewrite app_length, repeat_length.
    rewrite set_nth_app_r by lia. rewrite set_nth_app_r by lia. f_equal.
    rewrite seg_roles_SS.
    replace (length acc + S (S n) - S (S n) - length acc) with 0 by lia.
    replace (length acc + S (S n) - 1 - length acc) with (S n) by lia.
    cbn [repeat set_nth]. f_equal. change (INTER :: repeat INTER n) with (repeat INTER (S n)).
    apply set_nth_repeat_last.
  - assert (f = 1) as -> by lia. reflexivity.
Qed.

Lemma seg_loop_spec segs : forall f acc offs, 0 < f ->
  seg_loop segs f (acc ++ repeat INTER f) offs =
  (acc ++ seg_roles f ++ concat (map (fun s => seg_roles (length (split ":" s))) segs),
   offs ++ concat (map (split ":") segs)).
Proof.
  induction segs as [|s segs IH]; intros f acc offs Hf; cbn [seg_loop map concat].
  - rewrite mark_segment_roles by exact Hf. rewrite !app_nil_r. reflexivity.
  - rewrite mark_segment_roles by exact Hf. rewrite IH.
    + rewrite <- !app_assoc. reflexivity.
    + destruct (split ":" s) eqn:E; [exfalso; eapply split_nonempty; eauto|cbn; lia].
Qed.

Lemma seg_loop_top segs : segs <> [] ->
  seg_loop segs 0 [] [] =
  (concat (map (fun s => seg_roles (length (split ":" s))) segs), concat (map (split ":") segs)).
Proof.
  destruct segs as [|s segs]; [contradiction|]. intros _.
  change (seg_loop (s :: segs) 0 [] []) with
    (seg_loop segs (length (split ":" s)) ([] ++ repeat INTER (length (split ":" s))) (split ":" s)).
  rewrite (seg_loop_spec segs (length (split ":" s)) [] (split ":" s)).
  - reflexivity.
  - destruct (split ":" s) eqn:E; [exfalso; eapply split_nonempty; eauto|cbn; lia].
Qed.

(** phases_of through roles *)
Lemma phases_of_segment_alt s :
  phases_of_segment s = map (fun tc => mkPhase (fst tc) (snd tc)) (combine (seg_roles (length s)) s).
Proof.
  unfold phases_of_segment, seg_roles. generalize (length s) at 1 3 as n. generalize 0 as k.
  intros k n. revert k. induction s as [|p s IH]; intros k; cbn; [reflexivity|].
  f_equal. apply IH.
Qed.

Lemma combine_app {A B} (a1 a2 : list A) (b1 b2 : list B) :
  length a1 = length b1 -> combine (a1 ++ a2) (b1 ++ b2) = combine a1 b1 ++ combine a2 b2.
Proof.
  revert b1; induction a1 as [|x a1 IH]; intros [|y b1] H; cbn in *; try discriminate; [reflexivity|].
  f_equal. apply IH. lia.
Qed.

Lemma seg_roles_length n : length (seg_roles n) = n.
Proof. unfold seg_roles. rewrite map_length, seq_length. reflexivity. Qed.

Lemma phases_of_alt v :
  phases_of v = map (fun tc => mkPhase (fst tc) (snd tc))
    (combine (concat (map (fun s : a_segment => seg_roles (length s)) v)) (concat v)).
Proof.
  unfold phases_of. induction v as [|s v IH]; [reflexivity|]. cbn [map concat].
  rewrite combine_app by apply seg_roles_length. rewrite map_app, phases_of_segment_alt.
  f_equal. exact IH.
Qed.

(** Freedom lemmas of written forms. *)
Lemma write_codec_free c : wf_codec c -> free_of ["|"; ":"; ","]%char (write_codec c).
Proof.
  intros (_ & Hf & Ha) x Hx Hin. unfold write_codec in Hin. apply in_app_or in Hin as [Hin|Hin].
  - apply (Hf x); [cbn in *; tauto|exact Hin].
  - destruct (argv c) as [a|]; [|destruct Hin].
    destruct Hin as [<-|Hin].
    + cbn in Hx. destruct Hx as [Hx|[Hx|[Hx|[]]]]; discriminate.
    + exact (Ha a eq_refl x Hx Hin).
Qed.

Definition wf_phase (p : a_phase) := p <> [] /\ forall c, In c p -> wf_codec c.
Definition wf_segment (s : a_segment) := s <> [] /\ forall p, In p s -> wf_phase p.

Lemma write_phase_free p : wf_phase p -> free_of ["|"; ":"]%char (write_phase p).
Proof.
  intros (_ & H) x Hx Hin. apply in_sepby in Hin as [->|[q [Hq Hin]]].
  - cbn in Hx. destruct Hx as [Hx|[Hx|[]]]; discriminate.
  - apply in_map_iff in Hq as [c [<- Hc]]. apply (write_codec_free c (H c Hc) x); [cbn in *; tauto|exact Hin].
Qed.

Lemma write_segment_free s : wf_segment s -> free_of ["|"]%char (write_segment s).
Proof.
  intros (_ & H) x Hx Hin. apply in_sepby in Hin as [->|[q [Hq Hin]]].
  - cbn in Hx. destruct Hx as [Hx|[]]; discriminate.
  - apply in_map_iff in Hq as [p [<- Hp]]. apply (write_phase_free p (H p Hp) x); [cbn in *; tauto|exact Hin].
Qed.

Lemma map_neq_nil {A B} (f : A -> B) l : l <> [] -> map f l <> [].
Proof. destruct l; [contradiction|discriminate]. Qed.

Lemma split_write_phase p : wf_phase p -> split "," (write_phase p) = map write_codec p.
Proof.
  intros [Hne H]. apply split_sepby; [apply map_neq_nil; exact Hne|].
  intros q Hq. apply in_map_iff in Hq as [c [<- Hc]]. apply (write_codec_free c (H c Hc)). cbn. tauto.
Qed.
Lemma split_write_segment s : wf_segment s -> split ":" (write_segment s) = map write_phase s.
Proof.
  intros [Hne H]. apply split_sepby; [apply map_neq_nil; exact Hne|].
  intros q Hq. apply in_map_iff in Hq as [c [<- Hc]]. apply (write_phase_free c (H c Hc)). cbn. tauto.
Qed.
Lemma wf_alt v : wf v <-> v <> [] /\ forall s, In s v -> wf_segment s.
Proof. unfold wf, wf_segment, wf_phase. firstorder. Qed.
Lemma split_write v : wf v -> split "|" (write v) = map write_segment v.
Proof.
  intros Hw. apply wf_alt in Hw as [Hne H]. apply split_sepby; [apply map_neq_nil; exact Hne|].
  intros q Hq. apply in_map_iff in Hq as [c [<- Hc]]. apply (write_segment_free c (H c Hc)). cbn. tauto.
Qed.

Lemma write_phase_nonempty p : wf_phase p -> write_phase p <> [].
Proof.
  intros [Hne H] E. destruct p as [|c p]; [contradiction|].
  assert (Hc : wf_codec c) by (apply H; left; reflexivity).
  destruct Hc as (Hd & _ & _). unfold write_phase in E. cbn [map] in E.
  destruct (map write_codec p).
  - cbn in E. unfold write_codec in E. destruct (desc c); [contradiction|discriminate].
  - cbn in E. unfold write_codec in E. destruct (desc c); [contradiction|discriminate].
Qed.

(** Parsing what was written. *)
Theorem unpack_write v : wf v -> unpack (write v) = Some (phases_of v).
Proof.
  intros Hw. unfold unpack. rewrite (split_write v Hw).
  pose proof (proj1 (wf_alt v) Hw) as [Hne H].
  rewrite seg_loop_top by (apply map_neq_nil; exact Hne).
  rewrite !map_map.
  assert (E1 : map (fun s => split ":" (write_segment s)) v = map (map write_phase) v).
  { apply map_ext_in. intros s Hs. apply split_write_segment. apply H. exact Hs. }
  assert (E2 : map (fun x : a_segment => seg_roles (length (split ":" (write_segment x)))) v
             = map (fun s : a_segment => seg_roles (length s)) v).
  { apply map_ext_in. intros s Hs. rewrite split_write_segment by (apply H; exact Hs).
    rewrite map_length. reflexivity. }
  rewrite E1, E2. rewrite <- concat_map.
  assert (Hcat : forall p, In p (concat v) -> wf_phase p).
  { intros p Hp. apply in_concat in Hp as [s [Hs Hp]]. apply (H s Hs). exact Hp. }
  destruct (existsb _ _) eqn:E.
  - exfalso. apply existsb_exists in E as [p [Hp Hb]]. apply in_map_iff in Hp as [q [<- Hq]].
    pose proof (write_phase_nonempty q (Hcat q Hq)) as K. destruct (write_phase q); [contradiction|discriminate].
  - rewrite all_some_map with (g := write_phase).
    + rewrite phases_of_alt. reflexivity.
    + intros p Hp. rewrite split_write_phase by (apply Hcat; exact Hp).
      apply all_some_map. intros c Hc. apply mk_codec_write. apply (Hcat p Hp). exact Hc.
Qed.

(** Whatever parses was written from a well-formed syntax tree. *)
Lemma Forall2_concat_split {A B} (R : A -> B -> Prop) (ll : list (list A)) r :
  Forall2 R (concat ll) r -> exists rr, r = concat rr /\ Forall2 (Forall2 R) ll rr.
Proof.
  revert r; induction ll as [|l ll IH]; cbn; intros r H.
  - inversion H; subst. exists []. split; [reflexivity|constructor].
  - apply Forall2_app_inv_l in H as (r1 & r2 & H1 & H2 & ->).
    apply IH in H2 as (rr & -> & H2). exists (r1 :: rr). split; [reflexivity|constructor; assumption].
Qed.

Lemma Forall2_in_r {A B} (R : A -> B -> Prop) l r b : Forall2 R l r -> In b r -> exists a, In a l /\ R a b.
Proof.
  induction 1 as [|x y l r Hxy H IH]; intros Hb; [destruct Hb|].
  destruct Hb as [<-|Hb]; [exists x; cbn; tauto|]. destruct (IH Hb) as [a [Ha Hr]]. exists a. cbn. tauto.
Qed.

Lemma Forall2_map_eq {A B C} (R : A -> B -> Prop) (f : B -> C) (g : A -> C) l r :
  Forall2 R l r -> (forall a b, In a l -> R a b -> f b = g a) -> map f r = map g l.
Proof.
  induction 1 as [|x y l r Hxy H IH]; intros K; cbn; [reflexivity|].
  f_equal; [apply K; [left; reflexivity|exact Hxy]|]. apply IH. intros a b Ha. apply K. right. exact Ha.
Qed.

Lemma Forall2_len {A B} (R : A -> B -> Prop) l r : Forall2 R l r -> length l = length r.
Proof. induction 1; cbn; congruence. Qed.

Theorem unpack_inv s ps : unpack s = Some ps -> exists v, wf v /\ write v = s /\ ps = phases_of v.
Proof.
  unfold unpack. rewrite seg_loop_top by apply split_nonempty.
  destruct (existsb _ _) eqn:E; [discriminate|].
  destruct (all_some _) as [css|] eqn:Ea; [|discriminate]. intros [= <-].
  apply all_some_inv in Ea. apply Forall2_concat_split in Ea as (v & -> & Hv).
  exists v.
  (* facts about each level *)
  assert (Hcodec : forall seg cs p, In p (split ":" seg) ->
            all_some (map mk_codec (split "," p)) = Some cs -> map write_codec cs = split "," p).
  { intros seg cs p Hp Hc. apply all_some_inv in Hc.
    rewrite <- (map_id (split "," p)). eapply Forall2_map_eq; [exact Hc|].
    intros a b _ Hab. apply mk_codec_inv in Hab. tauto. }
  assert (Hseg0 : Forall2 (fun seg av => Forall2 (fun p cs => all_some (map mk_codec (split "," p)) = Some cs) (split ":" seg) av)
                   (split "|" s) v).
  { clear -Hv. revert v Hv. induction (split "|" s) as [|x l IH]; intros v Hv; inversion Hv; subst; constructor; auto. }
  assert (Hphase : forall seg cs p, In p (split ":" seg) ->
            all_some (map mk_codec (split "," p)) = Some cs -> write_phase cs = p).
  { intros seg cs p Hp Hc. unfold write_phase. rewrite (Hcodec seg cs p Hp Hc). apply sepby_split. }
  assert (Hseg : forall seg av,
            Forall2 (fun p cs => all_some (map mk_codec (split "," p)) = Some cs) (split ":" seg) av -> write_segment av = seg).
  { intros seg av Hf. unfold write_segment. rewrite <- (sepby_split ":" seg). f_equal.
    rewrite <- (map_id (split ":" seg)). eapply Forall2_map_eq; [exact Hf|].
    intros p cs Hp Hc. eapply Hphase; eauto. }
  split; [|split].
  - (* wf *)
    split.
    + intros ->. inversion Hseg0. eapply split_nonempty; symmetry; eassumption.
    + intros av Hav. destruct (Forall2_in_r _ _ _ _ Hseg0 Hav) as [seg [Hin Hf]]. split.
      * intros ->. inversion Hf. eapply split_nonempty; symmetry; eassumption.
      * intros cs Hcs. destruct (Forall2_in_r _ _ _ _ Hf Hcs) as [p [Hp Hc]].
        apply all_some_inv in Hc. split.
        -- intros ->. inversion Hc. eapply split_nonempty; symmetry; eassumption.
        -- intros c Hic. destruct (Forall2_in_r _ _ _ _ Hc Hic) as [t [Ht Hm]].
           apply mk_codec_inv in Hm as (Hw & Hne & Hh).
           assert (Hfree : free_of ["|"; ":"; ","]%char (write_codec c)).
           { rewrite Hw. intros x Hx Hi. cbn in Hx. destruct Hx as [<-|[<-|[<-|[]]]].
             - apply (split_free _ _ _ Hin). eapply in_split_in; [exact Hp|]. eapply in_split_in; eauto.
             - apply (split_free _ _ _ Hp). eapply in_split_in; eauto.
             - apply (split_free _ _ _ Ht). exact Hi. }
           split; [exact Hne|]. split.
           ++ intros x Hx Hi. destruct Hx as [<-|[<-|[<-|[<-|[]]]]];
                try (exact (Hh Hi));
                (eapply Hfree; [cbn; tauto|unfold write_codec; apply in_or_app; left; exact Hi]) || idtac.
              all: match goal with H : In ?x _ |- _ => apply (Hfree x); [cbn; tauto | unfold write_codec; apply in_or_app; left; exact H] end.
           ++ intros a Ha x Hx Hi. apply (Hfree x Hx). unfold write_codec. rewrite Ha.
              apply in_or_app. right. right. exact Hi.
  - (* write *)
    unfold write. rewrite <- (sepby_split "|" s). f_equal. rewrite <- (map_id (split "|" s)).
    eapply Forall2_map_eq; [exact Hseg0|]. intros seg av _ Hf. apply Hseg. exact Hf.
  - rewrite phases_of_alt. f_equal. f_equal. f_equal. symmetry.
    eapply Forall2_map_eq; [exact Hseg0|]. intros seg av _ Hf. f_equal.
    symmetry. eapply Forall2_len. exact Hf.
Qed.

(** Packing. *)
Lemma emit_members_sepby a ms : ms <> [] ->
  emit_members a ms = sepby "," (map (fun t => t ++ arg_suffix a t) ms).
Proof.
  induction ms as [|t ms IH]; [contradiction|]. intros _. destruct ms as [|u ms]; [reflexivity|].
  cbn [emit_members map]. rewrite sepby_cons by discriminate. cbn [emit_members map] in IH.
  rewrite <- IH by discriminate. rewrite <- app_assoc. reflexivity.
Qed.

Lemma has_char_in c s : has_char c s = true <-> In c s.
Proof.
  unfold has_char. rewrite existsb_exists. split.
  - intros [x [Hx E]]. apply Ascii.eqb_eq in E. subst. exact Hx.
  - intros H. exists c. split; [exact H|apply Ascii.eqb_refl].
Qed.

Lemma has_char_false c s : has_char c s = false <-> ~ In c s.
Proof. rewrite <- has_char_in. destruct (has_char c s); intuition discriminate. Qed.

Lemma emit_codec_wf c : wf_codec c -> emit_codec c = write_codec (norm_codec c).
Proof.
  intros (Hne & Hf & _). unfold emit_codec.
  rewrite split_free_id by (apply Hf; cbn; tauto). cbn [emit_members].
  unfold write_codec, norm_codec. cbn [desc argv]. f_equal.
  unfold arg_suffix. destruct (argv c) as [[|x a]|]; try reflexivity.
  assert (has_char "#" (desc c) = false) as -> by (apply has_char_false, Hf; cbn; tauto). reflexivity.
Qed.

Lemma emit_codecs_sepby cs : cs <> [] -> emit_codecs true cs = sepby "," (map emit_codec cs).
Proof.
  destruct cs as [|c cs]; [contradiction|]. intros _. cbn [emit_codecs app map].
  revert c. induction cs as [|d cs IH]; intros c.
  - cbn. apply app_nil_r.
  - cbn [map]. rewrite sepby_cons by discriminate. cbn [emit_codecs app]. f_equal. f_equal. apply IH.
Qed.

Definition norm_phase (p : a_phase) : a_phase := map norm_codec p.

Lemma emit_codecs_wf p : wf_phase p -> emit_codecs true p = write_phase (norm_phase p).
Proof.
  intros [Hne H]. rewrite emit_codecs_sepby by exact Hne. unfold write_phase, norm_phase.
  rewrite map_map. f_equal. apply map_ext_in. intros c Hc. apply emit_codec_wf. apply H. exact Hc.
Qed.

(** text following the first segment *)
Fixpoint tail_text (v : a_conv) : str :=
  match v with
  | [] => []
  | [p] :: r => ":"%char :: write_phase p ++ tail_text r
  | s :: r => "|"%char :: write_segment s ++ tail_text r
  end.

Lemma tail_text_cons s r : tail_text (s :: r) =
  match s with [p] => ":"%char :: write_phase p ++ tail_text r | _ => "|"%char :: write_segment s ++ tail_text r end.
Proof. destruct s as [|p [|q s]]; reflexivity. Qed.

Lemma write_segment_snoc s p : s <> [] -> write_segment (s ++ [p]) = write_segment s ++ ":"%char :: write_phase p.
Proof.
  unfold write_segment. induction s as [|q s IH]; [contradiction|]. intros _.
  destruct s as [|r s]; [reflexivity|].
  cbn [app map]. rewrite sepby_cons by discriminate. cbn [app map] in IH. rewrite IH by discriminate.
  rewrite (sepby_cons _ (write_phase q)) by discriminate. rewrite <- app_assoc. reflexivity.
Qed.

Lemma absorb_cons cur s rest : absorb cur (s :: rest) =
  match s with [p] => absorb (cur ++ [p]) rest | _ => cur :: absorb s rest end.
Proof. destruct s as [|p [|q s]]; reflexivity. Qed.

Lemma absorb_nonempty cur rest : absorb cur rest <> [].
Proof.
  revert cur; induction rest as [|s rest IH]; intros cur; [discriminate|].
  rewrite absorb_cons. destruct s as [|p [|q s]]; [discriminate|apply IH|discriminate].
Qed.

Lemma write_cons s v : v <> [] -> write (s :: v) = write_segment s ++ "|"%char :: write v.
Proof. intros H. unfold write. cbn [map]. rewrite sepby_cons; [reflexivity|apply map_neq_nil; exact H]. Qed.

Lemma write_absorb cur rest : cur <> [] -> (forall s, In s rest -> s <> []) ->
  write (absorb cur rest) = write_segment cur ++ tail_text rest.
Proof.
  revert cur; induction rest as [|s rest IH]; intros cur Hc Hr.
  - cbn. rewrite app_nil_r. reflexivity.
  - rewrite absorb_cons, tail_text_cons. 
    assert (Hr' : forall s', In s' rest -> s' <> []) by (intros s' Hs; apply Hr; right; exact Hs).
    assert (Hs : s <> []) by (apply Hr; left; reflexivity).
    destruct s as [|p [|q s]]; [contradiction| |].
    + rewrite IH; [|intros K; destruct cur; discriminate K|exact Hr'].
      rewrite write_segment_snoc by exact Hc. rewrite <- app_assoc. reflexivity.
    + rewrite write_cons by apply absorb_nonempty. rewrite IH; [reflexivity|discriminate|exact Hr'].
Qed.

Lemma emit_phases_app b ps qs : ps <> [] -> emit_phases b (ps ++ qs) = emit_phases b ps ++ emit_phases false qs.
Proof.
  revert b; induction ps as [|p ps IH]; intros b H; [contradiction|]. cbn [app emit_phases].
  destruct ps as [|r ps]; [cbn; rewrite app_nil_r, <- app_assoc; reflexivity|].
  rewrite IH by discriminate. rewrite !app_assoc. reflexivity.
Qed.

(** emission of the phases of one segment, without the leading separator *)
Lemma emit_rest_roles (ps : list a_phase) (ts : list ptype) :
  (forall t, In t ts -> t = INTER \/ t = TO) -> length ts = length ps ->
  (forall p, In p ps -> wf_phase p) ->
  emit_phases false (map (fun tc => mkPhase (fst tc) (snd tc)) (combine ts ps))
  = concat (map (fun p => ":"%char :: write_phase (norm_phase p)) ps).
Proof.
  revert ts; induction ps as [|p ps IH]; intros [|t ts] Ht Hl Hw; cbn in Hl; try discriminate; [reflexivity|].
  cbn [combine map emit_phases fst snd ptyp codecs concat].
  rewrite IH; [|intros t' H; apply Ht; right; exact H|lia|intros q Hq; apply Hw; right; exact Hq].
  rewrite emit_codecs_wf by (apply Hw; left; reflexivity).
  destruct (Ht t) as [-> | ->]; [left; reflexivity| |]; reflexivity.
Qed.

Lemma write_segment_concat p ps :
  write_segment (p :: ps) = write_phase p ++ concat (map (fun q => ":"%char :: write_phase q) ps).
Proof.
  revert p; induction ps as [|q ps IH]; intros p; [cbn; rewrite app_nil_r; reflexivity|].
  unfold write_segment in *. cbn [map]. rewrite sepby_cons by discriminate. cbn [map] in IH. rewrite IH. reflexivity.
Qed.

Lemma combine_cons_roles p s :
  exists t ts, seg_roles (length (p :: s : a_segment)) = t :: ts /\ length ts = length s /\ (forall t', In t' ts -> t' = INTER \/ t' = TO) /\ (t = match s with [] => INTER | _ => FROM end).
Proof.
  destruct s as [|q s].
  - exists INTER, []. cbn. repeat split; intros ? [].
  - cbn [length]. rewrite seg_roles_SS. exists FROM, (repeat INTER (length s) ++ [TO]).
    repeat split.
    + rewrite app_length, repeat_length. cbn. lia.
    + intros t' H. apply in_app_or in H as [H|[<-|[]]]; [left; apply repeat_spec in H; exact H|right; reflexivity].
Qed.

Lemma emit_segment b s : wf_segment s ->
  emit_phases b (phases_of_segment s) =
  (if b then [] else [match s with [_] => ":"%char | _ => "|"%char end]) ++ write_segment (map norm_phase s).
Proof.
  intros [Hne H]. rewrite phases_of_segment_alt. destruct s as [|p s]; [contradiction|].
  destruct (combine_cons_roles p s) as (t & ts & E & Hl & Hts & Ht). rewrite E.
  cbn [combine map emit_phases fst snd ptyp codecs].
  rewrite emit_rest_roles; [|exact Hts|exact Hl|intros q Hq; apply H; right; exact Hq].
  rewrite emit_codecs_wf by (apply H; left; reflexivity).
  rewrite write_segment_concat, map_map.
  destruct b; [reflexivity|]. rewrite Ht. destruct s; reflexivity.
Qed.

Lemma phases_of_segment_nonempty s : s <> [] -> phases_of_segment s <> [].
Proof. destruct s as [|p s]; [contradiction|]. discriminate. Qed.

Lemma emit_tail v : (forall s, In s v -> wf_segment s) ->
  emit_phases false (phases_of v) = tail_text (map (map norm_phase) v).
Proof.
  induction v as [|s v IH]; intros H; [reflexivity|].
  unfold phases_of. cbn [map concat]. fold (phases_of v).
  assert (Hs : wf_segment s) by (apply H; left; reflexivity).
  rewrite emit_phases_app by (apply phases_of_segment_nonempty; apply Hs).
  rewrite emit_segment by exact Hs. rewrite IH by (intros s' Hs'; apply H; right; exact Hs').
  rewrite tail_text_cons. destruct s as [|p [|q s]]; [destruct Hs; contradiction| |]; reflexivity.
Qed.

Theorem pack_phases_of v : wf v -> pack (phases_of v) = write (normal v).
Proof.
  intros Hw. apply wf_alt in Hw as [Hne H]. destruct v as [|s v]; [contradiction|].
  assert (Hs : wf_segment s) by (apply H; left; reflexivity).
  unfold pack, phases_of. cbn [map concat]. fold (phases_of v).
  rewrite emit_phases_app by (apply phases_of_segment_nonempty; apply Hs).
  rewrite emit_segment by exact Hs. rewrite emit_tail by (intros s' Hs'; apply H; right; exact Hs').
  unfold normal, norm_args. cbn [map]. rewrite write_absorb.
  - reflexivity.
  - apply map_neq_nil. apply Hs.
  - intros s' Hs'. apply in_map_iff in Hs' as [s'' [<- Hi]]. apply map_neq_nil. apply H. right. exact Hi.
Qed.

Theorem pack_unpack_normal s ps : unpack s = Some ps ->
  exists v, wf v /\ write v = s /\ pack ps = write (normal v).
Proof.
  intros E. apply unpack_inv in E as (v & Hw & Es & ->). exists v. split; [exact Hw|]. split; [exact Es|].
  apply pack_phases_of. exact Hw.
Qed.

(** normal forms are well formed and stable *)
Lemma norm_codec_wf c : wf_codec c -> wf_codec (norm_codec c).
Proof.
  intros (H1 & H2 & H3). repeat split; cbn [desc argv norm_codec]; try assumption.
  intros a Ha. destruct (argv c) as [[|x b]|]; try discriminate. apply H3. exact Ha.
Qed.
Lemma norm_phase_wf p : wf_phase p -> wf_phase (norm_phase p).
Proof.
  intros [H1 H2]. split; [apply map_neq_nil; exact H1|].
  intros c Hc. apply in_map_iff in Hc as [d [<- Hd]]. apply norm_codec_wf, H2, Hd.
Qed.
Lemma norm_seg_wf s : wf_segment s -> wf_segment (map norm_phase s).
Proof.
  intros [H1 H2]. split; [apply map_neq_nil; exact H1|].
  intros c Hc. apply in_map_iff in Hc as [d [<- Hd]]. apply norm_phase_wf, H2, Hd.
Qed.
Lemma absorb_wf cur rest : wf_segment cur -> (forall s, In s rest -> wf_segment s) ->
  forall s, In s (absorb cur rest) -> wf_segment s.
Proof.
  revert cur; induction rest as [|r rest IH]; intros cur Hc Hr s Hs.
  - destruct Hs as [<-|[]]. exact Hc.
  - rewrite absorb_cons in Hs.
    assert (Hr' : forall s, In s rest -> wf_segment s) by (intros x Hx; apply Hr; right; exact Hx).
    assert (Hrr : wf_segment r) by (apply Hr; left; reflexivity).
    destruct r as [|p [|q r]].
    + destruct Hrr; contradiction.
    + apply (IH (cur ++ [p])); [|exact Hr'|exact Hs]. destruct Hc as [H1 H2]. split.
      * intros K; destruct cur; discriminate K.
      * intros x Hx. apply in_app_or in Hx as [Hx|[<-|[]]]; [apply H2; exact Hx|]. apply Hrr. left. reflexivity.
    + destruct Hs as [<-|Hs]; [exact Hc|]. eapply IH; eauto.
Qed.
Lemma normal_wf v : wf v -> wf (normal v).
Proof.
  intros Hw. apply wf_alt in Hw as [Hne H]. apply wf_alt. destruct v as [|s v]; [contradiction|].
  unfold normal, norm_args. cbn [map]. split; [apply absorb_nonempty|].
  apply absorb_wf.
  - apply norm_seg_wf. apply H. left. reflexivity.
  - intros x Hx. apply in_map_iff in Hx as [y [<- Hy]]. apply norm_seg_wf. apply H. right. exact Hy.
Qed.

Lemma absorb_stable cur rest : (forall s, In s rest -> length s <> 1) -> absorb cur rest = cur :: rest.
Proof.
  revert cur; induction rest as [|r rest IH]; intros cur H; [reflexivity|].
  rewrite absorb_cons. destruct r as [|p [|q r]].
  - f_equal. apply IH. intros x Hx. apply H. right. exact Hx.
  - exfalso. apply (H [p]); [left; reflexivity|reflexivity].
  - f_equal. apply IH. intros x Hx. apply H. right. exact Hx.
Qed.
Lemma absorb_head cur rest : exists ext tl', absorb cur rest = (cur ++ ext) :: tl'.
Proof.
  revert cur; induction rest as [|r rest IH]; intros cur; [exists [], []; rewrite app_nil_r; reflexivity|].
  rewrite absorb_cons. destruct r as [|p [|q r]].
  - exists [], (absorb [] rest). rewrite app_nil_r. reflexivity.
  - destruct (IH (cur ++ [p])) as (e & t & E). exists ([p] ++ e), t. rewrite E, <- app_assoc. reflexivity.
  - exists [], (absorb (p :: q :: r) rest). rewrite app_nil_r. reflexivity.
Qed.

Lemma absorb_tail_long cur rest : (forall s, In s rest -> s <> []) ->
  forall s, In s (tl (absorb cur rest)) -> length s <> 1.
Proof.
  revert cur; induction rest as [|r rest IH]; intros cur Hne s Hs; [destruct Hs|].
  rewrite absorb_cons in Hs.
  assert (Hne' : forall s, In s rest -> s <> []) by (intros x Hx; apply Hne; right; exact Hx).
  destruct r as [|p [|q r]].
  - exfalso. apply (Hne []); [left|]; reflexivity.
  - eapply IH; eauto.
  - cbn [tl] in Hs. destruct (absorb_head (p :: q :: r) rest) as (e & t & E).
    rewrite E in Hs. destruct Hs as [<-|Hs]; [cbn; lia|].
    apply (IH (p :: q :: r) Hne'). rewrite E. exact Hs.
Qed.

Lemma norm_codec_idem c : norm_codec (norm_codec c) = norm_codec c.
Proof. destruct c as [d [[|x a]|]]; reflexivity. Qed.

Lemma absorb_map (f : a_phase -> a_phase) cur rest : 
  map (map f) (absorb cur rest) = absorb (map f cur) (map (map f) rest).
Proof.
  revert cur; induction rest as [|r rest IH]; intros cur; [reflexivity|].
  cbn [map]. rewrite !absorb_cons. destruct r as [|p [|q r]]; cbn [map].
  - f_equal. apply IH.
  - rewrite IH, map_app. reflexivity.
  - f_equal. apply IH.
Qed.

Lemma norm_phase_idem p : norm_phase (norm_phase p) = norm_phase p.
Proof. unfold norm_phase. rewrite map_map. apply map_ext. apply norm_codec_idem. Qed.

Lemma normal_idem v : wf v -> normal (normal v) = normal v.
Proof.
  intros Hw. apply wf_alt in Hw as [Hne H]. destruct v as [|s v]; [contradiction|].
  set (s' := map norm_phase s). set (v' := map (map norm_phase) v).
  change (normal (s :: v)) with (absorb s' v').
  assert (Hv' : forall x, In x v' -> x <> []).
  { intros x Hx. apply in_map_iff in Hx as [y [<- Hy]]. apply map_neq_nil. apply H. right. exact Hy. }
  assert (E1 : map norm_phase s' = s').
  { unfold s'. rewrite map_map. apply map_ext. apply norm_phase_idem. }
  assert (E2 : map (map norm_phase) v' = v').
  { unfold v'. rewrite map_map. apply map_ext. intros x. rewrite map_map. apply map_ext. apply norm_phase_idem. }
  pose proof (absorb_tail_long s' v' Hv') as K.
  assert (E3 : norm_args (absorb s' v') = absorb s' v').
  { change (norm_args (absorb s' v')) with (map (map norm_phase) (absorb s' v')).
    rewrite absorb_map, E1, E2. reflexivity. }
  unfold normal. rewrite E3.
  destruct (absorb s' v') as [|z zs] eqn:E; [reflexivity|].
  apply absorb_stable. exact K.
Qed.

Theorem pack_unpack_idem s ps ps' : unpack s = Some ps -> unpack (pack ps) = Some ps' -> pack ps' = pack ps.
Proof.
  intros E E'. apply unpack_inv in E as (v & Hw & Es & ->).
  rewrite (pack_phases_of v Hw) in *.
  rewrite (unpack_write _ (normal_wf v Hw)) in E'. injection E' as <-.
  rewrite (pack_phases_of _ (normal_wf v Hw)). rewrite normal_idem by exact Hw. reflexivity.
Qed.

Lemma unpack_pack_some s ps : unpack s = Some ps -> exists ps', unpack (pack ps) = Some ps'.
Proof.
  intros E. apply unpack_inv in E as (v & Hw & Es & ->). rewrite (pack_phases_of v Hw).
  eexists. apply unpack_write. apply normal_wf. exact Hw.
Qed.

(** exact round trip *)
Definition no_empty_arg (v : a_conv) := forall s p c, In s v -> In p s -> In c p -> argv c <> Some [].
Lemma normal_id v : no_empty_arg v -> (forall s, In s (tl v) -> length s <> 1) -> normal v = v.
Proof.
  intros Ha Hl. destruct v as [|s v]; [reflexivity|]. unfold normal.
  assert (E : norm_args (s :: v) = s :: v).
  { unfold norm_args. rewrite <- (map_id (s :: v)) at 2. apply map_ext_in. intros x Hx.
    rewrite <- (map_id x) at 2. apply map_ext_in. intros p Hp.
    rewrite <- (map_id p) at 2. apply map_ext_in. intros c Hc.
    specialize (Ha x p c Hx Hp Hc). destruct c as [d [[|y a]|]]; try reflexivity. exfalso; apply Ha; reflexivity. }
  rewrite E. apply absorb_stable. exact Hl.
Qed.

Theorem pack_unpack_exact v ps : wf v -> no_empty_arg v -> (forall s, In s (tl v) -> length s <> 1) ->
  unpack (write v) = Some ps -> pack ps = write v.
Proof.
  intros Hw Ha Hl E. rewrite (unpack_write v Hw) in E. injection E as <-.
  rewrite (pack_phases_of v Hw). rewrite normal_id by assumption. reflexivity.
Qed.

(** buffer size *)
Lemma sepby_length c l : l <> [] -> length (sepby c l) + 1 = fold_right (fun s n => length s + 1 + n) 0 l.
Proof.
  induction l as [|x l IH]; [contradiction|]. intros _. destruct l as [|y l].
  - cbn. lia.
  - rewrite sepby_cons by discriminate. rewrite app_length. cbn [length fold_right].
    cbn [fold_right] in IH. assert (length (sepby c (y :: l)) + 1 = length y + 1 + fold_right (fun s n => length s + 1 + n) 0 l) as K
      by (apply IH; discriminate). lia.
Qed.

Lemma length_split c s : length (split c s) = length (filter (Ascii.eqb c) s) + 1.
Proof.
  induction s as [|x s IH]; [reflexivity|]. cbn [split filter].
  rewrite (Ascii.eqb_sym c x). destruct (Ascii.eqb x c); cbn [length].
  - rewrite IH. reflexivity.
  - destruct (split c s) as [|p ps] eqn:E; [exfalso; eapply split_nonempty; eauto|]. cbn [length] in *. exact IH.
Qed.

Lemma arg_suffix_length a t : length (arg_suffix a t) <= match a with Some x => length x + 1 | None => 0 end.
Proof. destruct a as [[|x a]|]; cbn; lia. Qed.

Lemma fold_len_members a ms :
  fold_right (fun s n => length s + 1 + n) 0 (map (fun t => t ++ arg_suffix a t) ms)
  <= fold_right (fun s n => length s + 1 + n) 0 ms
     + length ms * match a with Some x => length x + 1 | None => 0 end.
Proof.
  induction ms as [|t ms IH]; cbn [map fold_right length]; [lia|].
  rewrite app_length. pose proof (arg_suffix_length a t). lia.
Qed.

Lemma emit_codec_length c : length (emit_codec c) + 1 <= codec_len c.
Proof.
  unfold emit_codec, codec_len. rewrite emit_members_sepby by apply split_nonempty.
  rewrite sepby_length by (apply map_neq_nil, split_nonempty).
  pose proof (fold_len_members (argv c) (split "," (desc c))) as H.
  rewrite <- (sepby_length "," (split "," (desc c))) in H by apply split_nonempty.
  rewrite sepby_split, length_split in H. unfold commas.
  destruct (argv c) as [a|]; lia.
Qed.

Lemma emit_codecs_length b cs : 
  length (emit_codecs b cs) + (if b then match cs with [] => 0 | _ => 1 end else 0)
  <= fold_right (fun c m => codec_len c + m) 0 cs.
Proof.
  revert b; induction cs as [|c cs IH]; intros b; cbn [emit_codecs fold_right]; [destruct b; cbn; lia|].
  rewrite !app_length. specialize (IH false). cbn in IH. pose proof (emit_codec_length c).
  destruct b; cbn [length]; lia.
Qed.

Lemma pack_len_acc (cs : list codec) n :
  fold_right (fun c m => codec_len c + m) n cs = fold_right (fun c m => codec_len c + m) 0 cs + n.
Proof. induction cs as [|c cs IH]; cbn; [reflexivity|]. rewrite IH. lia. Qed.

Lemma emit_phases_length b ps : (forall p, In p ps -> codecs p <> []) ->
  length (emit_phases b ps) + (if b then match ps with [] => 0 | _ => 1 end else 0) <= pack_len ps.
Proof.
  revert b; induction ps as [|p ps IH]; intros b H.
  - destruct b; cbn; lia.
  - cbn [emit_phases]. unfold pack_len. cbn [fold_right]. fold (pack_len ps). rewrite pack_len_acc.
    rewrite !app_length. specialize (IH false (fun q Hq => H q (or_intror Hq))). cbn in IH.
    pose proof (emit_codecs_length true (codecs p)) as K.
    assert (codecs p <> []) by (apply H; left; reflexivity). destruct (codecs p); [contradiction|].
    assert (length (sep_of (ptyp p)) <= 1) by (destruct (ptyp p); cbn; lia).
    destruct b; cbn [length] in *; lia.
Qed.

Theorem pack_fits ps : ps <> [] -> (forall p, In p ps -> codecs p <> []) ->
  length (pack ps) + 1 <= pack_len ps.
Proof.
  intros Hne H. pose proof (emit_phases_length true ps H) as K. unfold pack. destruct ps; [contradiction|exact K].
Qed.

(** alias expansion distributes arguments *)
Lemma give_arg_write a c : wf_codec c -> write_codec (give_arg a c) = write_codec c ++ arg_suffix (Some a) (write_codec c).
Proof.
  intros (Hne & Hf & _). destruct a as [|x a]; [cbn; rewrite app_nil_r; reflexivity|].
  destruct c as [d [b|]]; unfold give_arg, write_codec, arg_suffix; cbn [desc argv].
  - assert (has_char "#" (d ++ "#"%char :: b) = true) as ->.
    { apply has_char_in. apply in_or_app. right. left. reflexivity. }
    rewrite <- app_assoc. reflexivity.
  - rewrite app_nil_r. assert (has_char "#" d = false) as ->.
    { apply has_char_false. apply Hf. cbn. tauto. }
    reflexivity.
Qed.

Lemma emit_codec_alias cs a : wf_phase cs ->
  emit_codec (mkCodec (write_phase cs) (Some a)) = write_phase (map (give_arg a) cs).
Proof.
  intros Hw. unfold emit_codec. cbn [desc argv]. rewrite split_write_phase by exact Hw.
  rewrite emit_members_sepby by (apply map_neq_nil; apply Hw).
  unfold write_phase. rewrite !map_map. f_equal. apply map_ext_in. intros c Hc.
  rewrite give_arg_write; [reflexivity|]. apply Hw. exact Hc.
Qed.

Lemma emit_codec_alias_none cs : wf_phase cs ->
  emit_codec (mkCodec (write_phase cs) None) = write_phase cs.
Proof.
  intros Hw. unfold emit_codec. cbn [desc argv]. rewrite split_write_phase by exact Hw.
  rewrite emit_members_sepby by (apply map_neq_nil; apply Hw).
  unfold write_phase. f_equal. rewrite map_map. apply map_ext. intros. apply app_nil_r.
Qed.

(** Invariant of one phase of the engine and what one local step does to it. *)
From Verif Require Import Base Types M_Engine S_Engine P_Trans.


Definition kind_of (t : ptype) : kind := match t with FROM => KFrom | TO => KTo | _ => KInter end.

Section E.
Context {P : Type}.
Notation ecodec := (ecodec P). Notation ephase := (ephase P). Notation inst := (inst P).

Arguments p_type {P}. Arguments p_codecs {P}. Arguments p_index {P}. Arguments p_curr {P}. Arguments p_i {P}.
Arguments p_bak {P}. Arguments p_headlen {P}. Arguments p_match_data {P}. Arguments p_state {P}. Arguments p_offset {P}.
Arguments p_fmatch {P}. Arguments p_fpending {P}. Arguments p_floop {P}. Arguments p_queue {P}. Arguments p_tail {P}.
Arguments e_tab {P}. Arguments e_conv {P}. Arguments e_flush {P}. Arguments e_init {P}. Arguments e_priv {P}.
Arguments cb_priv {P}. Arguments cb_i {P}. Arguments cb_status {P}. Arguments cb_out {P}.
Arguments local_step {P}. Arguments from_step {P}. Arguments data_step {P}. Arguments LRes {P}. Arguments LUB {P}.
Arguments set_priv {P}. Arguments this_codec {P}. Arguments reset {P}. Arguments listfree {P}. Arguments app_tail {P}.
Arguments feed {P}. Arguments bytes_loop {P}. Arguments codecn {P}. Arguments is_to {P}.

(** ** What is required of a codec *)

(** one table transition on the bare fields *)
Definition feed1 (tab : table) (s : tstate) (off : nat) (lb : bool) (v : N) : option (tstate * nat) :=
  match get_offset s v with
  | None => None
  | Some next =>
      let off' := match next with O => if lb then off else 0 | S _ => next end in
      match read_state tab off' with
      | None => None
      | Some s' => Some (s', off')
      end
  end.

(** a decoder reading the byte at position i of datum d, callback included *)
Definition fread (c : ecodec) (s : tstate) (off : nat) (lb : bool) (p : P) (d : datum) (i : nat) (b : N)
  : option (tstate * nat * bool * P * nat * list datum) :=
  match feed1 (e_tab c) s off lb b with
  | None => None
  | Some (s', off') =>
      match t_status s' with
      | SUBROUTINE | SUBMATCH_SUBROUTINE =>
          match e_conv c with
          | None => None
          | Some f => let r := f p d i (t_data s') in
                      Some (with_status s' (cb_status r), off', true, cb_priv r, cb_i r, cb_out r)
          end
      | _ => Some (s', off', lb, p, i, [])
      end
  end.

Definition byt (bs : list N) : list datum := map (fun b => [b]) bs.

Definition StT := list datum -> tstate -> nat -> bool -> P -> Prop.

(** [k_clean]: the private state the codec must have whenever it is (re)started.
    [k_St pre s off lb p]: the codec's state after reading [pre]. *)
Record codec_spec := mkKs { k_v : csem; k_clean : P -> Prop; k_St : StT }.

Record from_ok (c : ecodec) (k : codec_spec) : Prop := {
  fo_root : exists s0, read_state (e_tab c) 0 = Some s0 /\ forall off p, k_clean k p -> k_St k [] s0 off false p;
  fo_step : forall pre s off lb p d i b, k_St k pre s off lb p -> nth_error d i = Some b ->
    exists s' off' lb' p' i' out, fread c s off lb p d i b = Some (s', off', lb', p', i', out) /\
    exists R, conts (k_v k) pre R /\
    match t_status s' with
    | DEADEND => out = [] /\ k_clean k p' /\
        exists y R2, byt (skipn i d) = R ++ y :: R2 /\ k_v k (pre ++ R ++ [y]) = VDead
    | MATCH => k_clean k p' /\ S i' <= length d /\
        exists y, byt (skipn i d) = R ++ y :: byt (skipn (S i') d) /\ k_v k (pre ++ R ++ [y]) = VMatch (out ++ t_data s')
    | NEXTPHASE => k_clean k p' /\ S i' <= length d /\
        exists y, byt (skipn i d) = R ++ y :: byt (skipn (S i') d) /\ k_v k (pre ++ R ++ [y]) = VMatch out
    | SUBMATCH => R = [] /\ out = [] /\ i' = i /\ t_data s' <> [] /\
        k_v k (pre ++ [[b]]) = VSub (t_data s') /\ k_St k (pre ++ [[b]]) s' off' lb' p'
    | CONTINUE => out = [] /\ R <> [] /\ i <= i' /\ byt (skipn i d) = R ++ byt (skipn (S i') d) /\
        k_St k (pre ++ R) s' off' lb' p'
    | _ => False
    end
}.

(** the byte loop of an INTER/TO phase on the bare fields *)
Fixpoint bl (tab : table) (s : tstate) (off : nat) (lb : bool) (bs : list N) : option (tstate * nat * bool * bool) :=
  match bs with
  | [] => Some (s, off, lb, false)
  | b :: bs' =>
      match feed1 tab s off lb b with
      | None => None
      | Some (s', off') =>
          match t_status s' with
          | DEADEND => Some (s', off', lb, true)
          | SUBROUTINE | SUBMATCH_SUBROUTINE => bl tab s' off' true bs'
          | _ => bl tab s' off' lb bs'
          end
      end
  end.

Record data_ok (to : bool) (c : ecodec) (k : codec_spec) : Prop := {
  do_root : exists s0, read_state (e_tab c) 0 = Some s0 /\ forall off p, k_clean k p -> k_St k [] s0 off false p;
  do_shape : forall pre s off lb p x, k_St k pre s off lb p -> k_St k pre (with_status s x) off lb p;
  do_step : forall pre s off lb p d, d <> [] -> k_St k pre s off lb p ->
    match bl (e_tab c) s off lb d with
    | None => False
    | Some (_, _, _, true) => k_v k (pre ++ [d]) = VDead /\ k_clean k p
    | Some (s', off', lb', false) =>
        match t_status s' with
        | MATCH => k_v k (pre ++ [d]) = VMatch (t_data s') /\ k_clean k p
        | SUBMATCH => t_data s' <> [] /\
            match feed1 (e_tab c) s' off' lb' 256 with
            | None => False
            | Some (s2, off2) =>
                match t_status s2 with
                | DEADEND => k_v k (pre ++ [d]) = VMatch (t_data s') /\ k_clean k p
                | _ => k_v k (pre ++ [d]) = VSub (t_data s') /\ k_St k (pre ++ [d]) s2 off2 lb' p
                end
            end
        | CONTINUE =>
            let lb2 := if to then false else lb' in
            match feed1 (e_tab c) s' off' lb2 256 with
            | None => False
            | Some (s2, off2) =>
                match t_status s2 with
                | DEADEND => k_v k (pre ++ [d]) = VDead /\ k_clean k p
                | _ => k_v k (pre ++ [d]) = VCont /\ k_St k (pre ++ [d]) s2 off2 lb2 p
                end
            end
        | SUBROUTINE | SUBMATCH_SUBROUTINE =>
            exists f, e_conv c = Some f /\ k_clean k (cb_priv (f p d (length d) (t_data s'))) /\
            match cb_status (f p d (length d) (t_data s')) with
            | DEADEND => cb_out (f p d (length d) (t_data s')) = [] /\ k_v k (pre ++ [d]) = VDead
            | NEXTPHASE => k_v k (pre ++ [d]) = VMatch (cb_out (f p d (length d) (t_data s')))
            | _ => False
            end
        | _ => False
        end
    end
}.

Definition codec_ok (t : ptype) (c : ecodec) (k : codec_spec) : Prop :=
  match t with
  | FROM => from_ok c k
  | INTER => data_ok false c k
  | TO => data_ok true c k
  | _ => False
  end.

Lemma from_ok_priv c k p : from_ok c k -> from_ok (set_priv c p) k.
Proof. intros [H1 H2]. constructor; assumption. Qed.
Lemma data_ok_priv to c k p : data_ok to c k -> data_ok to (set_priv c p) k.
Proof. intros [H1 H2 H3]. constructor; assumption. Qed.
Lemma codec_ok_priv t c k p : codec_ok t c k -> codec_ok t (set_priv c p) k.
Proof. destruct t; cbn; auto using from_ok_priv, data_ok_priv. Qed.

Lemma codec_ok_root t c k : codec_ok t c k ->
  exists s0, read_state (e_tab c) 0 = Some s0 /\ forall off p, k_clean k p -> k_St k [] s0 off false p.
Proof. destruct t; cbn; try contradiction; [apply fo_root|apply do_root|apply do_root]. Qed.

(** ** The invariant of one phase *)

(** the symbols still to come that the invariant must allow *)
Definition alw (fin : bool) (Y : list datum) : Prop := fin = true -> Y = [].

Definition sems (ks : list codec_spec) : list csem := map k_v ks.

Record pinv (fin mid : bool) (pv th : ephase) (ks : list codec_spec) (B pre : list datum) : Prop := {
  pi_tail : p_tail pv = length (p_queue pv);
  pi_codecs : Forall2 (codec_ok (p_type th)) (p_codecs th) ks;
  pi_clean : forall j c k, j <> p_index th -> nth_error (p_codecs th) j = Some c -> nth_error ks j = Some k -> k_clean k (e_priv c);
  pi_scan : exists c k best, nth_error (p_codecs th) (p_index th) = Some c /\ nth_error ks (p_index th) = Some k /\
      k_St k pre (p_state th) (p_offset th) (p_floop th) (e_priv c) /\
      reads (k_v k) pre best /\
      match best with
      | None => p_fmatch th = false
      | Some (_, d) => p_fmatch th = true /\ p_match_data th = d /\ d <> []
      end /\
      (* where the recorded match ends *)
      match best, p_type th with
      | None, _ => True
      | Some (nb, _), FROM => exists m n dm, p_bak th = S m /\ p_curr th = S n /\ m <= n /\ nth_error (p_queue pv) m = Some dm /\
          p_headlen th <= length dm /\ skipn nb B = byt (skipn (p_headlen th) dm ++ concat (skipn (S m) (p_queue pv)))
      | Some (nb, _), _ => exists m, p_bak th = S m /\ m < length (p_queue pv) /\
          nb = length (filter nonempty (firstn m (p_queue pv))) /\ filter nonempty (firstn m (p_queue pv)) = firstn nb B
      end;
  pi_prev : forall j k, j < p_index th -> nth_error ks j = Some k -> forall Y, alw fin Y -> scan (k_v k) [] (B ++ Y) None = None;
  pi_pend : p_fpending th = negb (match pre with [] => true | _ => false end);
  pi_k0 : p_index th = 0 \/ B <> [];
  pi_pos : match p_type th with
    | FROM =>
        p_headlen pv = 0 /\
        (p_fmatch th = false -> B = byt (skipn (p_headlen th) (concat (p_queue pv))) /\ p_headlen th <= length (hd [] (p_queue pv))) /\
        match p_curr th with
        | O => pre = [] /\ p_fmatch th = false
        | S n => exists d, nth_error (p_queue pv) n = Some d /\
                   B = pre ++ byt (skipn (p_i th) d ++ concat (skipn (S n) (p_queue pv))) /\
                   (mid = false -> skipn (p_i th) d = [])
        end
    | _ => p_curr th <= length (p_queue pv) /\ pre = filter nonempty (firstn (p_curr th) (p_queue pv)) /\
           B = filter nonempty (p_queue pv)
    end
}.

(** ** Measure of one phase *)
Definition wt (d : datum) : nat := match d with [] => 1 | _ => 2 end.
Definition unread (pv th : ephase) : nat :=
  match p_type th with
  | FROM => match p_curr th with
            | O => list_sum (map (fun d => S (length d)) (p_queue pv))
            | S n => (length (nth n (p_queue pv) []) - p_i th) + list_sum (map (fun d => S (length d)) (skipn (S n) (p_queue pv)))
            end
  | _ => list_sum (map wt (skipn (p_curr th) (p_queue pv)))
  end.
Definition pmeasure3 (pv th : ephase) (B : list datum) : list nat :=
  [length B; (if p_fmatch th then 0 else S (length (p_queue pv))); length (p_codecs th) - p_index th].
Definition pmeasure (pv th : ephase) (B : list datum) : list nat := pmeasure3 pv th B ++ [unread pv th].

(** lexicographic order on lists of the same length *)
Inductive lex : list nat -> list nat -> Prop :=
| lex_here a b l l' : a < b -> length l = length l' -> lex (a :: l) (b :: l')
| lex_next a l l' : lex l l' -> lex (a :: l) (a :: l').

(** ** Local executions *)
Inductive lsteps : ephase -> ephase -> lpc -> ephase -> ephase -> nat -> nat -> lgoto -> Prop :=
| ls_one pv th pc pv' th' ie oe g : local_step pv th pc = LRes pv' th' ie oe g -> lsteps pv th pc pv' th' ie oe g
| ls_more pv th pc pv1 th1 ie1 oe1 pc1 pv' th' ie oe g :
    local_step pv th pc = LRes pv1 th1 ie1 oe1 (Stay pc1) ->
    lsteps pv1 th1 pc1 pv' th' ie oe g ->
    lsteps pv th pc pv' th' (ie1 + ie) (oe1 + oe) g.

(** A phase as seen from the previous one: only list and tail may be changed by the next phase. *)
Definition same_ctl (a b : ephase) : Prop := b = set_queue P a (p_queue b) (p_tail b).

(** Static parts. *)
Definition same_static (a b : ephase) : Prop :=
  p_type a = p_type b /\ (p_type a <> FROM -> p_headlen a = p_headlen b) /\ length (p_codecs a) = length (p_codecs b).

(** What a bundle of local steps achieves. *)
Definition achieves_m (m : ephase -> ephase -> list datum -> list nat) (fin : bool) (pv th : ephase) (ks : list codec_spec) (B : list datum) (pc : lpc) : Prop :=
  exists pv' th' ie oe g, lsteps pv th pc pv' th' ie oe g /\
    same_ctl pv pv' /\ same_static th th' /\
    exists out0 out e B' pre' mid',
      p_queue th' = p_queue th ++ out0 /\ filter nonempty out0 = filter nonempty out /\ p_tail th' = length (p_queue th') /\
      pinv fin mid' pv' th' ks B' pre' /\
      (forall Y, alw fin Y ->
        trans (kind_of (p_type th)) (sems ks) (B ++ Y) =
          (out ++ fst (trans (kind_of (p_type th)) (sems ks) (B' ++ Y)), e + snd (trans (kind_of (p_type th)) (sems ks) (B' ++ Y)))) /\
      (ie, oe) = err_of (kind_of (p_type th)) e /\
      lex (m pv' th' B') (m pv th B) /\
      (p_type th = FROM -> length (p_queue pv') <= length (p_queue pv)) /\
      match g with
      | Stay LInner => p_type th = FROM
      | Stay LOuter | GBegin | GNext => mid' = false
      | _ => False
      end.
Definition achieves := achieves_m pmeasure.
Definition achieves3 := achieves_m pmeasure3.
End E.

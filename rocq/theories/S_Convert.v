(** Specification of table-driven conversions, in declarative form.

    A conversion is a list of phases; a phase has a type and a list of dictionaries (one per codec).
    [run_phase] says what a phase does to a complete stream; [run_conv] composes the phases.  Data of
    length 0 are ignored by phases that work on data. *)
From Verif Require Import Base Types S_Engine S_Dict.

Definition phase_desc := (ptype * list dict)%type.

(** How the first [n] symbols of a stream are written as a key: a decoder sees bytes (one-byte data), the
    other phases see data. *)
Definition key_of (t : ptype) (w : list datum) : list N :=
  match t with FROM => concat w | _ => joined w end.

(** Dictionary [D] has an entry for the first [n] symbols of [ds]. *)
Definition entry_at (t : ptype) (D : dict) (ds : list datum) (n : nat) (o : list datum) : Prop :=
  1 <= n <= length ds /\ lookup D (key_of t (firstn n ds)) = Some o.
Definition no_entry_at (t : ptype) (D : dict) (ds : list datum) : Prop := forall n o, ~ entry_at t D ds n o.

(** The chosen match: the first dictionary with an entry, and its longest entry. *)
Definition chosen (t : ptype) (Ds : list dict) (ds : list datum) (n : nat) (o : list datum) : Prop :=
  exists j D, nth_error Ds j = Some D /\
    (forall i D', i < j -> nth_error Ds i = Some D' -> no_entry_at t D' ds) /\
    entry_at t D ds n o /\ forall m o', entry_at t D ds m o' -> m <= n.
Definition unmatched (t : ptype) (Ds : list dict) (ds : list datum) : Prop := forall D, In D Ds -> no_entry_at t D ds.

(** What an encoder drops when nothing matches: the shortest prefix that the last dictionary cannot
    continue (all of it if the stream ends first).  If no key of that dictionary spans several data
    this is one datum. *)
Definition dropped (Ds : list dict) (ds : list datum) (k : nat) : Prop :=
  1 <= k <= length ds /\
  (forall i, 1 <= i < k -> has_prefix (last Ds []) (joined (firstn i ds) ++ [256%N]) = true) /\
  (k < length ds -> has_prefix (last Ds []) (joined (firstn k ds) ++ [256%N]) = false).

Inductive run_phase (t : ptype) (Ds : list dict) : list datum -> list datum -> nat -> Prop :=
| rp_end : run_phase t Ds [] [] 0
| rp_match ds n o out e : chosen t Ds ds n o -> run_phase t Ds (skipn n ds) out e -> run_phase t Ds ds (o ++ out) e
| rp_skip x ds out e : t = FROM -> unmatched t Ds (x :: ds) -> run_phase t Ds ds out e -> run_phase t Ds (x :: ds) out (S e)
| rp_pass x ds out e : t = INTER -> unmatched t Ds (x :: ds) -> run_phase t Ds ds out e -> run_phase t Ds (x :: ds) (x :: out) e
| rp_drop ds k out e : t = TO -> ds <> [] -> unmatched t Ds ds -> dropped Ds ds k -> run_phase t Ds (skipn k ds) out e -> run_phase t Ds ds out (S e).

(** What a phase reads of a stream of data. *)
Definition seen_by (t : ptype) (ds : list datum) : list datum :=
  match t with FROM => map (fun b => [b]) (concat ds) | _ => filter (fun d => match d with [] => false | _ => true end) ds end.

(** Phases one after the other; input errors and output errors. *)
Inductive run_conv : list phase_desc -> list datum -> list datum -> nat -> nat -> Prop :=
| rc_nil ds : run_conv [] ds ds 0 0
| rc_cons t Ds r ds mid out e ie oe :
    run_phase t Ds (seen_by t ds) mid e -> run_conv r mid out ie oe ->
    run_conv ((t, Ds) :: r) ds out ((match t with FROM => e | _ => 0 end) + ie) ((match t with TO => e | _ => 0 end) + oe).

(** Conversions the engine is meant for: the first phase decodes, decoders are not adjacent, every phase
    has a codec, and an entry that is the beginning of a longer one is not empty. *)
Record conv_ok (c : list phase_desc) : Prop := {
  co_first : exists Ds r, c = (FROM, Ds) :: r;
  co_types : forall t Ds, In (t, Ds) c -> (t = FROM \/ t = INTER \/ t = TO) /\ Ds <> [];
  co_adj : forall i Ds Ds', nth_error c i = Some (FROM, Ds) -> nth_error c (S i) <> Some (FROM, Ds');
  co_sub : forall t Ds D w o, In (t, Ds) c -> In D Ds -> lookup D w = Some o -> has_longer D w = true -> o <> []
}.
(** Only the first phase decodes. *)
Definition one_decoder (c : list phase_desc) : Prop := forall i Ds, nth_error c i = Some (FROM, Ds) -> i = 0.

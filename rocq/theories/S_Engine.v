(** Specification of conversions: what a phase does to a complete stream, and how phases compose.
    Nothing here refers to queues, pointers, chunks or scheduling.

    A stream is a list of data (byte strings).  A decoding phase reads single bytes (one-byte data). *)
From Verif Require Import Base Types.


(** What a codec says about a non-empty sequence of symbols read from a position:
    [VDead]: neither an entry nor the beginning of one;  [VCont]: the beginning of an entry;
    [VSub d]: an entry, and the beginning of a longer one;  [VMatch d]: an entry, nothing longer. *)
Inductive verdict := VDead | VCont | VSub (d : list datum) | VMatch (d : list datum).
Definition csem := list datum -> verdict.

(** Longest match of one codec on [pre ++ rest], [pre] being already read with best match [best]. *)
Fixpoint scan (v : csem) (pre rest : list datum) (best : option (nat * list datum)) : option (nat * list datum) :=
  match rest with
  | [] => best
  | x :: r =>
      match v (pre ++ [x]) with
      | VDead => best
      | VCont => scan v (pre ++ [x]) r best
      | VSub d => scan v (pre ++ [x]) r (Some (S (length pre), d))
      | VMatch d => Some (S (length pre), d)
      end
  end.

(** How many symbols the codec looks at before it gives up. *)
Fixpoint examined (v : csem) (pre rest : list datum) : nat :=
  match rest with
  | [] => length pre
  | x :: r =>
      match v (pre ++ [x]) with
      | VCont | VSub _ => examined v (pre ++ [x]) r
      | _ => S (length pre)
      end
  end.

(** The first codec that matches anything at the current position. *)
Fixpoint first_match (cs : list csem) (ds : list datum) : option (nat * list datum) :=
  match cs with
  | [] => None
  | v :: cs' => match scan v [] ds None with
                | Some r => Some r
                | None => first_match cs' ds
                end
  end.

(** Kind of a phase; [KSink] is the queue of converted data at the end of a pipeline. *)
Inductive kind := KFrom | KInter | KTo | KSink.

(** One phase on a complete stream: replace matches; where nothing matches, a decoder skips a byte and
    counts an error, an intermediate phase passes the datum on, an encoder drops what its last codec
    looked at and counts an error.  Result: output and number of errors. *)
Fixpoint trans_fuel (k : kind) (cs : list csem) (fuel : nat) (ds : list datum) : list datum * nat :=
  match fuel, ds with
  | _, [] => ([], 0)
  | O, _ => ([], 0)
  | S f, x :: r =>
      match first_match cs ds with
      | Some (n, d) => let '(o, e) := trans_fuel k cs f (skipn n ds) in (d ++ o, e)
      | None =>
          match k with
          | KFrom => let '(o, e) := trans_fuel k cs f r in (o, S e)
          | KInter | KSink => let '(o, e) := trans_fuel k cs f r in (x :: o, e)
          | KTo => let '(o, e) := trans_fuel k cs f (skipn (examined (last cs (fun _ => VDead)) [] ds) ds) in (o, S e)
          end
      end
  end.
Definition trans (k : kind) (cs : list csem) (ds : list datum) : list datum * nat :=
  trans_fuel k cs (length ds) ds.

Definition nonempty (d : datum) : bool := match d with [] => false | _ => true end.

(** How a phase sees a stream of data: a decoder sees the bytes; the others ignore zero-length data. *)
Definition inj (k : kind) (ds : list datum) : list datum :=
  match k with
  | KFrom => map (fun b => [b]) (concat ds)
  | _ => filter nonempty ds
  end.

Record psem := mkPsem { ps_kind : kind; ps_cs : list csem }.

(** A phase on a stream; the counters are the running totals of input and output errors. *)
Definition apply_phase (ph : psem) (x : list datum * nat * nat) : list datum * nat * nat :=
  let '(ds, ie, oe) := x in
  let '(o, e) := trans (ps_kind ph) (ps_cs ph) (inj (ps_kind ph) ds) in
  match ps_kind ph with
  | KFrom => (o, ie + e, oe)
  | KTo => (o, ie, oe + e)
  | _ => (o, ie, oe)
  end.

(** A pipeline: each phase run to completion on the whole output of the one before. *)
Definition pipeline (phs : list psem) (input : list N) : list datum * nat * nat :=
  fold_left (fun x ph => apply_phase ph x) phs ([input], 0, 0).

(** The bytes of the converted stream. *)
Definition out_bytes (x : list datum * nat * nat) : list N := concat (fst (fst x)).

(** Model of the output switch of bsdconv() (src/libbsdconv.c:1015-1116) and of a whole call. *)
From Verif Require Import Base Types M_Engine.

(** Memory of an output buffer: [None] is an uninitialised byte. *)
Definition mem := list (option N).

(** memcpy(base+off, d, len); [None]: write outside the buffer. *)
Definition memcpy_at (m : mem) (off : nat) (d : datum) : option mem :=
  if off + length d <=? length m
  then Some (firstn off m ++ map Some d ++ skipn (off + length d) m)
  else None.

(** ins->output_mode with the fields of ins->output the caller sets (src/bsdconv.h:58-67).
    [OPre None]: output.data is NULL or output.len is 0; [OPre (Some b)]: a buffer holding [b].
    [OFd acc]: a descriptor; [acc k d] says how many bytes of [d] the k-th write() accepts (-1 counts 0). *)
Inductive omode :=
| OHold
| OAuto (slack : nat)
| OPre (buf : option (list N))
| OFile
| OFd (acc : nat -> datum -> nat)
| ONull
| OPass.

(** What the caller sees after the call. *)
Record oresult := mkOr {
  or_queue : list datum;               (* the list of the last phase *)
  or_tail : nat;                       (* its data_tail *)
  or_len : option nat;                 (* ins->output.len if the switch sets it *)
  or_buf : mem;                        (* the buffer at ins->output.data *)
  or_sink : list N;                    (* bytes handed to the FILE or accepted by the descriptor *)
  or_pass : option (datum * list datum) (* new input of the other instance; None: not touched *)
}.

(** The copying loop of BSDCONV_AUTOMALLOC (lines 1034-1040). *)
Fixpoint auto_copy (m : mem) (off : nat) (q : list datum) : option mem :=
  match q with
  | [] => Some m
  | d :: q' => match memcpy_at m off d with
               | None => None
               | Some m' => auto_copy m' (off + length d) q'
               end
  end.

(** The loop of BSDCONV_PREMALLOCED (lines 1046-1055): list, tail, buffer and i at the end. *)
Fixpoint pre_copy (m : mem) (size : nat) (i : nat) (q : list datum) (tail : nat) : option (list datum * nat * mem * nat) :=
  match q with
  | [] => Some ([], tail, m, i)
  | d :: q' =>
      if length d <=? size - i then
        match memcpy_at m i d with
        | None => None
        | Some m' => pre_copy m' size (i + length d) q' (tail - 1)
        end
      else Some (q, tail, m, i)
  end.

(** The loop of BSDCONV_FD (lines 1079-1084): the result of write() is ignored. *)
Fixpoint fd_write (acc : nat -> datum -> nat) (k : nat) (q : list datum) : list N :=
  match q with
  | [] => []
  | d :: q' => firstn (acc k d) d ++ fd_write acc (S k) q'
  end.

Definition total (q : list datum) : nat := list_sum (map (@length N) q).

Section Output.
Variable P : Type.

(** The switch, on the last phase. [None]: write outside a buffer. *)
Definition output_switch (last : ephase P) (mode : omode) : option oresult :=
  let q := p_queue P last in
  match mode with
  | OHold => Some (mkOr q (p_tail P last) (Some 0) [] [] None)                      (* lines 1018-1021 *)
  | OAuto slack =>                                                                  (* lines 1022-1041 *)
      let i := slack + total q in
      match auto_copy (repeat None i) 0 q with
      | None => None
      | Some m => Some (mkOr [] 0 (Some (i - slack)) m [] None)
      end
  | OPre b =>                                                                       (* lines 1042-1066 *)
      match b with
      | Some (x :: buf) =>
          let size := length (x :: buf) in
          match pre_copy (map Some (x :: buf)) size 0 q (p_tail P last) with
          | None => None
          | Some (q', t', m, i) => Some (mkOr q' t' (Some i) m [] None)
          end
      | _ => Some (mkOr q (p_tail P last) (Some (p_headlen P last + total q)) [] [] None)
      end
  | OFile => Some (mkOr [] 0 None [] (concat q) None)                               (* lines 1067-1076 *)
  | OFd acc => Some (mkOr [] 0 None [] (fd_write acc 0 q) None)                     (* lines 1077-1086 *)
  | ONull => Some (mkOr [] 0 None [] [] None)                                       (* lines 1087-1094 *)
  | OPass =>                                                                        (* lines 1095-1114 *)
      Some (mkOr [] 0 None [] [] (match q with [] => None | d :: c => Some (d, c) end))
  end.

(** LAST_PHASE(ins) *)
Definition last_phase (s : inst P) : option (ephase P) := nth_error (i_phases P s) (phasen P s).
Definition set_last (s : inst P) (q : list datum) (t : nat) : inst P :=
  match last_phase s with
  | None => s
  | Some ph => mkInst P (list_upd (i_phases P s) (phasen P s) (set_queue P ph q t)) (i_flush P s) (i_ierr P s) (i_oerr P s)
  end.

(** A whole call of bsdconv(). *)
Inductive callres := CDone (s : inst P) (r : oresult) | CUB | CFuel.
Definition bsdconv_call (fuel : nat) (s : inst P) (input : option (datum * list datum)) (flush : bool) (mode : omode) : callres :=
  match bsdconv_engine P fuel s input flush with
  | RFuel _ => CFuel
  | RUB _ => CUB
  | RDone _ s1 =>
      match last_phase s1 with
      | None => CUB
      | Some ph => match output_switch ph mode with
                   | None => CUB
                   | Some r => CDone (set_last s1 (or_queue r) (or_tail r)) r
                   end
      end
  end.

(** The bytes a call delivered to the program. *)
Definition defined_prefix (m : mem) (n : nat) : list N := flat_map (fun x => match x with Some b => [b] | None => [] end) (firstn n m).
Definition delivered (mode : omode) (r : oresult) : list N :=
  match mode, or_len r with
  | OAuto _, Some n => defined_prefix (or_buf r) n
  | OPre (Some (_ :: _)), Some n => defined_prefix (or_buf r) n
  | (OFile | OFd _), _ => or_sink r
  | OPass, _ => match or_pass r with Some (d, c) => d ++ concat c | None => [] end
  | _, _ => []
  end.
End Output.

Section Histories.
Variable P : Type.
(** A program's sequence of calls; everything delivered is collected in order. *)
Record call := mkCall { c_input : option (datum * list datum); c_flush : bool; c_mode : omode }.
Fixpoint run_hist (fuel : nat) (s : inst P) (h : list call) : option (inst P * list N) :=
  match h with
  | [] => Some (s, [])
  | c :: h' =>
      match bsdconv_call P fuel s (c_input c) (c_flush c) (c_mode c) with
      | CDone _ s1 r => match run_hist fuel s1 h' with
                        | Some (s2, out) => Some (s2, delivered (c_mode c) r ++ out)
                        | None => None
                        end
      | _ => None
      end
  end.

(** Bytes converted but not yet delivered. *)
Definition pending (s : inst P) : list N := match last_phase P s with Some ph => concat (p_queue P ph) | None => [] end.
End Histories.

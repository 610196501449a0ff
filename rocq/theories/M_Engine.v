(** Model of the conversion engine: bsdconv(), bsdconv_init() and the accessors they use
    (src/libbsdconv.c:179-215, 594-1013; src/bsdconv.h:218-287).

    Representation.
    - A datum (struct data_rt, src/bsdconv.h:77-82) is its byte list.  The flags F_FREE (memory
      ownership) and F_MARK (used by some intermediate modules only) are not modelled; neither is the
      node pool (DATA_MALLOC / DATUM_FREE, src/bsdconv.h:281-282, 353).
    - The linked list data_head -> ... of a phase is the list [queue]; the pointers [curr] and [bak] of
      a phase point into the list of the previous phase and are indexes into it: 0 is the sentinel
      data_head, k>0 the k-th node.  [tail] is data_tail, an index into the phase's own list.
      [bak]=0 stands for a pointer that must not be used (not set, or its node is gone); using it is UB.
    - data_head->len of a phase is [headlen].
    - Offsets into the compiled table (offset_t) are state numbers, 0 being the root; the cell list a
      state points to is stored in the state ([]: NULL).  Reading outside the table is UB.
      (M_Table relates this to the bytes of a compiled table.)
    - A codec callback is a function of the codec's private state, the current datum, i and the cells of
      state.data; it returns the new private state, the new i, the status it stores in state.status and the data it appends.
      What modules/to/EBCDIC.c does to the phase itself is in [data_hold]; other callbacks that edit the phase are modelled in M_Raw. *)
From Verif Require Import Base Types.

(** enum bsdconv_status (src/bsdconv.h:46-56) *)
Inductive status :=
| CONTINUE | DEADEND | MATCH | SUBMATCH | SUBROUTINE | SUBMATCH_SUBROUTINE | NEXTPHASE | NOMATCH | NOOP.


(** struct state_rt (src/bsdconv.h:92-98) with the offset array it points to. *)
Record tstate := mkTs {
  t_status : status;
  t_data : list datum;
  t_beg : N;
  t_end : N;
  t_kids : list nat
}.
Definition table := list tstate.

(** get_offset (src/bsdconv.h:251-258); [None]: read outside the table. *)
Definition get_offset (st : tstate) (v : N) : option nat :=
  if ((t_beg st <=? v) && (v <? t_end st))%N
  then nth_error (t_kids st) (N.to_nat (v - t_beg st))
  else Some 0.

(** read_state (src/bsdconv.h:260-270) *)
Definition read_state (tab : table) (off : nat) : option tstate := nth_error tab off.

Definition with_status (s : tstate) (x : status) : tstate :=
  mkTs x (t_data s) (t_beg s) (t_end s) (t_kids s).

Section Engine.
Variable P : Type.   (* private state of codecs *)

Record cbres := mkCb { cb_priv : P; cb_i : nat; cb_status : status; cb_out : list datum }.

(** struct bsdconv_codec (src/bsdconv.h:167-187), reduced to what the engine uses. *)
Record ecodec := mkEc {
  e_tab : table;
  e_conv : option (P -> datum -> nat -> list datum -> cbres);
  e_flush : option (P -> P * list datum);
  e_init : option (P -> P);
  e_priv : P
}.
Definition set_priv (c : ecodec) (p : P) : ecodec := mkEc (e_tab c) (e_conv c) (e_flush c) (e_init c) p.

(** struct bsdconv_phase (src/bsdconv.h:132-143) *)
Record ephase := mkEp {
  p_type : ptype;
  p_codecs : list ecodec;
  p_index : nat;
  p_curr : nat;
  p_i : nat;
  p_bak : nat;
  p_headlen : nat;
  p_match_data : list datum;
  p_state : tstate;
  p_offset : nat;
  p_fmatch : bool;
  p_fpending : bool;
  p_floop : bool;
  p_queue : list datum;
  p_tail : nat
}.

Definition set_codecs t x := mkEp (p_type t) x (p_index t) (p_curr t) (p_i t) (p_bak t) (p_headlen t) (p_match_data t) (p_state t) (p_offset t) (p_fmatch t) (p_fpending t) (p_floop t) (p_queue t) (p_tail t).
Definition set_index t x := mkEp (p_type t) (p_codecs t) x (p_curr t) (p_i t) (p_bak t) (p_headlen t) (p_match_data t) (p_state t) (p_offset t) (p_fmatch t) (p_fpending t) (p_floop t) (p_queue t) (p_tail t).
Definition set_curr t x := mkEp (p_type t) (p_codecs t) (p_index t) x (p_i t) (p_bak t) (p_headlen t) (p_match_data t) (p_state t) (p_offset t) (p_fmatch t) (p_fpending t) (p_floop t) (p_queue t) (p_tail t).
Definition set_i t x := mkEp (p_type t) (p_codecs t) (p_index t) (p_curr t) x (p_bak t) (p_headlen t) (p_match_data t) (p_state t) (p_offset t) (p_fmatch t) (p_fpending t) (p_floop t) (p_queue t) (p_tail t).
Definition set_bak t x := mkEp (p_type t) (p_codecs t) (p_index t) (p_curr t) (p_i t) x (p_headlen t) (p_match_data t) (p_state t) (p_offset t) (p_fmatch t) (p_fpending t) (p_floop t) (p_queue t) (p_tail t).
Definition set_headlen t x := mkEp (p_type t) (p_codecs t) (p_index t) (p_curr t) (p_i t) (p_bak t) x (p_match_data t) (p_state t) (p_offset t) (p_fmatch t) (p_fpending t) (p_floop t) (p_queue t) (p_tail t).
Definition set_match_data t x := mkEp (p_type t) (p_codecs t) (p_index t) (p_curr t) (p_i t) (p_bak t) (p_headlen t) x (p_state t) (p_offset t) (p_fmatch t) (p_fpending t) (p_floop t) (p_queue t) (p_tail t).
Definition set_state t x := mkEp (p_type t) (p_codecs t) (p_index t) (p_curr t) (p_i t) (p_bak t) (p_headlen t) (p_match_data t) x (p_offset t) (p_fmatch t) (p_fpending t) (p_floop t) (p_queue t) (p_tail t).
Definition set_offset t x := mkEp (p_type t) (p_codecs t) (p_index t) (p_curr t) (p_i t) (p_bak t) (p_headlen t) (p_match_data t) (p_state t) x (p_fmatch t) (p_fpending t) (p_floop t) (p_queue t) (p_tail t).
Definition set_flags t m p l := mkEp (p_type t) (p_codecs t) (p_index t) (p_curr t) (p_i t) (p_bak t) (p_headlen t) (p_match_data t) (p_state t) (p_offset t) m p l (p_queue t) (p_tail t).
Definition set_queue t q n := mkEp (p_type t) (p_codecs t) (p_index t) (p_curr t) (p_i t) (p_bak t) (p_headlen t) (p_match_data t) (p_state t) (p_offset t) (p_fmatch t) (p_fpending t) (p_floop t) q n.

(** Appending data at data_tail (LISTCPY_ST, src/bsdconv.h:218-228, and the equivalent code of the
    callbacks): the first new node overwrites data_tail->next, so anything linked behind data_tail is
    lost.  Copying an empty list changes nothing. *)
Definition app_tail (t : ephase) (ds : list datum) : ephase :=
  match ds with
  | [] => t
  | _ => set_queue t (firstn (p_tail t) (p_queue t) ++ ds) (p_tail t + length ds)
  end.

(** LISTFREE(ins, prev->data_head, bak, prev->data_tail) (src/bsdconv.h:242-249): drop the nodes before
    the [b]-th; b beyond the end (NULL) drops all.  b=0 is a stale pointer. *)
Definition listfree (pv : ephase) (b : nat) : option ephase :=
  match b with
  | O => None
  | S n => Some (set_queue pv (skipn n (p_queue pv)) (p_tail pv - n))
  end.

(** THIS_CODEC (src/bsdconv.h:287) *)
Definition this_codec (t : ephase) : option ecodec := nth_error (p_codecs t) (p_index t).

(** codecn is the number of codecs minus one. *)
Definition codecn (t : ephase) : nat := length (p_codecs t) - 1.

(** RESET (src/bsdconv.h:272-276) *)
Definition reset (t : ephase) : option ephase :=
  match p_codecs t with
  | [] => None
  | c :: _ => match read_state (e_tab c) 0 with
              | None => None
              | Some s => Some (set_state (set_offset (set_index t 0) 0) s)
              end
  end.

Fixpoint list_upd {A} (l : list A) (n : nat) (x : A) : list A :=
  match l, n with
  | [], _ => []
  | _ :: l', O => x :: l'
  | y :: l', S n' => y :: list_upd l' n' x
  end.

(** One table transition: get_offset, the F_LOOPBACK rule, read_state
    (src/libbsdconv.c:630-636, 735-741, 851-857, 868-874, 978-984). *)
Definition feed (c : ecodec) (t : ephase) (v : N) : option ephase :=
  match get_offset (p_state t) v with
  | None => None
  | Some next =>
      let off := match next with
                 | O => if p_floop t then p_offset t else 0
                 | S _ => next
                 end in
      match read_state (e_tab c) off with
      | None => None
      | Some s => Some (set_state (set_offset t off) s)
      end
  end.

(** Program points inside the switch of one phase. *)
Inductive lpc :=
| LOuter                 (* while(curr->next) *)
| LInner                 (* FROM: while(i<curr->len) *)
| LX                     (* from_x / inter_x / to_x *)
| LDead                  (* from_deadend / inter_deadend / to_deadend *)
| LSep.                  (* INTER, TO: the transition on 256 *)

(** Where control goes after a local step. *)
Inductive lgoto :=
| Stay (pc : lpc)
| GBegin                 (* goto phase_begin, same phase *)
| GNext                  (* phase_index+=1; goto phase_begin *)
| GBreak.                (* leave the switch: phase_index+=1, fall through to the check-back loop *)

(** Result of a local step: previous phase, this phase, input errors, output errors, control. *)
Inductive lres := LRes (pv th : ephase) (ie oe : nat) (g : lgoto) | LUB.

(** curr->len and curr->data; curr=0 is the sentinel, whose len is data_head->len of the previous
    phase and whose data is uninitialised. *)
Definition curr_node (pv th : ephase) : option datum :=
  match p_curr th with O => None | S n => nth_error (p_queue pv) n end.
Definition curr_len (pv th : ephase) : option nat :=
  match p_curr th with O => Some (p_headlen pv) | S n => option_map (@length N) (nth_error (p_queue pv) n) end.

(** Calling cbconv: [None] if there is no callback or no current node. *)
Definition call_cb (pv th : ephase) : option ephase :=
  match this_codec th with
  | None => None
  | Some c =>
      match e_conv c, curr_node pv th with
      | Some f, Some d =>
          let r := f (e_priv c) d (p_i th) (t_data (p_state th)) in
          let th1 := set_codecs th (list_upd (p_codecs th) (p_index th) (set_priv c (cb_priv r))) in
          let th2 := set_i th1 (cb_i r) in
          let th3 := app_tail th2 (cb_out r) in
          Some (set_state th3 (with_status (p_state th3) (cb_status r)))
      | _, _ => None
      end
  end.

(** Calling cbflush if the codec has one (src/libbsdconv.c:649-651, 766-768, 898-900). *)
Definition call_flush (th : ephase) : option ephase :=
  match this_codec th with
  | None => None
  | Some c =>
      match e_flush c with
      | None => Some th
      | Some f =>
          let '(p, out) := f (e_priv c) in
          Some (app_tail (set_codecs th (list_upd (p_codecs th) (p_index th) (set_priv c p))) out)
      end
  end.

Definition obind {A B} (o : option A) (f : A -> option B) : option B :=
  match o with Some a => f a | None => None end.
Definition ub_or (o : option lres) : lres := match o with Some r => r | None => LUB end.

(** ** FROM (src/libbsdconv.c:623-727) *)

(** from_deadend (lines 640-676) *)
Definition from_dead (pv th0 : ephase) : lres :=
  let th := set_flags th0 (p_fmatch th0) false false in
  ub_or (
  if p_fmatch th then
    match p_match_data th with
    | _ :: _ =>
        obind (listfree pv (p_bak th)) (fun pv' =>
        let th1 := app_tail th (p_match_data th) in
        let th2 := set_i (set_curr (set_bak th1 0) 0) (p_headlen th1) in
        let th3 := set_flags th2 false false false in
        obind (reset th3) (fun th4 => Some (LRes pv' th4 0 0 GBegin)))
    | [] =>
        obind (call_flush th) (fun th1 =>
        let th3 := set_flags th1 false false false in
        obind (reset th3) (fun th4 => Some (LRes pv th4 0 0 GBegin)))
    end
  else if p_index th <? codecn th then
    let th1 := set_index th (S (p_index th)) in
    obind (this_codec th1) (fun c =>
    obind (read_state (e_tab c) 0) (fun s =>
    let th2 := set_state th1 s in
    let th3 := set_i (set_curr th2 0) (p_headlen th2) in
    Some (LRes pv th3 0 0 (Stay LInner))))
  else
    obind (reset th) (fun th1 =>
    obind (listfree pv (p_curr th1)) (fun pv' =>
    let th2 := set_curr (set_bak th1 0) 0 in
    let th3 := set_headlen th2 (S (p_headlen th2)) in
    let th4 := set_i th3 (p_headlen th3) in
    Some (LRes pv' th4 1 0 (Stay LInner))))).

(** MATCH and NEXTPHASE (lines 677-691, 705-717); [ds] is what is copied. *)
Definition from_commit (pv th0 : ephase) (ds : list datum) : lres :=
  let th := set_match_data (set_flags th0 false false false) [] in
  let th1 := app_tail th ds in
  ub_or (obind (listfree pv (p_curr th1)) (fun pv' =>
    let th2 := set_headlen (set_curr (set_bak th1 0) 0) (S (p_i th1)) in
    obind (reset th2) (fun th3 => Some (LRes pv' th3 0 0 GNext)))).

Definition from_step (pv th : ephase) (pc : lpc) : lres :=
  match pc with
  | LOuter =>                                               (* lines 624-627 *)
      if p_curr th <? length (p_queue pv) then
        let th1 := set_i th (if p_curr th =? 0 then p_headlen th else 0) in
        LRes pv (set_curr th1 (S (p_curr th1))) 0 0 (Stay LInner)
      else LRes pv th 0 0 GBreak
  | LInner =>                                               (* lines 628-636 *)
      match curr_len pv th with
      | None => LUB
      | Some len =>
          if p_i th <? len then
            match curr_node pv th, this_codec th with
            | Some d, Some c =>
                match nth_error d (p_i th) with
                | None => LUB
                | Some b => match feed c th b with
                            | None => LUB
                            | Some th1 => LRes pv th1 0 0 (Stay LX)
                            end
                end
            | _, _ => LUB
            end
          else LRes pv th 0 0 (Stay LOuter)
      end
  | LX =>                                                   (* lines 637-724 *)
      match t_status (p_state th) with
      | DEADEND => LRes pv th 0 0 (Stay LDead)
      | MATCH => from_commit pv th (t_data (p_state th))
      | SUBMATCH =>
          let th1 := set_flags th true true (p_floop th) in
          let th2 := set_match_data th1 (t_data (p_state th1)) in
          let th3 := set_headlen (set_bak th2 (p_curr th2)) (S (p_i th2)) in
          LRes pv (set_i th3 (S (p_i th3))) 0 0 (Stay LInner)
      | SUBROUTINE | SUBMATCH_SUBROUTINE =>
          match call_cb pv th with
          | None => LUB
          | Some th1 => LRes pv (set_flags th1 (p_fmatch th1) (p_fpending th1) true) 0 0 (Stay LX)
          end
      | NEXTPHASE => from_commit pv th []
      | CONTINUE =>
          let th1 := set_flags th (p_fmatch th) true (p_floop th) in
          LRes pv (set_i th1 (S (p_i th1))) 0 0 (Stay LInner)
      | NOOP => LRes pv th 0 0 GBegin
      | NOMATCH => LRes pv (set_i th (S (p_i th))) 0 0 (Stay LInner)   (* no case label: falls to i+=1 *)
      end
  | LDead => from_dead pv th
  | LSep => LUB
  end.

(** ** INTER and TO (src/libbsdconv.c:729-987) *)

(** The for loop over the bytes of the datum (lines 733-751, 866-884): [None] UB; the boolean tells
    whether it left through "goto ..._deadend". *)
Fixpoint bytes_loop (c : ecodec) (th : ephase) (bs : list N) : option (ephase * bool) :=
  match bs with
  | [] => Some (th, false)
  | b :: bs' =>
      match feed c th b with
      | None => None
      | Some th1 =>
          match t_status (p_state th1) with
          | DEADEND => Some (th1, true)
          | SUBROUTINE | SUBMATCH_SUBROUTINE =>
              bytes_loop c (set_i (set_flags th1 (p_fmatch th1) (p_fpending th1) true) (S (p_i th1))) bs'
          | _ => bytes_loop c (set_i th1 (S (p_i th1))) bs'
          end
      end
  end.

Definition is_to (th : ephase) : bool := match p_type th with TO => true | _ => false end.

(** inter_deadend (lines 758-797) / to_deadend (lines 890-926) *)
Definition data_dead (pv th0 : ephase) : lres :=
  let th := set_flags th0 (p_fmatch th0) false false in
  ub_or (
  if p_fmatch th then
    match p_match_data th with
    | _ :: _ =>
        obind (listfree pv (p_bak th)) (fun pv' =>
        let th1 := app_tail th (p_match_data th) in
        let th2 := set_curr (set_bak th1 0) 0 in
        let th3 := set_flags th2 false false false in
        obind (reset th3) (fun th4 => Some (LRes pv' th4 0 0 (if is_to th then GNext else GBegin))))
    | [] =>
        obind (call_flush th) (fun th1 =>
        let th3 := set_flags th1 false false false in
        obind (reset th3) (fun th4 => Some (LRes pv th4 0 0 (if is_to th then GNext else GBegin))))
    end
  else if p_index th <? codecn th then
    let th1 := set_index th (S (p_index th)) in
    obind (this_codec th1) (fun c =>
    obind (read_state (e_tab c) 0) (fun s =>
    Some (LRes pv (set_curr (set_state th1 s) 0) 0 0 (Stay LOuter))))
  else if is_to th then
    obind (reset th) (fun th1 =>
    obind (listfree pv (S (p_curr th1))) (fun pv' =>
    Some (LRes pv' (set_curr (set_bak th1 0) 0) 0 1 (Stay LOuter))))
  else
    match p_queue pv with
    | [] => None
    | d :: q =>
        let pv' := set_queue pv q (p_tail pv - 1) in
        let th1 := app_tail (set_curr (set_bak th 0) 0) [d] in
        obind (reset th1) (fun th2 => Some (LRes pv' th2 0 0 GNext))
    end).

(** MATCH and NEXTPHASE (lines 798-811, 832-843, 927-939, 959-970) *)
Definition data_commit (pv th0 : ephase) (ds : list datum) : lres :=
  let th := set_match_data (set_flags th0 false false false) [] in
  let th1 := app_tail th ds in
  ub_or (obind (listfree pv (S (p_curr th1))) (fun pv' =>
    obind (reset (set_curr (set_bak th1 0) 0)) (fun th3 => Some (LRes pv' th3 0 0 GNext)))).

(** NOOP (lines 847, 975; never in a compiled table) as the only callback that stores it leaves the phase, modules/to/EBCDIC.c:82-94: it has appended its data,
    sets F_MATCH and F_PENDING with no match_data, frees what was read, RESETs and has already moved to the next phase.
    Line 82 sets data_head->len to 0, which it is in every phase that does not decode (only lines 647-715 ever change it). *)
Definition data_hold (pv th : ephase) : lres :=
  let th1 := set_match_data (set_flags th true true (p_floop th)) [] in
  ub_or (obind (listfree pv (S (p_curr th1))) (fun pv' =>
    obind (reset (set_curr (set_bak th1 0) 0)) (fun th2 =>
    Some (LRes pv' (set_state th2 (with_status (p_state th2) NOOP)) 0 0 GNext)))).

Definition data_step (pv th : ephase) (pc : lpc) : lres :=
  match pc with
  | LOuter =>                                               (* lines 730-751, 863-884 *)
      if p_curr th <? length (p_queue pv) then
        let th1 := set_curr th (S (p_curr th)) in
        let th2 := set_i (set_state th1 (with_status (p_state th1) NOMATCH)) 0 in
        match curr_node pv th2, this_codec th2 with
        | Some d, Some c =>
            match bytes_loop c th2 d with
            | None => LUB
            | Some (th3, true) => LRes pv th3 0 0 (Stay LDead)
            | Some (th3, false) => LRes pv th3 0 0 (Stay LX)
            end
        | _, _ => LUB
        end
      else LRes pv th 0 0 GBreak
  | LX =>                                                   (* lines 752-850, 885-977 *)
      match t_status (p_state th) with
      | NOMATCH => if is_to th then LRes pv th 0 0 (Stay LOuter) else LRes pv th 0 0 GNext
      | DEADEND => LRes pv th 0 0 (Stay LDead)
      | MATCH => data_commit pv th (t_data (p_state th))
      | SUBMATCH =>
          let th1 := set_match_data (set_flags th true true (p_floop th)) (t_data (p_state th)) in
          if p_curr th1 <? length (p_queue pv) then
            LRes pv (set_bak th1 (S (p_curr th1))) 0 0 (Stay LSep)
          else
            let pv' := set_queue pv (firstn (p_tail pv) (p_queue pv) ++ [[]]) (S (p_tail pv)) in
            LRes pv' (set_bak th1 (S (p_tail pv))) 0 0 (Stay LSep)
      | SUBROUTINE | SUBMATCH_SUBROUTINE =>
          match call_cb pv th with
          | None => LUB
          | Some th1 => LRes pv th1 0 0 (Stay LX)
          end
      | NEXTPHASE => data_commit pv th []
      | CONTINUE =>
          (* TO also clears F_LOOPBACK (line 973) *)
          LRes pv (set_flags th (p_fmatch th) true (if is_to th then false else p_floop th)) 0 0 (Stay LSep)
      | NOOP => data_hold pv th
      end
  | LSep =>                                                 (* lines 851-858, 978-985 *)
      match this_codec th with
      | None => LUB
      | Some c =>
          match feed c th 256%N with
          | None => LUB
          | Some th1 => match t_status (p_state th1) with
                        | DEADEND => LRes pv th1 0 0 (Stay LDead)
                        | _ => LRes pv th1 0 0 (Stay LOuter)
                        end
          end
      end
  | LDead => data_dead pv th
  | LInner => LUB
  end.

Definition local_step (pv th : ephase) (pc : lpc) : lres :=
  match p_type th with
  | FROM => from_step pv th pc
  | INTER | TO => data_step pv th pc
  | _ => LUB
  end.

(** ** The whole instance *)
Record inst := mkInst {
  i_phases : list ephase;        (* phase[0..phasen]; phase 0 is _INPUT *)
  i_flush : bool;
  i_ierr : nat;
  i_oerr : nat
}.

(** Global program counter. *)
Inductive gpc :=
| PBegin (p : nat)               (* phase_begin with phase_index=p *)
| PLocal (p : nat) (pc : lpc)    (* inside the switch *)
| PCheck (p : nat)               (* check-back loop (lines 993-997) with phase_index=p *)
| PFlush (p : nat)               (* flush loop (lines 1000-1013) with phase_index=p *)
| PDone.                         (* line 1015 *)

Inductive gres := GNextState (s : inst) (pc : gpc) | GHalt (s : inst) | GUB.

Definition phasen (s : inst) : nat := length (i_phases s) - 1.

Definition gstep (s : inst) (pc : gpc) : gres :=
  match pc with
  | PBegin p =>                                             (* lines 617-622 *)
      if (0 <? p) && (p <=? phasen s) then GNextState s (PLocal p LOuter)
      else GNextState s (PCheck (phasen s))
  | PLocal p lp =>
      match nth_error (i_phases s) (p - 1), nth_error (i_phases s) p with
      | Some pv, Some th =>
          match local_step pv th lp with
          | LUB => GUB
          | LRes pv' th' ie oe g =>
              let s' := mkInst (list_upd (list_upd (i_phases s) (p - 1) pv') p th')
                          (i_flush s) (i_ierr s + ie) (i_oerr s + oe) in
              match g with
              | Stay lp' => GNextState s' (PLocal p lp')
              | GBegin => GNextState s' (PBegin p)
              | GNext => GNextState s' (PBegin (S p))
              | GBreak => GNextState s' (PCheck (phasen s))
              end
          end
      | _, _ => GUB
      end
  | PCheck p =>                                             (* lines 993-1000 *)
      match p with
      | O => if i_flush s then GNextState s (PFlush 1) else GNextState s PDone
      | S p' =>
          match nth_error (i_phases s) p', nth_error (i_phases s) p with
          | Some pv, Some th =>
              if p_curr th <? length (p_queue pv) then GNextState s (PBegin p)
              else GNextState s (PCheck p')
          | _, _ => GUB
          end
      end
  | PFlush p =>                                             (* lines 1001-1013 *)
      if p <=? phasen s then
        match nth_error (i_phases s) p with
        | Some th => if p_fpending th then GNextState s (PLocal p LDead) else GNextState s (PFlush (S p))
        | None => GUB
        end
      else GNextState s PDone
  | PDone => GHalt s
  end.

(** The engine loop, with fuel; [None]: fuel exhausted. *)
Inductive runres := RDone (s : inst) | RUB | RFuel.
Fixpoint grun (fuel : nat) (s : inst) (pc : gpc) : runres :=
  match fuel with
  | O => RFuel
  | S f => match gstep s pc with
           | GUB => RUB
           | GHalt s' => RDone s'
           | GNextState s' pc' => grun f s' pc'
           end
  end.

(** Entry of bsdconv(): append ins->input to the list of phase 0 (lines 606-615).  [chain] are the data
    linked behind input.data (ins->input.next), normally none. *)
Definition enqueue (s : inst) (input : option (datum * list datum)) : inst :=
  match input, i_phases s with
  | Some (d, chain), ph0 :: rest =>
      mkInst (set_queue ph0 (firstn (p_tail ph0) (p_queue ph0) ++ d :: chain) (S (p_tail ph0)) :: rest)
        (i_flush s) (i_ierr s) (i_oerr s)
  | _, _ => s
  end.

(** bsdconv() up to the output switch. *)
Definition bsdconv_engine (fuel : nat) (s : inst) (input : option (datum * list datum)) (flush : bool) : runres :=
  let s1 := enqueue s input in
  grun fuel (mkInst (i_phases s1) flush (i_ierr s1) (i_oerr s1)) (PBegin 1).

(** bsdconv_init (lines 179-215): the output and input fields are in M_Output. [bak] and [i] are left. *)
Definition init_codec (c : ecodec) : ecodec :=
  match e_init c with Some f => set_priv c (f (e_priv c)) | None => c end.
Definition init_phase (isfirst : bool) (t : ephase) : option ephase :=
  let t1 := set_flags t false false false in
  let t2 := set_offset t1 0 in
  let t3 := set_queue t2 [] 0 in
  let t4 := set_match_data (set_headlen t3 0) [] in
  if isfirst then Some t4
  else reset (set_codecs (set_curr t4 0) (map init_codec (p_codecs t4))).
Definition bsdconv_init (s : inst) : option inst :=
  match i_phases s with
  | [] => None
  | ph0 :: rest =>
      obind (init_phase true ph0) (fun p0 =>
      obind (fold_right (fun t acc => obind acc (fun l => obind (init_phase false t) (fun t' => Some (t' :: l)))) (Some []) rest) (fun r =>
      Some (mkInst (p0 :: r) false (i_ierr s) (i_oerr s))))
  end.
End Engine.

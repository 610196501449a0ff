(** The mixed single/double byte EBCDIC codecs: modules/to/EBCDIC.c and modules/from/EBCDIC.c, included by
    modules/{to,from}/IBM-{930,933,935,937,939}.c.  The private state is my_s.status ("in MBCS mode").  The table lines are
    "key ?code" (all lines of to/IBM-9xx.txt, the single byte lines of from/IBM-9xx.txt) or "key data" (double byte lines of
    from/IBM-9xx.txt): a callback with the table's data in state.data. *)
From Verif Require Import Base Types M_Engine M_Raw.

Notation bphase := (ephase bool).
Definition cur_status (th : bphase) : option bool := option_map (e_priv bool) (this_codec bool th).
Definition put_status (th : bphase) (b : bool) : bphase :=
  match this_codec bool th with
  | Some c => set_codecs bool th (list_upd (p_codecs bool th) (p_index bool th) (set_priv bool c b))
  | None => th
  end.
Definition put_stat (th : bphase) (s : status) : bphase := set_state bool th (with_status (p_state bool th) s).

(** cbconv of modules/to/EBCDIC.c:49-103.  state.data must be there (line 56 reads it). *)
Definition eb_to_conv (pv th : bphase) : option (bphase * bphase * nat) :=
  match t_data (p_state bool th), cur_status th with
  | d :: _, Some st =>
      let data := t_data (p_state bool th) in
      (* lines 58-80 *)
      let th1 :=
        if (1 <? length d)%nat && negb st
        then app_tail bool (set_flags bool (put_status th true) (p_fmatch bool th) true (p_floop bool th)) [[0x0E]]%N
        else if (length d =? 1)%nat && st
        then app_tail bool (set_flags bool (put_status th false) (p_fmatch bool th) false (p_floop bool th)) [[0x0F]]%N
        else th in
      match cur_status th1 with
      | Some true =>
          (* lines 83-98 *)
          let th2 := app_tail bool th1 data in
          let th3 := set_headlen bool th2 0 in
          let th4 := set_match_data bool (set_flags bool th3 true true (p_floop bool th3)) [] in
          obind (listfree bool pv (S (p_curr bool th4))) (fun pv' =>
          obind (reset bool (set_curr bool (set_bak bool th4 0) 0)) (fun th5 => Some (pv', put_stat th5 NOOP, 1%nat)))
      | Some false => Some (pv, put_stat (app_tail bool th1 data) NEXTPHASE, 0%nat)         (* lines 100-102 *)
      | None => None
      end
  | _, _ => None
  end.
(** cbflush, lines 22-40; F_PENDING is already clear when the engine calls it and state.status is overwritten by RESET. *)
Definition eb_to_flush (st : bool) : bool * list datum := if st then (false, [[0x0F]]%N) else (st, []).
Definition eb_init (st : bool) : bool := false.
(** [st]: uninitialised memory. *)
Definition eb_to_codec (tab : table) (st : bool) : ecodec bool := mkEc bool tab None (Some eb_to_flush) (Some eb_init) st.

(** cbconv of modules/from/EBCDIC.c:26-57; it reads state.data (line 33). *)
Definition eb_from_conv (pv th : bphase) : option (bphase * bphase * nat) :=
  match t_data (p_state bool th), cur_status th with
  | d :: _, Some st =>
      match d with
      | [1; 0x0E]%N => Some (pv, put_stat (put_status th true) NEXTPHASE, 0%nat)
      | [1; 0x0F]%N => Some (pv, put_stat (put_status th false) NEXTPHASE, 0%nat)
      | _ => Some (pv, put_stat th (if st then SUBMATCH else MATCH), 0%nat)
      end
  | _, _ => None
  end.
Definition eb_from_codec (tab : table) (st : bool) : ecodec bool := mkEc bool tab None None (Some eb_init) st.

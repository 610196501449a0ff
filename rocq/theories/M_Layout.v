(** Model of how the table compiler writes its states and data (src/bsdconv-mktable.c:434-583) and of how the runtime
    reads them (src/bsdconv.h:218-228, 251-270), byte by byte, on a little-endian machine (elsewhere the fields without
    en_offset, data_st.len and the offset arrays, would be in the machine's order on both sides). *)
From Verif Require Import Base Types M_Engine M_Mktable.

(** ** Bytes *)
Definition le16 (n : N) : list N := [n mod 256; n / 256 mod 256]%N.
Definition le32 (n : N) : list N := [n mod 256; n / 256 mod 256; n / 65536 mod 256; n / 16777216 mod 256]%N.
(** enum bsdconv_status (src/bsdconv.h:46-56) *)
Definition status_code (s : status) : N :=
  match s with CONTINUE => 0 | DEADEND => 1 | MATCH => 2 | SUBMATCH => 3 | SUBROUTINE => 4 | SUBMATCH_SUBROUTINE => 5 | NEXTPHASE => 6 | NOMATCH => 7 | NOOP => 8 end.
(** struct state_st (src/bsdconv.h:84-90): 16 bytes, three of them padding after the status; struct data_st (lines 70-74). *)
Definition enc_state (st : N) (data beg en base : N) : list N := st :: [0; 0; 0]%N ++ le32 data ++ le16 beg ++ le16 en ++ le32 base.
Definition enc_data (data len next : N) : list N := le32 data ++ le32 len ++ le32 next.

(** The output file: the fseek/fwrite (or fputc) operations in order; the content of the file they make. *)
Definition wlog := list (nat * list N).
Definition content (ws : wlog) (x : nat) : N :=
  match find (fun w => (fst w <=? x) && (x <? fst w + length (snd w))) (rev ws) with
  | Some (o, bs) => nth (x - o) bs 0%N
  | None => 0%N
  end.

(** ** Writing *)
(** A node of datalist_hash or data_hash (struct hash) is the string of symbols on the way to the root (lines 84-124:
    the strings are entered from their end, so that the parent of a node is its tail); the root is the empty string.
    v of a node of datalist_hash where a datum starts: the node of data_hash for the bytes up to the next 256 (lines
    99-100, 122). *)
Fixpoint piece (h : list N) : list N :=
  match h with [] => [] | c :: h' => if (c =? 256)%N then [] else c :: piece h' end.
(** struct m_data_st; c_node: the node whose head it is. *)
Record cell := mkCell { c_node : list N; c_off : nat; c_data : list N; c_len : nat; c_next : nat }.
(** The variable offset, the field offset of the nodes of datalist_hash (0: none), the list of cells from data_r on,
    and the file. *)
Record wst := mkWs { w_off : nat; w_noff : list N -> nat; w_cells : list cell; w_out : wlog }.
Definition node_eqb (a b : list N) : bool := if list_eq_dec N.eq_dec a b then true else false.
Definition nset {A} (f : list N -> A) (h : list N) (v : A) : list N -> A := fun x => if node_eqb x h then v else f x.
Definition set_len (n : nat) (c : cell) : cell := mkCell (c_node c) (c_off c) (c_data c) n (c_next c).
Definition set_next (n : nat) (c : cell) : cell := mkCell (c_node c) (c_off c) (c_data c) (c_len c) n.
Fixpoint on_last (f : cell -> cell) (l : list cell) : list cell :=
  match l with [] => [] | [c] => [f c] | c :: r => c :: on_last f r end.
(** data_p->len=l (lines 491, 500) *)
Definition last_len (n : nat) (w : wst) : wst := mkWs (w_off w) (w_noff w) (on_last (set_len n) (w_cells w)) (w_out w).
(** Lines 457-486: the begin of a datum at node [h]; [dq]: the node of the previous cell.  Returns j. *)
Definition begin_cell (h : list N) (dq : option (list N)) (w : wst) : wst * bool :=
  let '(w1, j) :=
    if w_noff w h =? 0
    then (mkWs (w_off w + 12) (nset (w_noff w) h (w_off w)) (w_cells w ++ [mkCell h (w_off w) (piece h) 0 0]) (w_out w), true)
    else (w, false) in
  (match dq with
   | Some q => mkWs (w_off w1) (w_noff w1) (map (fun c => if node_eqb (c_node c) q then set_next (w_noff w1 h) c else c) (w_cells w1)) (w_out w1)
   | None => w1
   end, j).
(** Lines 456-502: the walk from the node of a state's data to the root; [k], [l], [j] as in the source. *)
Fixpoint walk_data (h : list N) (k : bool) (l : nat) (j : bool) (dq : option (list N)) (w : wst) : wst :=
  match h with
  | [] => if j then last_len l w else w
  | c :: h' =>
      let '(w1, j1, dq1) := if k then let '(w', j') := begin_cell h dq w in (w', j || j', Some h) else (w, j, dq) in
      if (c =? 256)%N
      then walk_data h' true 0 false dq1 (if j1 then last_len l w1 else w1)
      else walk_data h' false (S l) j1 dq1 w1
  end.
(** Lines 451-532: one state; [i]: its place in the list (its offset is 16*i, lines 434-440).  A state has an array
    base when it has children. *)
Definition base_bytes (s : mstate) : list N :=
  flat_map (fun i => le32 (N.of_nat (16 * kid_off s (m_beg s + N.of_nat i)%N))) (seq 0 (N.to_nat (m_end s - m_beg s))).
Definition write_state (i : nat) (s : mstate) (w0 : wst) : wst :=
  let w := walk_data (m_data s) true 0 false None w0 in
  let data := match m_data s with [] => 0 | h => w_noff w h end in
  match m_kids s with
  | [] => mkWs (w_off w) (w_noff w) (w_cells w)
            (w_out w ++ [(16 * i, enc_state (status_code (m_status s)) (N.of_nat data) (m_beg s) (m_end s) 0)])
  | _ => let bs := base_bytes s in
         mkWs (w_off w + length bs) (w_noff w) (w_cells w)
           (w_out w ++ [(w_off w, bs); (16 * i, enc_state (status_code (m_status s)) (N.of_nat data) (m_beg s) (m_end s) (N.of_nat (w_off w)))])
  end.
Fixpoint write_states (i : nat) (l : list mstate) (w : wst) : wst :=
  match l with [] => w | s :: r => write_states (S i) r (write_state i s w) end.

(** Lines 541-553: the field head of the nodes of data_hash. *)
Fixpoint set_heads (u : list N) (hd : list N) (f : list N -> option (list N)) : list N -> option (list N) :=
  match u with [] => f | _ :: u' => set_heads u' hd (nset f u (Some hd)) end.
Definition head_cell (f : list N -> option (list N)) (c : cell) : list N -> option (list N) :=
  match f (c_data c) with
  | Some _ => f
  | None => set_heads (tl (c_data c)) (c_data c) (nset f (c_data c) (Some (c_data c)))
  end.
Definition heads (cs : list cell) : list N -> option (list N) := fold_left head_cell cs (fun _ => None).
(** Lines 555-583: the bytes of the data and the cells. *)
Fixpoint set_offs (u : list N) (o : nat) (f : list N -> nat) : list N -> nat :=
  match u with [] => f | _ :: u' => set_offs u' (S o) (nset f u o) end.
Record dst := mkDs { d_off : nat; d_noff : list N -> nat; d_out : wlog }.
Definition write_cell (hd : list N -> option (list N)) (d : dst) (c : cell) : dst :=
  let d1 := if d_noff d (c_data c) =? 0
            then match hd (c_data c) with
                 | Some u => mkDs (d_off d + length u) (set_offs u (d_off d) (d_noff d)) (d_out d ++ [(d_off d, u)])
                 | None => d
                 end
            else d in
  mkDs (d_off d1) (d_noff d1)
    (d_out d1 ++ [(c_off c, enc_data (N.of_nat (d_noff d1 (c_data c))) (N.of_nat (c_len c)) (N.of_nat (c_next c)))]).

(** The whole file and its size ("Total size"). *)
Definition write_all (l : list mstate) : dst :=
  let w := write_states 0 l (mkWs (16 * length l) (fun _ => 0) [] []) in
  fold_left (write_cell (heads (w_cells w))) (w_cells w) (mkDs (w_off w) (fun _ => 0) (w_out w)).
Definition file_bytes (l : list mstate) : nat -> N := content (d_out (write_all l)).
Definition file_size (l : list mstate) : nat := d_off (write_all l).

(** ** Reading: [z] is the mapped file *)
Definition rd16 (z : nat -> N) (p : nat) : N := (z p + 256 * z (p + 1)%nat)%N.
Definition rd32 (z : nat -> N) (p : nat) : N := (z p + 256 * z (p + 1)%nat + 65536 * z (p + 2)%nat + 16777216 * z (p + 3)%nat)%N.
(** struct state_rt and read_state (src/bsdconv.h:92-98, 260-270) *)
Record state_rt := mkRt { r_status : N; r_data : nat; r_beg : N; r_end : N; r_base : nat }.
Definition rt_read_state (z : nat -> N) (p : nat) : state_rt :=
  mkRt (z p) (N.to_nat (rd32 z (p + 4))) (rd16 z (p + 8)) (rd16 z (p + 10)) (N.to_nat (rd32 z (p + 12))).
(** get_offset (src/bsdconv.h:251-258) *)
Definition rt_get_offset (z : nat -> N) (s : state_rt) (v : N) : nat :=
  if ((r_beg s <=? v) && (v <? r_end s))%N then N.to_nat (rd32 z (r_base s + N.to_nat (v - r_beg s) * 4)) else 0.
(** The loop around LISTCPY_ST (src/bsdconv.h:218-228): the list of data starting at a pointer. *)
Inductive listcpy_st (z : nat -> N) : nat -> list datum -> Prop :=
| ls_end : listcpy_st z 0 []
| ls_next p ds : p <> 0 -> listcpy_st z (N.to_nat (rd32 z (p + 8))) ds ->
    listcpy_st z p (map (fun i => z (N.to_nat (rd32 z p) + i)) (seq 0 (N.to_nat (rd32 z (p + 4)))) :: ds).

(** The table compiler, from source text to the file: the bytes and their number.  (The size of the mapped file; reads
    beyond it fault.) *)
Definition table_file (src : list N) : option ((nat -> N) * nat) :=
  option_map (fun ls => (file_bytes (build ls), file_size (build ls))) (parse_source src).
(** Following symbols from the state at [p]: what the phase loop of bsdconv() does with a codec (src/libbsdconv.c:
    read_state and get_offset; 0 is no successor). *)
Fixpoint file_walk (z : nat -> N) (p : nat) (w : list N) : option nat :=
  match w with
  | [] => Some p
  | v :: w' => match rt_get_offset z (rt_read_state z p) v with O => None | q => file_walk z q w' end
  end.

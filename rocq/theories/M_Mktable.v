(** Model of the table compiler, from source text to state graph (src/bsdconv-mktable.c:24-428).
    The layout of the output file (lines 434-583) is in M_Layout.

    Representation.
    - A file is its list of bytes; a line is what one fgets call returns.
    - [None] as the result of a parser stands for reading beyond the string (undefined behaviour).
    - struct m_state_st lives in the list [k_states] in allocation order (the list linked by n, starting
      at state_r), a pointer is its index, 0 the root.  base is the association list [m_kids]: base==NULL
      iff it is empty (base is calloc'ed only where a slot of it is filled).
    - level of a new state is uninitialised in C and 0 here; it is read (line 391) only in states with
      status MATCH, SUBMATCH, SUBROUTINE or SUBMATCH_SUBROUTINE, where it has been set.
    - The result of hash() (lines 85-125) identifies the symbol sequence dat[0..l-1]; the state's data
      field is that sequence ([]: NULL).
    - ci_table[256] (read on line 285/362 for '!' lines with c=256, one past the array) is taken as 0. *)
From Verif Require Import Base Types M_Engine.

(** fgets(inbuf, n+1, fp): at most n bytes, up to and including a newline (line 239, n=1023). *)
Fixpoint fgets_go (n room : nat) (acc : list N) (s : list N) : list (list N) :=
  match s with
  | [] => match acc with [] => [] | _ => [rev acc] end
  | c :: s' =>
      match room with
      | O => rev acc :: (if (c =? 10)%N then [c] :: fgets_go n n [] s' else fgets_go n (n - 1) [c] s')
      | S r => if (c =? 10)%N then rev (c :: acc) :: fgets_go n n [] s' else fgets_go n r (c :: acc) s'
      end
  end.
Definition fgets_lines (n : nat) (s : list N) : list (list N) := fgets_go n n [] s.

(** table[] (lines 171-178): hexadecimal digits, 0 for every other character *)
Definition hexd (c : N) : N :=
  if ((48 <=? c) && (c <=? 57))%N then (c - 48)%N
  else if ((97 <=? c) && (c <=? 102))%N then (c - 87)%N
  else if ((65 <=? c) && (c <=? 70))%N then (c - 55)%N
  else 0%N.

(** ci_table[] (lines 180-184): 'A'..'[' map to 'a'..'{'; ci_table['a'] ends as 'A'+26; the rest is 0 *)
Definition ci_table (c : N) : N :=
  if ((65 <=? c) && (c <=? 91))%N then (c + 32)%N
  else if (c =? 97)%N then 91%N
  else 0%N.

(** strsep(&tmp, delims): the bytes before the first delimiter, and the rest unless there is none. A NUL
    byte ends the string. *)
Fixpoint cstr (s : list N) : list N :=
  match s with [] => [] | c :: s' => if (c =? 0)%N then [] else c :: cstr s' end.
Fixpoint strsep (d : N -> bool) (s : list N) : list N * option (list N) :=
  match s with
  | [] => ([], None)
  | c :: s' => if d c then ([], Some s') else let '(a, r) := strsep d s' in (c :: a, r)
  end.
Definition is_blank (c : N) : bool := ((c =? 9) || (c =? 32))%N.
Definition is_delim (c : N) : bool := ((c =? 9) || (c =? 13) || (c =? 10) || (c =? 35) || (c =? 32))%N.

(** while(strchr("\t ",*tmp)) ++tmp;  (lines 243-245): strchr finds the terminating NUL too, so running
    out of characters is a read beyond the line. *)
Fixpoint skip_blank (s : list N) : option (list N) :=
  match s with
  | [] => None
  | c :: s' => if is_blank c then skip_blank s' else Some s
  end.

(** Lines 240-250: [Some None] for a comment; otherwise the two fields. *)
Definition split_line (line : list N) : option (option (list N * list N)) :=
  let s := cstr line in
  match s with
  | 35%N :: _ => Some None
  | _ =>
      let '(f, r) := strsep is_blank s in
      match r with
      | None => None                                    (* tmp==NULL, dereferenced on line 243 *)
      | Some r => match skip_blank r with
                  | None => None
                  | Some r' => Some (Some (f, fst (strsep is_delim r')))
                  end
      end
  end.

(** The symbols of a pattern: bounds cl, cu (lines 266-278). *)
Fixpoint parse_pattern (f : list N) : option (list (N * N)) :=
  match f with
  | [] => Some []
  | c :: f' =>
      if (c =? 42)%N then option_map (cons (0%N, 256%N)) (parse_pattern f')
      else if (c =? 44)%N then option_map (cons (256%N, 256%N)) (parse_pattern f')
      else match f' with
           | [] => None
           | c' :: f'' => let v := (hexd c * 16 + hexd c')%N in option_map (cons (v, v)) (parse_pattern f'')
           end
  end.

(** The output symbols dat[0..l-1] (lines 331-354); [c], [j] as in the code. *)
Fixpoint parse_out (t : list N) (c : N) (j : bool) : list N :=
  match t with
  | [] => []
  | x :: t' =>
      if (x =? 44)%N then 256%N :: parse_out t' c j
      else if j then let v := (c * 16 + hexd x)%N in v :: parse_out t' v false
      else parse_out t' (hexd x) true
  end.

Record sline := mkLine { sl_ci : bool; sl_pat : list (N * N); sl_cb : bool; sl_out : list N }.

(** One line of source (lines 240-250, 260-278, 331-354). *)
Definition parse_line (line : list N) : option (option sline) :=
  match split_line line with
  | None => None
  | Some None => Some None
  | Some (Some (f, t)) =>
      let '(ci, f1) := match f with 33%N :: f' => (true, f') | _ => (false, f) end in
      let '(cb, t1) := match t with 63%N :: t' => (true, t') | _ => (false, t) end in
      match parse_pattern f1 with
      | None => None
      | Some p => Some (Some (mkLine ci p cb (parse_out t1 0 false)))
      end
  end.

(** ** The state graph *)
Record mstate := mkM {
  m_status : status;
  m_data : list N;
  m_beg : N;
  m_end : N;
  m_kids : list (N * nat);
  m_level : nat
}.
(** state_new (lines 49-58) *)
Definition state_new (x : status) : mstate := mkM x [] 65535%N 0%N [] 0.

Fixpoint assocN (l : list (N * nat)) (c : N) : option nat :=
  match l with [] => None | (k, v) :: l' => if (k =? c)%N then Some v else assocN l' c end.
(** state->base[c] *)
Definition kid (s : mstate) (c : N) : option nat := assocN (m_kids s) c.

Definition ms_status (s : mstate) x := mkM x (m_data s) (m_beg s) (m_end s) (m_kids s) (m_level s).
Definition ms_data (s : mstate) d l := mkM (m_status s) d (m_beg s) (m_end s) (m_kids s) l.
(** state->base[c]=k *)
Definition ms_kid (s : mstate) (c : N) (k : nat) := mkM (m_status s) (m_data s) (m_beg s) (m_end s) ((c, k) :: m_kids s) (m_level s).
(** lines 310-313, 367-370 *)
Definition ms_widen (s : mstate) (c : N) :=
  mkM (m_status s) (m_data s) (if (c <? m_beg s)%N then c else m_beg s)
      (if (m_end s <=? c)%N then (c + 1)%N else m_end s) (m_kids s) (m_level s).

Definition get (l : list mstate) (k : nat) : mstate := nth k l (state_new DEADEND).
Fixpoint upd (l : list mstate) (k : nat) (f : mstate -> mstate) : list mstate :=
  match l, k with
  | [], _ => []
  | x :: l', O => f x :: l'
  | x :: l', S k' => x :: upd l' k' f
  end.

(** The compiler's data: states and callback_hash (a map from dat to a shared state, lines 126-151). *)
Record mk := mkMk { k_states : list mstate; k_cbs : list (list N * nat) }.
Fixpoint cb_find (l : list (list N * nat)) (d : list N) : option nat :=
  match l with [] => None | (k, v) :: l' => if list_eq_dec N.eq_dec k d then Some v else cb_find l' d end.

(** struct states (lines 60-66) *)
Record titem := mkT { ti_state : nat; ti_lo : N; ti_hi : N; ti_level : nat }.

(** Lines 283-289, 360-366: does c belong to the item, and at what level? *)
Definition sel (ci : bool) (lo hi c : N) : option nat :=
  if ((lo <=? c) && (c <=? hi))%N then Some 1
  else if ci && negb (ci_table c =? 0)%N && ((lo <=? ci_table c) && (ci_table c <=? hi))%N then Some 0
  else None.

Definition syms : list N := map N.of_nat (seq 0 257).

(** Body of the loop on lines 282-321 for one c. *)
Definition interior (ci : bool) (lo' hi' : N) (it : titem) (x : list mstate * list titem) (c : N) : list mstate * list titem :=
  let '(l, todo) := x in
  match sel ci (ti_lo it) (ti_hi it) c with
  | None => x
  | Some lv =>
      let s := ti_state it in
      let '(l1, k) :=
        match kid (get l s) c with
        | Some k =>
            match m_status (get l k) with
            | SUBROUTINE =>
                let nw := ms_data (state_new SUBMATCH_SUBROUTINE) (m_data (get l k)) (m_level (get l k)) in
                (upd (l ++ [nw]) s (fun st => ms_kid st c (length l)), length l)
            | MATCH => (upd l k (fun st => ms_status st SUBMATCH), k)
            | _ => (l, k)
            end
        | None => (upd (l ++ [state_new CONTINUE]) s (fun st => ms_kid st c (length l)), length l)
        end in
      (upd l1 s (fun st => ms_widen st c), todo ++ [mkT k lo' hi' (ti_level it + lv)])
  end.
Definition interior_item ci lo' hi' x it := fold_left (interior ci lo' hi' it) syms x.

(** Lines 266-329.  The todo list starts with the holder, whose only child is the root under 0 (lines
    234-237, 252-257): the first round yields the root with level 1. *)
Fixpoint rounds (ci : bool) (todo : list titem) (l : list mstate) (pat : list (N * N)) : list mstate * list titem :=
  match pat with
  | [] => (l, todo)
  | (lo, hi) :: pat' =>
      let '(l', todo') := fold_left (interior_item ci lo hi) todo (l, []) in
      rounds ci todo' l' pat'
  end.

(** Body of the loop on lines 359-424 for one c. *)
Definition leaf (ci cb : bool) (dat : list N) (it : titem) (x : mk) (c : N) : mk :=
  match sel ci (ti_lo it) (ti_hi it) c with
  | None => x
  | Some lv =>
      let s := ti_state it in
      let l := upd (k_states x) s (fun st => ms_widen st c) in
      let level := lv + ti_level it in
      let fin (l' : list mstate) (cbs : list (list N * nat)) (k : nat) := mkMk (upd l' k (fun st => ms_data st dat level)) cbs in
      match kid (get l s) c with
      | Some k =>
          let st := get l k in
          let taken := match m_status st with
                       | MATCH | SUBMATCH => true
                       | SUBROUTINE | SUBMATCH_SUBROUTINE => cb
                       | _ => false
                       end in
          if taken && (level <=? m_level st) then mkMk l (k_cbs x)
          else match m_status st with
               | CONTINUE => fin (upd l k (fun st => ms_status st (if cb then SUBMATCH_SUBROUTINE else SUBMATCH))) (k_cbs x) k
               | SUBROUTINE =>
                   if cb then fin l (k_cbs x) k
                   else fin (upd (l ++ [state_new MATCH]) s (fun st => ms_kid st c (length l))) (k_cbs x) (length l)
               | _ => if cb then fin l (k_cbs x) k else fin (upd l k (fun st => ms_status st MATCH)) (k_cbs x) k
               end
      | None =>
          if cb then
            match cb_find (k_cbs x) dat with
            | Some k => fin (upd l s (fun st => ms_kid st c k)) (k_cbs x) k
            | None => fin (upd (l ++ [state_new SUBROUTINE]) s (fun st => ms_kid st c (length l))) ((dat, length l) :: k_cbs x) (length l)
            end
          else fin (upd (l ++ [state_new MATCH]) s (fun st => ms_kid st c (length l))) (k_cbs x) (length l)
      end
  end.
Definition leaf_item ci cb dat x it := fold_left (leaf ci cb dat it) syms x.

(** One line (lines 252-428).  An empty pattern reaches the leaf loop with the holder itself, so that the
    entry is stored in the root (base[0] of the holder, level 1). *)
Definition add_line (x : mk) (ln : sline) : mk :=
  match sl_pat ln with
  | [] =>
      let st := get (k_states x) 0 in
      let taken := match m_status st with MATCH | SUBMATCH => true | _ => false end in
      if taken && (1 <=? m_level st) then x
      else mkMk (upd (k_states x) 0 (fun st => ms_data (if sl_cb ln then st else ms_status st MATCH) (sl_out ln) 1)) (k_cbs x)
  | (lo, hi) :: pat =>
      let '(l, todo) := rounds (sl_ci ln) [mkT 0 lo hi 1] (k_states x) pat in
      fold_left (leaf_item (sl_ci ln) (sl_cb ln) (sl_out ln)) todo (mkMk l (k_cbs x))
  end.

Definition mk0 : mk := mkMk [state_new DEADEND] [].
Definition build (lines : list sline) : list mstate := k_states (fold_left add_line lines mk0).

(** Reading the whole file: [None] if some line makes the compiler read outside its buffer. *)
Fixpoint parse_lines (ls : list (list N)) : option (list sline) :=
  match ls with
  | [] => Some []
  | x :: r => match parse_line x, parse_lines r with
              | Some (Some l), Some l' => Some (l :: l')
              | Some None, Some l' => Some l'
              | _, _ => None
              end
  end.
Definition parse_source (src : list N) : option (list sline) := parse_lines (fgets_lines 1023 src).

(** ** What the runtime sees of the state graph: the engine's view of a compiled table.
    M_Layout/P_Layout show that reading the written file gives this. *)

(** The data list denoted by dat: the pieces between the 256 symbols; a piece missing after a final 256 is
    not written (the walk on lines 456-500 ends at the root of the list trie). *)
Fixpoint cells (d : list N) : list datum :=
  match d with
  | [] => []
  | c :: d' => if (c =? 256)%N then [] :: cells d'
               else match d' with
                    | [] => [[c]]
                    | c' :: _ => if (c' =? 256)%N then (match d' with _ :: d'' => [c] :: cells d'' | [] => [[c]] end)
                                 else match cells d' with [] => [[c]] | x :: r => (c :: x) :: r end
                    end
  end.

Definition kid_off (s : mstate) (c : N) : nat := match kid s c with Some k => k | None => 0 end.
Definition to_tstate (s : mstate) : tstate :=
  mkTs (m_status s) (cells (m_data s)) (m_beg s) (m_end s)
    (map (fun i => kid_off s (m_beg s + N.of_nat i)%N) (seq 0 (N.to_nat (m_end s - m_beg s)))).
Definition to_table (l : list mstate) : table := map to_tstate l.

(** The whole compiler. *)
Definition mktable (src : list N) : option table := option_map (fun ls => to_table (build ls)) (parse_source src).

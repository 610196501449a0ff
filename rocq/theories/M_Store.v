(** Model of the per-instance counters and hash (src/libbsdconv_counter.c, src/libbsdconv_hash.c). *)
From Verif Require Import Base Types.

(** * Counters *)

(** The list ins->counter (struct bsdconv_counter_entry, src/bsdconv.h:108-112).  Nodes are only
    appended and never freed before bsdconv_destroy, so a node (and the returned pointer to its
    [val]) is identified by its position. [size_t] wrap-around of a value is not modelled. *)
Definition cstore := list (str * N).

(** The do/while search and the append of bsdconv_counter for the already upper-cased key
    (src/libbsdconv_counter.c:2-27); [i] is the position of the head of the remaining list. *)
Fixpoint counter_find (key : str) (i : nat) (p : cstore) : nat * cstore :=
  match p with
  | [] => (i, [(key, 0%N)])
  | (k, v) :: p' =>
      if str_eqb k key then (i, p)
      else let '(h, q) := counter_find key (S i) p' in (h, (k, v) :: q)
  end.

(** bsdconv_counter (src/libbsdconv_counter.c:1-28) *)
Definition bsdconv_counter (st : cstore) (key : str) : nat * cstore :=
  counter_find (strtoupper key) 0 st.

(** Storing through a returned pointer. [None]: the pointer is not a node of the list. *)
Fixpoint counter_write (st : cstore) (h : nat) (f : N -> N) : option cstore :=
  match st, h with
  | [], _ => None
  | (k, v) :: st', O => Some ((k, f v) :: st')
  | e :: st', S h' => option_map (cons e) (counter_write st' h' f)
  end.

(** bsdconv_counter_reset (src/libbsdconv_counter.c:30-42) *)
Definition bsdconv_counter_reset (st : cstore) (key : option str) : option cstore :=
  match key with
  | None => Some (map (fun e => (fst e, 0%N)) st)
  | Some k => let '(h, st') := bsdconv_counter st k in counter_write st' h (fun _ => 0%N)
  end.

(** What a program can do with counters: look one up by name, add through the pointer returned by
    its [j]-th look-up, reset. *)
Inductive cop := CLookup (k : str) | CAdd (j : nat) (n : N) | CReset (k : option str).

(** One operation; [hs] are the pointers returned so far. *)
Definition cstep (s : cstore * list nat) (o : cop) : option (cstore * list nat) :=
  let '(st, hs) := s in
  match o with
  | CLookup k => let '(h, st') := bsdconv_counter st k in Some (st', hs ++ [h])
  | CAdd j n => match nth_error hs j with
                | None => None
                | Some h => match counter_write st h (fun v => (v + n)%N) with
                            | None => None
                            | Some st' => Some (st', hs)
                            end
                end
  | CReset k => match bsdconv_counter_reset st k with
                | None => None
                | Some st' => Some (st', hs)
                end
  end.

Fixpoint crun (s : cstore * list nat) (os : list cop) : option (cstore * list nat) :=
  match os with
  | [] => Some s
  | o :: os' => match cstep s o with None => None | Some s' => crun s' os' end
  end.

(** Reading a counter by name: *bsdconv_counter(ins, k) *)
Definition counter_read (st : cstore) (k : str) : option N :=
  let '(h, st') := bsdconv_counter st k in option_map snd (nth_error st' h).

(** * Hash *)

(** The list ins->hash (src/bsdconv.h:101-105); [None] is a node that has been freed but is still
    linked.  Values ([void *]) are an arbitrary type; NULL is [None] at the API. *)
Section Hash.
Variable V : Type.
Definition hstore := list (option (str * V)).

(** The search loop: position of the first node with that key; touching a freed node is UB. *)
Fixpoint hfind (p : hstore) (key : str) : outcome (option nat) :=
  match p with
  | [] => Val None
  | None :: _ => UB
  | Some (k, _) :: p' =>
      if str_eqb k key then Val (Some 0)
      else match hfind p' key with
           | UB => UB
           | Val None => Val None
           | Val (Some i) => Val (Some (S i))
           end
  end.

Fixpoint hput (p : hstore) (i : nat) (e : option (str * V)) : hstore :=
  match p, i with
  | [], _ => []
  | _ :: p', O => e :: p'
  | x :: p', S i' => x :: hput p' i' e
  end.

(** p->key=hash->key; p->ptr=hash->ptr; hash->key=tk; hash->ptr=tp  with p the i-th node
    (src/libbsdconv_hash.c:9-12, 31-36, 51-55). *)
Definition hswap (p : hstore) (i : nat) (tk : str) (tp : V) : hstore :=
  match nth_error p 0 with
  | Some h => hput (hput p i h) 0 (Some (tk, tp))
  | None => p
  end.

(** bsdconv_hash_set (src/libbsdconv_hash.c:1-23).  The key of the found node is compared equal to
    [key], so tk is [key]. *)
Definition bsdconv_hash_set (p : hstore) (key : str) (ptr : V) : outcome hstore :=
  match hfind p key with
  | UB => UB
  | Val (Some i) => Val (hswap p i key ptr)
  | Val None => Val (Some (key, ptr) :: p)
  end.

(** bsdconv_hash_get (src/libbsdconv_hash.c:25-42): after the swap it returns p->ptr, p being the
    node where the key was found. *)
Definition bsdconv_hash_get (p : hstore) (key : str) : outcome (option V * hstore) :=
  match hfind p key with
  | UB => UB
  | Val None => Val (None, p)
  | Val (Some i) =>
      match nth_error p i with
      | Some (Some (_, tp)) =>
          let p' := hswap p i key tp in
          match nth_error p' i with
          | Some (Some (_, r)) => Val (Some r, p')
          | _ => UB
          end
      | _ => UB
      end
  end.

(** bsdconv_hash_has (src/libbsdconv_hash.c:44-61) *)
Definition bsdconv_hash_has (p : hstore) (key : str) : outcome (bool * hstore) :=
  match hfind p key with
  | UB => UB
  | Val None => Val (false, p)
  | Val (Some i) =>
      match nth_error p i with
      | Some (Some (_, tp)) => Val (true, hswap p i key tp)
      | _ => UB
      end
  end.

(** bsdconv_hash_del (src/libbsdconv_hash.c:63-77).  In the loop q is set to &p->next *after* p has
    advanced, so for a node other than the first, "*q=p->next" is a no-op and the freed node stays
    linked. *)
Definition bsdconv_hash_del (p : hstore) (key : str) : outcome hstore :=
  match hfind p key with
  | UB => UB
  | Val None => Val p
  | Val (Some O) => Val (tl p)
  | Val (Some (S i)) => Val (hput p (S i) None)
  end.

(** Operations of a client: [HHasGet]/[HHasDel] are the idiom "if(bsdconv_hash_has(ins,k))
    bsdconv_hash_get/del(ins,k)" used by the modules
    (modules/inter/WHITESPACE-DERAIL.c:35-43, modules/inter/WHITESPACE-RERAIL.c:35-43). *)
Inductive hop :=
| HSet (k : str) (v : V) | HHas (k : str) | HGet (k : str) | HDel (k : str)
| HHasGet (k : str) | HHasDel (k : str).

Inductive hres := RUnit | RBool (b : bool) | RPtr (r : option V).

Definition hstep (p : hstore) (o : hop) : outcome (hres * hstore) :=
  match o with
  | HSet k v => match bsdconv_hash_set p k v with UB => UB | Val p' => Val (RUnit, p') end
  | HHas k => match bsdconv_hash_has p k with UB => UB | Val (b, p') => Val (RBool b, p') end
  | HGet k => match bsdconv_hash_get p k with UB => UB | Val (r, p') => Val (RPtr r, p') end
  | HDel k => match bsdconv_hash_del p k with UB => UB | Val p' => Val (RUnit, p') end
  | HHasGet k =>
      match bsdconv_hash_has p k with
      | UB => UB
      | Val (false, p') => Val (RPtr None, p')
      | Val (true, p') =>
          match bsdconv_hash_get p' k with UB => UB | Val (r, p'') => Val (RPtr r, p'') end
      end
  | HHasDel k =>
      match bsdconv_hash_has p k with
      | UB => UB
      | Val (false, p') => Val (RUnit, p')
      | Val (true, p') =>
          match bsdconv_hash_del p' k with UB => UB | Val p'' => Val (RUnit, p'') end
      end
  end.

Fixpoint hrun (p : hstore) (os : list hop) : outcome (list hres * hstore) :=
  match os with
  | [] => Val ([], p)
  | o :: os' =>
      match hstep p o with
      | UB => UB
      | Val (r, p') =>
          match hrun p' os' with
          | UB => UB
          | Val (rs, p'') => Val (r :: rs, p'')
          end
      end
  end.
End Hash.
Arguments HSet {V}. Arguments HHas {V}. Arguments HGet {V}. Arguments HDel {V}.
Arguments HHasGet {V}. Arguments HHasDel {V}.
Arguments RUnit {V}. Arguments RBool {V}. Arguments RPtr {V}.

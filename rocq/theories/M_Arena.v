(** Model of the arena allocator of the table compiler (src/libfmalloc.c, src/fmalloc.h). *)
From Verif Require Import Base Types.
Local Open Scope N_scope.

(** src/fmalloc.h:20-21 *)
Definition FMALLOC_SIZE : N := 256 * 1024 * 1024.
Definition FMALLOC_NUM : nat := 6.
(** fmalloc_pools (newest first; only the offsets change - pools are told apart by their age) and fmalloc_num.
    Different pools are different mappings, malloc'ed blocks are somewhere else. *)
Record arena := mkArena { a_offsets : list N; a_num : nat }.
Definition arena0 : arena := mkArena [] 0.
(** Where a block is: in the pool number [k] (0: the oldest) at an offset, or on the heap. *)
Inductive place := InPool (k : nat) (off : N) | Heap.
(** src/libfmalloc.c:13-48; [mapped]: mkstemp and mmap succeed; size_t has 64 bits. *)
Definition bump (a : arena) (s : N) : arena * place :=
  match a_offsets a with
  | [] => (a, Heap)   (* not reached: a pool exists here *)
  | o :: r => (mkArena ((o + s) :: r) (a_num a), InPool (length r) o)
  end.
Definition fmalloc (mapped : bool) (a : arena) (s : N) : arena * place :=
  let need := match a_offsets a with [] => true | o :: _ => FMALLOC_SIZE <? (o + s) mod 2 ^ 64 end in
  if need then
    if (a_num a <? FMALLOC_NUM)%nat then
      if mapped then bump (mkArena (0 :: a_offsets a) (S (a_num a))) s
      else (a, Heap)
    else (a, Heap)
  else bump a s.
(** src/libfmalloc.c:50-59: does fmfree hand the pointer to free()? *)
Definition fmfree_frees (a : arena) (p : place) : bool :=
  match p with
  | Heap => true
  | InPool k off => match nth_error (rev (a_offsets a)) k with Some o => negb (off <? o) | None => true end
  end.
(** A run of the compiler: requests with the outcome of mapping a new file; the blocks handed out, latest first. *)
Fixpoint run_arena (reqs : list (bool * N)) : arena * list (place * N) :=
  match reqs with
  | [] => (arena0, [])
  | (m, s) :: r => let '(a, bs) := run_arena r in let '(a', p) := fmalloc m a s in (a', (p, s) :: bs)
  end.

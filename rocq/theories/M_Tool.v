(** Model of the command line tool: the conversion loop and the in-place replacement (src/bsdconv.c). *)
From Verif Require Import Base Types M_Engine M_Output.

(** src/bsdconv.c:13 *)
Definition IBUFLEN : nat := 1024.
(** src/bsdconv.c:44-58, the do/while loop of bsdconv_file(), given the successive results of fread(): the calls of
    bsdconv() it makes (input.data is never NULL, input.next is NULL; ins->flush is 0 after bsdconv_init, line 46, and
    set when fread returns 0).  [None]: the loop is still waiting for fread. *)
Fixpoint file_loop (reads : list datum) : option (list call) :=
  match reads with
  | [] => None
  | ib :: r =>
      if (length ib =? 0)%nat then Some [mkCall (Some (ib, [])) true OFile]
      else match file_loop r with None => None | Some cs => Some (mkCall (Some (ib, [])) false OFile :: cs) end
  end.

Section Files.
Variable P : Type.
(** bsdconv_file() on an instance (lines 44-59; the counters printed to stderr are not modelled), and main's loop
    over its arguments (lines 122-172) writing to stdout: the bytes written.  [None]: undefined behaviour, or out of fuel. *)
Definition bsdconv_file (fuel : nat) (s : inst P) (reads : list datum) : option (inst P * list N) :=
  match bsdconv_init P s, file_loop reads with
  | Some s1, Some cs => run_hist P fuel s1 cs
  | _, _ => None
  end.
Fixpoint convert_files (fuel : nat) (s : inst P) (files : list (list datum)) : option (inst P * list N) :=
  match files with
  | [] => Some (s, [])
  | f :: fs => match bsdconv_file fuel s f with
               | None => None
               | Some (s1, o) => match convert_files fuel s1 fs with
                                 | None => None
                                 | Some (s2, o') => Some (s2, o ++ o')
                                 end
               end
  end.
End Files.

(** ** In-place conversion (src/bsdconv.c:124-160) *)
(** What is on disk: names and contents; and the stdio buffer of the temporary file. *)
Definition name := list N.
Definition disk := name -> option (list N).
Definition name_eqb : name -> name -> bool := fix eqb a b := match a, b with [], [] => true | x :: a', y :: b' => (x =? y)%N && eqb a' b' | _, _ => false end.
Definition set_file (d : disk) (n : name) (c : option (list N)) : disk := fun m => if name_eqb m n then c else d m.
Record world := mkWorld { w_disk : disk; w_buf : list N }.
(** The operations of lines 135-158: mkstemp, fwrite (into the buffer, inside bsdconv()), the C library writing out the
    first [k] bytes of the buffer at a time of its choice, fclose (writes out the rest), unlink, rename.  An operation
    that fails leaves the disk as it is. *)
Inductive op := Mkstemp (t : name) | Fwrite (b : list N) | Spill (t : name) (k : nat) | Fclose (t : name) | Unlink (n : name) | Rename (a b : name).
Definition append (d : disk) (t : name) (b : list N) : disk := match d t with Some c => set_file d t (Some (c ++ b)) | None => d end.
Definition do_op (o : op) (w : world) : world :=
  match o with
  | Mkstemp t => mkWorld (set_file (w_disk w) t (Some [])) []
  | Fwrite b => mkWorld (w_disk w) (w_buf w ++ b)
  | Spill t k => mkWorld (append (w_disk w) t (firstn k (w_buf w))) (skipn k (w_buf w))
  | Fclose t => mkWorld (append (w_disk w) t (w_buf w)) []
  | Unlink n => mkWorld (set_file (w_disk w) n None) (w_buf w)
  | Rename a b => match w_disk w a with Some c => mkWorld (set_file (set_file (w_disk w) a None) b (Some c)) (w_buf w) | None => w end
  end.
(** What main does for one file (lines 124-160; fopen/fstat/fchown/fchmod/fclose of the source do not change names or
    contents and are left out): [writes] are the blocks bsdconv() hands to fwrite, [spills k] the writing out by the C
    library after the k-th of them. *)
Fixpoint write_ops (t : name) (writes : list (list N)) (spills : nat -> list nat) (k : nat) : list op :=
  match writes with
  | [] => []
  | b :: r => Fwrite b :: map (Spill t) (spills k) ++ write_ops t r spills (S k)
  end.
Definition inplace_ops (target tmp : name) (writes : list (list N)) (spills : nat -> list nat) : list op :=
  Mkstemp tmp :: write_ops tmp writes spills 0 ++ [Fclose tmp; Unlink target; Rename tmp target].
Definition run_ops (l : list op) (w : world) : world := fold_left (fun w o => do_op o w) l w.
(** A full disk: from some point on the temporary file accepts nothing; the results of fwrite and fclose are not
    checked (src/libbsdconv.c:1067-1076, src/bsdconv.c:154). *)
Definition do_op_full (o : op) (w : world) : world :=
  match o with
  | Spill t k => mkWorld (w_disk w) (skipn k (w_buf w))
  | Fclose t => mkWorld (w_disk w) []
  | _ => do_op o w
  end.

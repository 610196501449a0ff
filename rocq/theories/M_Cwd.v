(** Model of how the library changes the working directory while it looks up modules: loadcodec (src/libbsdconv.c:132-160),
    bsdconv_module_check and bsdconv_modules_list (src/libbsdconv_module.c:81-138, 148-233).  Only getcwd and chdir are
    modelled; opening and listing files does not move the process. *)
From Verif Require Import Base Types.

(** The paths given to chdir; [Saved]: the string returned by getcwd. *)
Inductive dirname := BasePath | ModulesSub | Sub (t : nat) | Saved.
Inductive cop := Getcwd | Chdir (p : dirname).

(** The type argument: FROM, INTER, TO, FILTER, SCORER are 0..4 here, anything else is invalid. *)
(** src/libbsdconv.c:132-155.  [BasePath]: getenv("BSDCONV_PATH") or the built-in path. *)
Definition loadcodec_ops (t : nat) : list cop :=
  [Getcwd; Chdir BasePath; Chdir ModulesSub] ++ (if (t <=? 2)%nat then [Chdir (Sub t)] else []) ++ [Chdir Saved].
(** src/libbsdconv_module.c:81-138 (an invalid type opens a NULL name; the directory is restored all the same) *)
Definition module_check_ops (t : nat) : list cop :=
  [Getcwd; Chdir BasePath; Chdir ModulesSub] ++ (if (t <=? 4)%nat then [Chdir (Sub t)] else []) ++ [Chdir Saved].
(** src/libbsdconv_module.c:148-233: the default case of the switch returns at once (line 188) *)
Definition modules_list_ops (t : nat) : list cop :=
  [Getcwd; Chdir BasePath; Chdir ModulesSub] ++ (if (t <=? 4)%nat then [Chdir (Sub t); Chdir Saved] else []).

(** The world: directories [D], path names as getcwd returns them [A]; what chdir does from each directory,
    [None]: it fails and the process stays. *)
Record env (D A : Type) := mkEnv {
  e_named : D -> dirname -> option D;   (* chdir to one of the fixed names *)
  e_abs : D -> A -> option D;           (* chdir to a path returned by getcwd *)
  e_getcwd : D -> A
}.
Arguments mkEnv {D A}. Arguments e_named {D A}. Arguments e_abs {D A}. Arguments e_getcwd {D A}.
Section Run.
Context {D A : Type}.
Variable e : env D A.
(** One operation of one thread: the working directory of the process and the thread's variable cwd. *)
Definition cstep (o : cop) (st : D * option A) : D * option A :=
  let '(d, saved) := st in
  match o with
  | Getcwd => (d, Some (e_getcwd e d))
  | Chdir Saved => match saved with
                   | Some a => (match e_abs e d a with Some d' => d' | None => d end, saved)
                   | None => st
                   end
  | Chdir p => (match e_named e d p with Some d' => d' | None => d end, saved)
  end.
Definition crun (l : list cop) (st : D * option A) : D * option A := fold_left (fun st o => cstep o st) l st.
Definition call_cwd (l : list cop) (d : D) : D := fst (crun l (d, None)).
(** A library call that looks up any number of modules, one after the other (bsdconv_create: one module check and/or one
    loadcodec per codec, and those of the embedded conversions that resolve aliases). *)
Inductive lookup := Load (t : nat) | Check (t : nat) | ListOf (t : nat).
Definition lookup_ops (l : lookup) : list cop := match l with Load t => loadcodec_ops t | Check t => module_check_ops t | ListOf t => modules_list_ops t end.
Definition calls_cwd (ls : list lookup) (d : D) : D := fold_left (fun d l => call_cwd (lookup_ops l) d) ls d.
(** Two threads: [true] in the schedule lets the first one make its next step.  The result is the directory. *)
Fixpoint threads (sch : list bool) (l1 l2 : list cop) (d : D) (s1 s2 : option A) : option D :=
  match sch with
  | [] => match l1, l2 with [], [] => Some d | _, _ => None end
  | true :: sch' => match l1 with [] => None | o :: r => let '(d', s') := cstep o (d, s1) in threads sch' r l2 d' s' s2 end
  | false :: sch' => match l2 with [] => None | o :: r => let '(d', s') := cstep o (d, s2) in threads sch' l1 r d' s1 s' end
  end.
End Run.

(** The listing of modules and the check for a module: src/libbsdconv_module.c:81-148, 150-241.

    Simplifications: a directory is the list of the names readdir returns (in any order, "." and ".." included), and a file opens for
    reading exactly if its name is among them (names with '/' are not represented); allocation does not fail; SHLIBEXT is "so"
    (src/bsdconv.h:205).  The working directory is modelled in M_Cwd.v. *)
From Verif Require Import Base Types M_ConvString.

(** strstr(s, p) != NULL *)
Fixpoint is_prefix (p s : str) : bool := match p, s with [] , _ => true | a :: p, b :: s => Ascii.eqb a b && is_prefix p s | _ :: _, [] => false end.
Fixpoint contains (p s : str) : bool := is_prefix p s || match s with [] => false | _ :: r => contains p r end.
Definition dot : ascii := "."%char. Definition tab : ascii := "009"%char. Definition nl : ascii := "010"%char. Definition nul : ascii := "000"%char. Definition hash : ascii := "#"%char.
(** strsep with one delimiter: the part before it; a C string ends at the NUL. *)
Fixpoint upto (c : ascii) (s : str) : str := match s with [] => [] | x :: r => if Ascii.eqb x c || Ascii.eqb x nul then [] else x :: upto c r end.

(** lines 151-152, 168, 195-198: a growing array; [None]: a write outside of it. *)
Inductive cell := Uninit | CStr (s : str) | CNull.
Record table := mkTable { a_cells : list cell; a_len : nat }.
Fixpoint set_nth (l : list cell) (i : nat) (x : cell) : option (list cell) :=
  match l, i with [], _ => None | _ :: r, 0 => Some (x :: r) | y :: r, S i => match set_nth r i x with Some r' => Some (y :: r') | None => None end end.
Definition grow (a : table) : table := if length (a_cells a) <=? a_len a then mkTable (a_cells a ++ repeat Uninit 8) (a_len a) else a.
Definition put (a : table) (s : str) : option table :=
  let a := grow a in
  match set_nth (a_cells a) (a_len a) (CStr s) with Some c => Some (mkTable c (S (a_len a))) | None => None end.
(** lines 151, 168 *)
Definition empty_table : table := mkTable (CNull :: repeat Uninit 7) 0.

(** lines 191-215: one directory entry: the name to list, if any *)
Definition dir_name (t : ptype) (d : str) : option str :=
  match t with
  | FILTER | SCORER => if negb (contains (s_ ".so") d) || str_eqb d (s_ "alias") then None else Some (upto dot d)
  | _ => if contains (s_ ".") d || str_eqb d (s_ "alias") then None else Some d
  end.
(** fgets with a buffer of [n+1] bytes: up to [n] characters, through the newline *)
Fixpoint fgets (n : nat) (s : str) : str * str :=
  match n, s with
  | 0, _ => ([], s)
  | _, [] => ([], [])
  | S n, c :: r => if Ascii.eqb c nl then ([c], r) else let '(a, b) := fgets n r in (c :: a, b)
  end.
Fixpoint fgets_all (fuel : nat) (s : str) : list str :=
  match fuel, s with
  | 0, _ | _, [] => []
  | S fuel, _ => let '(a, b) := fgets 255 s in a :: fgets_all fuel b
  end.
(** lines 221-231: one line of the alias file *)
Definition line_name (buf : str) : option str := match buf with c :: _ => if Ascii.eqb c hash then None else Some (upto tab buf) | [] => Some [] end.
Fixpoint put_all (a : table) (l : list (option str)) : option table :=
  match l with
  | [] => Some a
  | None :: r => put_all a r
  | Some s :: r => match put a s with Some a' => put_all a' r | None => None end
  end.
(** scmp (lines 142-144): strcmp, bytes compared unsigned.  qsort (line 237): elements that compare equal are equal strings, so every
    sorted permutation is the same one. *)
Fixpoint str_leb (a b : str) : bool :=
  match a, b with [], _ => true | _ :: _, [] => false | x :: a, y :: b => if Ascii.eqb x y then str_leb a b else (N_of_ascii x <? N_of_ascii y)%N end.
Definition cell_leb (a b : cell) : bool := match a, b with CStr x, CStr y => str_leb x y | _, _ => true end.
Fixpoint insert (x : cell) (l : list cell) : list cell := match l with [] => [x] | y :: r => if cell_leb x y then x :: l else y :: insert x r end.
Definition qsort (l : list cell) : list cell := fold_right insert [] l.
(** lines 150-241; [dir]: opendir fails if None; [alias]: the content of the file, None if it does not open; [None] as the result: a write
    outside of the array.  An invalid type returns at line 187. *)
Definition modules_list (t : option ptype) (dir : option (list str)) (alias : option str) : option (list cell) :=
  match t with
  | None => Some (a_cells empty_table)
  | Some t =>
      match put_all empty_table (map (dir_name t) match dir with Some d => d | None => [] end) with
      | None => None
      | Some a =>
          match put_all a (map line_name match alias with Some s => fgets_all (length s) s | None => [] end) with
          | None => None
          | Some a => let a := grow a in set_nth (qsort (firstn (a_len a) (a_cells a)) ++ skipn (a_len a) (a_cells a)) (a_len a) CNull
          end
      end
  end.
(** bsdconv_module_check, lines 81-140 *)
Definition module_check (t : ptype) (dir : list str) (codec : str) : bool :=
  let name := match t with FILTER | SCORER => strtoupper codec ++ s_ ".so" | _ => strtoupper codec end in
  existsb (str_eqb name) dir.

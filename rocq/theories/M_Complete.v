(** Model of the program bsdconv-completion (src/bsdconv-completion.c): what it prints for a partial conversion. *)
From Verif Require Import Base Types M_ConvString M_List.

Definition quote (c : ascii) : bool := Ascii.eqb c "'" || Ascii.eqb c """".
(** Lines 28-37: the argument without a quote in front and a quote at its end.  The outer [None]: arg[i] with i = -1 lies before the
    block that strdup allocated; after a quote in front it is that quote, which is overwritten (nothing follows it). *)
Definition unquote (a : str) : option str :=
  match a with
  | [] => None
  | c :: r => let b := if quote c then r else a in
              match rev b with [] => Some b | z :: y => Some (if quote z then rev y else b) end
  end.
(** Lines 39-56: [p] is the text before part, [part] what has been read since. *)
Fixpoint scan_arg (p part : str) (mode : ptype) (s : str) : str * str * ptype :=
  match s with
  | [] => (p, part, mode)
  | c :: r => if Ascii.eqb c ":" then scan_arg (p ++ part ++ [c]) [] TO r
              else if Ascii.eqb c "|" then scan_arg (p ++ part ++ [c]) [] FROM r
              else if Ascii.eqb c "," then scan_arg (p ++ part ++ [c]) [] mode r
              else scan_arg p (part ++ [c]) mode r
  end.
(** item_in_array, lines 5-12 *)
Definition item_in_array (x : str) (l : list str) : bool := existsb (str_eqb x) l.
(** Lines 67-80: the array of [cap] pointers; [None]: a write beyond its end.  strstr(p,part)==p: p begins with part. *)
Fixpoint gather (cap : nat) (part : str) (acc : list str) (l : list str) : option (list str) :=
  match l with
  | [] => Some acc
  | x :: r => let acc' := if is_prefix part x && negb (item_in_array x acc) then acc ++ [x] else acc in
              if length acc' <? cap then gather cap part acc' r else None
  end.
(** Lines 82-91: [None]: the block for the line is too small. *)
Fixpoint lines (arg p : str) (l : list str) : option (list str) :=
  match l with
  | [] => Some []
  | x :: r => if length p + length x + 1 <=? length arg + length x + 1 then option_map (cons (p ++ x)) (lines arg p r) else None
  end.
(** main, lines 14-107: the printed lines; [lists]: what bsdconv_modules_list gives; no argument: the empty string (line 15). *)
Definition completion (lists : ptype -> list str) (argv1 : option str) : option (list str) :=
  match unquote (match argv1 with Some a => a | None => [] end) with
  | None => None
  | Some a =>
      let arg := strtoupper a in
      let '(p, part, mode) := scan_arg [] [] FROM arg in
      let cap := length (lists INTER) + length (lists mode) + 1 in
      match gather cap part [] (lists INTER) with
      | None => None
      | Some acc => match gather cap part acc (lists mode) with None => None | Some l => lines arg p l end
      end
  end.

(** bsdconv_solve_alias (src/libbsdconv_module.c:32-82): the conversion "ASCII:ALIAS-x,COUNT#ERR:ASCII" on the upper-cased name.

    Simplifications: the sources modules/inter/ALIAS-*.txt without their '?' line (LOCALE in ALIAS-FROM.txt:42 and ALIAS-TO.txt:39, UNICODE
    in ALIAS-INTER.txt:9; these call a function that reads the environment); allocation does not fail; a type without aliases (line 52) is
    not represented. *)
From Verif Require Import Base Types M_Engine M_Output M_Create M_Callback M_UTF8 M_UTF16 M_Modules M_Star M_Inter M_Stars M_Hex S_Source.

Definition bytes (s : str) : list N := map byte_of s.
Definition datum_of (c : ascii) : datum := [1%N; byte_of c].
(** A line of modules/inter/ALIAS-*.txt: the characters of the alias and of its target as 01xx, separated by ','. *)
Fixpoint alias_pat (k : str) : list psym :=
  match k with
  | [] => []
  | [c] => [PByte 1; PByte (byte_of c)]
  | c :: r => PByte 1 :: PByte (byte_of c) :: PSep :: alias_pat r
  end.
Definition alias_src (T : list (str * str)) : list sentry := map (fun kv => mkEntry (alias_pat (fst kv)) (map datum_of (snd kv))) T.
(** bsdconv_create (lines 39-52); the counter ERR is the private state of COUNT and starts at 0. *)
Definition solve_inst (T : list (str * str)) : inst priv :=
  new_instance priv [(FROM, [ascii_dec]); (INTER, [tab_codec (compiled (alias_src T)); count_mod None 0]); (TO, [ascii_enc])].
(** bsdconv_counter(ins, "ERR") (line 75): the counter of COUNT, the last codec of phase 2. *)
Definition err_counter (s : inst priv) : option N :=
  match nth_error (i_phases priv s) 2 with
  | Some th => match rev (p_codecs priv th) with
               | cd :: _ => match e_priv priv cd with PNum n => Some n | _ => None end
               | [] => None
               end
  | None => None
  end.
(** The result: NULL, a string (line 74 puts the NUL after its [len] bytes), or no result ([SolveStuck]: undefined behaviour, or not enough
    fuel for the model). *)
Inductive solved := SolveNull | SolveName (b : list N) | SolveStuck.
Definition solve_alias (T : list (str * str)) (fuel : nat) (name : str) : solved :=
  match bsdconv_init priv (solve_inst T) with
  | Some s =>
      match bsdconv_call priv fuel s (Some (bytes (strtoupper name), [])) true (OAuto 1) with
      | CDone _ s' r => match err_counter s' with
                        | Some n => if (0 <? n)%N then SolveNull else SolveName (delivered (OAuto 1) r)
                        | None => SolveStuck
                        end
      | _ => SolveStuck
      end
  | None => SolveStuck
  end.

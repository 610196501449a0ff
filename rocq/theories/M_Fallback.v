(** The fallback codecs modules/from/ANY.c and modules/to/ANY.c (the aliases 3F and SUB, modules/from/alias:39-40, modules/to/alias:31):
    table "*<TAB>?", a callback that puts out fixed data for whatever it sees.  The event counter selected by the argument ERROR
    (lines 21-26, 56-57) is not modelled. *)
From Verif Require Import Base Types M_Engine M_Callback M_Create M_Hex M_Modules S_Source.

(** Letters as strcasecmp compares them ("C" locale). *)
Definition lower (c : ascii) : ascii := let n := nat_of_ascii c in if (65 <=? n) && (n <=? 90) then ascii_of_nat (n + 32) else c.
Fixpoint same_word (a b : str) : bool :=
  match a, b with
  | [], [] => true
  | x :: a', y :: b' => Ascii.eqb (lower x) (lower y) && same_word a' b'
  | _, _ => false
  end.
(** cbcreate, lines 10-39: the arguments in order; each one that is not ERROR or DROP is the hexadecimal form of the data (DROP: none).
    [None]: the module refuses ([Some None]: str2data's undefined behaviour).  Lists are NULL-terminated, [] is NULL. *)
Fixpoint any_args (data : list datum) (args : list str) : option (option (list datum)) :=
  match args with
  | [] => Some (Some data)
  | a :: r =>
      if same_word a (list_ascii_of_string "ERROR") then any_args data r
      else if same_word a (list_ascii_of_string "DROP") then any_args [] r
      else match str2data (Some a) with
           | DOk d => any_args d r
           | DEinval => None
           | DUB => Some None
           end
  end.
(** The data before the arguments are read (line 14). *)
Definition any_default (t : ptype) : list datum := match t with FROM => [[0x01; 0x3F]]%N | _ => [[0x3F]]%N end.
(** cbconv, lines 48-59: LISTCPY of the data, NEXTPHASE. *)
Definition any_cb (data : list datum) : priv -> datum -> nat -> list datum -> cbres priv := datum_cb (fun _ => Some data).
Definition any_codec (data : list datum) : ecodec priv := mkEc priv star_table (Some (any_cb data)) None None PNil.

(** Conversions of compiled sources, each phase ending with ANY or not (create_from_sources of M_Create with the codec added). *)
Definition fb_source := (ptype * list (list sentry) * option (list datum))%type.
Definition fb_codecs (x : fb_source) : list (ecodec priv) :=
  map (fun es => tab_codec (compiled es)) (snd (fst x)) ++ match snd x with Some d => [any_codec d] | None => [] end.
Definition fb_inst (c : list fb_source) : inst priv := new_instance priv (map (fun x => (fst (fst x), fb_codecs x)) c).

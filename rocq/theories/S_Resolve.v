(** Independent specification of what bsdconv_create makes of a conversion text: white space, the modules that cannot
    be missing, and the resolution of names that are not installed modules through the alias tables. *)
From Verif Require Import Base Types M_ConvString.

(** Tab, line feed, form feed, carriage return, space. *)
Definition white (c : ascii) : Prop := In (nat_of_ascii c) [9; 10; 12; 13; 32].
(** [s'] is [s] with some white space added. *)
Inductive spaced : str -> str -> Prop :=
| sp_nil : spaced [] []
| sp_char c s s' : spaced s s' -> spaced (c :: s) (c :: s')
| sp_white c s s' : white c -> spaced s s' -> spaced s (c :: s').

(** Names compare equal up to the case of ASCII letters. *)
Definition same_letter (a b : ascii) : Prop :=
  a = b \/ (97 <= nat_of_ascii a <= 122 /\ nat_of_ascii b = nat_of_ascii a - 32) \/
  (97 <= nat_of_ascii b <= 122 /\ nat_of_ascii a = nat_of_ascii b - 32).
Definition same_name (a b : str) : Prop := Forall2 same_letter a b.

(** Without these modules the library itself cannot work. *)
Definition essential (t : ptype) (name : str) : Prop :=
  match t with
  | FROM | TO => same_name (s_ "ASCII") name
  | INTER => same_name (s_ "ALIAS-FROM") name \/ same_name (s_ "ALIAS-INTER") name \/ same_name (s_ "ALIAS-TO") name \/
             same_name (s_ "COUNT") name
  | _ => False
  end.

Inductive outcome := Phases (ps : list phase) | Syntax_error | Broken_installation | Unknown_name.

(** Every codec of these phases is an installed module. *)
Definition installed (w : world) (ps : list phase) : Prop :=
  forall p c, In p ps -> In c (codecs p) -> w_check w (ptyp p) (desc c) = true.
(** The first codec of [ps] that is not an installed module is [c], in a phase of type [t]; [put] rebuilds the list with
    another codec in its place. *)
Definition first_missing (w : world) (ps : list phase) (t : ptype) (c : codec) (put : codec -> list phase) : Prop :=
  exists before first rest after,
    put = (fun x => before ++ mkPhase t (first ++ x :: rest) :: after) /\ ps = put c /\
    installed w before /\ (forall x, In x first -> w_check w t (desc x) = true) /\ w_check w t (desc c) = false.

(** [resolves w text r]: names that are not modules are replaced by their alias text, keeping the arguments, until all are
    installed or this fails. *)
Inductive resolves (w : world) : str -> outcome -> Prop :=
| rs_syntax s : unpack s = None -> resolves w s Syntax_error
| rs_done s ps : unpack s = Some ps -> installed w ps -> resolves w s (Phases ps)
| rs_essential s ps t c put : unpack s = Some ps -> first_missing w ps t c put -> essential t (desc c) ->
    resolves w s Broken_installation
| rs_unknown s ps t c put : unpack s = Some ps -> first_missing w ps t c put -> ~ essential t (desc c) ->
    w_alias w t (desc c) = None -> resolves w s Unknown_name
| rs_itself s ps t c put : unpack s = Some ps -> first_missing w ps t c put -> ~ essential t (desc c) ->
    w_alias w t (desc c) = Some (desc c) -> resolves w s Unknown_name
| rs_alias s ps t c put a r : unpack s = Some ps -> first_missing w ps t c put -> ~ essential t (desc c) ->
    w_alias w t (desc c) = Some a -> a <> desc c -> resolves w (pack (put (mkCodec a (argv c)))) r -> resolves w s r.
